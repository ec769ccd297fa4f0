(* The theorems about surface-air temperatures over ice: C121 (quality control), C122 (the model and its uncertainties),
   C123 (two hemispheres into one field), C124 (two files as one source of observations). *)
From Coq Require Import String QArith Qabs Lqa Reals Lra.
From Verif Require Import Base Ice_Model Ice_Spec Ice_Proofs.
Open Scope Z_scope.

(* a plain case: a six by six grid of land ice at about -23 C; one row of sea ice; [cold] at one cell *)
Definition sample_axis (a : Q) (n : Z) : list Q := map (fun i => (a + inject_Z i * (1#4))%Q) (zrange 0 n).
Definition sample (first : Q) (ci cj : Z) (cold tmin tmax night : Q) (large : Q) : ice_inputs :=
  {| daynumber := 57000; latitude := sample_axis first 6; longitude := sample_axis 0 6;
     surface_temperature := fun i j => Some (if (i =? ci) && (j =? cj) then cold else 250)%Q;
     surface_temperature_min := fun _ _ => Some tmin; surface_temperature_max := fun _ _ => Some tmax;
     surface_temperature_std := fun _ _ => Some 3%Q;
     surface_temperature_3d := fun b _ _ => if (b =? 0) || (b =? 1) || (b =? 6) || (b =? 7) then Some night else Some 251%Q;
     Nobs3d := fun _ _ _ => Some 2%Q;
     land_mask := fun i _ => if i =? 5 then 0 else 1; sea_ice_fraction := fun _ _ => Some (9#10)%Q;
     uncorrelated_uncertainty := fun _ _ => Some 1%Q; synoptically_correlated_uncertainty := fun _ _ => Some 1%Q;
     large_scale_correlated_uncertainty := fun _ _ => Some large |}.

(* ---- C121: which temperatures pass *)

Theorem C121_accepted : forall x o i j t, in_grid x i j -> (quality_controlled x o i j = Some t <-> accepted x o i j t).
Proof. intros x o i j t _. apply accepted_iff. Qed.
Print Assumptions C121_accepted.
Example C121_accepted_nonvacuous :
  in_grid (sample 60 3 3 250 245 255 249 1) 3 3 /\ accepted (sample 60 3 3 250 245 255 249 1) TAS 3 3 250 /\
  ~ accepted (sample 60 3 3 238 245 255 241 1) TAS 3 3 238.
Proof.
  split; [vm_compute; intuition congruence|]. split.
  - apply accepted_iff. vm_compute. reflexivity.
  - intros H. apply accepted_iff in H. vm_compute in H. discriminate.
Qed.

(* nothing is invented: a temperature that passes is the one that was read *)
Theorem C121_unchanged : forall x o i j t, quality_controlled x o i j = Some t -> temperature x o i j = Some t.
Proof. intros x o i j t H. apply accepted_iff in H. apply H. Qed.
Print Assumptions C121_unchanged.
Example C121_unchanged_nonvacuous : quality_controlled (sample 60 3 3 250 245 255 249 1) TASMIN 2 2 = Some 245%Q.
Proof. reflexivity. Qed.

(* Refuted: "a minimum more than twenty degrees from the mean of the night bins is left out". *)
Theorem C121_night_refuted : exists x i j t l m,
  in_grid x i j /\ quality_controlled x TASMIN i j = Some t /\
  known (fun b => surface_temperature_3d x b i j) night_bins l /\ average l m /\ (100 <= Qabs (t - m))%Q.
Proof.
  exists (sample 60 3 3 250 145 255 249 1), 3, 3, 145%Q, [249; 249; 249; 249]%Q, 249%Q.
  split; [vm_compute; intuition congruence|]. split; [reflexivity|]. split; [|split].
  - repeat (apply known_some; [reflexivity|]). apply known_nil.
  - split; [discriminate|]. reflexivity.
  - vm_compute. discriminate.
Qed.
Print Assumptions C121_night_refuted.
(* the same for the maximum and the day bins holds *)
Theorem C121_day : forall x i j t l m, quality_controlled x TASMAX i j = Some t ->
  known (fun b => surface_temperature_3d x b i j) day_bins l -> average l m -> (Qabs (t - m) <= 20)%Q.
Proof.
  intros x i j t l m H K M. apply accepted_iff in H. destruct H as (T & _ & (_ & _ & _ & N) & _). exact (N t l m T K M).
Qed.
Print Assumptions C121_day.
Example C121_day_nonvacuous : quality_controlled (sample 60 3 3 250 245 255 249 1) TASMAX 3 3 = Some 255%Q /\
  quality_controlled (sample 60 3 3 250 245 272 249 1) TASMAX 3 3 = None.
Proof. split; reflexivity. Qed.

(* Refuted: "a cell colder than every other cell of the grid by more than ten degrees is left out": not along the border. *)
Theorem C121_border_refuted : exists x i j t,
  in_grid x i j /\ quality_controlled x TAS i j = Some t /\
  forall a b, in_grid x a b -> (a, b) <> (i, j) -> exists v, usable x TAS SEA_ICE a b v /\ (12 <= v - t)%Q.
Proof.
  exists (sample 60 1 3 238 245 255 241 1), 1, 3, 238%Q. split; [vm_compute; intuition congruence|]. split; [reflexivity|].
  intros a b [Ha Hb] NE. exists 250%Q. change (zlen (latitude (sample 60 1 3 238 245 255 241 1))) with 6 in Ha. change (zlen (longitude (sample 60 1 3 238 245 255 241 1))) with 6 in Hb.
  assert (R : forall a b, In a (zrange 0 6) -> In b (zrange 0 6) -> (a, b) <> (1, 3) -> remasked (sample 60 1 3 238 245 255 241 1) TAS SEA_ICE a b = Some 250%Q).
  { clear. intros a b Ha Hb NE.
    assert (F : forallb (fun ab => ((fst ab =? 1) && (snd ab =? 3)) || match remasked (sample 60 1 3 238 245 255 241 1) TAS SEA_ICE (fst ab) (snd ab) with Some v => match v with Qmake 250 1 => true | _ => false end | None => false end) (list_prod (zrange 0 6) (zrange 0 6)) = true) by (vm_compute; reflexivity).
    rewrite forallb_forall in F. specialize (F (a, b) (in_prod _ _ _ _ Ha Hb)). cbn [fst snd] in F. apply orb_true_iff in F. destruct F as [F|F].
    - apply andb_true_iff in F. destruct F as [F1 F2]. apply Z.eqb_eq in F1, F2. congruence.
    - destruct (remasked _ _ _ a b) as [v|]; [|discriminate]. f_equal. destruct v as [n d]. 
      repeat match type of F with match ?y with _ => _ end = true => destruct y; try discriminate end. reflexivity. }
  split; [|vm_compute; discriminate]. apply remasked_iff. apply R; [apply zrange_In; lia|apply zrange_In; lia|exact NE].
Qed.
Print Assumptions C121_border_refuted.

(* Refuted: "no temperature above 5 C passes": minima and maxima are judged by the mean. *)
Theorem C121_warm_refuted : exists x i j t, in_grid x i j /\ quality_controlled x TASMAX i j = Some t /\ (27815#100 < t)%Q.
Proof.
  exists (let y := sample 60 3 3 278 270 290 270 1 in
    {| daynumber := daynumber y; latitude := latitude y; longitude := longitude y; surface_temperature := fun _ _ => Some 278%Q;
       surface_temperature_min := surface_temperature_min y; surface_temperature_max := surface_temperature_max y;
       surface_temperature_std := surface_temperature_std y; surface_temperature_3d := fun _ _ _ => Some 278%Q; Nobs3d := Nobs3d y;
       land_mask := land_mask y; sea_ice_fraction := sea_ice_fraction y; uncorrelated_uncertainty := uncorrelated_uncertainty y;
       synoptically_correlated_uncertainty := synoptically_correlated_uncertainty y;
       large_scale_correlated_uncertainty := large_scale_correlated_uncertainty y |}), 3, 3, 290%Q.
  split; [vm_compute; intuition congruence|]. split; reflexivity.
Qed.
Print Assumptions C121_warm_refuted.
Theorem C121_mean_below_five : forall x i j t, quality_controlled x TAS i j = Some t -> (t <= 27815#100)%Q.
Proof. intros x i j t H. apply accepted_iff in H. destruct H as (T & _ & (_ & C & _) & _). exact (C t T). Qed.
Print Assumptions C121_mean_below_five.
Example C121_mean_below_five_nonvacuous : quality_controlled (sample 60 3 3 250 245 255 249 1) TAS 5 2 = Some 250%Q.
Proof. reflexivity. Qed.

Theorem C121_shapes : forall s, check_shapes s = Ok tt ->
  exists n w b c, sh_lat s = [n] /\ sh_lon s = [w] /\ sh_t3d s = [b; n; w] /\ sh_nobs s = [c; n; w] /\
    Forall (fun h => h = [n; w]) [sh_t s; sh_tmin s; sh_tmax s; sh_tstd s; sh_ice s; sh_unc s; sh_syn s; sh_large s].
Proof. exact shapes_checked. Qed.
Print Assumptions C121_shapes.
Definition sample_shapes (land : list Z) : ice_shapes :=
  {| sh_lat := [6]; sh_lon := [7]; sh_t := [6; 7]; sh_tmin := [6; 7]; sh_tmax := [6; 7]; sh_tstd := [6; 7]; sh_t3d := [8; 6; 7];
     sh_nobs := [8; 6; 7]; sh_land := land; sh_ice := [6; 7]; sh_unc := [6; 7]; sh_syn := [6; 7]; sh_large := [6; 7] |}.
Example C121_shapes_nonvacuous : check_shapes (sample_shapes [6; 7]) = Ok tt.
Proof. reflexivity. Qed.
(* Refuted: "the land mask has the shape of the temperatures": its shape is compared with itself. *)
Theorem C121_land_mask_shape_refuted : exists s, check_shapes s = Ok tt /\ sh_land s <> sh_t s.
Proof. exists (sample_shapes [1; 7]). split; [reflexivity|discriminate]. Qed.
Print Assumptions C121_land_mask_shape_refuted.

(* ---- C122: the fields of one hemisphere *)

Theorem C122_fields : forall A (m : components A) x h, in_hemisphere x h ->
  exists d, process_hemisphere A m x = Ok d /\
    (forall name f, In (name, f) d -> exists o q, name = output_name o q) /\
    forall o q, exists f, the_field d (output_name o q) f /\
      forall i j n, in_grid x i j ->
        (f i j = Some n <-> exists p t u s l, kind_at x i j p /\ ready x o i j t u s l /\
                              n = expected A (m h p o) (daynumber x) h p o q t u s l).
Proof.
  intros A m x h H. exists (hemisphere_fields A m x h). split; [apply process_hemisphere_is, H|]. split.
  - intros name f I. apply output_names_in. rewrite <- (hemisphere_fields_names A m x h). apply (in_map fst) in I. exact I.
  - intros o q. exists (field_of A m x h o q). split; [apply hemisphere_the_field|]. intros i j n _. apply field_iff.
Qed.
Print Assumptions C122_fields.
Example C122_fields_nonvacuous :
  in_hemisphere (sample 60 3 3 250 245 255 249 1) Northern /\ ready (sample 60 3 3 250 245 255 249 1) TAS 5 3 250 1 1 1 /\
  kind_at (sample 60 3 3 250 245 255 249 1) 5 3 SEA_ICE /\ kind_at (sample 60 3 3 250 245 255 249 1) 3 3 LAND_ICE.
Proof.
  split; [apply hemisphere_iff; reflexivity|]. split; [|split].
  - split; [apply accepted_iff; vm_compute; reflexivity|]. repeat split; reflexivity.
  - apply part_mask_iff. reflexivity.
  - apply part_mask_iff. reflexivity.
Qed.

(* the only way to fail is to have no latitude at all *)
Theorem C122_always : forall A (m : components A) x, is_ok (process_hemisphere A m x) = true <-> latitude x <> [].
Proof.
  intros A m x. split.
  - destruct (latitude x) eqn:E; [|discriminate]. unfold process_hemisphere, process_observable, hemisphere. rewrite E. discriminate.
  - destruct (latitude x) as [|l0 rest] eqn:E; [congruence|]. intros _.
    assert (H : exists h, in_hemisphere x h).
    { destruct (Qlt_le_dec 0 l0) as [P|P]; [exists Northern|exists Southern]; exists l0, rest; auto. }
    destruct H as (h & H). rewrite (process_hemisphere_is A m x h H). reflexivity.
Qed.
Print Assumptions C122_always.
Example C122_always_nonvacuous : latitude (sample 60 3 3 250 245 255 249 1) <> [].
Proof. discriminate. Qed.

(* the parts do not meet: a cell has at most one kind of ice *)
Theorem C122_one_kind : forall x i j p q, kind_at x i j p -> kind_at x i j q -> p = q.
Proof. exact kind_unique. Qed.
Print Assumptions C122_one_kind.
Example C122_one_kind_nonvacuous : kind_at (sample 60 3 3 250 245 255 249 1) 5 3 SEA_ICE.
Proof. apply part_mask_iff. reflexivity. Qed.

Theorem C122_parameters : forall V names (M : list (list V)) d, load_hemisphere_model_parameters names M = Ok d ->
  In "LandIce"%string names /\ In "SeaIce"%string names /\
  Forall2 (fun name nv => fst nv = name) names d /\
  forall i name, nth_error names i = Some name -> exists a b c, nth_error M i = Some [a; b; c] /\
    nth_error d i = Some (name, [(TAS, a); (TASMIN, b); (TASMAX, c)]).
Proof. exact @load_checked. Qed.
Print Assumptions C122_parameters.
Example C122_parameters_nonvacuous : is_ok (load_hemisphere_model_parameters ["SeaIce"; "LandIce"]%string [[1; 2; 3]; [4; 5; 6]]) = true.
Proof. reflexivity. Qed.

(* over the real numbers *)
Definition reals : arithmetic :=
  {| num := R; of_Q := Q2R; add := Rplus; sub := Rminus; mul := Rmult; quot := Rdiv; root := sqrt; cosine := cos; sine := sin; pi := PI |}.

(* the variances add up, and the totals bound their parts *)
Theorem C122_budget : forall (m : components reals) x h d o (f : quantity -> field (option R)),
  in_hemisphere x h -> process_hemisphere reals m x = Ok d -> (forall q, the_field d (output_name o q) (f q)) ->
  forall i j,
    (forall q, f q i j = None) \/
    exists v : quantity -> R, (forall q, f q i j = Some (v q)) /\
      (v WithoutCloud * v WithoutCloud = v Random * v Random + v Local * v Local + v Systematic * v Systematic)%R /\
      (v Total * v Total = v WithoutCloud * v WithoutCloud + v Cloud * v Cloud)%R /\
      (0 <= v WithoutCloud <= v Total)%R /\
      (Rabs (v Random) <= v Total /\ v Local <= v Total /\ Rabs (v Systematic) <= v Total /\ Rabs (v Cloud) <= v Total)%R.
Proof.
  intros m x h d o f H E T i j. rewrite (process_hemisphere_is reals m x h H) in E. injection E as <-.
  assert (F : forall q, f q = field_of reals m x h o q).
  { intros q. apply (proj2 (hemisphere_the_field reals m x h o q)). apply T. }
  destruct (decide_cell x o i j) as [(p & t & u & s & l & K & RD)|D].
  - right. exists (fun q => expected reals (m h p o) (daynumber x) h p o q t u s l). split.
    { intros q. rewrite F. apply (proj2 (field_iff reals m x h o q i j _)). exists p, t, u, s, l. auto. }
    destruct (m h p o) as (((c0, c1), c2), c3). cbn [expected]. unfold with_cloud, without_cloud.
    set (a := random reals c1 h p o u). set (b := local reals c1 p o s). set (c := systematic reals c1). set (e := cloud reals c1 o l).
    assert (Hb : (0 <= b)%R) by (unfold b, local; apply sqrt_pos). clearbody a b c e.
    cbn [root add mul reals num] in *.
    assert (P : forall z : R, (0 <= z * z)%R) by (intros z; apply Rle_0_sqr).
    pose proof (P a) as Pa. pose proof (P b) as Pb. pose proof (P c) as Pc. pose proof (P e) as Pe.
    assert (S1 : (0 <= a * a + b * b + c * c)%R) by lra. assert (S2 : (0 <= a * a + b * b + c * c + e * e)%R) by lra.
    assert (L : forall z w : R, (z * z <= w)%R -> (Rabs z <= sqrt w)%R).
    { intros z w Hz. rewrite <- sqrt_Rsqr_abs. apply sqrt_le_1_alt. exact Hz. }
    rewrite !sqrt_sqrt by assumption. split; [reflexivity|]. split; [reflexivity|]. split; [split; [apply sqrt_pos|apply sqrt_le_1_alt; lra]|].
    split; [apply L; lra|]. split; [|split; apply L; lra]. apply Rle_trans with (Rabs b); [apply Rle_abs|apply L; lra].
  - left. intros q. rewrite F. destruct (field_of reals m x h o q i j) as [n|] eqn:E; [|reflexivity]. apply (proj1 (field_iff reals m x h o q i j _)) in E.
    destruct E as (p & t & u & s & l & K & RD & _). destruct (D _ _ _ _ _ K RD).
Qed.
Print Assumptions C122_budget.
Example C122_budget_nonvacuous : exists p t u s l, kind_at (sample 60 3 3 250 245 255 249 1) 3 3 p /\ ready (sample 60 3 3 250 245 255 249 1) TAS 3 3 t u s l.
Proof.
  exists LAND_ICE, 250%Q, 1%Q, 1%Q, 1%Q. split; [apply part_mask_iff; reflexivity|]. split; [apply accepted_iff; vm_compute; reflexivity|].
  repeat split; reflexivity.
Qed.

(* Refuted: "an uncertainty is not negative": the cloud component is, where the large scale uncertainty read is below 0.2. *)
Theorem C122_negative_refuted : exists (m : components reals) x h d f v,
  in_hemisphere x h /\ process_hemisphere reals m x = Ok d /\ the_field d (output_name TAS Cloud) f /\ f 3 3 = Some v /\ (v < 0)%R.
Proof.
  set (m := (fun _ _ _ => (0, 1, 0, 0)%R) : components reals).
  set (x := sample 60 3 3 250 245 255 249 (1#10)).
  assert (H : in_hemisphere x Northern) by (apply hemisphere_iff; reflexivity).
  exists m, x, Northern, (hemisphere_fields reals m x Northern), (field_of reals m x Northern TAS Cloud), (1 * Q2R ((1#10) - (2#10) + 0))%R.
  split; [exact H|]. split; [apply process_hemisphere_is, H|]. split; [apply hemisphere_the_field|]. split.
  - apply (proj2 (field_iff reals m x Northern TAS Cloud 3 3 _)). exists LAND_ICE, 250%Q, 1%Q, 1%Q, (1#10)%Q. split; [apply part_mask_iff; reflexivity|]. split; [|reflexivity].
    split; [apply accepted_iff; vm_compute; reflexivity|]. repeat split; reflexivity.
  - rewrite Rmult_1_l. change ((1#10) - (2#10) + 0)%Q with (-10#100)%Q. unfold Q2R. cbn [Qnum Qden]. lra.
Qed.
Print Assumptions C122_negative_refuted.

(* ---- C123: the global fields *)

(* the rows of the two files are rows of one regular axis; nothing is known between them *)
Theorem C123_global : forall A (m : components A) s n a r k ns nn,
  regular (latitude s) a r ns -> regular (latitude n) (a + inject_Z k * r) r nn ->
  2 <= ns -> 2 <= nn -> ns <= k -> (1#1000000 < r)%Q -> (a <= 0)%Q -> (0 < a + inject_Z k * r)%Q ->
  daynumber s = daynumber n -> zlen (longitude s) = zlen (longitude n) ->
  exists d ds dn, process_global A m s n = Ok (daynumber s, k + nn, zlen (longitude s), d) /\
    process_hemisphere A m s = Ok ds /\ process_hemisphere A m n = Ok dn /\
    (forall name f, In (name, f) d -> exists o q, name = output_name o q) /\
    forall o q, exists f fs fn,
      the_field d (output_name o q) f /\ the_field ds (output_name o q) fs /\ the_field dn (output_name o q) fn /\
      forall i j,
        (0 <= i < ns -> f i j = fs i j) /\
        (ns <= i < k -> f i j = None) /\
        (k <= i < k + nn -> f i j = fn (i - k) j).
Proof.
  intros A m s n a r k ns nn RS RN Hs Hn Hk T Ha Hb Hd Hl.
  destruct (global_is A m s n a r k ns nn RS RN Hs Hn Hk T Ha Hb Hd Hl) as (d & E & D & L).
  assert (HS : in_hemisphere s Southern) by (apply (hemisphere_regular _ _ _ _ RS); [lia|exact Ha]).
  assert (HN : in_hemisphere n Northern) by (apply (hemisphere_regular _ _ _ _ RN); [lia|exact Hb]).
  assert (DF : forall x h, NoDup (map fst (hemisphere_fields A m x h))) by (intros; rewrite hemisphere_fields_names; apply output_names_nodup).
  exists d, (hemisphere_fields A m s Southern), (hemisphere_fields A m n Northern).
  split; [exact E|]. split; [apply process_hemisphere_is, HS|]. split; [apply process_hemisphere_is, HN|].
  split.
  - intros name f I. apply (lookup_in _ _ _ D) in I. rewrite L in I. apply output_names_in.
    destruct (lookup (hemisphere_fields A m n Northern) name) as [g|] eqn:G.
    + apply (lookup_in _ _ _ (DF _ _)) in G. apply (in_map fst) in G. rewrite hemisphere_fields_names in G. exact G.
    + destruct (lookup (hemisphere_fields A m s Southern) name) as [g|] eqn:G'; [|discriminate].
      apply (lookup_in _ _ _ (DF _ _)) in G'. apply (in_map fst) in G'. rewrite hemisphere_fields_names in G'. exact G'.
  - intros o q. set (fs := field_of A m s Southern o q). set (fn := field_of A m n Northern o q).
    pose proof (hemisphere_the_field A m s Southern o q) as TS. pose proof (hemisphere_the_field A m n Northern o q) as TN.
    exists (placed A k nn fn (placed A 0 ns fs (masked_all A))), fs, fn. split; [|split; [exact TS|split; [exact TN|]]].
    + apply in_the_field; [exact D|]. apply (lookup_in _ _ _ D). rewrite L.
      rewrite (proj2 (lookup_in _ _ _ (DF _ _)) (proj1 TN)), (proj2 (lookup_in _ _ _ (DF _ _)) (proj1 TS)). reflexivity.
    + intros i j. unfold placed, masked_all. split; [|split]; intros Hi.
      * replace ((k <=? i) && (i <? k + nn)) with false by lia. replace ((0 <=? i) && (i <? 0 + ns)) with true by lia. f_equal. lia.
      * replace ((k <=? i) && (i <? k + nn)) with false by lia. replace ((0 <=? i) && (i <? 0 + ns)) with false by lia. reflexivity.
      * replace ((k <=? i) && (i <? k + nn)) with true by lia. reflexivity.
Qed.
Print Assumptions C123_global.
Example C123_global_nonvacuous :
  regular (latitude (sample (-60) 3 3 250 245 255 249 1)) (-60) (1#4) 6 /\
  regular (latitude (sample 60 3 3 250 245 255 249 1)) (-60 + inject_Z 480 * (1#4)) (1#4) 6.
Proof.
  assert (G : forall a q i, nth_error (sample_axis a 6) (Z.to_nat i) = Some q -> 0 <= i -> (q == a + inject_Z i * (1#4))%Q).
  { intros a q i E Hi. assert (I : i < 6).
    { assert (N : nth_error (sample_axis a 6) (Z.to_nat i) <> None) by congruence. apply nth_error_Some in N.
      change (length (sample_axis a 6)) with 6%nat in N. lia. }
    unfold sample_axis in E. rewrite nth_error_map, zrange_nth in E by lia. cbn [option_map] in E. injection E as <-. reflexivity. }
  split; (split; [reflexivity|]); intros i q E Hi.
  - exact (G (-60)%Q q i E Hi).
  - rewrite (G 60%Q q i E Hi). change (inject_Z 480) with 480%Q. ring.
Qed.

(* what is refused: anything that is not a southern file followed by a northern one, of the same day, with as many
   longitudes, latitudes increasing in even steps of the same size, and the second above the first *)
Theorem C123_checked : forall A (m : components A) s n day total cols d, process_global A m s n = Ok (day, total, cols, d) ->
  in_hemisphere s Southern /\ in_hemisphere n Northern /\ day = daynumber s /\ daynumber s = daynumber n /\
  zlen (longitude s) = zlen (longitude n) /\ cols = zlen (longitude s) /\
  exists s0 s1 sz n0, py_index (latitude s) 0 = Ok s0 /\ py_index (latitude s) 1 = Ok s1 /\ py_index (latitude s) (-1) = Ok sz /\
    py_index (latitude n) 0 = Ok n0 /\ (s0 < s1)%Q /\ (sz < n0)%Q /\
    (forall x i p q, x = s \/ x = n -> nth_error (latitude x) i = Some p -> nth_error (latitude x) (S i) = Some q ->
       (Qabs (q - p - (s1 - s0)) <= 1#1000000)%Q).
Proof.
  intros A m s n day total cols d H. destruct (global_checked _ _ _ _ _ _ _ _ H) as (H1 & H2 & H3 & H4 & H5 & H6 & s0 & s1 & sz & n0 & E0 & E1 & Ez & F0 & L1 & L2 & U1 & U2).
  do 6 (split; [assumption|]). exists s0, s1, sz, n0. do 6 (split; [assumption|]).
  assert (I : forall l i p q, nth_error l i = Some p -> nth_error l (S i) = Some q -> In (q - p)%Q (steps l)).
  { clear. induction l as [|a l IH]; intros [|i] p q P S; try discriminate.
    - destruct l as [|b l]; [discriminate|]. injection P as ->. injection S as ->. left. reflexivity.
    - destruct l as [|b l]; [destruct i; discriminate|]. right. apply (IH i); assumption. }
  intros x i p q [-> | ->] P S; [rewrite Forall_forall in U1; apply U1|rewrite Forall_forall in U2; apply U2]; apply (I _ i); assumption.
Qed.
Print Assumptions C123_checked.
Example C123_checked_nonvacuous :
  is_ok (process_global reals (fun _ _ _ => (0, 1, 0, 0)%R) (sample (-60) 3 3 250 245 255 249 1) (sample 60 3 3 250 245 255 249 1)) = true.
Proof. reflexivity. Qed.

(* ---- C124: two files as one source of observations *)

(* each observation has a location whose coordinates are those of its cell *)
Theorem C124_locations : forall f g a r k nf ng,
  regular (f_latitudes f) a r nf -> regular (f_latitudes g) (a + inject_Z k * r) r ng ->
  2 <= nf -> 2 <= ng -> nf <= k -> (1#1000000 < r)%Q -> f_longitudes g = f_longitudes f -> f_longitudes f <> [] ->
  exists c, combined [f; g] = Ok c /\
    Forall2 (fun loc x => exists q, nth_error (observation_location_lookup c) (Z.to_nat loc) = Some q /\ (fst q == fst x)%Q /\ snd q = snd x)
      (combined_locations c) (file_coordinates f ++ file_coordinates g) /\
    zlen (observation_location_lookup c) = (k + ng) * zlen (f_longitudes f).
Proof. exact combined_is. Qed.
Print Assumptions C124_locations.
Example C124_locations_nonvacuous :
  let f := {| f_latitudes := latitude (sample (-60) 3 3 250 245 255 249 1); f_longitudes := sample_axis 0 2 |} in
  let g := {| f_latitudes := sample_axis (-(117#2)) 3; f_longitudes := sample_axis 0 2 |} in
  exists c, combined [f; g] = Ok c /\ combined_locations c = zrange 0 18.
Proof. eexists. split; [vm_compute; reflexivity|]. vm_compute. reflexivity. Qed.

Theorem C124_checked : forall files c, combined files = Ok c ->
  exists f g f0 f1 fz g0, files = [f; g] /\ zlen (f_longitudes f) = zlen (f_longitudes g) /\
    Forall (fun xy => Qabs (snd xy - fst xy) <= 1#1000000)%Q (List.combine (f_longitudes f) (f_longitudes g)) /\
    py_index (f_latitudes f) 0 = Ok f0 /\ py_index (f_latitudes f) 1 = Ok f1 /\ py_index (f_latitudes f) (-1) = Ok fz /\
    py_index (f_latitudes g) 0 = Ok g0 /\ (f0 < f1)%Q /\ (fz < g0)%Q.
Proof.
  intros files c H. destruct files as [|f [|g [|? ?]]]; try discriminate. cbn [combined] in H.
  destruct (Z.eqb_spec (zlen (f_longitudes f)) (zlen (f_longitudes g))) as [EL|]; [|discriminate]. cbn [negb orb] in H.
  destruct (zlen (f_longitudes f) =? 0); [discriminate|].
  destruct (existsb _ (List.combine (f_longitudes f) (f_longitudes g))) eqn:X; [discriminate|].
  destruct (py_index (f_latitudes f) 1) as [f1|] eqn:E1; [|discriminate]. cbn [bind] in H.
  destruct (py_index (f_latitudes f) 0) as [f0|] eqn:E0; [|discriminate]. cbn [bind] in H.
  destruct (Qltb (f1 - f0) 0) eqn:B1; [discriminate|].
  destruct (py_index (f_latitudes g) 0) as [g0|] eqn:F0; [|discriminate]. cbn [bind] in H.
  destruct (py_index (f_latitudes f) (-1)) as [fz|] eqn:Ez; [|discriminate]. cbn [bind] in H.
  destruct (Qle_bool g0 fz) eqn:B2; [discriminate|].
  destruct (uneven (f_latitudes f) (f1 - f0)) as [[|]|]; try discriminate. cbn [bind] in H.
  destruct (uneven (f_latitudes g) (f1 - f0)) as [[|]|]; try discriminate. cbn [bind] in H.
  destruct (py_index (f_latitudes g) (-1)) as [gz|]; [|discriminate]. cbn [bind] in H.
  destruct (Qeq_bool (f1 - f0) 0) eqn:B3; [discriminate|].
  exists f, g, f0, f1, fz, g0. split; [reflexivity|]. split; [exact EL|]. split.
  { apply Forall_forall. intros xy I. destruct (Qltb tolerance (Qabs (snd xy - fst xy))) eqn:Q; [|apply Qltb_false, Q].
    rewrite (proj2 (existsb_exists _ _)) in X; [discriminate|]. exists xy. auto. }
  do 4 (split; [reflexivity || assumption|]). apply Qltb_false in B1.
  assert (N : ~ (f1 - f0 == 0)%Q) by (intros E; apply Qeq_bool_iff in E; congruence). split.
  - destruct (Qlt_le_dec f0 f1) as [P|P]; [exact P|]. exfalso. apply N. Lqa.lra.
  - apply Qnot_le_lt. intros P. apply Qle_bool_iff in P. congruence.
Qed.
Print Assumptions C124_checked.
Example C124_checked_nonvacuous :
  is_ok (combined [{| f_latitudes := [-2; -1]; f_longitudes := [0; 1] |}; {| f_latitudes := [1; 2]; f_longitudes := [0; 1] |}])%Q = true.
Proof. reflexivity. Qed.
