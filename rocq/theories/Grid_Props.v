(* C22-C26, C68: binning satellite observations onto a grid. *)
From Coq Require Import QArith Qcanon Permutation Sorting.Sorted.
From Verif Require Import Base Grid_Model Grid_Spec Grid_Proofs.
Local Open Scope Z_scope.
Local Open Scope list_scope.

(* ---- C22: the cell of a coordinate *)

(* A coordinate gets index i exactly when i is one of the cells of the axis and the coordinate lies in interval i - or i is the
   first cell and the coordinate lies less than one cell before it, or wrapping is on and it lies in the cell just past the end. *)
Theorem C22_axis_index : forall a v i, a_increment a <> 0%Qc ->
  (axis_index a v = Ok i <->
   0 <= i < a_length a /\
   (within a i v \/ (i = 0 /\ just_before a v) \/ (a_wrap a = true /\ i = 0 /\ within a (a_length a) v))).
Proof. exact axis_index_iff. Qed.
Print Assumptions C22_axis_index.

Definition ex_lon : axis := {| a_start := qz (-180); a_increment := qz 90; a_length := 4; a_wrap := true |}.
Definition ex_lat : axis := {| a_start := qz (-90); a_increment := qz 90; a_length := 2; a_wrap := false |}.
Example C22_axis_index_nonvacuous :
  a_increment ex_lon <> 0%Qc /\ axis_index ex_lon (qz 91) = Ok 3 /\ axis_index ex_lon (qz 180) = Ok 0 /\ axis_index ex_lat (qz 90) = Err ValueError.
Proof. split; [intros H; discriminate (f_equal this H) |]. vm_compute. auto. Qed.

(* The intervals do not overlap, and a cell's centre is in the cell. *)
Theorem C22_one_interval : forall a i j v, a_increment a <> 0%Qc -> within a i v -> within a j v -> i = j.
Proof. exact within_unique. Qed.
Print Assumptions C22_one_interval.
Theorem C22_centres : forall a i, a_increment a <> 0%Qc -> 0 <= i < a_length a -> axis_index a (axis_centre a i) = Ok i.
Proof. intros a i N R. apply axis_index_iff; [exact N |]. split; [exact R |]. left. now apply centre_within. Qed.
Print Assumptions C22_centres.
Example C22_centres_nonvacuous : axis_index ex_lat (axis_centre ex_lat 1) = Ok 1.
Proof. vm_compute. reflexivity. Qed.

(* Coordinates off the axis are not all refused: those just before its start fall into the first cell. *)
Theorem C22_below_start_refuted : exists a v, a_increment a <> 0%Qc /\ ~ within a 0 v /\ (v < a_start a)%Qc /\ axis_index a v = Ok 0.
Proof.
  exists ex_lat, (qz (-100)). split; [intros H; discriminate (f_equal this H) |]. split; [| split; [reflexivity | vm_compute; reflexivity]].
  intros (t & A & _ & E). cbn [ex_lat a_start a_increment] in E. rewrite qz_0 in E.
  assert (qz (-100) = qz (-90) + t * qz 90)%Qc as F by (rewrite E; ring). clear E.
  assert (0 <= t * qz 90)%Qc as P by (apply (Qcmult_le_compat_r 0 t (qz 90)) in A; [rewrite Qcmult_0_l in A; exact A | intros H; discriminate H]).
  assert (qz (-90) <= qz (-100))%Qc as Q. { rewrite F. replace (qz (-90)) with (qz (-90) + 0)%Qc at 1 by ring. apply Qcplus_le_compat; [apply Qcle_refl | exact P]. }
  vm_compute in Q. congruence.
Qed.
Print Assumptions C22_below_start_refuted.
(* The command line gives the latitude axis the wrap flag too: the north pole is then put in the southernmost row. *)
Theorem C22_pole_refuted : forall start inc n, 0 < n -> inc <> 0%Qc ->
  axis_index {| a_start := start; a_increment := inc; a_length := n; a_wrap := true |} (start + qz n * inc)%Qc = Ok 0.
Proof.
  intros start inc n P N. apply axis_index_iff; [exact N |]. cbn. split; [lia |]. right. right. split; [reflexivity |]. split; [reflexivity |].
  exists 0%Qc. split; [apply Qcle_refl |]. split; [reflexivity |]. cbn. ring.
Qed.
Print Assumptions C22_pole_refuted.

(* The flat number of a row and a column: every pair of indices has its own number, all the numbers 0 .. nlat*nlon - 1 are used. *)
Theorem C22_flat : forall g lats lons cs, grid_indices g lats lons = Ok cs -> length lats = length lons ->
  length cs = length lats /\
  forall n c lat lon, nth_error cs n = Some c -> nth_error lats n = Some lat -> nth_error lons n = Some lon ->
    axis_index (g_lat g) lat = Ok (c / a_length (g_lon g)) /\ axis_index (g_lon g) lon = Ok (c mod a_length (g_lon g)) /\
    0 <= c < a_length (g_lat g) * a_length (g_lon g).
Proof.
  intros g lats. unfold grid_indices, axis_indices. induction lats as [| x lats IH]; intros [| y lons] cs E L; try discriminate.
  - cbn in E. assert (cs = []) as -> by congruence. split; [reflexivity |]. intros [|] ? ? ?; discriminate.
  - cbn [mapM] in E. destruct (axis_index (g_lat g) x) as [i |] eqn:Ei; cbn [bind] in E; [| discriminate].
    destruct (mapM (axis_index (g_lat g)) lats) as [is |] eqn:Eis; cbn [bind] in E; [| discriminate].
    destruct (axis_index (g_lon g) y) as [j |] eqn:Ej; cbn [bind] in E; [| discriminate].
    destruct (mapM (axis_index (g_lon g)) lons) as [js |] eqn:Ejs; cbn [bind] in E; [| discriminate].
    cbn [combine map fst snd] in E. destruct cs as [| c cs]; [discriminate |].
    assert (i * a_length (g_lon g) + j = c /\ map (fun ij => fst ij * a_length (g_lon g) + snd ij) (combine is js) = cs) as [C1 C2] by (split; congruence).
    specialize (IH lons cs). rewrite Ejs in IH. cbn [bind] in IH. rewrite C2 in IH. destruct (IH eq_refl) as [Len H]; [cbn in L; lia |].
    split; [cbn; lia |]. intros [| n] d lat lon A B C; cbn in A, B, C.
    + assert (d = c /\ lat = x /\ lon = y) as (-> & -> & ->) by (repeat split; congruence).
      pose proof (axis_index_range _ _ _ Ei). pose proof (axis_index_range _ _ _ Ej).
      assert (c / a_length (g_lon g) = i) as -> by (symmetry; apply Z.div_unique with (r := j); lia).
      assert (c mod a_length (g_lon g) = j) as -> by (symmetry; apply Z.mod_unique with (q := i); lia).
      split; [exact Ei |]. split; [exact Ej |]. nia.
    + eapply H; eassumption.
Qed.
Print Assumptions C22_flat.
Definition ex_grid : grid := {| g_lat := ex_lat; g_lon := ex_lon |}.
Example C22_flat_nonvacuous : grid_indices ex_grid [qz (-10); qz 45] [qz 100; qz (-1)] = Ok [3; 5].
Proof. vm_compute. reflexivity. Qed.

(* Every cell number belongs to some coordinate. *)
Theorem C22_flat_onto : forall g c, a_increment (g_lat g) <> 0%Qc -> a_increment (g_lon g) <> 0%Qc ->
  0 < a_length (g_lon g) -> 0 <= c < a_length (g_lat g) * a_length (g_lon g) ->
  exists lat lon, grid_indices g [lat] [lon] = Ok [c].
Proof.
  intros g c Na No P R. set (n := a_length (g_lon g)) in *.
  exists (axis_centre (g_lat g) (c / n)), (axis_centre (g_lon g) (c mod n)). unfold grid_indices, axis_indices. cbn [mapM].
  assert (0 <= c mod n < n) by (apply Z.mod_pos_bound; lia).
  assert (0 <= c / n < a_length (g_lat g)) by (split; [apply Z.div_pos; lia | apply Z.div_lt_upper_bound; lia]).
  rewrite !C22_centres by assumption. cbn. fold n. do 2 f_equal. pose proof (Z.div_mod c n). lia.
Qed.
Print Assumptions C22_flat_onto.

(* One coordinate off the grid and the whole array is refused. *)
Theorem C22_refused : forall g lats lons e lat, In lat lats -> axis_index (g_lat g) lat = Err e -> exists e', grid_indices g lats lons = Err e'.
Proof.
  intros g lats lons e lat I E. unfold grid_indices, axis_indices.
  destruct (mapM (axis_index (g_lat g)) lats) as [is | e'] eqn:M; [| cbn; eauto]. apply mapM_ok_iff in M.
  exfalso. revert I. induction M as [| a b l r H M IH]; [intros [] |]. intros [-> | I]; [congruence | auto].
Qed.
Print Assumptions C22_refused.

(* ---- C23: what the fields of a run are *)

(* A run over at least one file succeeds exactly when every pixel passing one of the two quality tests lies on the grid. *)
Theorem C23_run_succeeds : forall g ch files, files <> [] ->
  ((exists F, run g ch files = Ok (Some F)) <->
   forall p s, In (p, s) (all_pixels files) -> valid ch p = true \/ of_interest ch p = true -> on_grid g p).
Proof.
  intros g ch files N. rewrite run_ok by exact N.
  split.
  - intros F p s I [T | T].
    + apply (proj1 (located_all g (valid ch) files)) with s; auto. eapply Forall_impl; [| exact F]. cbn. tauto.
    + apply (proj1 (located_all g (of_interest ch) files)) with s; auto. eapply Forall_impl; [| exact F]. cbn. tauto.
  - intros H. assert (Forall (located g (valid ch)) files) as A by (apply located_all; eauto).
    assert (Forall (located g (of_interest ch)) files) as B by (apply located_all; eauto).
    rewrite Forall_forall in *. intros f I. auto.
Qed.
Print Assumptions C23_run_succeeds.

(* The fields at each cell are those of exactly the valid pixels lying in the cell. *)
Theorem C23_exact : forall g ch files F, run g ch files = Ok (Some F) -> forall c,
  let V := chosen g (valid ch) files c in
  f_number F c = zlen V /\ f_total F c = zlen (chosen g (of_interest ch) files c) /\
  (V = [] -> f_mean F c = FLAG_INVALID /\ f_min F c = FLAG_INVALID /\ f_max F c = FLAG_INVALID /\
             f_ran2 F c = FLAG_INVALID /\ f_atm2 F c = FLAG_INVALID /\ f_sfc2 F c = FLAG_INVALID /\ f_sys2 F c = FLAG_INVALID) /\
  (V <> [] ->
     f_mean F c = (total value_of V / qz (zlen V))%Qc /\
     ((forall x, In x (map value_of V) -> (x <= FLT_MAX)%Qc) -> is_min (f_min F c) (map value_of V)) /\
     ((forall x, In x (map value_of V) -> (- FLT_MAX <= x)%Qc) -> is_max (f_max F c) (map value_of V)) /\
     f_ran2 F c = (total (fun ps => sq (px_ran (fst ps))) V / qz (zlen V * zlen V))%Qc /\
     f_atm2 F c = (total (fun ps => sq (px_atm (fst ps))) V / qz (zlen V))%Qc /\
     f_sfc2 F c = (total (fun ps => sq (px_sfc (fst ps))) V / qz (zlen V))%Qc /\
     f_sys2 F c = (total (fun ps => sq (snd ps)) V / qz (zlen V))%Qc).
Proof.
  intros g ch files F E c V. destruct (run_inv g ch files F E) as (s & d & N & -> & H & H2). clear E.
  specialize (H c). cbv zeta in H. fold V in H. destruct H as (A1 & A2 & A3 & A4 & A5 & A6 & A7 & A8 & A9).
  unfold compute_fields. cbn [f_number f_total f_mean f_min f_max f_ran2 f_atm2 f_sfc2 f_sys2]. unfold mean_field. rewrite A1, A2, A3, A4, A5, A6, A7, A8, A9.
  split; [reflexivity |]. split; [reflexivity |]. unfold where_counted. destruct V as [| v V].
  - split; [intros _; cbn; auto 10 | congruence].
  - split; [discriminate |]. intros _. rewrite zlen_cons. pose proof (zlen_nonneg V). destruct (1 + zlen V =? 0) eqn:Z; [lia |].
    split; [reflexivity |]. split; [apply min_of_all; discriminate |]. split; [apply max_of_all; discriminate |]. auto.
Qed.
Print Assumptions C23_exact.

Definition px (qc lat lon v u : Z) : pixel :=
  {| px_qc := qc; px_lat := qz lat; px_lon := qz lon; px_value := qz v; px_ran := qz u; px_atm := qz u; px_sfc := qz u; px_masked := false |}.
Definition ex_files : list satfile :=
  [ {| sf_pixels := [px 1 10 10 280 1; px 1 20 20 284 2; px 0 30 30 999 1]; sf_sys := qz 1 |};
    {| sf_pixels := [px 1 (-10) 10 270 1; px 3 40 40 288 1]; sf_sys := qz 2 |} ].
Definition ex_choice : choice := {| qc_mask_obs := 0; qc_filter_obs := 0; qc_mask_valid := 1; qc_filter_valid := 1 |}.
Example C23_nonvacuous : exists F, run ex_grid ex_choice ex_files = Ok (Some F) /\ f_number F 6 = 3 /\ f_mean F 6 = qz 284 /\ f_min F 6 = qz 280 /\
  f_max F 6 = qz 288 /\ f_total F 6 = 4 /\ f_variance F 6 = qz 16 /\ f_number F 2 = 1 /\ f_mean F 0 = FLAG_INVALID.
Proof.
  assert (exists F, run ex_grid ex_choice ex_files = Ok (Some F)) as [F E].
  { apply run_ok; [discriminate |]. repeat (constructor; [split; intros p P _; unfold on_grid; repeat (destruct P as [<- | P]; [vm_compute; discriminate |]); destruct P |]). constructor. }
  exists F. split; [exact E |]. 
  assert (forall G, run ex_grid ex_choice ex_files = Ok (Some G) -> F = G) as U by (intros G HG; rewrite E in HG; congruence).
  unfold run, ex_files in U. cbn [foldM] in U.
  pose proof (C23_exact _ _ _ _ E) as X. destruct (run_inv _ _ _ _ E) as (s & d & _ & -> & H & H2).
  split; [exact (proj1 (X 6)) |]. split; [rewrite (proj1 (proj2 (proj2 (proj2 (X 6))) ltac:(vm_compute; discriminate))); apply Qc_is_canon; vm_compute; reflexivity |].
  assert (mean_field s 6 = qz 284) as Em by (rewrite (mean_field_holds _ _ _ _ _ _ _ 6 H); apply Qc_is_canon; vm_compute; reflexivity).
  unfold compute_fields. cbn [f_min f_max f_total f_variance f_number f_mean].
  pose proof (H 6) as (A1 & A2 & A3 & A4 & _ & _ & _ & _ & A9). pose proof (H 2) as (B1 & _). pose proof (H 0) as (D1 & _).
  rewrite A1, A3, A4, A9, B1. unfold mean_field at 1. rewrite D1. rewrite (H2 6), Em.
  repeat split; try (vm_compute; reflexivity); try (apply Qc_is_canon; vm_compute; reflexivity).
Qed.

(* Nothing is counted twice or lost: the cell counts add up to the number of valid pixels. *)
Theorem C23_counts_add_up : forall g ch files F, run g ch files = Ok (Some F) ->
  sumZ (map (f_number F) (zrange 0 (a_length (g_lat g) * a_length (g_lon g)))) = zlen (filter (fun ps => valid ch (fst ps)) (all_pixels files)).
Proof.
  intros g ch files F E.
  assert (forall p s, In (p, s) (all_pixels files) -> valid ch p = true -> on_grid g p) as O.
  { intros p s I T. assert (files <> []) as N by (destruct (run_inv _ _ _ _ E) as (? & ? & N & _); exact N).
    apply (proj1 (C23_run_succeeds g ch files N) (ex_intro _ F E) p s I). now left. }
  rewrite (map_ext (f_number F) (fun c => zlen (chosen g (valid ch) files c))) by (intros c; exact (proj1 (C23_exact g ch files F E c))).
  unfold chosen. induction (all_pixels files) as [| [p s] l IH].
  - cbn [filter]. change (zlen []) with 0. induction (zrange _ _) as [| x r IHr]; [reflexivity |]. cbn. exact IHr.
  - cbn [filter fst]. assert (forall p s, In (p, s) l -> valid ch p = true -> on_grid g p) as O' by (intros; eapply O; [right |]; eassumption).
    specialize (IH O'). destruct (valid ch p) eqn:V; cbn [andb]; [| exact IH]. rewrite zlen_cons, <- IH.
    destruct (cell g p) as [d |] eqn:C; [| destruct (O p s (or_introl eq_refl) V C)].
    pose proof (cell_range g p d C) as R. unfold in_cell at 1. rewrite C.
    pose proof (zrange_NoDup 0 (a_length (g_lat g) * a_length (g_lon g))) as ND.
    assert (In d (zrange 0 (a_length (g_lat g) * a_length (g_lon g)))) as I by (apply zrange_In; lia).
    revert ND I. generalize (zrange 0 (a_length (g_lat g) * a_length (g_lon g))) as cells.
    set (n := fun c => zlen (filter (fun ps => valid ch (fst ps) && in_cell g c (fst ps)) l)).
    assert (forall cells, sumZ (map (fun c => zlen (if d =? c then (p, s) :: filter (fun ps => valid ch (fst ps) && in_cell g c (fst ps)) l else filter (fun ps => valid ch (fst ps) && in_cell g c (fst ps)) l)) cells) = sumZ (map (fun c => (if d =? c then 1 else 0) + n c) cells)) as K.
    { intros cells. f_equal. apply map_ext. intros c. unfold n. destruct (d =? c); [rewrite zlen_cons |]; reflexivity. }
    intros cells ND I. rewrite K. clear K. revert I. induction ND as [| x r Nx ND IHr]; [intros [] |]. intros [-> | I].
    + cbn [map sumZ fold_right]. rewrite Z.eqb_refl.
      assert (map (fun c => (if d =? c then 1 else 0) + n c) r = map n r) as M.
      { apply map_ext_in. intros c Ic. destruct (d =? c) eqn:Q; [apply Z.eqb_eq in Q; subst; contradiction | reflexivity]. }
      unfold sumZ. cbn [fold_right map]. rewrite M. lia.
    + unfold sumZ in *. cbn [map fold_right] in *. rewrite (IHr I). destruct (d =? x) eqn:Q; [apply Z.eqb_eq in Q; subst; contradiction |]. lia.
Qed.
Print Assumptions C23_counts_add_up.

(* The order of pixels and files, and how the pixels are split over files, make no difference. *)
Theorem C23_order : forall g ch fs gs F, fs <> [] -> gs <> [] -> Permutation (all_pixels fs) (all_pixels gs) ->
  run g ch fs = Ok (Some F) -> exists G, run g ch gs = Ok (Some G) /\ same_fields F G.
Proof.
  intros g ch fs gs F Nf Ng P E. assert (exists G, run g ch gs = Ok (Some G)) as [G EG].
  { apply C23_run_succeeds; [exact Ng |]. intros p s I. apply (proj1 (C23_run_succeeds g ch fs Nf) (ex_intro _ F E) p s). eapply Permutation_in; [apply Permutation_sym, P | exact I]. }
  exists G. split; [exact EG |]. destruct (run_inv _ _ _ _ E) as (s & d & _ & -> & H & H2). destruct (run_inv _ _ _ _ EG) as (s' & d' & _ & -> & H' & H2').
  intros c. pose proof (chosen_perm g (valid ch) fs gs c P) as Pv. pose proof (chosen_perm g (of_interest ch) fs gs c P) as Po.
  assert (mean_field s c = mean_field s' c) as Em.
  { rewrite (mean_field_holds _ _ _ _ _ _ _ c H), (mean_field_holds _ _ _ _ _ _ _ c H'). rewrite (zlen_perm _ _ Pv). unfold mean.
    rewrite (sumQ_perm _ _ (Permutation_map value_of Pv)), (zlen_perm _ _ (Permutation_map value_of Pv)). reflexivity. }
  assert (d c = d' c) as Ed by (rewrite (H2 c), (H2' c), Em; unfold devs; now apply total_perm).
  destruct (H c) as (A1 & A2 & A3 & A4 & A5 & A6 & A7 & A8 & A9). destruct (H' c) as (B1 & B2 & B3 & B4 & B5 & B6 & B7 & B8 & B9).
  rewrite <- (zlen_perm _ _ Pv), <- A1 in B1. rewrite <- (zlen_perm _ _ Po), <- A9 in B9.
  rewrite <- (total_perm _ _ _ Pv), <- A2 in B2. rewrite <- (fold_pymin_perm _ _ _ (Permutation_map _ Pv)), <- A3 in B3. rewrite <- (fold_pymax_perm _ _ _ (Permutation_map _ Pv)), <- A4 in B4.
  rewrite <- (total_perm _ _ _ Pv), <- A5 in B5. rewrite <- (total_perm _ _ _ Pv), <- A6 in B6. rewrite <- (total_perm _ _ _ Pv), <- A7 in B7. rewrite <- (total_perm _ _ _ Pv), <- A8 in B8.
  unfold compute_fields. cbn [f_number f_total f_mean f_min f_max f_ran2 f_atm2 f_sfc2 f_sys2 f_variance f_spl2].
  rewrite B1, B3, B4, B5, B6, B7, B8, B9, Em, Ed. auto 20.
Qed.
Print Assumptions C23_order.
Example C23_order_nonvacuous : Permutation (all_pixels ex_files) (all_pixels (rev ex_files)) /\ rev ex_files <> [].
Proof. split; [apply Permutation_flat_map, Permutation_rev | discriminate]. Qed.

(* ---- C24: variance *)

Theorem C24_variance : forall g ch files F, run g ch files = Ok (Some F) -> forall c,
  let values := map value_of (chosen g (valid ch) files c) in
  (zlen values <= 1 -> f_variance F c = FLAG_INVALID /\ f_spl2 F c = FLAG_INVALID) /\
  (2 <= zlen values ->
     f_variance F c = sample_variance values /\ f_variance F c = pair_variance values /\
     (f_total F c <> 1 -> (f_spl2 F c * sq (qz (f_total F c - 1)) = sq (qz (f_total F c - f_number F c)) * f_variance F c)%Qc)).
Proof.
  intros g ch files F E c values. destruct (run_inv g ch files F E) as (s & d & N & -> & H & H2). clear E.
  pose proof (mean_field_holds _ _ _ _ _ _ _ c H) as Em. destruct (H c) as (A1 & _ & _ & _ & _ & _ & _ & _ & A9).
  unfold compute_fields. cbn [f_number f_total f_variance f_spl2]. unfold values. rewrite zlen_map, A1. split.
  - intros L. destruct (_ >? 1) eqn:G; [lia | auto].
  - intros L. destruct (_ >? 1) eqn:G; [| lia].
    assert (d c / qz (zlen (chosen g (valid ch) files c) - 1) = sample_variance values)%Qc as V.
    { unfold sample_variance, values. rewrite zlen_map. f_equal. rewrite (H2 c), Em. unfold where_counted. destruct (_ =? 0) eqn:Z; [lia |].
      unfold devs, total. now rewrite map_map. }
    rewrite V. split; [reflexivity |]. split; [apply variances_agree; unfold values; now rewrite zlen_map |]. intros T.
    assert (sq (qz (s_obs s c - 1)) <> 0)%Qc as Nz. { unfold sq. intros Z. apply Qcmult_integral in Z. assert (s_obs s c - 1 <> 0) as Q by lia. apply qz_nonzero in Q. tauto. }
    field. exact Nz.
Qed.
Print Assumptions C24_variance.
Example C24_variance_nonvacuous : 2 <= zlen (map value_of (chosen ex_grid (valid ex_choice) ex_files 6)) /\
  sample_variance (map value_of (chosen ex_grid (valid ex_choice) ex_files 6)) = qz 16.
Proof. split; [vm_compute; discriminate | apply Qc_is_canon; vm_compute; reflexivity]. Qed.

(* ---- C25: one slot per observation *)

(* While no cell has more observations than slots, each cell holds its own observations in order of arrival and nothing else. *)
Theorem C25_slots : forall cells max indices values, length indices = length values ->
  (forall i, In i indices -> 0 <= i < cells) ->
  let got c := map snd (filter (fun iv : Z * Qc => fst iv =? c) (combine indices values)) in
  (forall c, zlen (got c) <= max) ->
  exists s, slots_aggregate (no_slots cells max) indices values = Ok s /\
  forall c, 0 <= c < cells ->
    sl_count s c = zlen (got c) /\
    map (fun k => sl_values s (c * max + k)) (zrange 0 max) = got c ++ map (fun _ => 0%Qc) (zrange (zlen (got c)) max) /\
    (got c <> [] -> slots_mean s c = mean (got c)).
Proof.
  intros cells max indices values L R got B.
  destruct (slots_run cells max (combine indices values) [] (no_slots cells max)) as (s & E & H).
  - unfold slots_hold, no_slots. cbn. split; [reflexivity |]. split; [reflexivity |]. intros c Rc. split; [reflexivity |]. intros k Rk. now destruct (Z.to_nat k).
  - cbn [app]. intros i v I. apply R. now apply in_combine_l in I.
  - exact B.
  - cbn [app] in H. exists s. split; [exact E |]. destruct H as (M & C & H). intros c Rc. destruct (H c Rc) as [Ct V]. fold (got c) in Ct. change (sel c (combine indices values)) with (got c) in *.
    assert (map (fun k => sl_values s (c * max + k)) (zrange 0 max) = got c ++ map (fun _ => 0%Qc) (zrange (zlen (got c)) max)) as K.
    { rewrite <- nth_zrange by apply B. apply map_ext_in. intros k Ik. apply zrange_In in Ik. apply V. lia. }
    split; [exact Ct |]. split; [exact K |]. intros N. unfold slots_mean, mean, where_counted. rewrite Ct, M, K, sumQ_app, sumQ_zeros.
    destruct (zlen (got c) =? 0) eqn:Z; [destruct (got c) as [| q r]; [congruence | rewrite zlen_cons in Z; pose proof (zlen_nonneg r); lia] |]. f_equal. ring.
Qed.
Print Assumptions C25_slots.
Example C25_slots_nonvacuous : exists s, slots_aggregate (no_slots 2 2) [1; 0; 1] [qz 5; qz 6; qz 7] = Ok s /\ sl_values s 2 = qz 5 /\ sl_values s 3 = qz 7 /\ sl_values s 0 = qz 6.
Proof. eexists. split; [reflexivity |]. vm_compute. auto. Qed.

(* With more observations than slots the surplus goes to the next cell: a cell without any observation holds some, and the
   observations of a cell with few are overwritten. *)
Theorem C25_overflow_refuted : exists cells max indices values s,
  length indices = length values /\ (forall i, In i indices -> 0 <= i < cells) /\
  slots_aggregate (no_slots cells max) indices values = Ok s /\ ~ In 1 indices /\ sl_values s (1 * max + 0) <> 0%Qc.
Proof.
  exists 2, 2, [0; 0; 0], [qz 5; qz 6; qz 7]. eexists. split; [reflexivity |]. split; [cbn; lia |]. split; [reflexivity |]. split; [cbn; lia |].
  vm_compute. intros H. discriminate (f_equal this H).
Qed.
Print Assumptions C25_overflow_refuted.
Theorem C25_overwrite_refuted : exists cells max indices values s,
  length indices = length values /\ (forall i, In i indices -> 0 <= i < cells) /\ slots_aggregate (no_slots cells max) indices values = Ok s /\
  zlen (map snd (filter (fun iv : Z * Qc => fst iv =? 1) (combine indices values))) <= max /\
  slots_mean s 1 <> mean (map snd (filter (fun iv : Z * Qc => fst iv =? 1) (combine indices values))).
Proof.
  exists 2, 2, [1; 0; 0; 0], [qz 5; qz 6; qz 7; qz 8]. eexists. split; [reflexivity |]. split; [cbn; lia |]. split; [reflexivity |]. split; [vm_compute; discriminate |].
  vm_compute. intros H. discriminate (f_equal this H).
Qed.
Print Assumptions C25_overwrite_refuted.
(* The largest value leaves out observations equal to zero, taken for empty slots. *)
Theorem C25_max : forall cells max indices values s, length indices = length values -> (forall i, In i indices -> 0 <= i < cells) ->
  let got c := map snd (filter (fun iv : Z * Qc => fst iv =? c) (combine indices values)) in
  (forall c, zlen (got c) <= max) -> slots_aggregate (no_slots cells max) indices values = Ok s -> forall c, 0 <= c < cells ->
  match slots_max s c with
  | Some m => is_max m (filter (fun v => negb (Qc_eq_bool v 0%Qc)) (got c))
  | None => forall v, In v (got c) -> v = 0%Qc
  end.
Proof.
  intros cells max indices values s L R got B E c Rc. destruct (C25_slots cells max indices values L R B) as (s' & E' & H).
  assert (s' = s) as -> by congruence. destruct (H c Rc) as (_ & K & _). fold (got c) in K. unfold slots_max.
  assert (sl_max s = max) as M.
  { clear - E. unfold slots_aggregate in E. assert (forall l s0, foldM slot_one s0 l = Ok s -> sl_max s = sl_max s0) as X.
    { induction l as [| [i v] l IH]; intros s0 F; cbn in F; [congruence |]. destruct (i * sl_max s0 + sl_count s0 i <? sl_cells s0 * sl_max s0); cbn in F; [| discriminate]. apply IH in F. exact F. }
    apply X in E. exact E. }
  rewrite M, K, fold_zero_mask. rewrite filter_app'.
  assert (forall z : list Z, filter (fun v => negb (Qc_eq_bool v 0%Qc)) (map (fun _ => 0%Qc) z) = []) as Z0 by (induction z as [| x z IH]; cbn; [reflexivity | exact IH]).
  rewrite Z0, app_nil_r. destruct (filter (fun v => negb (Qc_eq_bool v 0%Qc)) (got c)) as [| v r] eqn:Ef.
  - intros v I. destruct (Qc_eq_bool v 0%Qc) eqn:Q; [now apply Qc_eq_bool_iff |]. exfalso. assert (In v []) as []. rewrite <- Ef. apply filter_In. rewrite Q. auto.
  - apply fold_pymax.
Qed.
Print Assumptions C25_max.
Theorem C25_zero_refuted : exists s, slots_aggregate (no_slots 1 2) [0; 0] [0%Qc; qz (-5)] = Ok s /\ slots_max s 0 = Some (qz (-5)) /\ ~ is_max (qz (-5)) [0%Qc; qz (-5)].
Proof. eexists. split; [reflexivity |]. split; [vm_compute; reflexivity |]. intros [_ H]. specialize (H 0%Qc (or_introl eq_refl)). vm_compute in H. congruence. Qed.
Print Assumptions C25_zero_refuted.

(* ---- C26: the quality test *)

(* The positions chosen are those of the pixels whose flags under the mask equal the wanted value, in order. *)
Theorem C26_filter : forall qc mask flt,
  (forall i, In i (find_qc_flag_indices qc mask flt) <-> 0 <= i /\ exists q, nth_error qc (Z.to_nat i) = Some q /\ Z.land q mask = flt) /\
  StronglySorted Z.lt (find_qc_flag_indices qc mask flt).
Proof.
  intros qc mask flt. unfold find_qc_flag_indices.
  assert (forall qc n, 0 <= n ->
    (forall i, In i (map fst (filter (fun iq : Z * Z => Z.land (snd iq) mask =? flt) (combine (zrange n (n + zlen qc)) qc))) <->
       n <= i /\ exists q, nth_error qc (Z.to_nat (i - n)) = Some q /\ Z.land q mask = flt) /\
    StronglySorted Z.lt (map fst (filter (fun iq : Z * Z => Z.land (snd iq) mask =? flt) (combine (zrange n (n + zlen qc)) qc)))) as H.
  { clear qc. induction qc as [| q qc IH]; intros n Nn.
    - cbn [combine]. replace (combine (zrange n (n + zlen [])) (@nil Z)) with (@nil (Z * Z)) by (destruct (zrange _ _); reflexivity). cbn. split; [| constructor].
      intros i. split; [intros [] |]. intros (_ & q & Q & _). destruct (Z.to_nat (i - n)); discriminate.
    - rewrite zlen_cons, zrange_cons by (pose proof (zlen_nonneg qc); lia). replace (n + (1 + zlen qc)) with (n + 1 + zlen qc) by lia.
      destruct (IH (n + 1) ltac:(lia)) as [I So]. clear IH. cbn [combine filter snd].
      assert (forall i, (n + 1 <= i /\ (exists q0, nth_error qc (Z.to_nat (i - (n + 1))) = Some q0 /\ Z.land q0 mask = flt)) <-> (n < i /\ exists q0, nth_error (q :: qc) (Z.to_nat (i - n)) = Some q0 /\ Z.land q0 mask = flt)) as K.
      { intros i. split; intros [A (q0 & B & C)]; (split; [lia |]); exists q0; (split; [| exact C]).
        - replace (Z.to_nat (i - n)) with (S (Z.to_nat (i - (n + 1)))) by lia. exact B.
        - replace (Z.to_nat (i - n)) with (S (Z.to_nat (i - (n + 1)))) in B by lia. exact B. }
      destruct (Z.land q mask =? flt) eqn:Q; cbn [map fst].
      + split.
        * intros i. split.
          -- intros [<- | J]; [split; [lia |]; exists q; replace (n - n) with 0 by lia; cbn; split; [reflexivity | lia] |]. apply I, K in J. destruct J as [A B]. split; [lia | exact B].
          -- intros [A B]. destruct (Z.eq_dec n i) as [-> | Ne]; [now left | right]. apply I, K. split; [lia | exact B].
        * constructor; [exact So |]. apply Forall_forall. intros i J. apply I in J. lia.
      + split; [| exact So]. intros i. rewrite I, K. split.
        * intros [A B]. split; [lia | exact B].
        * intros [A (q0 & B & C)]. split; [| eauto]. destruct (Z.eq_dec n i) as [-> | Ne]; [| lia].
          replace (i - i) with 0 in B by lia. cbn in B. assert (q0 = q) by congruence. subst q0. rewrite C, Z.eqb_refl in Q. discriminate. }
  destruct (H qc 0 ltac:(lia)) as [I So]. cbn [Z.add] in I, So. split; [| exact So]. intros i. rewrite I, Z.sub_0_r. reflexivity.
Qed.
Print Assumptions C26_filter.
Example C26_filter_nonvacuous : find_qc_flag_indices [1; 0; 3; 2; 5] 3 1 = [0; 4].
Proof. vm_compute. reflexivity. Qed.

(* The pixels used and the pixels left out (as the second program computes them, apart from the check on coordinates) make up the file. *)
Theorem C26_partition : forall ps mask flt,
  Permutation ps (filter (passes mask flt) ps ++ filter (fun p => negb (passes mask flt p)) ps) /\
  forall p, qc_left_out mask flt p = negb (passes mask flt p) || safety p.
Proof.
  intros ps mask flt. split; [| reflexivity]. induction ps as [| p ps IH]; cbn; [constructor |]. destruct (passes mask flt p); cbn; [now constructor |].
  apply Permutation_cons_app, IH.
Qed.
Print Assumptions C26_partition.
Example C26_partition_nonvacuous : filter (passes 1 1) [px 1 0 0 0 0; px 2 0 0 0 0] = [px 1 0 0 0 0].
Proof. vm_compute. reflexivity. Qed.
(* If the test for validity refines the test for interest, a cell has at least as many pixels of interest as valid ones. *)
Theorem C26_valid_of_interest : forall g ch files F c,
  Z.land (qc_mask_obs ch) (qc_mask_valid ch) = qc_mask_obs ch -> Z.land (qc_filter_valid ch) (qc_mask_obs ch) = qc_filter_obs ch ->
  run g ch files = Ok (Some F) -> f_number F c <= f_total F c.
Proof.
  intros g ch files F c M R E. destruct (C23_exact g ch files F E c) as (-> & -> & _). unfold chosen.
  assert (forall p, valid ch p = true -> of_interest ch p = true) as K.
  { intros p. unfold valid, of_interest, passes. rewrite !Z.eqb_eq. intros Vp. rewrite <- R, <- Vp, <- Z.land_assoc. now rewrite (Z.land_comm (qc_mask_valid ch)), M. }
  induction (all_pixels files) as [| [p s] l IH]; cbn [filter fst]; [lia |]. specialize (K p).
  destruct (valid ch p); destruct (of_interest ch p); try (discriminate (K eq_refl)); cbn [andb]; destruct (in_cell g c p); rewrite ?zlen_cons; lia.
Qed.
Print Assumptions C26_valid_of_interest.
Example C26_valid_of_interest_nonvacuous : Z.land (qc_mask_obs ex_choice) (qc_mask_valid ex_choice) = qc_mask_obs ex_choice /\ Z.land (qc_filter_valid ex_choice) (qc_mask_obs ex_choice) = qc_filter_obs ex_choice.
Proof. vm_compute. auto. Qed.

(* ---- C68: the two programs agree *)

(* On files where no pixel that passes is masked or without coordinates, the second program gives the fields of the first, its
   mask standing where the first program writes the flag. *)
Theorem C68_programs_agree : forall g ch files F,
  run g ch files = Ok (Some F) ->
  (forall p s, In (p, s) (all_pixels files) -> (valid ch p = true -> px_masked p = false) /\ safety p = false /\ (- INITIAL <= px_value p)%Qc /\ (px_value p <= INITIAL)%Qc) ->
  exists I, iris_run g ch files = Ok (Some I) /\ forall c,
    i_number I c = f_number F c /\ i_total I c = f_total F c /\ flagged (i_mean I c) = f_mean F c /\
    flagged (i_min I c) = f_min F c /\ flagged (i_max I c) = f_max F c /\ flagged (i_ran2 I c) = f_ran2 F c /\
    flagged (i_atm2 I c) = f_atm2 F c /\ flagged (i_sfc2 I c) = f_sfc2 F c /\ flagged (i_sys2 I c) = f_sys2 F c /\
    flagged (i_variance I c) = f_variance F c /\ (f_total F c <> 1 -> flagged (i_spl2 I c) = f_spl2 F c).
Proof.
  intros g ch files F E Q. assert (files <> []) as N by (destruct (run_inv _ _ _ _ E) as (? & ? & N & _); exact N).
  assert (forall p s, In (p, s) (all_pixels files) -> iris_valid ch p = valid ch p /\ iris_interest ch p = of_interest ch p) as T.
  { intros p s I. destruct (Q p s I) as (A & B & _). unfold iris_valid, iris_interest, valid, of_interest, qc_left_out, passes in *. rewrite B, !Bool.orb_false_r, Bool.negb_involutive.
    split; [| reflexivity]. destruct (Z.land _ _ =? _); cbn; [rewrite A by reflexivity; reflexivity | now rewrite Bool.orb_true_r]. }
  assert (forall c, chosen g (iris_valid ch) files c = chosen g (valid ch) files c /\ chosen g (iris_interest ch) files c = chosen g (of_interest ch) files c) as Ch.
  { intros c. unfold chosen. split; apply filter_ext_in; intros [p s] I; cbn [fst]; destruct (T p s I) as [T1 T2]; congruence. }
  assert (exists I, iris_run g ch files = Ok (Some I)) as [I EI].
  { apply iris_run_ok; [exact N |]. pose proof (proj1 (run_ok g ch files N) (ex_intro _ F E)) as L. rewrite Forall_forall in *. intros f If. destruct (L f If) as [L1 L2].
    split; intros p Ip Tp; [apply L1 | apply L2]; auto; destruct (T p (sf_sys f)) as [T1 T2]; try congruence; unfold all_pixels; apply in_flat_map; exists f; (split; [exact If |]); now apply (in_map (fun p => (p, sf_sys f))). }
  exists I. split; [exact EI |]. intros c.
  assert (forall x, In x (map value_of (chosen g (valid ch) files c)) -> (- INITIAL <= x)%Qc /\ (x <= INITIAL)%Qc) as Bd.
  { intros x X. apply in_map_iff in X. destruct X as ([p s] & <- & X). unfold chosen in X. apply filter_In in X. destruct X as [X _]. destruct (Q p s X) as (_ & _ & B1 & B2). auto. }
  assert (INITIAL <= FLT_MAX)%Qc as IF by (intros H; vm_compute in H; discriminate H).
  assert (- FLT_MAX <= - INITIAL)%Qc as IF' by (intros H; vm_compute in H; discriminate H).
  destruct (iris_run_inv _ _ _ _ EI) as (s' & d' & _ & -> & H' & H2'). destruct (run_inv _ _ _ _ E) as (s & d & _ & -> & H & H2). clear EI E.
  pose proof (mean_field_holds _ _ _ _ _ _ _ c H) as Em. specialize (H2 c). specialize (H2' c).
  destruct (H c) as (A1 & A2 & A3 & A4 & A5 & A6 & A7 & A8 & A9). destruct (H' c) as (B1 & B2 & B3 & B4 & B5 & B6 & B7 & B8 & B9). clear H H'.
  destruct (Ch c) as [Ch1 Ch2]. rewrite Ch1, ?Ch2 in *. clear Ch Ch1 Ch2 T.
  set (V := chosen g (valid ch) files c) in *. clearbody V.
  unfold compute_fields, iris_compute. cbn [i_number i_total i_mean i_min i_max i_ran2 i_atm2 i_sfc2 i_sys2 i_variance i_spl2 f_number f_total f_mean f_min f_max f_ran2 f_atm2 f_sfc2 f_sys2 f_variance f_spl2].
  unfold iris_mean0 in H2'. unfold iris_mean, mean_field in *. rewrite A1, A2, ?A3, ?A4, ?A5, ?A6, ?A7, ?A8, A9, B1, B2, ?B3, ?B4, ?B5, ?B6, ?B7, ?B8, B9 in *.
  unfold where_counted, if_binned, over in *. destruct (zlen V =? 0) eqn:Z.
  - assert (zlen V >? 1 = false) as -> by lia. cbn [flagged]. auto 20.
  - assert (V <> []) as NV by (intros ->; discriminate). pose proof (zlen_nonneg V) as Nn. cbn [flagged].
    assert (is_min (fold_left pymin (map value_of V) INITIAL) (map value_of V)) as M1.
    { apply min_of_all; [destruct V; [congruence | discriminate] |]. intros x X. now apply Bd. }
    assert (is_min (fold_left pymin (map value_of V) FLT_MAX) (map value_of V)) as M2.
    { apply min_of_all; [destruct V; [congruence | discriminate] |]. intros x X. eapply Qcle_trans; [apply Bd; exact X | exact IF]. }
    assert (is_max (fold_left pymax (map value_of V) (- INITIAL)%Qc) (map value_of V)) as M3.
    { apply max_of_all; [destruct V; [congruence | discriminate] |]. intros x X. now apply Bd. }
    assert (is_max (fold_left pymax (map value_of V) (- FLT_MAX)%Qc) (map value_of V)) as M4.
    { apply max_of_all; [destruct V; [congruence | discriminate] |]. intros x X. eapply Qcle_trans; [exact IF' | apply Bd; exact X]. }
    rewrite (is_min_unique _ _ _ M1 M2), (is_max_unique _ _ _ M3 M4).
    assert (d' c = d c) as Ed by (rewrite H2, H2'; reflexivity). rewrite Ed.
    assert (zlen V * zlen V =? 0 = false) as -> by nia. cbn [flagged].
    split; [reflexivity |]. split; [reflexivity |]. split; [reflexivity |]. split; [reflexivity |]. split; [reflexivity |]. split; [reflexivity |].
    split; [reflexivity |]. split; [reflexivity |]. split; [reflexivity |].
    destruct (zlen V - 1 =? 0) eqn:Y.
    + assert (zlen V >? 1 = false) as -> by lia. auto.
    + assert (zlen V >? 1 = true) as -> by lia. cbn [flagged]. split; [reflexivity |]. intros Tt.
      destruct (zlen (chosen g (of_interest ch) files c) - 1 =? 0) eqn:W; [lia | reflexivity].
Qed.
Print Assumptions C68_programs_agree.
Example C68_programs_agree_nonvacuous : Forall (fun ps => px_masked (fst ps) = false /\ safety (fst ps) = false) (all_pixels ex_files) /\
  (forall p s, In (p, s) (all_pixels ex_files) -> (- INITIAL <= px_value p)%Qc /\ (px_value p <= INITIAL)%Qc).
Proof.
  split; [repeat (constructor; [vm_compute; auto |]); constructor |].
  intros p s I. repeat (destruct I as [I | I]; [assert (p = fst (p, s)) as -> by reflexivity; rewrite <- I; vm_compute; split; discriminate |]). destruct I.
Qed.

(* A pixel without coordinates that passes the test stops the first program, and the second goes on without it; a masked pixel
   that passes is binned by the first program and not by the second. *)
Definition lost_pixel : pixel := {| px_qc := 1; px_lat := ERRORVALUE; px_lon := ERRORVALUE; px_value := qz 1; px_ran := 0%Qc; px_atm := 0%Qc; px_sfc := 0%Qc; px_masked := false |}.
Definition masked_pixel : pixel := {| px_qc := 1; px_lat := qz 1; px_lon := qz 1; px_value := qz 1; px_ran := 0%Qc; px_atm := 0%Qc; px_sfc := 0%Qc; px_masked := true |}.
Theorem C68_lost_pixel_refuted :
  (exists e, run ex_grid ex_choice [{| sf_pixels := [lost_pixel]; sf_sys := 0%Qc |}] = Err e) /\
  (exists I, iris_run ex_grid ex_choice [{| sf_pixels := [lost_pixel]; sf_sys := 0%Qc |}] = Ok (Some I)).
Proof. split; [exists ValueError; vm_compute; reflexivity |]. eexists. reflexivity. Qed.
Print Assumptions C68_lost_pixel_refuted.
Theorem C68_masked_pixel_refuted : exists F I,
  run ex_grid ex_choice [{| sf_pixels := [masked_pixel]; sf_sys := 0%Qc |}] = Ok (Some F) /\ f_number F 6 = 1 /\
  iris_run ex_grid ex_choice [{| sf_pixels := [masked_pixel]; sf_sys := 0%Qc |}] = Ok (Some I) /\ i_number I 6 = 0.
Proof. eexists. eexists. split; [reflexivity |]. split; [vm_compute; reflexivity |]. split; [reflexivity |]. vm_compute. reflexivity. Qed.
Print Assumptions C68_masked_pixel_refuted.
