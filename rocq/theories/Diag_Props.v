(* C139-C141: diagnostic grids, counts and listings of observations. *)
From Coq Require Import QArith Qcanon Ascii String Permutation.
From Verif Require Import Base Time_Model Time_Proofs Grid_Model Grid_Spec Grid_Proofs Obs_Model Obs_Spec Obs_Props Cpp_Model Diag_Model Diag_Spec Diag_Proofs Diag_Proofs2 Diag_Proofs3.
Local Open Scope Z_scope.
Local Open Scope list_scope.

(* for the examples *)
Definition oeq (a b : option Qc) : bool := match a, b with Some x, Some y => Qc_eq_bool x y | None, None => true | _, _ => false end.
Lemma oeq_ok a b : oeq a b = true -> a = b.
Proof. destruct a, b; cbn; intros H; try discriminate; [apply Qc_eq_bool_iff in H; now subst | reflexivity]. Qed.
Definition seen (r : result (list cube)) (n : string) (c : Z) : option Qc := match r with Ok cubes => shown cubes n c | Err _ => None end.
Lemma seen_ok r cubes n c v : r = Ok cubes -> oeq (seen r n c) v = true -> shown cubes n c = v.
Proof. intros -> H. now apply oeq_ok. Qed.
Lemma is_ok_ex {A} (r : result A) : is_ok r = true -> exists x, r = Ok x.
Proof. destruct r; [eauto | discriminate]. Qed.
Ltac vc := vm_compute; reflexivity.
Ltac run r cubes E := destruct (is_ok_ex r ltac:(vc)) as [cubes E].

(* ---- C139 *)

(* The grid input of a day: of each cell, the unmasked observations of the day whose location lies in it, in their order. *)
Theorem C139_day : forall lat lon table cells o observable day gi (place : Z -> Z), fa_step lat <> 0%Qc -> fa_step lon <> 0%Qc ->
  connect [lat; lon] table = Ok cells -> set_ok o -> day >= 1 \/ (day = 0 /\ forall i, (0 <= set_time o i)%Qc) ->
  (forall n ll, nth_error table n = Some ll -> in_grid_cell lat lon (place (Z.of_nat n)) ll) -> Forall (fun n => 0 <= n) (s_location o) ->
  get_day cells o observable day = Ok gi ->
  gi_observable gi = observable /\ gi_day gi = day /\
  combine (gi_indices gi) (combine (gi_observation gi) (gi_uncertainty gi)) = map (fun r => (place (fst r), snd r)) (day_records o day).
Proof.
  intros lat lon table cells o observable day gi place N M C S D P NN G. change (connect [lat; lon] table) with (connect2 lat lon table) in C.
  destruct (connect2_nth _ _ _ _ N M C) as [Lc Cc]. destruct (get_day_inv _ _ _ _ _ G) as (A1 & A2 & _ & A & B & F). split; [exact A1 |]. split; [exact A2 |].
  rewrite A, B, combine_map_same, <- (chosen_day o day S D), map_map. clear A B G. induction F as [| i k is ks E F IH]; [reflexivity |]. cbn [map combine]. f_equal; [| exact IH].
  cbn [rec_at fst snd]. f_equal. assert (0 <= nth i (s_location o) 0) as Np.
  { destruct (nth_in_or_default i (s_location o) 0) as [I | ->]; [| lia]. rewrite Forall_forall in NN. now apply NN. }
  destruct (nth_error table (Z.to_nat (nth i (s_location o) 0))) as [ll |] eqn:El.
  - destruct (Cc _ _ El) as (c & Ec & Gc). assert (c = k) as -> by congruence. apply P in El. rewrite Z2Nat.id in El by exact Np.
    exact (in_grid_cell_unique lat lon _ _ ll N M Gc El).
  - exfalso. apply nth_error_None in El. assert (nth_error cells (Z.to_nat (nth i (s_location o) 0)) <> None) as X by congruence. apply nth_error_Some in X. lia.
Qed.
Print Assumptions C139_day.
Definition axis4 : field_axis := {| fa_zeroth := (- (1 / qz 2))%Qc; fa_step := 1%Qc; fa_count := 4; fa_circular := false |}.
Definition day7 : obset :=
  {| s_mask := [false; false; true; false]; s_time := TArray [(qz 7 + 1 / qz 2)%Qc; qz 8; qz 7; qz 7]; s_location := [1; 0; 1; 0];
     s_measurement := [qz 280; qz 281; qz 282; qz 283]; s_unc := [1%Qc; qz 2; qz 3; qz 4]; s_cor := [] |}.
Definition table2 : list (Qc * Qc) := [((1 / qz 2)%Qc, 1%Qc); (qz 3, (qz 2 + 1 / qz 4)%Qc)].
Example C139_day_nonvacuous : connect [axis4; axis4] table2 = Ok [1; 14] /\ set_ok day7 /\ in_grid_cell axis4 axis4 14 (nth 1 table2 (0%Qc, 0%Qc)) /\
  exists gi, get_day [1; 14] day7 "Tmean" 7 = Ok gi /\ gi_indices gi = [14; 1] /\ gi_observation gi = [qz 280; qz 283] /\ gi_uncertainty gi = [1%Qc; qz 4].
Proof.
  split; [vm_compute; reflexivity |]. split; [unfold set_ok; cbn; repeat (split; [reflexivity |]); first [reflexivity | constructor | (split; [reflexivity | constructor])] |]. split.
  - exists 3, 2. split; [| split; [| reflexivity]]; (split; [cbn; lia |]); left.
    + exists 0%Qc. split; [apply Qcle_refl |]. split; [reflexivity |]. now apply Qc_is_canon.
    + exists (1 / qz 4)%Qc. split; [now vm_compute |]. split; [reflexivity |]. now apply Qc_is_canon.
  - eexists. split; [vm_compute; reflexivity |]. repeat split; reflexivity.
Qed.

(* The coordinates that have a cell are those in its intervals; there is at most one cell; none is refused otherwise. *)
Theorem C139_cells : forall lat lon table, fa_step lat <> 0%Qc -> fa_step lon <> 0%Qc ->
  ((exists cells, connect [lat; lon] table = Ok cells) <-> Forall (fun ll => exists c, in_grid_cell lat lon c ll) table) /\
  (forall ll c d, in_grid_cell lat lon c ll -> in_grid_cell lat lon d ll -> c = d /\ 0 <= c < fa_count lat * fa_count lon).
Proof.
  intros lat lon table N M. split; [exact (connect2_ok lat lon table N M) |]. intros ll c d H K. split; [exact (in_grid_cell_unique _ _ _ _ _ N M H K) | exact (in_grid_cell_range _ _ _ _ H)].
Qed.
Print Assumptions C139_cells.
Example C139_cells_nonvacuous : connect [axis4; axis4] [(1%Qc, qz 5)] = Err ValueError /\ connect [axis4; axis4] [(1%Qc, qz 3)] = Ok [7].
Proof. split; vm_compute; reflexivity. Qed.

(* After any sequence of days put into one set of fields, each field tells of all their observations together: their number, least and
   greatest value, greatest uncertainty and weighted sums; it is masked where there are none. *)
Theorem C139_accumulate : forall ncells source observable days cubes,
  Forall (fun g => gi_observable g = observable /\ List.length (gi_observation g) = List.length (gi_indices g) /\
                   List.length (gi_uncertainty g) = List.length (gi_indices g)) days ->
  foldM (create_fields ncells source) [] days = Ok cubes -> forall c,
  tells (fun d => shown cubes (field source observable d) c)
        (map snd (filter (fun x => fst x =? c) (flat_map (fun g => combine (gi_indices g) (combine (gi_observation g) (gi_uncertainty g))) days))).
Proof.
  intros n s o days. assert (forall done cubes cubes', Forall (fun g => gi_observable g = o /\ List.length (gi_observation g) = List.length (gi_indices g) /\ List.length (gi_uncertainty g) = List.length (gi_indices g)) days ->
    holdsD cubes s o (fun c => sel c done) -> foldM (create_fields n s) cubes days = Ok cubes' -> holdsD cubes' s o (fun c => sel c (done ++ flat_map obs_of days))) as G.
  { induction days as [| g days IH]; intros done cubes cubes' F H E.
    - cbn in E. assert (cubes' = cubes) as -> by congruence. cbn [flat_map]. rewrite app_nil_r. exact H.
    - cbn [foldM] in E. destruct (create_fields n s cubes g) as [c1 |] eqn:E1; [| discriminate]. cbn [bind] in E. inversion F as [| ? ? (Eo & L1 & L2) F']; subst.
      destruct (create_fields_inv n s cubes g c1 _ L1 L2 H E1) as (_ & _ & _ & _ & Hc). cbn [flat_map]. rewrite app_assoc. apply (IH (done ++ obs_of g) c1 cubes' F'); [| exact E].
      apply (holdsD_ext _ _ _ _ _ (fun c => eq_sym (sel_app c done (obs_of g)))). exact Hc. }
  intros cubes F E c. exact (tells_holds cubes s o _ c (G [] [] cubes F (fun d c' => eq_refl) E)).
Qed.
Print Assumptions C139_accumulate.
Definition g_one : grid_input := {| gi_observable := "Tmean"; gi_day := 7; gi_indices := [3; 1; 3]; gi_observation := [qz 280; qz 250; qz 290]; gi_uncertainty := [1%Qc; qz 2; qz 4] |}.
Definition g_two : grid_input := {| gi_observable := "Tmean"; gi_day := 8; gi_indices := [3]; gi_observation := [qz 270]; gi_uncertainty := [qz 2] |}.
Example C139_accumulate_nonvacuous : exists cubes, foldM (create_fields 4 "x") [] [g_one; g_two] = Ok cubes /\
  shown cubes "x_Tmean_count" 3 = Some (qz 3) /\ shown cubes "x_Tmean_observation_min" 3 = Some (qz 270) /\ shown cubes "x_Tmean_observation_max" 3 = Some (qz 290) /\
  shown cubes "x_Tmean_uncertainty_max" 3 = Some (qz 4) /\ shown cubes "x_Tmean_count" 0 = None.
Proof.
  run (foldM (create_fields 4 "x") [] [g_one; g_two]) cubes E. exists cubes. split; [exact E |].
  repeat match goal with |- _ /\ _ => split end; apply (seen_ok _ _ _ _ _ E); vc.
Qed.

(* So the order of the observations does not matter to these fields, but for the least uncertainty (below). *)
Theorem C139_order : forall see l l', Permutation l l' -> tells see l -> tells see l'.
Proof.
  intros see l l' P H. assert (forall (f : Qc * Qc -> Qc), sumQ (map f l) = sumQ (map f l')) as SQ.
  { intros f. clear H. induction P as [| x a b P IH | x y a | a b e P1 IH1 P2 IH2]; [reflexivity | cbn [map]; change (f x + sumQ (map f a) = f x + sumQ (map f b))%Qc; now rewrite IH | | congruence].
    change (f y + (f x + sumQ (map f a)) = f x + (f y + sumQ (map f a)))%Qc. ring. }
  assert (zlen l = zlen l') as Ln by (unfold zlen; now rewrite (Permutation_length P)).
  assert (forall (Q : Qc * Qc -> Prop), Forall Q l' -> Forall Q l) as FA.
  { intros Q F. rewrite Forall_forall in *. intros x I. apply F. exact (Permutation_in _ P I). }
  assert (forall f m, is_min m (map f l) -> is_min m (map f l')) as MI.
  { intros f m [A B]. pose proof (Permutation_map f P) as Pm. split; [exact (Permutation_in _ Pm A) |]. intros x I. apply B. exact (Permutation_in _ (Permutation_sym Pm) I). }
  assert (forall f m, is_max m (map f l) -> is_max m (map f l')) as MA.
  { intros f m [A B]. pose proof (Permutation_map f P) as Pm. split; [exact (Permutation_in _ Pm A) |]. intros x I. apply B. exact (Permutation_in _ (Permutation_sym Pm) I). }
  unfold tells in *. destruct l as [| x l]; destruct l' as [| y l']; try exact H; try (apply Permutation_nil in P; discriminate); try (apply Permutation_sym, Permutation_nil in P; discriminate).
  destruct H as (H1 & H2 & H3 & H4 & H5). unfold weighted_sum, weights in *. rewrite <- Ln, <- !SQ. repeat (split; [assumption |]). split.
  - intros F. destruct (H4 (FA _ F)) as [(m & A & B) (m' & A' & B')]. split; [exists m | exists m']; (split; [assumption |]); [now apply MI | now apply MA].
  - intros F. destruct (H5 (FA _ F)) as (m & A & B). exists m. split; [assumption | now apply MA].
Qed.
Print Assumptions C139_order.
Example C139_order_nonvacuous : Permutation [(qz 1, qz 2); (qz 3, qz 4)] [(qz 3, qz 4); (qz 1, qz 2)]. Proof. constructor. Qed.

(* The field of weighted means: the sum of observation / uncertainty over the sum of 1 / uncertainty, a value between the least and the
   greatest observation of the cell; masked where there is no observation. *)
Theorem C139_mean : forall ncells source observable days cubes cubes' c l,
  Forall (fun g => gi_observable g = observable /\ List.length (gi_observation g) = List.length (gi_indices g) /\
                   List.length (gi_uncertainty g) = List.length (gi_indices g)) days ->
  foldM (create_fields ncells source) [] days = Ok cubes -> compute_weighted_mean source observable cubes = Ok cubes' ->
  l = map snd (filter (fun x => fst x =? c) (flat_map (fun g => combine (gi_indices g) (combine (gi_observation g) (gi_uncertainty g))) days)) ->
  exists k, nth_error cubes' (List.length cubes) = Some k /\ cu_name k = field source observable "observation_weightedmean" /\
    match l with
    | [] => cu_mask k c = true
    | _ => weights l <> 0%Qc -> cu_mask k c = false /\ cu_data k c = (weighted_sum l / weights l)%Qc
    end /\
    (forall m M, l <> [] -> Forall (fun ou => (0 < snd ou)%Qc /\ (m <= fst ou)%Qc /\ (fst ou <= M)%Qc) l ->
       cu_mask k c = false /\ (m <= cu_data k c)%Qc /\ (cu_data k c <= M)%Qc).
Proof.
  intros n s o days cubes cubes' c l F E W El.
  destruct (weighted_mean_inv _ _ _ _ W) as (a & p & Ga & Gp & ->). eexists. split; [rewrite nth_error_app2, Nat.sub_diag by lia; reflexivity |]. split; [reflexivity |].
  cbn [cu_mask cu_data].
  pose proof (C139_accumulate n s o days cubes F E c) as T. rewrite <- El in T. cbv beta in T.
  assert (shown cubes (field s o "observation_weightedsum") c = if cu_mask a c then None else Some (cu_data a c)) as Sa.
  { rewrite shown_get. change (field s o "observation_weightedsum") with (name_of s o DSum). now rewrite Ga. }
  assert (shown cubes (field s o "precision_sum") c = if cu_mask p c then None else Some (cu_data p c)) as Sp.
  { rewrite shown_get. change (field s o "precision_sum") with (name_of s o DPrec). now rewrite Gp. }
  destruct l as [| x l].
  - split; [| congruence]. unfold tells in T. rewrite T in Sa by (cbn; tauto). destruct (cu_mask a c); [reflexivity | discriminate].
  - destruct T as (_ & T1 & T2 & _). rewrite T1 in Sa. rewrite T2 in Sp. destruct (cu_mask a c); [discriminate |]. destruct (cu_mask p c); [discriminate |].
    assert (cu_data a c = weighted_sum (x :: l)) as -> by congruence. assert (cu_data p c = weights (x :: l)) as -> by congruence. cbn [orb].
    assert (weights (x :: l) <> 0%Qc -> Qc_eq_bool (weights (x :: l)) 0%Qc = false) as NZ. { intros N. destruct (Qc_eq_bool (weights (x :: l)) 0%Qc) eqn:Z; [apply Qc_eq_bool_iff in Z; contradiction | reflexivity]. }
    split; [intros N; split; [now apply NZ | reflexivity] |]. intros m M NE FF.
    assert (0 < weights (x :: l))%Qc as WP. { apply weights_pos; [exact NE |]. revert FF. apply Forall_impl. tauto. }
    split; [apply NZ; intros Z; rewrite Z in WP; revert WP; apply Qclt_irrefl' || (intros X; now apply (Qclt_not_eq _ _ X)) |].
    destruct (weighted_between _ m M FF) as [B1 B2]. exact (Qc_div_between _ _ m M WP B1 B2).
Qed.
Print Assumptions C139_mean.
Example C139_mean_nonvacuous : exists cubes cubes', foldM (create_fields 4 "x") [] [g_one; g_two] = Ok cubes /\ compute_weighted_mean "x" "Tmean" cubes = Ok cubes' /\
  shown cubes' "x_Tmean_observation_weightedmean" 3 = Some ((qz 280 + qz 290 / qz 4 + qz 270 / qz 2) / (1 + 1 / qz 4 + 1 / qz 2))%Qc /\
  shown cubes' "x_Tmean_observation_weightedmean" 0 = None.
Proof.
  run (foldM (create_fields 4 "x") [] [g_one; g_two]) cubes E.
  run (do c <- foldM (create_fields 4 "x") [] [g_one; g_two]; compute_weighted_mean "x" "Tmean" c) cubes' E'. exists cubes, cubes'. split; [exact E |]. split; [rewrite E in E'; exact E' |].
  split; apply (seen_ok _ _ _ _ _ E'); vc.
Qed.

(* It is not the mean of least variance: precision_sum adds 1 / uncertainty, not 1 / uncertainty squared. *)
Theorem C139_precision_refuted : exists g cubes, create_fields 1 "x" [] g = Ok cubes /\
  gi_observation g = [qz 280; qz 290] /\ gi_uncertainty g = [1%Qc; qz 2] /\
  shown cubes "x_Tmean_precision_sum" 0 = Some (1 + 1 / qz 2)%Qc /\ (1 + 1 / qz 2 <> 1 / (1 * 1) + 1 / (qz 2 * qz 2))%Qc.
Proof.
  set (g := {| gi_observable := "Tmean"; gi_day := 7; gi_indices := [0; 0]; gi_observation := [qz 280; qz 290]; gi_uncertainty := [1%Qc; qz 2] |}).
  run (create_fields 1 "x" [] g) cubes E. exists g, cubes. split; [exact E |]. split; [reflexivity |]. split; [reflexivity |].
  split; [apply (seen_ok _ _ _ _ _ E); vc | vm_compute; discriminate].
Qed.
Print Assumptions C139_precision_refuted.

(* The field named uncertainty_min is not the least uncertainty: it is decided by comparing the observation.  With temperatures in kelvin,
   which exceed every uncertainty, it is the uncertainty of whichever observation came first. *)
Theorem C139_uncertainty_min_refuted : exists g h cubes cubes', create_fields 1 "x" [] g = Ok cubes /\ create_fields 1 "x" [] h = Ok cubes' /\
  gi_uncertainty g = [qz 2; 1%Qc] /\ gi_uncertainty h = [1%Qc; qz 2] /\ gi_observation g = [qz 280; qz 290] /\ gi_observation h = [qz 290; qz 280] /\
  shown cubes "x_Tmean_uncertainty_min" 0 = Some (qz 2) /\ shown cubes' "x_Tmean_uncertainty_min" 0 = Some 1%Qc.
Proof.
  set (g := {| gi_observable := "Tmean"; gi_day := 7; gi_indices := [0; 0]; gi_observation := [qz 280; qz 290]; gi_uncertainty := [qz 2; 1%Qc] |}).
  set (h := {| gi_observable := "Tmean"; gi_day := 7; gi_indices := [0; 0]; gi_observation := [qz 290; qz 280]; gi_uncertainty := [1%Qc; qz 2] |}).
  run (create_fields 1 "x" [] g) cubes E. run (create_fields 1 "x" [] h) cubes' E'. exists g, h, cubes, cubes'. split; [exact E |]. split; [exact E' |].
  do 4 (split; [reflexivity |]). split; [apply (seen_ok _ _ _ _ _ E) | apply (seen_ok _ _ _ _ _ E')]; vc.
Qed.
Print Assumptions C139_uncertainty_min_refuted.
Theorem C139_uncertainty_min_first : forall ncells source cubes g, create_fields ncells source [] g = Ok cubes ->
  List.length (gi_observation g) = List.length (gi_indices g) -> List.length (gi_uncertainty g) = List.length (gi_indices g) ->
  forall c o u rest, map snd (filter (fun x => fst x =? c) (combine (gi_indices g) (combine (gi_observation g) (gi_uncertainty g)))) = (o, u) :: rest ->
  (o < qz (10 ^ 30))%Qc -> Forall (fun ou => (u <= fst ou)%Qc) rest ->
  shown cubes (field source (gi_observable g) "uncertainty_min") c = Some u.
Proof.
  intros n s cubes g E L1 L2 c o u rest El S F.
  destruct (create_fields_inv n s [] g cubes (fun _ => []) L1 L2 (fun d c' => eq_refl) E) as (_ & _ & _ & _ & Hc).
  change (field s (gi_observable g) "uncertainty_min") with (name_of s (gi_observable g) DUncMin). rewrite (shown_holds _ _ _ _ DUncMin c Hc). cbv beta. rewrite app_nil_l.
  change (sel c (obs_of g)) with (map snd (filter (fun x => fst x =? c) (combine (gi_indices g) (combine (gi_observation g) (gi_uncertainty g))))). rewrite El. f_equal.
  cbn [fold_left]. assert (fold_d DUncMin (initial_value DUncMin) (o, u) = u) as ->.
  { cbn [fold_d initial_value fst snd]. destruct (Qclt_bool o BIG) eqn:X; [reflexivity |]. exfalso. apply (proj2 (Qclt_bool_iff o BIG)) in S. congruence. }
  apply fold_unc_min_first. intros ou I. rewrite Forall_forall in F. now apply F.
Qed.
Print Assumptions C139_uncertainty_min_first.
Example C139_uncertainty_min_first_nonvacuous : exists cubes, create_fields 4 "x" [] g_one = Ok cubes /\ shown cubes "x_Tmean_uncertainty_min" 3 = Some 1%Qc /\ (qz 280 < qz (10 ^ 30))%Qc /\ (1 <= qz 290)%Qc.
Proof.
  run (create_fields 4 "x" [] g_one) cubes E. exists cubes. split; [exact E |]. split; [apply (seen_ok _ _ _ _ _ E); vc |]. split; [apply Qclt_bool_iff; vc | vm_compute; discriminate].
Qed.

(* Computing the means again after more observations does not renew them: another field of the same name is added behind the old one,
   and readers by name find the old. *)
Theorem C139_renewed_mean_refuted : exists cubes cubes' later final,
  create_fields 4 "x" [] g_one = Ok cubes /\ compute_weighted_mean "x" "Tmean" cubes = Ok cubes' /\
  create_fields 4 "x" cubes' g_two = Ok later /\ compute_weighted_mean "x" "Tmean" later = Ok final /\
  shown final "x_Tmean_count" 3 = Some (qz 3) /\
  shown final "x_Tmean_observation_weightedmean" 3 = shown cubes' "x_Tmean_observation_weightedmean" 3 /\
  shown final "x_Tmean_observation_weightedmean" 3 = Some (qz 282) /\
  List.length (filter (fun k => String.eqb (cu_name k) "x_Tmean_observation_weightedmean") final) = 2%nat.
Proof.
  run (create_fields 4 "x" [] g_one) c1 E1.
  run (do c <- create_fields 4 "x" [] g_one; compute_weighted_mean "x" "Tmean" c) c2 E2.
  run (do c <- (do c <- create_fields 4 "x" [] g_one; compute_weighted_mean "x" "Tmean" c); create_fields 4 "x" c g_two) c3 E3.
  run (do c <- (do c <- (do c <- create_fields 4 "x" [] g_one; compute_weighted_mean "x" "Tmean" c); create_fields 4 "x" c g_two); compute_weighted_mean "x" "Tmean" c) c4 E4.
  exists c1, c2, c3, c4. split; [exact E1 |].
  assert (compute_weighted_mean "x" "Tmean" c1 = Ok c2) as F2 by (rewrite E1 in E2; exact E2).
  assert (create_fields 4 "x" c2 g_two = Ok c3) as F3 by (rewrite E2 in E3; exact E3).
  assert (compute_weighted_mean "x" "Tmean" c3 = Ok c4) as F4 by (rewrite E3 in E4; exact E4).
  do 3 (split; [assumption |]).
  assert (shown c4 "x_Tmean_observation_weightedmean" 3 = Some (qz 282)) as S4 by (apply (seen_ok _ _ _ _ _ E4); vc).
  assert (shown c2 "x_Tmean_observation_weightedmean" 3 = Some (qz 282)) as S2 by (apply (seen_ok _ _ _ _ _ E2); vc).
  split; [apply (seen_ok _ _ _ _ _ E4); vc |]. split; [congruence |]. split; [exact S4 |].
  transitivity (match (do c <- (do c <- (do c <- create_fields 4 "x" [] g_one; compute_weighted_mean "x" "Tmean" c); create_fields 4 "x" c g_two); compute_weighted_mean "x" "Tmean" c) with
    Ok final => List.length (filter (fun k => String.eqb (cu_name k) "x_Tmean_observation_weightedmean") final) | Err _ => 0%nat end); [rewrite E4; reflexivity | vc].
Qed.
Print Assumptions C139_renewed_mean_refuted.

(* A whole run over files of sources: when it succeeds, it saves for every input (each source and observable given once, observables named
   without underscore) fields that tell of exactly the observations in its file, each in the cell of its location. *)
Theorem C139_run : forall fs num inputs day cubes, combine_run fs num inputs day = Ok cubes ->
  NoDup (map (fun d => (di_source d, di_observable d)) inputs) -> Forall (fun d => plain (di_observable d)) inputs ->
  forall d table recs place c, In d inputs -> contents fs num day d table recs -> places table recs place ->
  tells (fun x => shown cubes (field (di_source d) (di_observable d) x) c) (in_cell_list place recs c) /\
  shown cubes (field (di_source d) (di_observable d) "observation_weightedmean") c = weighted_mean (in_cell_list place recs c).
Proof.
  intros fs num inputs day cubes H ND P d table recs place c I C Pl. pose proof (combine_run_state _ _ _ _ _ H P) as R.
  assert (step_ok fs num day d) as S. { pose proof (proj1 (combine_run_ok fs num inputs day) (ex_intro _ _ H)) as F. rewrite Forall_forall in F. now apply F. }
  rewrite <- (input_list_cell _ _ _ _ _ _ _ c S C Pl). destruct (pair_list_unique fs num day inputs d c ND I) as (E & pre & post & Ei & Np). split.
  - rewrite <- E. apply tells_holds. apply (rs_holds _ _ _ _ _ R). rewrite Forall_forall in P. now apply P.
  - exact (rs_mean _ _ _ _ _ R pre d post c Ei Np).
Qed.
Print Assumptions C139_run.

(* It saves those fields and no others. *)
Theorem C139_run_names : forall fs num inputs day cubes, combine_run fs num inputs day = Ok cubes -> Forall (fun d => plain (di_observable d)) inputs ->
  forall n, In n (map cu_name cubes) <-> exists d x, In d inputs /\ In x (the_fields ++ ["observation_weightedmean"%string]) /\ n = field (di_source d) (di_observable d) x.
Proof. intros fs num inputs day cubes H P n. exact (rs_names _ _ _ _ _ (combine_run_state _ _ _ _ _ H P) n). Qed.
Print Assumptions C139_run_names.

(* A run succeeds exactly when every input has readable files, at least one observation, a table of locations all on the grid, known
   locations and no zero uncertainty. *)
Theorem C139_run_succeeds : forall fs num inputs day,
  (exists cubes, combine_run fs num inputs day = Ok cubes) <-> Forall (acceptable fs num day) inputs.
Proof.
  intros fs num inputs day. rewrite combine_run_ok. split; apply Forall_impl; intros d; apply step_ok_acceptable.
Qed.
Print Assumptions C139_run_succeeds.

Definition dset (m : list Z) : observations := {| o_mask := map (fun _ => false) m; o_time := TScalar (qz 7); o_location := map (fun x => x mod 2) m; o_measurement := m; o_unc := map (fun _ => 2) m; o_cor := [] |}.
Definition dfs : files := fun p =>
  if String.eqb p "loc" then Some (write_lookup {| lk_uuid := u1; lk_table := [(10, 20); (30, 40)] |})
  else if String.eqb p "rng" then Some (write_ranges [])
  else if String.eqb p "obs" then Some (write_day u1 (dset [280; 281; 284]) 7)
  else if String.eqb p "none" then Some (write_day u1 (dset []) 7)
  else None.
Definition din (s : string) (f : option string) : diag_input := {| di_source := s; di_observable := "Tmean"; di_ranges := "rng"; di_locations := "loc"; di_observations := f |}.
Definition cell_a : Z := 400 * 1440 + 800.
Definition cell_b : Z := 480 * 1440 + 880.
Example C139_run_nonvacuous : exists cubes, combine_run dfs qz [din "x" (Some "obs"%string); din "y" (Some "obs"%string)] 7 = Ok cubes /\
  shown cubes "x_Tmean_count" cell_a = Some (qz 2) /\ shown cubes "y_Tmean_observation_weightedmean" cell_a = Some (qz 282) /\ shown cubes "y_Tmean_count" cell_b = Some (qz 1) /\
  shown cubes "y_Tmean_count" 0 = None /\ contents dfs qz 7 (din "x" (Some "obs"%string)) [(qz 10, qz 20); (qz 30, qz 40)] [(0, (qz 280, qz 2)); (1, (qz 281, qz 2)); (0, (qz 284, qz 2))] /\
  places [(qz 10, qz 20); (qz 30, qz 40)] [(0, (qz 280, qz 2)); (1, (qz 281, qz 2)); (0, (qz 284, qz 2))] (fun l => if l =? 0 then cell_a else cell_b) /\ plain "Tmean".
Proof.
  run (combine_run dfs qz [din "x" (Some "obs"%string); din "y" (Some "obs"%string)] 7) cubes E. exists cubes. split; [exact E |].
  do 4 (split; [apply (seen_ok _ _ _ _ _ E); vc |]). split.
  - do 7 eexists. do 7 (split; [vm_compute; reflexivity |]). split; reflexivity.
  - split.
    + intros r ll I El. assert (forall i j lat lon, 0 <= i < 720 -> 0 <= j < 1440 -> covers LAT i lat -> covers LON j lon -> in_grid_cell LAT LON (i * 1440 + j) (lat, lon)) as G.
      { intros i j lat lon Hi Hj A B. exists i, j. split; [split; [exact Hi | now left] | split; [split; [exact Hj | now left] | reflexivity]]. }
      assert (covers LAT 400 (qz 10)) as A1 by (exists 0%Qc; split; [apply Qcle_refl | split; [reflexivity | now apply Qc_is_canon]]).
      assert (covers LON 800 (qz 20)) as A2 by (exists 0%Qc; split; [apply Qcle_refl | split; [reflexivity | now apply Qc_is_canon]]).
      assert (covers LAT 480 (qz 30)) as B1 by (exists 0%Qc; split; [apply Qcle_refl | split; [reflexivity | now apply Qc_is_canon]]).
      assert (covers LON 880 (qz 40)) as B2 by (exists 0%Qc; split; [apply Qcle_refl | split; [reflexivity | now apply Qc_is_canon]]).
      destruct I as [<- | [<- | [<- | []]]]; cbn in El; injection El as <-; [apply (G 400 800) | apply (G 480 880) | apply (G 400 800)]; (lia || assumption).
    + unfold plain. cbn. intros H. repeat (destruct H as [H | H]; [discriminate |]). exact H.
Qed.

(* A source without observations on the day, whether its file is empty or it has no file name, ends the whole run with an error, though a
   source of no observations is provided for (a "missing" source): nothing is saved for the other sources either. *)
Theorem C139_empty_refuted : exists fs num, is_ok (combine_run fs num [din "x" (Some "obs"%string)] 7) = true /\
  combine_run fs num [din "x" (Some "obs"%string); din "y" None] 7 = Err ValueError /\
  combine_run fs num [din "x" (Some "obs"%string); din "y" (Some "none"%string)] 7 = Err ValueError.
Proof. exists dfs, qz. repeat split; vm_compute; reflexivity. Qed.
Print Assumptions C139_empty_refuted.

(* Latitude is taken for a circular axis as longitude is: an observation at the north pole is counted in the southernmost row. *)
Theorem C139_pole_refuted : exists day cells, connect (global_axes day) [(qz 90, - qz 180)%Qc; (- qz 90, - qz 180)%Qc] = Ok cells /\ cells = [0; 0] /\ (qz 90 <> - qz 90)%Qc.
Proof. exists 7. eexists. split; [vm_compute; reflexivity |]. split; [reflexivity | vm_compute; discriminate]. Qed.
Print Assumptions C139_pole_refuted.

(* Two different pairs of source and observable have different fields if the observables have no underscore; not otherwise. *)
Theorem C139_names : forall s o d s' o' d', plain o -> plain o' -> In d (the_fields ++ ["observation_weightedmean"%string]) -> In d' (the_fields ++ ["observation_weightedmean"%string]) ->
  field s o d = field s' o' d' -> s = s' /\ o = o' /\ d = d'.
Proof. exact field_name_inj. Qed.
Print Assumptions C139_names.
Example C139_names_nonvacuous : plain "Tmin" /\ plain "Tmax" /\ In "count"%string the_fields.
Proof. split; [| split; [| now left]]; unfold plain; cbn; intros H; repeat (destruct H as [H | H]; [discriminate |]); exact H. Qed.
Theorem C139_names_refuted : exists s o s' o', (s, o) <> (s', o') /\ forall d, field s o d = field s' o' d.
Proof. exists "insitu"%string, "land_Tmin"%string, "insitu_land"%string, "Tmin"%string. split; [discriminate | reflexivity]. Qed.
Print Assumptions C139_names_refuted.

(* ---- C140 *)

(* The statistics of a span of days: its length, how many of its days have no file, and the number of observations in the others. *)
Theorem C140_statistics : forall fs base src obs startdate enddate st, summary_statistics fs base src obs startdate enddate = Ok st ->
  exists rangefile ranges (count : Z -> option Z), fs (py_filename_ranges base src obs) = Some rangefile /\ read_ranges rangefile = Ok ranges /\
  let days := zrange (day_of startdate) (day_of enddate + 1) in
  (forall day, In day days -> day_count fs base src obs (List.length ranges) day (count day)) /\
  st_days st = Z.max 0 (day_of enddate - day_of startdate + 1) /\
  st_missing st = zlen (filter (fun day => match count day with None => true | _ => false end) days) /\
  st_total st = sumZ (map (fun day => match count day with None => 0 | Some n => n end) days) /\
  st_mean st = (if st_days st =? st_missing st then None else Some (qz (st_total st) / qz (st_days st - st_missing st))%Qc).
Proof.
  intros fs base src obs s e st H. unfold summary_statistics, count_all_days, fopen in H.
  destruct (fs (py_filename_ranges base src obs)) as [rf |] eqn:E1; [| discriminate]. cbn [bind] in H. destruct (read_ranges rf) as [ranges |] eqn:E2; [| discriminate]. cbn [bind] in H.
  set (days := zrange (day_of s) (day_of e + 1)) in *.
  destruct (mapM (count_single_day fs base src obs (List.length ranges)) days) as [counts |] eqn:E3; [| discriminate]. cbn [bind] in H. assert (st = summary counts) as -> by congruence. clear H.
  set (count := fun day => match count_single_day fs base src obs (List.length ranges) day with Ok x => x | Err _ => None end).
  assert (counts = map count days /\ forall day, In day days -> count_single_day fs base src obs (List.length ranges) day = Ok (count day)) as [-> Hc].
  { clear - E3. revert counts E3. induction days as [| d days IH]; intros counts E; [assert (counts = []) as -> by (cbn in E; congruence); split; [reflexivity | intros ? []] |].
    cbn [mapM] in E. destruct (count_single_day fs base src obs (List.length ranges) d) as [x |] eqn:Ed; [| discriminate]. cbn [bind] in E.
    destruct (mapM (count_single_day fs base src obs (List.length ranges)) days) as [xs |]; [| discriminate]. cbn [bind] in E. destruct (IH xs eq_refl) as [-> B].
    assert (counts = x :: map count days) as -> by congruence. assert (count d = x) as Cd by (unfold count; now rewrite Ed). split; [cbn [map]; now rewrite Cd |].
    intros day [<- | I]; [now rewrite Cd | now apply B]. }
  exists rf, ranges, count. split; [reflexivity |]. split; [exact E2 |]. cbv zeta. split; [| split; [| split; [| split]]].
  - intros day I. specialize (Hc day I). unfold count_single_day in Hc. unfold day_count. destruct (py_filename_observations base src obs day) as [path |]; [| discriminate]. cbn [bind] in Hc.
    exists path. split; [reflexivity |]. destruct (fs path) as [data |] eqn:Ef; [| assert (count day = None) as -> by congruence; reflexivity].
    destruct (read_observation_count (List.length ranges) data) as [n |] eqn:En; [| discriminate]. cbn [bind] in Hc. assert (count day = Some n) as -> by congruence. exists data. split; [reflexivity |].
    intros uuid. pose proof (C27_count (List.length ranges) data uuid day) as K. destruct (read_day (List.length ranges) data uuid day) as [o |]; [| congruence].
    destruct K as [K _]. exists o. split; [reflexivity | congruence].
  - cbn [summary st_days]. unfold zlen. rewrite map_length. unfold days. rewrite zrange_length. lia.
  - cbn [summary st_missing]. rewrite map_map. generalize days. intros l. induction l as [| d l IH]; [reflexivity |]. cbn [map filter]. unfold zlen in *. destruct (count d); cbn [List.length]; match goal with |- sumZ (?x :: ?r) = _ => change (sumZ (x :: r)) with (x + sumZ r) end; lia.
  - cbn [summary st_total]. rewrite map_map. reflexivity.
  - cbn [summary st_mean st_days st_missing st_total]. match goal with |- context[?a - ?b =? 0] => replace (a - b =? 0) with (a =? b) by lia end. reflexivity.
Qed.
Print Assumptions C140_statistics.

(* Dates are at midnight, so that the days counted are those of the calendar from the one to the other. *)
Theorem C140_days : forall k, day_of (EPOCH + k * DAY) = k.
Proof.
  intros k. unfold day_of, int_days. replace (EPOCH + k * DAY) with (EPOCH + (k * 86400) * SECOND) by (unfold DAY, SECOND; lia). rewrite days_number_whole.
  replace (k * 86400 * SECOND) with (k * DAY) by (unfold DAY, SECOND; lia). apply Z.quot_mul. discriminate.
Qed.
Print Assumptions C140_days.

(* Counting fails only if the ranges file, or a day's file that is there, cannot be read, or the year is beyond the calendar. *)
Theorem C140_succeeds : forall fs base src obs startdate enddate rangefile ranges, fs (py_filename_ranges base src obs) = Some rangefile -> read_ranges rangefile = Ok ranges ->
  (forall day, day_of startdate <= day <= day_of enddate -> exists x, day_count fs base src obs (List.length ranges) day x) ->
  exists st, summary_statistics fs base src obs startdate enddate = Ok st.
Proof.
  intros fs base src obs s e rf ranges E1 E2 H. unfold summary_statistics, count_all_days, fopen. rewrite E1. cbn [bind]. rewrite E2. cbn [bind].
  destruct (mapM_all (count_single_day fs base src obs (List.length ranges)) (zrange (day_of s) (day_of e + 1))) as [cs ->]; [| cbn [bind]; eauto].
  intros day I. apply zrange_In in I. destruct (H day ltac:(lia)) as (x & path & P & Q). unfold count_single_day. rewrite P. cbn [bind]. destruct x as [n |].
  - destruct Q as (data & -> & K). destruct (K []) as (o & R & _). pose proof (C27_count (List.length ranges) data [] day) as C. rewrite R in C. destruct C as [-> _]. cbn [bind]. eauto.
  - rewrite Q. eauto.
Qed.
Print Assumptions C140_succeeds.
Definition cfs : files := fun p =>
  if String.eqb p "b/x_Tmean_localcorrelationranges.bin" then Some (write_ranges [])
  else if String.eqb p "b/x/1850/x_Tmean_18500108.bin" then Some (write_day u1 (dset [280; 281; 284]) 7)
  else if String.eqb p "b/x/1850/x_Tmean_18500109.bin" then Some (write_day u1 (dset []) 8)
  else None.
Example C140_statistics_nonvacuous : summary_statistics cfs "b" "x" "Tmean" (EPOCH + 6 * DAY) (EPOCH + 8 * DAY) =
  Ok {| st_days := 3; st_total := 3; st_missing := 1; st_mean := Some (qz 3 / qz 2)%Qc |}.
Proof. vm_compute. reflexivity. Qed.

(* Over many sources: each source's each observable has its own statistics or its own error, and one that fails spoils no other. *)
Lemma dict_get_set {A} d k v n : @dict_get A (dict_set d k v) n = if String.eqb n k then Some v else dict_get d n.
Proof.
  induction d as [| [k' v'] r IH]; cbn [dict_set dict_get]; [reflexivity |]. destruct (String.eqb k k') eqn:E.
  - apply String.eqb_eq in E. subst k'. cbn [dict_get]. destruct (String.eqb n k); reflexivity.
  - cbn [dict_get]. destruct (String.eqb n k') eqn:E'; [| exact IH]. apply String.eqb_eq in E'. subst k'. rewrite String.eqb_sym, E. reflexivity.
Qed.
Theorem C140_sources : forall fs base sources s o, NoDup (map sd_source sources) -> In s sources -> In o (sd_observables s) ->
  exists results, dict_get (count_sources fs base sources) (sd_source s) = Some results /\
    dict_get results o = Some (summary_statistics fs base (sd_source s) o (sd_start s) (sd_end s)).
Proof.
  intros fs base sources s o ND I Io. exists (source_results fs base s). split.
  - unfold count_sources. assert (forall d, dict_get (fold_left (fun d s => dict_set d (sd_source s) (source_results fs base s)) sources d) (sd_source s) = Some (source_results fs base s)) as G; [| apply G].
    induction sources as [| x l IH]; [destruct I |]. intros d. cbn [map] in ND. inversion ND as [| ? ? N ND']; subst. cbn [fold_left]. destruct I as [-> | I]; [| now apply IH].
    clear IH. assert (forall l d, ~ In (sd_source s) (map sd_source l) -> dict_get (fold_left (fun d s => dict_set d (sd_source s) (source_results fs base s)) l d) (sd_source s) = dict_get d (sd_source s)) as K.
    { intros l'. induction l' as [| y l' IH]; intros d' M; [reflexivity |]. cbn [fold_left]. rewrite IH by (intros X; apply M; now right). rewrite dict_get_set.
      destruct (String.eqb (sd_source s) (sd_source y)) eqn:E; [| reflexivity]. apply String.eqb_eq in E. exfalso. apply M. left. congruence. }
    rewrite K by exact N. rewrite dict_get_set, String.eqb_refl. reflexivity.
  - unfold source_results. set (v := fun o => summary_statistics fs base (sd_source s) o (sd_start s) (sd_end s)).
    assert (forall l d, dict_get (fold_left (fun d o => dict_set d o (v o)) l d) o = if existsb (String.eqb o) l then Some (v o) else dict_get d o) as G.
    { intros l. induction l as [| y l IH]; intros d; [reflexivity |]. cbn [fold_left existsb]. rewrite IH, dict_get_set. destruct (String.eqb o y) eqn:E; cbn [orb]; destruct (existsb (String.eqb o) l); try reflexivity.
      apply String.eqb_eq in E. now subst. }
    change (dict_get (fold_left (fun d o => dict_set d o (v o)) (sd_observables s) []) o = Some (v o)). rewrite G.
    assert (existsb (String.eqb o) (sd_observables s) = true) as -> by (apply existsb_exists; exists o; split; [exact Io | apply String.eqb_refl]). reflexivity.
Qed.
Print Assumptions C140_sources.
Definition sd (s : string) (os : list string) : source_details := {| sd_source := s; sd_observables := os; sd_start := EPOCH + 6 * DAY; sd_end := EPOCH + 8 * DAY |}.
Example C140_sources_nonvacuous : dict_get (count_sources cfs "b" [sd "y" ["Tmean"%string]; sd "x" ["Tmin"%string; "Tmean"%string]]) "x" =
    Some [("Tmin"%string, Err IOErrorE); ("Tmean"%string, Ok {| st_days := 3; st_total := 3; st_missing := 1; st_mean := Some (qz 3 / qz 2)%Qc |})].
Proof. vm_compute. reflexivity. Qed.
(* A source listed twice, say with different observables, keeps only the results of its last entry. *)
Theorem C140_repeated_refuted : exists fs base sources, In (sd "x" ["Tmean"%string]) sources /\ is_ok (summary_statistics fs base "x" "Tmean" (EPOCH + 6 * DAY) (EPOCH + 8 * DAY)) = true /\
  exists results, dict_get (count_sources fs base sources) "x" = Some results /\ dict_get results "Tmean" = None.
Proof.
  exists cfs, "b"%string, [sd "x" ["Tmean"%string]; sd "x" ["Tmin"%string]]. split; [now left |]. split; [vm_compute; reflexivity |]. eexists. split; vm_compute; reflexivity.
Qed.
Print Assumptions C140_repeated_refuted.

(* ---- C141 *)

(* The listing takes the table of locations that the analysis takes, for every source except satellite data over the
   ocean, and that of the satellite data for lakes, which the analysis does not take in. *)
Theorem C141_tables : forall base src, src <> "surfaceairmodel_ocean"%string ->
  option_map (join_one base) (inspect_fixed src) = if String.eqb src "surfaceairmodel_lake" then py_filename_lookup base "surfaceairmodel_land" else py_filename_lookup base src.
Proof.
  intros base src N. destruct (String.eqb_spec src "surfaceairmodel_lake") as [-> | NL]; [reflexivity |]. unfold py_filename_lookup. f_equal. unfold inspect_fixed, py_fixed_lookup.
  repeat match goal with |- context [String.eqb src ?s] => destruct (String.eqb_spec src s) as [-> |]; [first [reflexivity | exfalso; now apply N | exfalso; now apply NL] |] end. reflexivity.
Qed.
Print Assumptions C141_tables.
Example C141_tables_nonvacuous : option_map (join_one "b") (inspect_fixed "insitu_land") = Some "b/locationlookup_insitu_land.bin"%string /\
  option_map (join_one "b") (inspect_fixed "surfaceairmodel_ice") = Some "b/locationlookup_satellite.bin"%string /\ inspect_fixed "insitu_ocean" = None.
Proof. repeat split. Qed.
(* The listing of a day: one item for each observation of its file, in its order, with the coordinates of its location. *)
Theorem C141_listing : forall fs num base src obs date items, inspect fs num base src obs date = Ok items ->
  exists rangefile ranges locname locfile l obsname obsfile o,
    fs (py_filename_ranges base src obs) = Some rangefile /\ read_ranges rangefile = Ok ranges /\
    match inspect_fixed src with Some f => locname = join_one base f | None => py_filename_mobile_locations base src obs (day_of date) = Ok locname end /\
    fs locname = Some locfile /\ read_lookup locfile = Ok l /\
    py_filename_observations base src obs (day_of date) = Ok obsname /\ fs obsname = Some obsfile /\
    read_day (List.length ranges) obsfile (lk_uuid l) (day_of date) = Ok o /\
    Forall2 (fun r i => let '(loc, m, u, c) := r in it_m i = num m /\ it_u i = num u /\ it_c i = map num c /\
               exists ll, nth_error (lk_table l) (Z.to_nat loc) = Some ll /\ it_lat i = num (fst ll) /\ it_lon i = num (snd ll)) (records o) items.
Proof.
  intros fs num base src obs date items H. unfold inspect, fopen in H. cbv zeta in H.
  destruct (fs (py_filename_ranges base src obs)) as [rf |] eqn:E1; [| discriminate]. cbn [bind] in H. destruct (read_ranges rf) as [ranges |] eqn:E2; [| discriminate]. cbn [bind] in H.
  destruct (match inspect_fixed src with Some f => Ok (join_one base f) | None => py_filename_mobile_locations base src obs (day_of date) end) as [locname |] eqn:E3; [| discriminate]. cbn [bind] in H.
  destruct (fs locname) as [lf |] eqn:E4; [| discriminate]. cbn [bind] in H. destruct (read_lookup lf) as [l |] eqn:E5; [| discriminate]. cbn [bind] in H.
  destruct (py_filename_observations base src obs (day_of date)) as [on |] eqn:E6; [| discriminate]. cbn [bind source_observations] in H. unfold fopen in H.
  destruct (fs on) as [ob |] eqn:E7; [| discriminate]. cbn [bind] in H. destruct (read_day (List.length ranges) ob (lk_uuid l) (day_of date)) as [o |] eqn:E8; [| discriminate]. cbn [bind] in H.
  exists rf, ranges, locname, lf, l, on, ob, o. split; [reflexivity |]. split; [exact E2 |].
  split; [destruct (inspect_fixed src); [congruence | exact E3] |]. split; [exact E4 |]. split; [exact E5 |]. split; [reflexivity |]. split; [exact E7 |]. split; [exact E8 |].
  assert (List.length (o_unc o) = List.length (o_measurement o) /\ Forall (fun c => List.length c = List.length (o_measurement o)) (o_cor o)) as [Lu Lk].
  { unfold read_day in E8. destruct (read_contents (List.length ranges) ob (lk_uuid l)) as [rows |]; [| discriminate]. cbn [bind] in E8.
    match type of E8 with Ok ?t = _ => assert (o = t) as -> by congruence end. cbn [o_unc o_measurement o_cor]. unfold column. rewrite !map_length. split; [reflexivity |].
    apply Forall_forall. intros c I. apply in_map_iff in I. destruct I as (k & <- & _). now rewrite !map_length. }
  cbn [numbers s_measurement] in H. rewrite map_length in H. unfold records.
  assert (forall n j, In j (seq 0 n) -> (j < n)%nat) as SQ by (intros n j I; apply in_seq in I; lia). specialize (SQ (List.length (o_measurement o))).
  revert H SQ. generalize (seq 0 (List.length (o_measurement o))) as is. intros is. revert items. induction is as [| i is IH]; intros items H SQ.
  - cbn in H. assert (items = []) as -> by congruence. constructor.
  - cbn [mapM] in H. destruct (inspect_item num (lk_table l) (numbers num o) i) as [it |] eqn:Ei; [| discriminate]. cbn [bind] in H.
    destruct (mapM (inspect_item num (lk_table l) (numbers num o)) is) as [its |]; [| discriminate]. cbn [bind] in H. assert (items = it :: its) as -> by congruence. cbn [map]. constructor; [| apply IH; [reflexivity | intros j I; apply SQ; now right]].
    specialize (SQ i (or_introl eq_refl)).
    unfold inspect_item in Ei. cbn [numbers s_location s_measurement s_unc s_cor] in Ei. unfold at_id in Ei. destruct (nth_error (lk_table l) (Z.to_nat (nth i (o_location o) 0))) as [ll |] eqn:El; [| discriminate].
    cbn [bind] in Ei. match type of Ei with Ok ?t = _ => assert (it = t) as -> by congruence end. unfold record_at. cbn [it_m it_u it_c it_lat it_lon].
    split; [| split; [| split]].
    + rewrite (nth_indep (map num _) 0%Qc (num 0)) by (rewrite map_length; lia). apply map_nth.
    + rewrite (nth_indep (map num _) 0%Qc (num 0)) by (rewrite map_length; lia). apply map_nth.
    + rewrite !map_map. apply map_ext_in. intros c I. rewrite Forall_forall in Lk. specialize (Lk c I). rewrite (nth_indep (map num _) 0%Qc (num 0)) by (rewrite map_length; lia). apply map_nth.
    + exists ll. repeat split; assumption.
Qed.
Print Assumptions C141_listing.
Definition ifs : files := fun p =>
  if String.eqb p "b/insitu_land_Tmean_localcorrelationranges.bin" then Some (write_ranges [])
  else if String.eqb p "b/locationlookup_insitu_land.bin" then Some (write_lookup {| lk_uuid := u1; lk_table := [(10, 20); (30, 40)] |})
  else if String.eqb p "b/insitu_land/1850/insitu_land_Tmean_18500108.bin" then Some (write_day u1 (dset [280; 281; 284]) 7)
  else if String.eqb p "b/surfaceairmodel_ocean_Tmean_localcorrelationranges.bin" then Some (write_ranges [])
  else if String.eqb p "b/locationlookup_satellite.bin" then Some (write_lookup {| lk_uuid := u1; lk_table := [(10, 20); (30, 40)] |})
  else if String.eqb p "b/surfaceairmodel_ocean/1850/surfaceairmodel_ocean_Tmean_18500108.bin" then Some (write_day u1 (dset [280; 281; 284]) 7)
  else None.
Example C141_listing_nonvacuous : inspect ifs qz "b" "insitu_land" "Tmean" (EPOCH + 7 * DAY) =
  Ok [ {| it_m := qz 280; it_u := qz 2; it_c := []; it_lat := qz 10; it_lon := qz 20 |};
       {| it_m := qz 281; it_u := qz 2; it_c := []; it_lat := qz 30; it_lon := qz 40 |};
       {| it_m := qz 284; it_u := qz 2; it_c := []; it_lat := qz 10; it_lon := qz 20 |} ].
Proof. vm_compute. reflexivity. Qed.

(* The help names surfaceairmodel_ocean, but its locations are then sought as those of a moving source: with the shared table of
   satellite locations, by which the analysis itself reads that source, the listing fails. *)
Theorem C141_ocean_refuted : exists fs base obs date table day_file,
  py_filename_lookup base "surfaceairmodel_ocean" = Some (base ++ "/locationlookup_satellite.bin")%string /\
  fs (base ++ "/locationlookup_satellite.bin")%string = Some table /\ is_ok (read_lookup table) = true /\
  fs (py_filename_ranges base "surfaceairmodel_ocean" obs) = Some (write_ranges []) /\
  (exists path, py_filename_observations base "surfaceairmodel_ocean" obs (day_of date) = Ok path /\ fs path = Some day_file) /\
  is_ok (read_day 0 day_file [] (day_of date)) = true /\
  inspect fs qz base "surfaceairmodel_ocean" obs date = Err IOErrorE.
Proof.
  exists ifs, "b"%string, "Tmean"%string, (EPOCH + 7 * DAY). do 2 eexists. split; [vm_compute; reflexivity |]. split; [vm_compute; reflexivity |]. split; [vm_compute; reflexivity |].
  split; [vm_compute; reflexivity |]. split; [eexists; split; vm_compute; reflexivity |]. split; vm_compute; reflexivity.
Qed.
Print Assumptions C141_ocean_refuted.
