(* C170: periods of models; C171: jobs; C166 for the extraction of station biases *)
From Coq Require Import QArith Qround Qcanon String Ascii Lqa.
From Verif Require Fill_Model Fill_Proofs Mesh_Model Mesh_Spec Mesh_Proofs Mesh_Props.
From Verif Require Import Base Time_Model Time_Proofs Batch_Model Obs_Model Obs_Spec NcObj_Model Stn_Model Land_Model Land_Spec Tools_Model Tools_Spec Tools_Props Tools_Props2 Run_Model Run_Spec.
Local Open Scope Z_scope.
Local Open Scope list_scope.

(* ---- C170 *)
Lemma times_le (a b q : Q) : (0 < q)%Q -> (a <= b / q)%Q -> (a * q <= b)%Q.
Proof. intros P H. rewrite <- (Qmult_div_r b q) by (intros E; rewrite E in P; discriminate P). rewrite (Qmult_comm q). apply Qmult_le_compat_r; [exact H|]. now apply Qlt_le_weak. Qed.
Lemma times_ge (a b q : Q) : (0 < q)%Q -> (b / q <= a)%Q -> (b <= a * q)%Q.
Proof. intros P H. rewrite <- (Qmult_div_r b q) at 1 by (intros E; rewrite E in P; discriminate P). rewrite (Qmult_comm q). apply Qmult_le_compat_r; [exact H|]. now apply Qlt_le_weak. Qed.
Lemma times_lt (a b q : Q) : (0 < q)%Q -> (b / q < a)%Q -> (b < a * q)%Q.
Proof. intros P H. rewrite <- (Qmult_div_r b q) at 1 by (intros E; rewrite E in P; discriminate P). rewrite (Qmult_comm q). apply Qmult_lt_compat_r; [exact P|exact H]. Qed.
Lemma times_gt (a b q : Q) : (0 < q)%Q -> (a < b / q)%Q -> (a * q < b)%Q.
Proof. intros P H. rewrite <- (Qmult_div_r b q) by (intros E; rewrite E in P; discriminate P). rewrite (Qmult_comm q). apply Qmult_lt_compat_r; [exact P|exact H]. Qed.
(* The largest whole multiple that is not above, the smallest that is not below, and one at most half a step away. *)
Theorem C170_floor : forall value q, (0 < q)%Q -> multiple_of q (floor_to_quantisation value q) /\ (floor_to_quantisation value q <= value < floor_to_quantisation value q + q)%Q.
Proof.
  intros value q P. unfold floor_to_quantisation. split; [eexists; reflexivity|]. split; [apply times_le; [exact P|apply Qfloor_le]|].
  setoid_replace (inject_Z (Qfloor (value / q)) * q + q)%Q with (inject_Z (Qfloor (value / q) + 1) * q)%Q by (rewrite inject_Z_plus; ring). apply times_lt; [exact P|apply Qlt_floor].
Qed.
Print Assumptions C170_floor.
Theorem C170_ceil : forall value q, (0 < q)%Q -> multiple_of q (ceil_to_quantisation value q) /\ (value <= ceil_to_quantisation value q < value + q)%Q.
Proof.
  intros value q P. unfold ceil_to_quantisation. split; [eexists; reflexivity|]. split; [apply times_ge; [exact P|apply Qle_ceiling]|].
  apply (Qplus_lt_l _ _ (- q)). setoid_replace (value + q + - q)%Q with value by ring.
  setoid_replace (inject_Z (Qceiling (value / q)) * q + - q)%Q with (inject_Z (Qceiling (value / q) - 1) * q)%Q by (unfold Z.sub; rewrite inject_Z_plus; change (inject_Z (- (1))) with (- (1))%Q; ring). apply times_gt; [exact P|apply Qceiling_lt].
Qed.
Print Assumptions C170_ceil.
Theorem C170_round : forall value q, (0 < q)%Q -> multiple_of q (round_to_quantisation value q) /\ (value - q / 2 < round_to_quantisation value q <= value + q / 2)%Q.
Proof.
  intros value q P. destruct (C170_floor (value + q / 2) q P) as [M [L U]]. change (floor_to_quantisation (value + q / 2) q) with (round_to_quantisation value q) in *. split; [exact M|]. split; [|exact L].
  set (r := round_to_quantisation value q) in *. assert (E : (q == q / 2 + q / 2)%Q) by field. lra.
Qed.
Print Assumptions C170_round.
(* Finding: for whole numbers the quotient is already rounded down, and the result can be below the value. *)
Theorem C170_ceil_int_refuted : forall value q, 0 < q -> value mod q <> 0 -> ceil_to_quantisation_int value q < value.
Proof. intros value q P N. unfold ceil_to_quantisation_int. pose proof (Z.div_mod value q ltac:(lia)). pose proof (Z.mod_pos_bound value q P). lia. Qed.
Print Assumptions C170_ceil_int_refuted.
(* The period of a model contains the period asked for and is at most one step longer at each end; its nodes are one step apart. *)
Theorem C170_period : forall start_time end_time spacing, (0 < spacing)%Q -> (start_time <= end_time)%Q ->
  let p := model_period start_time end_time spacing in
  (p_starttime p <= start_time < p_starttime p + spacing)%Q /\ (end_time <= p_endtime p < end_time + spacing)%Q /\ 1 <= p_nodes p /\
  (p_starttime p + inject_Z (p_nodes p - 1) * spacing == p_endtime p)%Q.
Proof.
  intros start_time end_time spacing P L. cbv zeta. unfold model_period. cbn [p_starttime p_endtime p_nodes]. destruct (C170_floor start_time spacing P) as [[a A] S]. destruct (C170_ceil end_time spacing P) as [[b B] E].
  split; [exact S|]. split; [exact E|]. set (s := floor_to_quantisation start_time spacing) in *. set (e := ceil_to_quantisation end_time spacing) in *.
  assert (N : (Qfloor ((e - s) / spacing + 1 + (1 # 2)) = b - a + 1)%Z).
  { assert (Q0 : ~ (spacing == 0)%Q) by (intros X; rewrite X in P; discriminate P).
    assert (D : ((e - s) / spacing + 1 + (1 # 2) == inject_Z (b - a + 1) + (1 # 2))%Q).
    { rewrite A, B. unfold Z.sub. rewrite !inject_Z_plus, inject_Z_opp. change (inject_Z 1) with 1%Q. field. exact Q0. }
    rewrite D. unfold Qfloor, Qplus, inject_Z. cbn [Qnum Qden]. rewrite Pos.mul_1_l. change (Z.pos 2) with 2. change (Z.pos 1) with 1. symmetry. apply Z.div_unique with 1; lia. }
  rewrite N. assert (AB : a <= b).
  { assert (X : (inject_Z a * spacing <= inject_Z b * spacing)%Q) by (rewrite <- A, <- B; lra). apply Qmult_le_r in X; [|exact P]. now rewrite <- Zle_Qle in X. }
  split; [lia|]. replace (b - a + 1 - 1) with (b - a) by lia. rewrite A, B. unfold Z.sub. rewrite inject_Z_plus, inject_Z_opp. ring.
Qed.
Print Assumptions C170_period.
Example C170_nonvacuous : p_nodes (model_period 1840 2025 5) = 38 /\ p_nodes (model_period 1825 2035 (1 # 12)) = 2521 /\ (round_to_quantisation (7 # 2) 1 == 4)%Q /\ ceil_to_quantisation_int 7 5 = 5 /\ 7 mod 5 <> 0.
Proof. repeat split; vm_compute; try reflexivity. discriminate. Qed.

(* ---- C171 *)
Lemma ceiling_div n c : 0 < c -> 0 <= n -> n <= roundup (inject_Z n / inject_Z c) * c.
Proof.
  intros C N. assert (P : (0 < inject_Z c)%Q) by (change 0%Q with (inject_Z 0); rewrite <- Zlt_Qlt; exact C).
  assert (X : (inject_Z n <= inject_Z (roundup (inject_Z n / inject_Z c)) * inject_Z c)%Q) by (apply times_ge; [exact P|apply Qle_ceiling]). rewrite <- inject_Z_mult, <- Zle_Qle in X. exact X.
Qed.
Lemma zrange_snoc a b : a <= b -> zrange a (b + 1) = zrange a b ++ [b].
Proof. intros H. unfold zrange. replace (Z.to_nat (b + 1 - a)) with (Z.to_nat (b - a) + 1)%nat by lia. rewrite seq_app, map_app. cbn [seq map]. f_equal. f_equal. lia. Qed.
Lemma shifted a n : map (fun s => a + s) (zrange 0 n) = zrange a (a + n).
Proof. unfold zrange. rewrite map_map. replace (a + n - a) with (n - 0) by lia. apply map_ext. intros k. lia. Qed.
Lemma zrange_app a b c : a <= b <= c -> zrange a c = zrange a b ++ zrange b c.
Proof.
  intros H. unfold zrange. replace (Z.to_nat (c - a)) with (Z.to_nat (b - a) + Z.to_nat (c - b))%nat by lia. rewrite seq_app, map_app. f_equal. cbn [Nat.add].
  assert (G : forall n k m, map (fun j => a + Z.of_nat j) (seq (k + m) n) = map (fun j => a + Z.of_nat k + Z.of_nat j) (seq m n)).
  { induction n as [|n IH]; intros k m; [reflexivity|]. cbn [seq map]. f_equal; [lia|]. rewrite <- IH. f_equal. f_equal. lia. }
  rewrite <- (Nat.add_0_r (Z.to_nat (b - a))) at 1. rewrite G. apply map_ext. intros k. lia.
Qed.
Lemma below a b n : a <= b -> filter (fun k => k <? n) (zrange a b) = zrange a (Z.max a (Z.min b n)).
Proof.
  intros H. destruct (Z.le_gt_cases b n) as [L|L].
  - replace (Z.max a (Z.min b n)) with b by lia. assert (G : forall l, (forall k, In k l -> k < n) -> filter (fun k => k <? n) l = l).
    { induction l as [|x l IH]; intros K; [reflexivity|]. cbn [filter]. replace (x <? n) with true by (symmetry; apply Z.ltb_lt, K; now left). f_equal. apply IH. intros k I. apply K. now right. }
    apply G. intros k I. unfold zrange in I. apply in_map_iff in I. destruct I as (j & <- & I). apply in_seq in I. lia.
  - set (m := Z.max a n). replace (Z.max a (Z.min b n)) with m by lia. rewrite (zrange_app a m b) by lia. rewrite filter_app.
    assert (G : forall l, (forall k, In k l -> k < n) -> filter (fun k => k <? n) l = l).
    { induction l as [|x l IH]; intros K; [reflexivity|]. cbn [filter]. replace (x <? n) with true by (symmetry; apply Z.ltb_lt, K; now left). f_equal. apply IH. intros k I. apply K. now right. }
    assert (E : forall l, (forall k, In k l -> n <= k) -> filter (fun k => k <? n) l = []).
    { induction l as [|x l IH]; intros K; [reflexivity|]. cbn [filter]. replace (x <? n) with false by (symmetry; apply Z.ltb_ge, K; now left). apply IH. intros k I. apply K. now right. }
    rewrite G, E, app_nil_r; [reflexivity| |]; intros k I; unfold zrange in I; apply in_map_iff in I; destruct I as (j & <- & I); apply in_seq in I; lia.
Qed.
Lemma commands_upto n c e : 0 < c -> 0 <= n -> 0 <= e ->
  flat_map (fun point => filter (fun command => command <? n) (map (fun subtask => point * c + subtask) (zrange 0 c))) (zrange 0 e) = zrange 0 (Z.min (e * c) n).
Proof.
  intros C N E. rewrite <- (Z2Nat.id e E). generalize (Z.to_nat e). clear e E. induction n0 as [|k IH].
  - cbn. replace (Z.min 0 n) with 0 by lia. reflexivity.
  - rewrite Nat2Z.inj_succ. unfold Z.succ. rewrite zrange_snoc by lia. rewrite flat_map_app, IH. cbn [flat_map]. rewrite app_nil_r. rewrite shifted, below by nia.
    destruct (Z.le_gt_cases (Z.of_nat k * c) n) as [L|L].
    + rewrite (Z.min_l (Z.of_nat k * c)) by lia. rewrite <- (zrange_app 0 (Z.of_nat k * c)) by nia. f_equal. nia.
    + replace (Z.max (Z.of_nat k * c) (Z.min (Z.of_nat k * c + c) n)) with (Z.of_nat k * c) by lia. unfold zrange at 2. rewrite Z.sub_diag. cbn [Z.to_nat seq map]. rewrite app_nil_r. f_equal. nia.
Qed.
(* The tasks of the suite run every command of a module, once and in order, whatever the size of the chunks and the other modules. *)
Theorem C171_suite : forall numbers chunksize number, 0 < chunksize -> 0 <= number -> In number numbers ->
  exists final, max_chunks numbers chunksize = Ok final /\ suite_commands number chunksize final = zrange 0 number.
Proof.
  intros numbers c n C N I. unfold max_chunks. destruct (list_max numbers) as [m|] eqn:M; [|destruct numbers; [destruct I|discriminate]]. apply list_max_spec in M. destruct M as [_ M]. specialize (M n I).
  eexists. split; [reflexivity|]. unfold suite_commands, cycle_points.
  assert (R : roundup (inject_Z n / inject_Z c) <= roundup (inject_Z m / inject_Z c)).
  { unfold roundup. apply Qceiling_resp_le. unfold Qdiv. apply Qmult_le_compat_r; [now rewrite <- Zle_Qle|]. apply Qinv_le_0_compat. change 0%Q with (inject_Z 0). rewrite <- Zle_Qle. lia. }
  rewrite Z.min_l by exact R. pose proof (ceiling_div n c C N) as A. rewrite commands_upto by nia. f_equal. nia.
Qed.
Print Assumptions C171_suite.
(* Finding: where the commands cannot be counted nothing is run, without an error. *)
Theorem C171_uncounted_refuted : forall output numbers chunksize final, py_int output = Err ValueError -> 0 < chunksize -> max_chunks (printed_count output :: numbers) chunksize = Ok final -> suite_commands (printed_count output) chunksize final = [].
Proof.
  intros output numbers c final E C M. unfold printed_count in *. rewrite E in *. destruct (C171_suite (0 :: numbers) c 0 C ltac:(lia) (or_introl eq_refl)) as (f & F & S). assert (f = final) as <- by congruence. exact S.
Qed.
Print Assumptions C171_uncounted_refuted.
Example C171_nonvacuous : max_chunks [12; 3] 5 = Ok 3 /\ suite_commands 12 5 3 = [0; 1; 2; 3; 4; 5; 6; 7; 8; 9; 10; 11] /\ py_int "Traceback" = Err ValueError /\ printed_count ("12" ++ NEWLINE) = 12.
Proof. repeat split; vm_compute; reflexivity. Qed.

(* There is one job for each triangle of the mesh at the level of the regions. *)
Theorem C171_regions : forall P (mid : P -> P -> P) nowhere sort base_points, Mesh_Spec.sorts sort -> List.length base_points = 12%nat -> forall level, (level <= 28)%nat ->
  n_operations level = Z.of_nat (List.length (Mesh_Model.triangles (Mesh_Model.build mid nowhere sort base_points level))).
Proof.
  intros P mid nowhere sort base_points S L level H. destruct (Mesh_Props.C44_sizes P mid nowhere sort base_points S L level H) as (_ & _ & T). cbv zeta in T. rewrite T. clear.
  unfold n_operations. assert (G : forall a x, fold_left (fun n (_ : nat) => n * 4) (seq a level) x = x * 4 ^ Z.of_nat level).
  { induction level as [|n IH]; intros a x; [cbn; lia|]. cbn [seq fold_left]. rewrite IH. rewrite Nat2Z.inj_succ, Z.pow_succ_r by lia. lia. }
  rewrite G. rewrite Nat2Z.inj_mul, Nat2Z.inj_pow. reflexivity.
Qed.
Print Assumptions C171_regions.
(* All jobs write different files, and merging at the level of the jobs reads just these, in the order of the triangles. *)
Theorem C171_files : forall divisions regionspec, merged_files divisions 3 regionspec = map (job_file divisions) submitted_jobs /\ NoDup (map (job_file divisions) submitted_jobs) /\ map snd submitted_jobs = zrange 0 1280.
Proof.
  intros divisions regionspec. split; [unfold merged_files, submitted_jobs; now rewrite map_map|]. split; [|unfold submitted_jobs; rewrite map_map; now rewrite map_id].
  unfold submitted_jobs. rewrite map_map. cbn [job_file fst snd]. unfold job_file. cbn [fst snd].
  assert (K : forall i j, 0 <= i -> 0 <= j -> regional_file divisions 3 i = regional_file divisions 3 j -> i = j).
  { intros i j I J E. unfold regional_file in E. assert (T : forall a b c : string, (a ++ b = a ++ c)%string -> b = c) by (induction a as [|x a IH]; intros b c X; [exact X|]; cbn in X; injection X as X; now apply IH).
    apply T in E. apply T in E. apply T in E. apply T in E. apply T in E.
    assert (R : forall a b : string, (a ++ ".npy" = b ++ ".npy")%string -> a = b).
    { intros a b X. assert (LE : String.length a = String.length b). { apply (f_equal String.length) in X. cbn in X. assert (Z0 : forall u v : string, String.length (u ++ v) = (String.length u + String.length v)%nat) by (induction u as [|? u IHu]; intros v; [reflexivity|]; cbn; now rewrite IHu). rewrite !Z0 in X. lia. }
      revert b X LE. induction a as [|x a IH]; intros [|y b] X LE; try discriminate LE; [reflexivity|]. cbn in X, LE. injection X as -> X. injection LE as LE. f_equal. now apply IH. }
    apply R in E. rewrite <- (Fill_Proofs.int_of_py_str i I), <- (Fill_Proofs.int_of_py_str j J). now rewrite E. }
  assert (G : forall l, NoDup l -> (forall x, In x l -> 0 <= x) -> NoDup (map (fun x => regional_file divisions 3 x) l)).
  { induction l as [|x l IH]; intros N Z0; [constructor|]. inversion N as [|? ? X N']. subst. cbn [map]. constructor; [|apply IH; [exact N'|intros y I; apply Z0; now right]]. intros I. apply in_map_iff in I. destruct I as (y & E & I). apply X.
    apply K in E; [now subst|apply Z0; now right|apply Z0; now left]. }
  apply G.
  - unfold zrange. apply FinFun.Injective_map_NoDup; [intros a b E; lia|apply seq_NoDup].
  - intros x I. unfold zrange in I. apply in_map_iff in I. destruct I as (k & <- & _). lia.
Qed.
Print Assumptions C171_files.
(* Finding: the level that merging is asked for is ignored. *)
Theorem C171_merge_level_refuted : forall divisions level regionspec, merged_files divisions level regionspec = merged_files divisions 3 regionspec.
Proof. reflexivity. Qed.
Print Assumptions C171_merge_level_refuted.
Example C171_files_nonvacuous : n_operations 3 = 1280 /\ nth 17 (merged_files 7 2 "LocalSubRegion") ""%string = "regional_hyperparameters.7.3.17.npy"%string.
Proof. split; vm_compute; reflexivity. Qed.

(* ---- C166: the extraction of the biases of stations *)
Lemma located {L} (locations : list L) stations : (forall s, In s stations -> 1 <= s <= zlen locations) ->
  exists e, mapM (fun s => location_at locations (s - 1)) stations = Ok e /\ Forall2 (fun s l => nth_error locations (Z.to_nat (s - 1)) = Some l) stations e.
Proof.
  induction stations as [|s r IH]; intros H; [exists []; split; [reflexivity|constructor]|]. destruct IH as (e & E & F); [intros x I; apply H; now right|]. specialize (H s (or_introl eq_refl)).
  unfold zlen in H. destruct (nth_error locations (Z.to_nat (s - 1))) as [l|] eqn:N; [|apply nth_error_None in N; lia]. exists (l :: e). split; [|now constructor].
  cbn [mapM]. unfold location_at at 1, zlen. replace (s - 1 <? 0) with false by (symmetry; apply Z.ltb_ge; lia). replace ((0 <=? s - 1) && (s - 1 <? Z.of_nat (List.length locations))) with true by (symmetry; apply andb_true_intro; split; [apply Z.leb_le|apply Z.ltb_lt]; lia).
  rewrite N. cbn [bind]. now rewrite E.
Qed.
Lemma skipped {L} (locations : list L) first last before rest outdict file : (forall e, In e before -> fst e = Not_bias) -> extract_from locations first last (before ++ rest) outdict file = extract_from locations first last rest outdict file.
Proof. induction before as [|[k s] r IH]; intros H; [reflexivity|]. pose proof (H (k, s) (or_introl eq_refl)) as E. cbn in E. subst k. cbn [app extract_from]. apply IH. intros e I. apply H. now right. Qed.
Lemma repeated {L} (locations : list L) first last b e biases m rest : (forall x, In x rest -> fst x = Not_bias \/ fst x = Plain_bias) -> build_bias_matrix b biases first last = Ok m ->
  let saved := Some {| x_breaks := b; x_locations := locations; x_expanded := e; x_biases := biases; x_matrix := m |} in
  extract_from locations first last rest (Some (b, e, biases)) saved = (saved, Ok tt).
Proof.
  intros H M. cbv zeta. induction rest as [|[k s] r IH]; [reflexivity|]. specialize (IH ltac:(intros x I; apply H; now right)). destruct (H (k, s) (or_introl eq_refl)) as [E|E]; cbn in E; subst k; cbn [extract_from]; [exact IH|]. rewrite M. exact IH.
Qed.
(* The file that is saved has the breaks and the biases of the one component of station biases, the place of the station of each bias, and their table. *)
Theorem C166_extract : forall L (locations : list L) first last before b biases after m,
  (forall e, In e before -> fst e = Not_bias) -> (forall e, In e after -> fst e = Not_bias \/ fst e = Plain_bias) ->
  (forall s, In s (bk_station b) -> 1 <= s <= zlen locations) -> build_bias_matrix b biases first last = Ok m ->
  exists x, extract_station_biases locations first last (before ++ (Station_bias b, biases) :: after) = (Some x, Ok tt) /\
    x_breaks x = b /\ x_biases x = biases /\ x_matrix x = m /\ x_locations x = locations /\ Forall2 (fun s l => nth_error locations (Z.to_nat (s - 1)) = Some l) (bk_station b) (x_expanded x).
Proof.
  intros L locations first last before b biases after m B A S M. destruct (located locations (bk_station b) S) as (e & E & F). unfold extract_station_biases. rewrite skipped by exact B. cbn [extract_from]. rewrite E. cbn [bind]. rewrite M.
  rewrite repeated by assumption. eexists. split; [reflexivity|]. cbn. now repeat split.
Qed.
Print Assumptions C166_extract.
(* Finding: where another bias comes before that of the stations the extraction stops with a NameError and saves nothing. *)
Theorem C166_other_bias_refuted : forall L (locations : list L) first last before state after, (forall e, In e before -> fst e = Not_bias) -> extract_station_biases locations first last (before ++ (Plain_bias, state) :: after) = (None, Err NameError).
Proof. intros. unfold extract_station_biases. now rewrite skipped. Qed.
Print Assumptions C166_other_bias_refuted.
(* Without any bias nothing is saved, and there is no error. *)
Theorem C166_no_bias : forall L (locations : list L) first last elements, (forall e, In e elements -> fst e = Not_bias) -> extract_station_biases locations first last elements = (None, Ok tt).
Proof. intros. unfold extract_station_biases. rewrite <- (app_nil_r elements). now rewrite skipped. Qed.
Print Assumptions C166_no_bias.
Example C166_extract_nonvacuous : exists x, extract_station_biases ["a"; "b"; "c"]%string 1850 1853 [(Not_bias, [0%Qc]); (Station_bias two_breaks, [Q2Qc (1 # 2); 0%Qc; 1%Qc]); (Plain_bias, [])] = (Some x, Ok tt) /\ x_expanded x = ["a"; "a"; "c"]%string.
Proof. eexists. split; [vm_compute; reflexivity|reflexivity]. Qed.
