(* Proofs about diagnostic grids: runs over files. *)
From Coq Require Import QArith Qcanon Ascii String.
From Verif Require Import Base Time_Model Grid_Model Grid_Spec Grid_Proofs Obs_Model Obs_Spec Cpp_Model Diag_Model Diag_Spec Diag_Proofs Diag_Proofs2.
Local Open Scope Z_scope.
Local Open Scope list_scope.

Lemma global_axes_eq day : exists time, global_axes day = [time; LAT; LON] /\ fa_count time = 1.
Proof. eexists. split; reflexivity. Qed.
Lemma LAT_step : fa_step LAT <> 0%Qc. Proof. discriminate. Qed.
Lemma LON_step : fa_step LON <> 0%Qc. Proof. discriminate. Qed.

Lemma read_input_contents fs num day d l o : read_input fs num day d = Ok (l, o) -> s_measurement o <> [] ->
  exists recs, contents fs num day d (coords num l) recs /\ recs = map (rec_at o) (chosen_positions o day) /\ recs <> [].
Proof.
  unfold read_input, fopen. destruct (fs (di_locations d)) as [lf |] eqn:A1; [| discriminate]. cbn [bind]. destruct (read_lookup lf) as [l' |] eqn:A2; [| discriminate]. cbn [bind].
  destruct (fs (di_ranges d)) as [rf |] eqn:A3; [| discriminate]. cbn [bind]. destruct (read_ranges rf) as [ranges |] eqn:A4; [| discriminate]. cbn [bind].
  unfold source_observations, fopen. destruct (di_observations d) as [name |] eqn:A5.
  2: { cbn [bind]. intros H N. exfalso. apply N. assert (o = no_observations day) as -> by congruence. reflexivity. }
  destruct (fs name) as [ob |] eqn:A6; [| discriminate]. cbn [bind]. destruct (read_day (List.length ranges) ob (lk_uuid l') day) as [o' |] eqn:A7; [| discriminate]. cbn [bind].
  intros H N. assert (l' = l) as -> by congruence. assert (o = numbers num o') as -> by congruence. clear H.
  exists (map (fun r => let '(loc, m, u, _) := r in (loc, (num m, num u))) (records o')). split; [| split].
  - exists lf, l, rf, ranges, name, ob, o'. repeat (split; [first [assumption | reflexivity] |]). reflexivity.
  - unfold read_day in A7. destruct (read_contents (List.length ranges) ob (lk_uuid l)) as [rows |]; [| discriminate]. cbn [bind] in A7.
    match type of A7 with Ok ?t = _ => assert (o' = t) as -> by congruence end. clear.
    unfold chosen_positions, records, numbers. cbn [s_time s_mask s_measurement s_unc s_location o_mask o_time o_location o_measurement o_unc o_cor time_at].
    rewrite trunc_qz, Z.eqb_refl. cbn [negb orb]. rewrite map_length. unfold column. rewrite map_length, map_map.
    assert (filter (fun i => negb (nth i (map (fun _ : list Z => false) rows) true)) (seq 0 (List.length rows)) = seq 0 (List.length rows)) as ->.
    { assert (forall (P : nat -> bool) l, (forall x, In x l -> P x = true) -> filter P l = l) as FI.
      { intros P l Hl. induction l as [| x l IH]; [reflexivity |]. cbn. rewrite (Hl x) by now left. f_equal. apply IH. intros; apply Hl; now right. }
      apply FI. intros i I. apply in_seq in I. rewrite (nth_indep _ true false) by (rewrite map_length; lia).
      rewrite (map_nth (fun _ : list Z => false) rows [] i). reflexivity. }
    apply map_ext_in. intros i I. apply in_seq in I. unfold rec_at, record_at. cbn [s_location s_measurement s_unc o_location o_measurement o_unc o_cor].
    f_equal. f_equal.
    + rewrite (nth_indep (map num _) 0%Qc (num 0)) by (rewrite !map_length; lia). symmetry. apply map_nth.
    + rewrite (nth_indep (map num _) 0%Qc (num 0)) by (rewrite !map_length; lia). symmetry. apply map_nth.
  - intros E. apply N. apply (f_equal (@List.length _)) in E. unfold records in E. rewrite !map_length, seq_length in E. cbn [numbers s_measurement].
    destruct (o_measurement o'); [reflexivity | discriminate].
Qed.
Lemma contents_read fs num day d table recs : contents fs num day d table recs -> exists l o, read_input fs num day d = Ok (l, o) /\ table = coords num l /\
  List.length (s_measurement o) = List.length recs.
Proof.
  intros (lf & l & rf & ranges & name & ob & o & A1 & A2 & A3 & A4 & A5 & A6 & A7 & -> & ->). exists l, (numbers num o).
  unfold read_input, fopen. rewrite A1. cbn [bind]. rewrite A2. cbn [bind]. rewrite A3. cbn [bind]. rewrite A4. cbn [bind]. unfold source_observations, fopen. rewrite A5, A6. cbn [bind].
  rewrite A7. cbn [bind]. split; [reflexivity |]. split; [reflexivity |]. cbn [numbers s_measurement]. unfold records. now rewrite !map_length, seq_length.
Qed.
Lemma contents_unique fs num day d t r t' r' : contents fs num day d t r -> contents fs num day d t' r' -> t = t' /\ r = r'.
Proof.
  intros (lf & l & rf & ranges & name & ob & o & A1 & A2 & A3 & A4 & A5 & A6 & A7 & -> & ->) (lf' & l' & rf' & ranges' & name' & ob' & o' & B1 & B2 & B3 & B4 & B5 & B6 & B7 & -> & ->).
  rewrite A1 in B1. injection B1 as <-. rewrite A2 in B2. injection B2 as <-. rewrite A3 in B3. injection B3 as <-. rewrite A4 in B4. injection B4 as <-.
  rewrite A5 in B5. injection B5 as <-. rewrite A6 in B6. injection B6 as <-. rewrite A7 in B7. injection B7 as <-. split; reflexivity.
Qed.

Lemma connect_global day table : connect (global_axes day) table = connect2 LAT LON table.
Proof. reflexivity. Qed.

Lemma step_ok_acceptable fs num day d : step_ok fs num day d <-> acceptable fs num day d.
Proof.
  split.
  - intros (gi & I & R & N). unfold input_day in I. destruct (read_input fs num day d) as [[l o] |] eqn:RI; [| discriminate]. cbn [bind fst snd] in I.
    assert (s_measurement o <> []) as NE by (destruct (s_measurement o); [discriminate | discriminate]).
    destruct (s_measurement o) eqn:SM; [congruence |]. rewrite <- SM in NE. clear SM.
    destruct (read_input_contents _ _ _ _ _ _ RI NE) as (recs & C & E & Nr). rewrite connect_global in I.
    destruct (connect2 LAT LON (coords num l)) as [cells |] eqn:Cn; [| discriminate]. cbn [bind] in I.
    exists (coords num l), recs. split; [exact C |]. split; [exact Nr |].
    split; [apply (proj1 (connect2_ok _ _ _ LAT_step LON_step)); eauto |].
    destruct (connect2_nth _ _ _ _ LAT_step LON_step Cn) as [Lc _]. destruct (get_day_inv _ _ _ _ _ I) as (_ & _ & _ & A & B & F).
    unfold obs_of in N. rewrite A, B, combine_map_same in N. rewrite E. apply Forall_forall. intros r In_. apply in_map_iff in In_. destruct In_ as (i & <- & In_). cbn [rec_at fst snd].
    clear - F N In_ Lc. induction F as [| j k is ks Ej F IH]; [destruct In_ |]. cbn [map combine] in N. inversion N as [| ? ? N1 N2]; subst. destruct In_ as [-> | In_].
    + split; [rewrite <- Lc; apply nth_error_Some; congruence | exact N1].
    + apply IH; assumption.
  - intros (table & recs & C & Nr & T & F). destruct (contents_read _ _ _ _ _ _ C) as (l & o & RI & -> & Ln).
    assert (s_measurement o <> []) as NE by (intros X; rewrite X in Ln; destruct recs; [congruence | discriminate]).
    destruct (read_input_contents _ _ _ _ _ _ RI NE) as (recs' & C' & E & _). destruct (contents_unique _ _ _ _ _ _ _ _ C C') as [_ <-].
    unfold step_ok, input_day. rewrite RI. cbn [bind fst snd]. destruct (s_measurement o) eqn:SM; [congruence |]. clear SM. rewrite connect_global.
    apply (proj2 (connect2_ok _ _ _ LAT_step LON_step)) in T. destruct T as [cells Cn]. rewrite Cn. cbn [bind].
    destruct (connect2_nth _ _ _ _ LAT_step LON_step Cn) as [Lc Cc]. rewrite Forall_forall in F.
    destruct (get_day_ok cells o (di_observable d) day) as [gi G].
    { intros i In_. rewrite Lc. apply (F (rec_at o i)). rewrite E. now apply in_map. }
    exists gi. split; [exact G |]. destruct (get_day_inv _ _ _ _ _ G) as (_ & _ & _ & A & B & F2). split.
    + apply Forall_forall. intros k In_. assert (exists i, In i (chosen_positions o day) /\ nth_error cells (Z.to_nat (nth i (s_location o) 0)) = Some k) as (i & Ii & Ek).
      { clear - F2 In_. induction F2 as [| j q is ks Ej F2 IH]; [destruct In_ |]. destruct In_ as [-> | In_]; [exists j; split; [now left | exact Ej] |].
        destruct (IH In_) as (i & X & Y). exists i. split; [now right | exact Y]. }
      assert (nth_error (coords num l) (Z.to_nat (nth i (s_location o) 0)) <> None) as Ne. { apply nth_error_Some. rewrite <- Lc. apply nth_error_Some. congruence. }
      destruct (nth_error (coords num l) (Z.to_nat (nth i (s_location o) 0))) as [ll |] eqn:El; [| congruence].
      destruct (Cc _ _ El) as (c & Ec & Gc). assert (c = k) as -> by congruence. exact (in_grid_cell_range _ _ _ _ Gc).
    + unfold obs_of. rewrite A, B, combine_map_same. apply Forall_forall. intros [k ou] In_. apply in_combine_r in In_. apply in_map_iff in In_. destruct In_ as (i & <- & Ii).
      cbn. apply (F (rec_at o i)). rewrite E. now apply in_map.
Qed.

Lemma input_list_cell fs num day d table recs place c : step_ok fs num day d -> contents fs num day d table recs -> places table recs place ->
  input_list fs num day d c = in_cell_list place recs c.
Proof.
  intros (gi & I & _) C P. unfold input_list. rewrite I. unfold input_day in I. destruct (read_input fs num day d) as [[l o] |] eqn:RI; [| discriminate]. cbn [bind fst snd] in I.
  destruct (s_measurement o) eqn:SM; [discriminate |]. assert (s_measurement o <> []) as NE by (rewrite SM; discriminate). clear SM.
  destruct (read_input_contents _ _ _ _ _ _ RI NE) as (recs' & C' & E & _). destruct (contents_unique _ _ _ _ _ _ _ _ C C') as [-> <-].
  rewrite connect_global in I. destruct (connect2 LAT LON (coords num l)) as [cells |] eqn:Cn; [| discriminate]. cbn [bind] in I.
  destruct (connect2_nth _ _ _ _ LAT_step LON_step Cn) as [Lc Cc]. unfold in_cell_list. rewrite E.
  apply (obs_of_sel _ _ _ _ _ place c I). intros i k Ii Ek.
  assert (nth_error (coords num l) (Z.to_nat (nth i (s_location o) 0)) <> None) as Ne. { apply nth_error_Some. rewrite <- Lc. apply nth_error_Some. congruence. }
  destruct (nth_error (coords num l) (Z.to_nat (nth i (s_location o) 0))) as [ll |] eqn:El; [| congruence].
  destruct (Cc _ _ El) as (c' & Ec & Gc). assert (c' = k) as -> by congruence.
  apply (in_grid_cell_unique LAT LON _ _ ll LAT_step LON_step); [| exact Gc]. apply (P (rec_at o i) ll); [rewrite E; now apply in_map | exact El].
Qed.

Lemma cache_ok_nil fs : cache_ok fs [].
Proof. intros p l H. discriminate. Qed.

Lemma combine_run_state fs num inputs day cubes : combine_run fs num inputs day = Ok cubes -> Forall (fun d => plain (di_observable d)) inputs ->
  run_state fs num day inputs cubes.
Proof.
  unfold combine_run. intros H P. destruct (foldM (combine_one fs num day) ([], []) inputs) as [st |] eqn:E; [| discriminate]. cbn [bind] in H. assert (cubes = snd st) as -> by congruence.
  exact (run_fold fs num day inputs [] [] [] st P (cache_ok_nil fs) (run_state_start fs num day) E).
Qed.
Lemma combine_run_ok fs num inputs day : (exists cubes, combine_run fs num inputs day = Ok cubes) <-> Forall (step_ok fs num day) inputs.
Proof.
  rewrite <- (run_succeeds fs num day inputs [] [] (cache_ok_nil fs)). unfold combine_run. split.
  - intros [cubes H]. destruct (foldM (combine_one fs num day) ([], []) inputs) as [st |]; [eauto | discriminate].
  - intros [st ->]. cbn. eauto.
Qed.
Lemma pair_list_unique fs num day inputs d c : NoDup (map (fun d => (di_source d, di_observable d)) inputs) -> In d inputs ->
  pair_list fs num day inputs (di_source d) (di_observable d) c = input_list fs num day d c /\
  exists pre post, inputs = pre ++ d :: post /\ existsb (has_pair (di_source d) (di_observable d)) pre = false.
Proof.
  intros ND I. apply in_split in I. destruct I as (pre & post & ->). rewrite map_app in ND. cbn [map] in ND. apply NoDup_remove_2 in ND. rewrite in_app_iff in ND.
  assert (forall l, ~ In (di_source d, di_observable d) (map (fun d => (di_source d, di_observable d)) l) -> existsb (has_pair (di_source d) (di_observable d)) l = false) as NE.
  { intros l N. destruct (existsb _ l) eqn:E; [| reflexivity]. exfalso. apply N. apply existsb_exists in E. destruct E as (e & Ie & He). apply has_pair_iff in He. destruct He as [A B].
    apply in_map_iff. exists e. split; [congruence | exact Ie]. }
  assert (existsb (has_pair (di_source d) (di_observable d)) pre = false) as N1 by (apply NE; tauto).
  assert (existsb (has_pair (di_source d) (di_observable d)) post = false) as N2 by (apply NE; tauto).
  split; [| exists pre, post; split; [reflexivity | exact N1]].
  change (d :: post) with ([d] ++ post). rewrite !pair_list_app, pair_list_one, (pair_list_none _ _ _ _ _ _ _ N1), (pair_list_none _ _ _ _ _ _ _ N2).
  rewrite (proj2 (has_pair_iff _ _ d)) by (split; reflexivity). cbn [app]. apply app_nil_r.
Qed.
