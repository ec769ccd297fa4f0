(* Properties C27-C33: observation files and observation sets. *)
From Coq Require Import QArith Qcanon String.
From Verif Require Import Base Grid_Model Grid_Proofs Obs_Model Obs_Spec Obs_Proofs.
Local Open Scope Z_scope.
Local Open Scope list_scope.

Definition u1 : list byte := repeat 1 16.
Definition u2 : list byte := repeat 2 16.
(* three observations at locations 5, 3, 5 with one correlated error term; the second is masked *)
Definition demo : observations :=
  {| o_mask := [false; true; false]; o_time := TScalar (qz 7); o_location := [5; 3; 5]; o_measurement := [100; 200; 300];
     o_unc := [1; 2; 3]; o_cor := [[11; 12; 13]] |}.
Lemma demo_ok : well_formed demo.
Proof. unfold well_formed, demo, word. cbn [o_mask o_time o_location o_measurement o_unc o_cor]. repeat (split; [first [reflexivity|exact I|repeat constructor; lia]|]). repeat constructor; lia. Qed.
Lemma u1_ok : is_uuid u1. Proof. reflexivity. Qed.

(* ---- C27 *)

(* Reading back a day file gives exactly the records written, in order, none masked, with the day asked for as time. *)
Theorem C27_round_trip : forall o location_uuid verify_uuid daynumber, well_formed o -> is_uuid location_uuid ->
  (forall i, (i < length (o_measurement o))%nat -> nth i (o_mask o) true = false /\ trunc (time_of o i) = daynumber) ->
  exists o', read_day (length (o_cor o)) (write_day location_uuid o daynumber) verify_uuid daynumber = Ok o' /\
    records o' = records o /\ o_mask o' = repeat false (length (o_measurement o)) /\ o_time o' = TScalar (qz daynumber) /\ well_formed o'.
Proof.
  intros o u v d W U H. destruct (read_day_write u o d v d [] W U) as (o' & H1 & H2 & H3 & H4 & _ & H5); [unfold record_size; cbn; lia|].
  rewrite app_nil_r in H1. exists o'.
  assert (valid_positions o d = seq 0 (length (o_measurement o))) as E.
  { unfold valid_positions. destruct W as (L & _). rewrite L. 
    assert (forall (P : nat -> bool) l, (forall x, In x l -> P x = true) -> filter P l = l) as FI.
    { clear. intros P l Hl. induction l as [|x l IH]; [reflexivity|]. cbn. rewrite (Hl x) by now left. f_equal. apply IH. intros; apply Hl; now right. }
    apply FI. intros i Hi. apply in_seq in Hi. destruct (H i) as [-> E]; [lia|]. unfold time_of in E. unfold time_at. rewrite E. apply Z.eqb_refl. }
  rewrite E in H2, H3. rewrite seq_length in H3. auto.
Qed.
Print Assumptions C27_round_trip.
Example C27_round_trip_nonvacuous : let o := {| o_mask := [false; false]; o_time := TScalar (qz 7); o_location := [5; 3]; o_measurement := [100; 200]; o_unc := [1; 2]; o_cor := [[11; 12]; [21; 22]] |} in
  well_formed o /\ (forall i, (i < 2)%nat -> nth i (o_mask o) true = false /\ trunc (time_of o i) = 7) /\
  read_day 2 (write_day u1 o 7) u1 7 = Ok o.
Proof.
  cbv zeta. split; [|split; [|vm_compute; reflexivity]].
  - unfold well_formed, word. cbn [o_mask o_time o_location o_measurement o_unc o_cor]. repeat (split; [first [reflexivity|exact I|repeat constructor; lia]|]). repeat constructor; lia.
  - intros [|[|i]] H; [split; reflexivity|split; reflexivity|lia].
Qed.

(* The count obtained from the size of any file is the number of records reading it gives (and fails when reading fails). *)
Theorem C27_count : forall num_ranges data verify_uuid daynumber,
  match read_day num_ranges data verify_uuid daynumber with
  | Ok o => read_observation_count num_ranges data = Ok (zlen (records o)) /\ length (o_mask o) = length (records o)
  | Err e => read_observation_count num_ranges data = Err e
  end.
Proof.
  intros k data v d. rewrite (count_is_length k data v). unfold read_day. destruct (read_contents k data v) as [rows|e]; [|reflexivity]. cbn [bind].
  rewrite records_of_rows. unfold zlen. cbn [o_mask]. now rewrite !map_length.
Qed.
Print Assumptions C27_count.
Example C27_count_nonvacuous : read_observation_count 1 (write_day u1 demo 7) = Ok 2 /\ read_observation_count 1 (repeat 0 48) = Err OperationException.
Proof. split; vm_compute; reflexivity. Qed.

(* Bytes too few for one more record at the end of a file change nothing. *)
Theorem C27_trailing_bytes : forall num_ranges data tail verify_uuid daynumber,
  (exists n, length data = 48 + n * record_size num_ranges)%nat -> (length tail < record_size num_ranges)%nat ->
  read_day num_ranges (data ++ tail) verify_uuid daynumber = read_day num_ranges data verify_uuid daynumber /\
  read_observation_count num_ranges (data ++ tail) = read_observation_count num_ranges data.
Proof.
  intros k data tail v d H L. rewrite !(count_is_length k _ v). unfold read_day. now rewrite (read_contents_partial k data tail L H v).
Qed.
Print Assumptions C27_trailing_bytes.
Example C27_trailing_bytes_nonvacuous : (length (write_day u1 demo 7) = 48 + 2 * record_size 1)%nat /\ (31 < record_size 1)%nat /\
  read_observation_count 1 (write_day u1 demo 7 ++ repeat 9 31) = Ok 2.
Proof. split; [vm_compute; reflexivity|split; [vm_compute; lia|vm_compute; reflexivity]]. Qed.

(* Location tables and lists of correlation ranges survive the round trip; the table's length is known from the file size. *)
Theorem C27_location_table : forall location_uuid table, is_uuid location_uuid -> Forall (fun latlon => word (fst latlon) /\ word (snd latlon)) table ->
  read_lookup (write_lookup {| lk_uuid := location_uuid; lk_table := table |}) = Ok {| lk_uuid := location_uuid; lk_table := table |} /\
  read_uuid_and_count (write_lookup {| lk_uuid := location_uuid; lk_table := table |}) = Ok (location_uuid, zlen table).
Proof. intros u t U W. split; [now apply read_lookup_write|now apply read_uuid_and_count_write]. Qed.
Print Assumptions C27_location_table.
Theorem C27_correlation_ranges : forall ranges, Forall word ranges -> read_ranges (write_ranges ranges) = Ok ranges.
Proof. exact read_ranges_write. Qed.
Print Assumptions C27_correlation_ranges.
Example C27_tables_nonvacuous : Forall (fun latlon => word (fst latlon) /\ word (snd latlon)) [(1, 2); (3, 2 ^ 63)] /\ Forall word [7; 2 ^ 64 - 1] /\
  read_ranges (write_ranges [7; 2 ^ 64 - 1]) = Ok [7; 2 ^ 64 - 1].
Proof. split; [repeat constructor; cbn; lia|split; [repeat constructor; lia|vm_compute; reflexivity]]. Qed.

(* The three kinds of file are told apart. *)
Theorem C27_wrong_kind : forall num_ranges o location_uuid daynumber d ranges, is_uuid location_uuid ->
  read_lookup (write_day location_uuid o daynumber) = Err OperationException /\
  read_observation_count num_ranges (write_lookup d) = Err OperationException /\
  read_observation_count num_ranges (write_ranges ranges) = Err OperationException /\
  read_ranges (write_lookup d) = Err OperationException.
Proof. intros. repeat split; reflexivity. Qed.
Print Assumptions C27_wrong_kind.
Example C27_wrong_kind_nonvacuous : is_uuid u1 /\ read_lookup (write_lookup {| lk_uuid := u1; lk_table := [] |}) = Ok {| lk_uuid := u1; lk_table := [] |}.
Proof. split; vm_compute; reflexivity. Qed.

(* ---- C28 *)

(* From day 1 on (and on day 0 when no time is negative) the file of a day holds exactly the observations that are not masked
   and whose time lies in [day, day+1), in their order. *)
Theorem C28_day_file : forall o location_uuid verify_uuid daynumber, well_formed o -> is_uuid location_uuid ->
  daynumber >= 1 \/ (daynumber = 0 /\ forall i, (0 <= time_of o i)%Qc) ->
  exists o', read_day (length (o_cor o)) (write_day location_uuid o daynumber) verify_uuid daynumber = Ok o' /\
    records o' = map (record_at o) (filter (fun i => unmasked o i && in_day (time_of o i) daynumber) (seq 0 (length (o_measurement o)))).
Proof.
  intros o u v d W U H. destruct (read_day_write u o d v d [] W U) as (o' & H1 & H2 & _); [unfold record_size; cbn; lia|].
  rewrite app_nil_r in H1. exists o'. split; [assumption|]. rewrite H2. f_equal. apply valid_positions_in_day; [assumption|apply W].
Qed.
Print Assumptions C28_day_file.
Definition mixed_days : observations :=
  {| o_mask := [false; true; false; false]; o_time := TArray [(qz 7 + 1 / qz 2)%Qc; qz 7; qz 8; qz 7]; o_location := [5; 3; 4; 1]; o_measurement := [100; 200; 300; 400];
     o_unc := [1; 2; 3; 4]; o_cor := [] |}.
Example C28_day_file_nonvacuous : well_formed mixed_days /\ 7 >= 1 /\
  map (record_at mixed_days) (filter (fun i => unmasked mixed_days i && in_day (time_of mixed_days i) 7) (seq 0 4)) = [(5, 100, 1, []); (1, 400, 4, [])].
Proof.
  split; [|split; [lia|vm_compute; reflexivity]].
  unfold well_formed, word. cbn [mixed_days o_mask o_time o_location o_measurement o_unc o_cor]. repeat (split; [first [reflexivity|repeat constructor; lia]|]). repeat constructor; lia.
Qed.

(* On day 0 the statement is false: an observation made in the afternoon of the day before is put in the file. *)
Theorem C28_day_zero_refuted : exists o o', well_formed o /\ read_day 0 (write_day u1 o 0) u1 0 = Ok o' /\ length (records o') = 1%nat /\
  filter (fun i => unmasked o i && in_day (time_of o i) 0) (seq 0 (length (o_measurement o))) = [].
Proof.
  exists {| o_mask := [false]; o_time := TArray [(- (1 / qz 2))%Qc]; o_location := [5]; o_measurement := [100]; o_unc := [1]; o_cor := [] |}.
  eexists. split; [|split; [vm_compute; reflexivity|split; vm_compute; reflexivity]].
  unfold well_formed, word. cbn [o_mask o_time o_location o_measurement o_unc o_cor]. repeat (split; [first [reflexivity|repeat constructor; lia]|]). repeat constructor; lia.
Qed.
Print Assumptions C28_day_zero_refuted.

(* ---- C29 *)

(* The claim "a day file is only read against its own table" fails: the identifier given is never compared, so reading gives the
   same result whatever identifier is asked for; a file written for one table is accepted for another. *)
Theorem C29_identity_refuted :
  (forall num_ranges data u v daynumber, read_day num_ranges data u daynumber = read_day num_ranges data v daynumber /\
     read_location_ids num_ranges data u = read_location_ids num_ranges data v) /\
  exists o o', u1 <> u2 /\ read_day 1 (write_day u1 o 7) u2 7 = Ok o' /\ length (records o') = 2%nat.
Proof. split; [split; reflexivity|]. exists demo. eexists. split; [discriminate|split; vm_compute; reflexivity]. Qed.
Print Assumptions C29_identity_refuted.

(* A day file prepared from a fixed set of locations carries the identifier of the reference table, and is only written when the
   coordinates of every location used agree with that table to within 0.0001. *)
Theorem C29_prepared_day : forall (number : Z -> Qc) locationfile reference locs o daynumber file,
  read_lookup locationfile = Ok reference -> is_uuid (lk_uuid reference) -> prepare_day number locationfile locs o daynumber = Ok file ->
  (exists body, read_header_uuid FORMATID_OBSERVATION file = Ok (lk_uuid reference, body)) /\
  forall l, In l (o_location o) -> exists a b, nth_error (lk_table reference) (Z.to_nat l) = Some a /\ nth_error locs (Z.to_nat l) = Some b /\
    (- (1 / qz 10000) <= number (fst a) - number (fst b) <= 1 / qz 10000)%Qc /\ (- (1 / qz 10000) <= number (snd a) - number (snd b) <= 1 / qz 10000)%Qc.
Proof.
  intros num lf ref locs o d file R U. unfold prepare_day. rewrite R. cbn [bind].
  destruct (mapM _ (o_location o)) as [diffs|] eqn:E; [|discriminate]. cbn [bind].
  destruct (forallb (fun d => d) diffs) eqn:A; [|destruct diffs; discriminate].
  intro H. assert (file = write_day (lk_uuid ref) o d) as -> by (destruct diffs; congruence). clear H. split.
  - eexists. unfold write_day. apply read_header_uuid_ok; auto with obs.
  - apply mapM_ok_iff in E. rewrite forallb_forall in A.
    intros l Hl. assert (exists x, In x diffs /\ match nth_error (lk_table ref) (Z.to_nat l), nth_error locs (Z.to_nat l) with Some a, Some b => Ok (within_tolerance num a b) | _, _ => Err IndexError end = Ok x) as (x & Hx & Ex).
    { clear - E Hl. induction E as [|l0 x ls xs E0 E IH]; [contradiction|]. destruct Hl as [->|Hl]; [exists x; split; [now left|exact E0]|].
      destruct (IH Hl) as (y & Hy & Ey). exists y. split; [now right|exact Ey]. }
    rewrite (A x Hx) in Ex. destruct (nth_error (lk_table ref) (Z.to_nat l)) as [a|]; [|discriminate]. destruct (nth_error locs (Z.to_nat l)) as [b|]; [|discriminate].
    exists a, b. split; [reflexivity|split; [reflexivity|]]. assert (within_tolerance num a b = true) as T by congruence. unfold within_tolerance in T.
    apply andb_prop in T as [T1 T2]. apply andb_prop in T1 as [T1 T1']. apply andb_prop in T2 as [T2 T2'].
    apply Qle_bool_Qc in T1, T1', T2, T2'. remember (1 / qz 10000)%Qc as tol eqn:Et. clear Et.
    assert (forall x y : Qc, (y - x <= tol)%Qc -> (- tol <= x - y)%Qc) as N by (intros x' y' Q; replace (x' - y')%Qc with (- (y' - x'))%Qc by ring; now apply Qcopp_le_compat).
    split; (split; [apply N; assumption|assumption]).
Qed.
Print Assumptions C29_prepared_day.
Definition demo_table : lookup := {| lk_uuid := u1; lk_table := [(0, 0); (1, 1); (2, 2); (3, 4); (5, 6); (7, 8)] |}.
Example C29_prepared_day_nonvacuous : read_lookup (write_lookup demo_table) = Ok demo_table /\
  is_ok (prepare_day qz (write_lookup demo_table) (lk_table demo_table) demo 7) = true /\
  prepare_day qz (write_lookup demo_table) [(0, 0); (1, 1); (2, 2); (3, 4); (5, 6); (7, 9)] demo 7 = Err ValueError.
Proof. split; [vm_compute; reflexivity|split; vm_compute; reflexivity]. Qed.

(* A day without observations cannot be prepared: the maximum of nothing is an error. *)
Theorem C29_empty_day_refuted : forall (number : Z -> Qc) locs daynumber t,
  exists e, prepare_day number (write_lookup demo_table) locs {| o_mask := []; o_time := t; o_location := []; o_measurement := []; o_unc := []; o_cor := [] |} daynumber = Err e.
Proof. intros. exists ValueError. unfold prepare_day, demo_table. rewrite read_lookup_write; [reflexivity|reflexivity|repeat constructor; cbn; lia]. Qed.
Print Assumptions C29_empty_day_refuted.

(* ---- C30 *)

(* The byte positions listed for a location over a set of day files. *)
Definition expected_pointers (num_ranges : nat) (l : Z) (days : list (list byte * Z)) (idss : list (list Z)) : list (Z * Z) :=
  flat_map (fun fdi => map (fun i => (snd (fst fdi), 56 + 8 * (3 + Z.of_nat num_ranges) * i)) (positions l (snd fdi))) (combine days idss).

(* A pointer index compiled from a location table and day files holds for each location, in order of the files and of the records in
   them, the day and the position of every observation made there and nothing else.  (Read as it would be if the reader's module
   imported what it uses: see below.) *)
Theorem C30_index : forall location_uuid table ranges days file l, is_uuid location_uuid -> Forall word ranges ->
  Forall (fun fd => Forall is_byte (fst fd) /\ zlen (fst fd) < 2 ^ 64 /\ word (snd fd)) days ->
  run_pointers (write_lookup {| lk_uuid := location_uuid; lk_table := table |}) (write_ranges ranges) days = Ok file -> zlen file < 2 ^ 64 ->
  0 <= l < zlen table ->
  exists idss, Forall2 (fun fd ids => read_location_ids (length ranges) (fst fd) location_uuid = Ok ids) days idss /\
    read_pointer_records true file location_uuid l = Ok (expected_pointers (length ranges) l days idss).
Proof.
  intros u table ranges days file l U WR D. unfold run_pointers, pointers_init. rewrite read_uuid_and_count_write by assumption. cbn [bind].
  rewrite read_ranges_write by assumption. cbn [bind fst snd].
  destruct (foldM _ _ _) as [p|] eqn:F; [|discriminate]. cbn [bind].
  intro E. assert (file = write_pointers p) as -> by congruence. clear E.
  apply append_days_spec in F as (F1 & F2 & F3 & idss & F4 & F5 & F6); [|eapply Forall_impl; [|exact D]; cbn; tauto]. cbn [lp_uuid lp_ranges lp_lists] in *.
  rewrite repeat_length in F3. intros S64 Hl. exists idss. split; [assumption|].
  assert (forall n, nth n (lp_lists p) [] = day_pointers (length ranges) (Z.of_nat n) (combine days idss)) as F7.
  { intro n. rewrite F6. replace (nth n (repeat [] (Z.to_nat (zlen table))) []) with (@nil (Z * Z)); [reflexivity|].
    destruct (nth_in_or_default n (repeat (@nil (Z * Z)) (Z.to_nat (zlen table))) []) as [I|I]; [apply repeat_spec in I; now rewrite I|now rewrite I]. }
  rewrite <- F1. rewrite read_pointers_write.
  - f_equal. rewrite F7, Z2Nat.id by lia. unfold day_pointers, expected_pointers. apply flat_map_ext. intro fdi. apply map_ext. intro i. unfold record_size. f_equal. lia.
  - now rewrite F1.
  - assumption.
  - apply Forall_forall. intros a Ha. apply (In_nth _ _ []) in Ha as (n & Hn & <-). rewrite F7. apply Forall_forall. intros df Hdf.
    unfold day_pointers in Hdf. apply in_flat_map in Hdf as ([fd ids] & I1 & I2). cbn [fst snd] in I2. apply in_map_iff in I2 as (i & <- & Hi).
    unfold positions in Hi. apply filter_In in Hi as [Hi _]. apply zrange_In in Hi.
    rewrite Forall_forall in D. destruct (D fd) as (_ & D2 & D3); [apply (in_combine_l _ _ _ _ I1)|]. cbn [fst snd]. split; [assumption|].
    assert (read_location_ids (length ranges) (fst fd) u = Ok ids) as RI.
    { clear - F4 I1. induction F4 as [|a b ds is H F IH]; [contradiction|]. destruct I1 as [E|I1]; [|now apply IH].
      apply pair_equal_spec in E as [-> ->]. exact H. }
    unfold read_location_ids in RI. destruct (read_contents (length ranges) (fst fd) u) as [rows|] eqn:RC; [|discriminate]. cbn [bind] in RI.
    assert (ids = column 0 rows) as -> by congruence. unfold zlen, column in Hi. rewrite map_length in Hi.
    destruct (follow_pointer _ _ _ _ (Z.to_nat i) RC) as (_ & _ & FP & _); [lia|].
    assert (Z.of_nat (record_size (length ranges) * Z.to_nat i) = Z.of_nat (record_size (length ranges)) * i) as EM by (rewrite Nat2Z.inj_mul, Z2Nat.id by lia; reflexivity).
    unfold word, zlen in *. rewrite <- EM. clear EM. revert FP. generalize (record_size (length ranges) * Z.to_nat i)%nat. intros q FP. clear - FP D2. apply inj_le in FP. rewrite Nat2Z.inj_add in FP. change (Z.of_nat 56) with 56 in FP. unfold byte in *. lia.
  - unfold zlen in *. rewrite F3. lia.
Qed.
Print Assumptions C30_index.
Definition day_a := write_day u1 demo 7. (* locations 5, 5 *)
Definition day_b := write_day u1 {| o_mask := [false; false]; o_time := TScalar (qz 8); o_location := [3; 5]; o_measurement := [10; 20]; o_unc := [1; 1]; o_cor := [[0; 0]] |} 8.
Example C30_index_nonvacuous : exists file,
  run_pointers (write_lookup demo_table) (write_ranges [9]) [(day_a, 7); (day_b, 8)] = Ok file /\
  Forall (fun fd => Forall is_byte (fst fd) /\ zlen (fst fd) < 2 ^ 64 /\ word (snd fd)) [(day_a, 7); (day_b, 8)] /\ zlen file < 2 ^ 64 /\
  read_pointer_records true file u1 5 = Ok [(7, 56); (7, 88); (8, 88)] /\ read_pointer_records true file u1 3 = Ok [(8, 56)].
Proof.
  eexists. split; [vm_compute; reflexivity|]. split; [|split; [vm_compute; reflexivity|split; vm_compute; reflexivity]].
  assert (forall data, forallb (fun b => (0 <=? b) && (b <? 256)) data = true -> Forall is_byte data) as B.
  { intros data H. rewrite forallb_forall in H. apply Forall_forall. intros x Hx. apply H in Hx. unfold is_byte. lia. }
  repeat constructor; try (apply B; vm_compute; reflexivity); try (vm_compute; reflexivity); cbn; lia.
Qed.

(* Compiling succeeds whenever every file can be read and all its locations are in the table. *)
Theorem C30_compiles : forall location_uuid table ranges days idss, is_uuid location_uuid -> Forall word ranges ->
  Forall2 (fun fd ids => read_location_ids (length ranges) (fst fd) location_uuid = Ok ids) days idss ->
  Forall (Forall (fun id => 0 <= id < zlen table)) idss ->
  exists file, run_pointers (write_lookup {| lk_uuid := location_uuid; lk_table := table |}) (write_ranges ranges) days = Ok file.
Proof.
  intros u table ranges days idss U WR F R. unfold run_pointers, pointers_init. rewrite read_uuid_and_count_write by assumption. cbn [bind].
  rewrite read_ranges_write by assumption. cbn [bind fst snd].
  destruct (append_days_total days {| lp_uuid := u; lp_ranges := length ranges; lp_lists := repeat [] (Z.to_nat (zlen table)) |} idss) as [p E].
  - exact F.
  - cbn [lp_lists]. unfold zlen at 1. rewrite repeat_length. unfold zlen in *. now rewrite Nat2Z.id.
  - rewrite E. cbn [bind]. eexists. reflexivity.
Qed.
Print Assumptions C30_compiles.
Example C30_compiles_nonvacuous : Forall2 (fun fd ids => read_location_ids 1 (fst fd) u1 = Ok ids) [(day_a, 7); (day_b, 8)] [[5; 5]; [3; 5]] /\
  Forall (Forall (fun id => 0 <= id < zlen (lk_table demo_table))) [[5; 5]; [3; 5]].
Proof. split; [repeat constructor; vm_compute; reflexivity|repeat constructor; cbn; lia]. Qed.

(* The position listed for a record is that of its measurement: the words there are the measurement and its errors, the word before
   is the location. *)
Theorem C30_follow : forall num_ranges data verify_uuid daynumber o i, read_day num_ranges data verify_uuid daynumber = Ok o -> (i < length (records o))%nat ->
  let p := (56 + 8 * (3 + num_ranges) * i)%nat in
  exists l m u cs, nth_error (records o) i = Some (l, m, u, cs) /\
    words (firstn (8 * (2 + num_ranges)) (skipn p data)) = m :: u :: cs /\ words (firstn 8 (skipn (p - 8) data)) = [l].
Proof.
  intros k data v d o i. unfold read_day. destruct (read_contents k data v) as [rows|] eqn:E; [|discriminate]. cbn [bind].
  intro H. apply (f_equal (fun r => match r with Ok x => x | Err _ => o end)) in H. subst o. rewrite records_of_rows, map_length. intro Hi. cbv zeta.
  destruct (follow_pointer k data v rows i E Hi) as (H1 & H2 & _ & H4).
  rewrite nth_error_map, (nth_error_nth' rows [] Hi). cbn [option_map]. unfold record_of_words.
  change (record_size k) with (8 * (3 + k))%nat in *. rewrite H1, H2. destruct (nth i rows []) as [|a [|b [|c r]]]; cbn [length] in H4; try lia.
  exists a, b, c, r. split; [|split; reflexivity]. do 2 f_equal. unfold nthZ. cbn [nth Nat.add].
  assert (k = length r) as -> by lia. rewrite (map_nth_seq (fun x => x)). apply map_id.
Qed.
Print Assumptions C30_follow.
Example C30_follow_nonvacuous : exists o, read_day 1 day_a u1 7 = Ok o /\ (1 < length (records o))%nat /\ words (firstn 24 (skipn 88 day_a)) = [300; 3; 13].
Proof. eexists. split; [vm_compute; reflexivity|split; vm_compute; [lia|reflexivity]]. Qed.

(* The reader refuses a file of another table, and locations outside the table. *)
Theorem C30_refuses : forall p verify_uuid l, is_uuid (lp_uuid p) -> 
  (verify_uuid <> lp_uuid p -> read_pointer_records true (write_pointers p) verify_uuid l = Err OperationException) /\
  (zlen (lp_lists p) < 2 ^ 64 -> l < 0 \/ zlen (lp_lists p) <= l -> read_pointer_records true (write_pointers p) verify_uuid l = Err OperationException).
Proof.
  intros p v l U. unfold read_pointer_records, write_pointers.
  rewrite (firstn_here FORMATID_LOCATION_POINTERS) by auto with obs.
  assert (bytes_eqb FORMATID_LOCATION_POINTERS FORMATID_LOCATION_POINTERS = true) as -> by now apply bytes_eqb_iff. cbn [negb].
  assert (forall Y, skipn 32 (FORMATID_LOCATION_POINTERS ++ CODEID ++ Y) = Y) as S32 by (intro Y; rewrite app_assoc; apply skipn_here; rewrite app_length, FORMATID_POINTERS_len, CODEID_len; reflexivity).
  rewrite S32. rewrite (firstn_here (lp_uuid p)) by assumption. rewrite U. cbn [Nat.eqb negb].
  change 48%nat with (32 + 16)%nat. rewrite <- skipn_skipn, S32. rewrite (skipn_here (lp_uuid p)) by assumption.
  rewrite firstn_here by apply word_bytes_length. split.
  - intro N. destruct (bytes_eqb (lp_uuid p) v) eqn:E; [apply bytes_eqb_iff in E; congruence|]. reflexivity.
  - intros S64 R. destruct (bytes_eqb (lp_uuid p) v); [|reflexivity]. cbn [negb]. pose proof (zlen_nonneg (lp_lists p)).
    rewrite unle_word by (unfold word; lia). destruct (Z.ltb_spec l 0); [reflexivity|]. destruct (Z.geb_spec l (zlen (lp_lists p))); [reflexivity|lia].
Qed.
Print Assumptions C30_refuses.
Example C30_refuses_nonvacuous : u2 <> u1 /\ read_pointer_records true (write_pointers {| lp_uuid := u1; lp_ranges := 1; lp_lists := [[(1, 2)]] |}) u1 0 = Ok [(1, 2)] /\
  read_pointer_records true (write_pointers {| lp_uuid := u1; lp_ranges := 1; lp_lists := [[(1, 2)]] |}) u2 0 = Err OperationException.
Proof. split; [discriminate|split; vm_compute; reflexivity]. Qed.

(* As the code stands no pointer file can be read: the reader uses the name uuid, which its module does not import. *)
Theorem C30_reader_never_succeeds_refuted : forall data verify_uuid l, 
  exists e, read_pointer_records uuid_imported data verify_uuid l = Err e /\ (firstn 16 data = FORMATID_LOCATION_POINTERS -> e = NameError).
Proof.
  intros. unfold read_pointer_records. destruct (bytes_eqb _ _) eqn:E; cbn [negb]; eexists; (split; [reflexivity|]); [reflexivity|].
  intro H. apply bytes_eqb_iff in H. congruence.
Qed.
Print Assumptions C30_reader_never_succeeds_refuted.

(* ---- C31 *)

(* The hard cut-off keeps exactly the breaks with likelihood at or above the threshold, in order; again, nothing more is removed;
   a higher threshold keeps a subset (in fact what is left after applying it to the lower selection). *)
Theorem C31_hard_cutoff : forall exp b threshold decay, breaks_ok b ->
  exists b', apply_policy exp "HARD_CUTOFF" b threshold decay = Ok b' /\ breaks_ok b' /\
    break_list b' = filter (fun x => Qle_bool threshold (qz (snd x))) (break_list b) /\
    apply_policy exp "HARD_CUTOFF" b' threshold decay = Ok b' /\
    forall higher, (threshold <= higher)%Qc -> apply_policy exp "HARD_CUTOFF" b' higher decay = apply_policy exp "HARD_CUTOFF" b higher decay.
Proof.
  intros e b th dc B. exists (apply_base_policy b th). split; [reflexivity|].
  pose proof (fun b th => keep_filter b (fun l => Qle_bool th (qz l))) as K. cbv zeta in K.
  destruct (K b th) as [K1 K2]. fold (apply_base_policy b th) in K1, K2. split; [assumption|split; [assumption|]].
  assert (forall higher, (th <= higher)%Qc -> apply_base_policy (apply_base_policy b th) higher = apply_base_policy b higher) as M.
  { intros h Hh. destruct (K (apply_base_policy b th) h) as [J1 J2]. destruct (K b h) as [L1 L2]. fold (apply_base_policy (apply_base_policy b th) h) in J1, J2. fold (apply_base_policy b h) in L1, L2.
    apply break_list_inj; [assumption|assumption|]. rewrite J1, L1, K1. clear - Hh. induction (break_list b) as [|x l IH]; [reflexivity|]. cbn [filter].
    destruct (Qle_bool h (qz (snd x))) eqn:E; [|destruct (Qle_bool th (qz (snd x))); cbn [filter]; rewrite ?E; assumption].
    assert (Qle_bool th (qz (snd x)) = true) as ->; [|cbn [filter]; rewrite E; now f_equal]. apply Qle_bool_Qc. apply Qle_bool_Qc in E. eapply Qcle_trans; eassumption. }
  split; [|intros h Hh; cbn; now rewrite M].
  cbn. f_equal. destruct (K (apply_base_policy b th) th) as [J1 J2]. fold (apply_base_policy (apply_base_policy b th) th) in J1, J2.
  rewrite M; [reflexivity|apply Qcle_refl].
Qed.
Print Assumptions C31_hard_cutoff.
Definition demo_breaks : breaks := {| bk_time := [100; 200; 300]; bk_station := [1; 1; 4]; bk_likelihood := [127; 20; 60] |}.
Example C31_hard_cutoff_nonvacuous : breaks_ok demo_breaks /\
  apply_policy (fun x => x) "HARD_CUTOFF" demo_breaks (qz 60) (qz 0) = Ok {| bk_time := [100; 300]; bk_station := [1; 4]; bk_likelihood := [127; 60] |}.
Proof. split; [split; reflexivity|vm_compute; reflexivity]. Qed.

(* The kernel policy keeps exactly the breaks whose kernel value reaches the threshold, for whatever function the exponential is. *)
Theorem C31_kernel : forall exp b threshold decay, breaks_ok b ->
  exists b', apply_policy exp "LAPLACE_KERNEL" b threshold decay = Ok b' /\ breaks_ok b' /\
    break_list b' = filter (fun x => Qle_bool threshold (exp (- decay * qz (Z.abs (snd x - 127)))%Qc)) (break_list b) /\
    apply_policy exp "LAPLACE_KERNEL" b' threshold decay = Ok b'.
Proof.
  intros e b th dc B. exists (apply_kernel_policy e b th dc). split; [reflexivity|].
  pose proof (fun b => keep_filter b (fun l => Qle_bool th (e (- dc * qz (Z.abs (l - 127)))%Qc))) as K. cbv zeta in K.
  destruct (K b) as [K1 K2]. fold (apply_kernel_policy e b th dc) in K1, K2. split; [assumption|split; [assumption|]].
  change (apply_policy e "LAPLACE_KERNEL" (apply_kernel_policy e b th dc) th dc) with (Ok (apply_kernel_policy e (apply_kernel_policy e b th dc) th dc)). f_equal.
  destruct (K (apply_kernel_policy e b th dc)) as [J1 J2]. fold (apply_kernel_policy e (apply_kernel_policy e b th dc) th dc) in J1, J2.
  apply break_list_inj; [assumption|assumption|]. rewrite J1, K1. generalize (break_list b). intro l. induction l as [|x l IH]; [reflexivity|]. cbn [filter].
  destruct (Qle_bool th _) eqn:E; [|assumption]. cbn [filter]. rewrite E. now f_equal.
Qed.
Print Assumptions C31_kernel.
Example C31_kernel_nonvacuous : breaks_ok demo_breaks /\
  apply_policy (fun x => x + 1)%Qc "LAPLACE_KERNEL" demo_breaks (qz (-80)) (qz 1) = Ok {| bk_time := [100; 300]; bk_station := [1; 4]; bk_likelihood := [127; 60] |}.
Proof. split; [split; reflexivity|vm_compute; reflexivity]. Qed.

(* Any other policy name is refused. *)
Theorem C31_unknown_policy : forall exp code b threshold decay, code <> "HARD_CUTOFF"%string -> code <> "LAPLACE_KERNEL"%string ->
  apply_policy exp code b threshold decay = Err ValueError.
Proof. intros e code b th dc H1 H2. unfold apply_policy. apply String.eqb_neq in H1, H2. now rewrite H1, H2. Qed.
Print Assumptions C31_unknown_policy.
Example C31_unknown_policy_nonvacuous : "BASE"%string <> "HARD_CUTOFF"%string /\ "BASE"%string <> "LAPLACE_KERNEL"%string.
Proof. split; discriminate. Qed.

(* ---- C32 *)

Definition common (a b : obset) : list Z := filter (fun l => existsb (Z.eqb l) (s_location b)) (s_location a).

(* Two sets are combined exactly when the locations they share come in the same order in both, the times are equal and so is the
   number of correlated error terms. *)
Theorem C32_mean_accepts : forall a b,
  (exists c, mean_sets a b = Ok c) <-> common a b = common b a /\ times_eqb (s_time a) (s_time b) = true /\ length (s_cor a) = length (s_cor b).
Proof.
  intros a b. split.
  - intros [c H]. apply mean_sets_ok in H as (H1 & H2 & H3 & _). rewrite !take_isin in H1. auto.
  - intros (H1 & H2 & H3). now apply mean_sets_total.
Qed.
Print Assumptions C32_mean_accepts.

(* The result has the shared locations, in order; for each, it is masked where either is, has the mean of the two measurements and the
   mean of the squares of the errors (the code stores its square root). *)
Theorem C32_mean : forall a b c, set_ok a -> set_ok b -> NoDup (s_location b) -> mean_sets a b = Ok c ->
  set_ok c /\ s_location c = common a b /\ length (s_cor c) = length (s_cor a) /\ s_time c = s_time a /\
  forall i j, (i < length (s_location a))%nat -> (j < length (s_location b))%nat -> nth i (s_location a) 0 = nth j (s_location b) 0 ->
  exists k, (k < length (s_location c))%nat /\ nth k (s_location c) 0 = nth i (s_location a) 0 /\
    nth k (s_mask c) true = nth i (s_mask a) true || nth j (s_mask b) true /\
    (qz 2 * nth k (s_measurement c) 0 = nth i (s_measurement a) 0 + nth j (s_measurement b) 0)%Qc /\
    (qz 2 * nth k (s_unc c) 0 = nth i (s_unc a) 0 * nth i (s_unc a) 0 + nth j (s_unc b) 0 * nth j (s_unc b) 0)%Qc /\
    forall m, (m < length (s_cor a))%nat ->
      (qz 2 * nth k (nth m (s_cor c) []) 0 = nth i (nth m (s_cor a) []) 0 * nth i (nth m (s_cor a) []) 0 + nth j (nth m (s_cor b) []) 0 * nth j (nth m (s_cor b) []) 0)%Qc.
Proof.
  intros a b c Ka Kb ND H. apply mean_sets_ok in H as (E & T & C & ->).
  set (ra := isin (s_location a) (s_location b)) in *. set (rb := isin (s_location b) (s_location a)) in *.
  assert (length ra = length rb) as L by (rewrite <- (take_length 0 (s_location a)), E; apply take_length).
  unfold set_ok. cbn [s_mask s_time s_location s_measurement s_unc s_cor]. unfold mean2, meansq2.
  split; [|split; [apply take_isin|split; [rewrite map_length, combine_length; lia|split; [reflexivity|]]]].
  - rewrite !map_length, !combine_length, !take_length. split; [reflexivity|split; [lia|split; [lia|]]].
    apply Forall_map, Forall_forall. intros [x y] _. cbn [fst snd]. rewrite !map_length, !combine_length, !take_length. reflexivity.
  - intros i j Hi Hj V.
    assert (In i ra) as Ii by (apply isin_In; split; [assumption|rewrite V; now apply nth_In]).
    apply (In_nth _ _ 0%nat) in Ii as (k & Hk & Ek).
    assert (nth k rb 0%nat = j) as Ej.
    { assert (In (nth k rb 0%nat) rb) as J by (apply nth_In; lia). apply isin_In in J as [J _].
      apply (NoDup_nth (s_location b) 0); [assumption|assumption|assumption|]. rewrite <- V, <- Ek. rewrite <- (nth_take 0 _ rb) by lia. rewrite <- E. apply nth_take. lia. }
    assert (forall x, qz 2 * (x * (1 / qz 2)) = x)%Qc as Half by (intro x; field; discriminate).
    exists k. rewrite take_length. split; [assumption|split; [rewrite nth_take by assumption; now rewrite Ek|]].
    split; [|split; [|split]].
    + rewrite (nth_combine_map _ true true) by (rewrite !take_length; lia). cbn [fst snd]. rewrite !nth_take by lia. now rewrite Ek, Ej.
    + rewrite (nth_combine_map _ 0%Qc 0%Qc) by (rewrite !take_length; lia). cbn [fst snd]. rewrite !nth_take by lia. rewrite Ek, Ej. apply Half.
    + rewrite (nth_combine_map _ 0%Qc 0%Qc) by (rewrite !take_length; lia). cbn [fst snd]. rewrite !nth_take by lia. rewrite Ek, Ej. apply Half.
    + intros m Hm. rewrite (nth_combine_map _ [] []) by lia. cbn [fst snd].
      rewrite (nth_combine_map _ 0%Qc 0%Qc) by (rewrite !take_length; lia). cbn [fst snd]. rewrite !nth_take by lia. rewrite Ek, Ej. apply Half.
Qed.
Print Assumptions C32_mean.
Definition tmax : obset := {| s_mask := [false; false; true]; s_time := TScalar (qz 7); s_location := [2; 4; 9]; s_measurement := [qz 20; qz 30; qz 40]; s_unc := [qz 1; qz 1; qz 1]; s_cor := [[qz 3; qz 3; qz 3]] |}.
Definition tmin : obset := {| s_mask := [false; false; false]; s_time := TScalar (qz 7); s_location := [4; 5; 9]; s_measurement := [qz 10; qz 11; qz 12]; s_unc := [qz 1; qz 1; qz 1]; s_cor := [[qz 3; qz 3; qz 3]] |}.
Example C32_mean_nonvacuous : set_ok tmax /\ set_ok tmin /\ NoDup (s_location tmin) /\ common tmax tmin = [4; 9] /\
  exists c, mean_sets tmax tmin = Ok c /\ s_location c = [4; 9] /\ s_mask c = [false; true] /\ nth 0 (s_measurement c) 0%Qc = qz 20.
Proof.
  split; [|split; [|split; [|split; [reflexivity|]]]].
  - unfold set_ok. cbn. repeat split; repeat constructor.
  - unfold set_ok. cbn. repeat split; repeat constructor.
  - repeat constructor; cbn; intuition discriminate.
  - eexists. split; [vm_compute; reflexivity|split; [reflexivity|split; [reflexivity|apply Qc_is_canon; vm_compute; reflexivity]]].
Qed.

(* With one time per observation the times are not cut down to the shared locations: the result's arrays disagree in length. *)
Theorem C32_time_array_refuted : exists a b c ts, set_ok a /\ set_ok b /\ s_time a = TArray ts /\ length ts = length (s_measurement a) /\
  mean_sets a b = Ok c /\ s_time c = TArray ts /\ length ts <> length (s_measurement c).
Proof.
  exists {| s_mask := [false; false]; s_time := TArray [qz 1; qz 1]; s_location := [1; 2]; s_measurement := [qz 1; qz 2]; s_unc := [qz 1; qz 1]; s_cor := [] |},
         {| s_mask := [false; false]; s_time := TArray [qz 1; qz 1]; s_location := [2; 3]; s_measurement := [qz 1; qz 2]; s_unc := [qz 1; qz 1]; s_cor := [] |}.
  do 2 eexists. split; [unfold set_ok; cbn; repeat split; constructor|split; [unfold set_ok; cbn; repeat split; constructor|]].
  split; [reflexivity|split; [reflexivity|split; [vm_compute; reflexivity|split; [vm_compute; reflexivity|]]]]. cbn. lia.
Qed.
Print Assumptions C32_time_array_refuted.

(* One observation of a set: masked, location, measurement, errors. *)
Definition set_row (s : obset) (i : nat) := (nth i (s_mask s) true, nth i (s_location s) 0, nth i (s_measurement s) 0%Qc, nth i (s_unc s) 0%Qc, map (fun c => nth i c 0%Qc) (s_cor s)).

(* Appending keeps all observations of both sets in order; those appended have their location shifted. *)
Theorem C32_append : forall a b c offset, set_ok a -> set_ok b -> append_sets a b offset = (c, Ok tt) ->
  set_ok c /\ s_time c = s_time a /\ same_scalar_time (s_time a) (s_time b) = true /\ length (s_measurement c) = (length (s_measurement a) + length (s_measurement b))%nat /\
  (forall i, (i < length (s_measurement a))%nat -> set_row c i = set_row a i) /\
  (forall i, (i < length (s_measurement b))%nat ->
     set_row c (length (s_measurement a) + i) = (let '(k, l, m, u, e) := set_row b i in (k, l + offset, m, u, e))).
Proof.
  intros a b c off (A1 & A2 & A3 & A4) (B1 & B2 & B3 & B4). unfold append_sets. cbv zeta.
  destruct (same_scalar_time _ _); cbn [negb]; [|intro H; apply pair_equal_spec in H as [_ H]; discriminate].
  destruct (Nat.eqb_spec (length (s_cor a)) (length (s_cor b))) as [C|]; cbn [negb]; [|intro H; apply pair_equal_spec in H as [_ H]; discriminate].
  intro H. apply pair_equal_spec in H as [<- _]. unfold set_ok, set_row. cbn [s_mask s_time s_location s_measurement s_unc s_cor].
  rewrite Forall_forall in A4, B4.
  assert (forall x, In x (combine (s_cor a) (s_cor b)) -> length (fst x) = length (s_measurement a) /\ length (snd x) = length (s_measurement b)) as CL.
  { intros [x y] I. split; [apply A4; eapply in_combine_l; eassumption|apply B4; eapply in_combine_r; eassumption]. }
  split; [|split; [reflexivity|split; [reflexivity|split; [apply app_length|split]]]].
  - rewrite !app_length, map_length. split; [lia|split; [lia|split; [lia|]]]. apply Forall_map, Forall_forall. intros x Hx. rewrite app_length. destruct (CL x Hx). lia.
  - intros i Hi. rewrite !app_nth1 by lia. f_equal. rewrite map_map. clear - C CL Hi. revert C CL. generalize (s_cor a) (s_cor b).
    induction l as [|x l IH]; intros [|y m] C CL; try discriminate; [reflexivity|]. cbn [combine map fst snd]. f_equal.
    + apply app_nth1. destruct (CL (x, y)) as [Q _]; [now left|]. cbn in Q. lia.
    + apply IH; [cbn in C; lia|]. intros; apply CL; now right.
  - intros i Hi. rewrite (app_nth2 (s_mask a)), (app_nth2 (s_location a)), (app_nth2 (s_measurement a)), (app_nth2 (s_unc a)) by lia.
    rewrite A1, A2, A3. replace (length (s_measurement a) + i - length (s_measurement a))%nat with i by lia.
    rewrite (nth_indep _ 0 (0 + off)) by (rewrite map_length; lia). rewrite (map_nth (fun l => l + off)). f_equal. rewrite map_map.
    clear - C CL Hi. revert C CL. generalize (s_cor a) (s_cor b). induction l as [|x l IH]; intros [|y m] C CL; try discriminate; [reflexivity|]. cbn [combine map fst snd]. f_equal.
    + destruct (CL (x, y)) as [Q1 Q2]; [now left|]. cbn in Q1, Q2. rewrite app_nth2 by lia. f_equal. lia.
    + apply IH; [cbn in C; lia|]. intros; apply CL; now right.
Qed.
Print Assumptions C32_append.
Example C32_append_nonvacuous : exists c, append_sets tmax tmin 100 = (c, Ok tt) /\ s_location c = [2; 4; 9; 104; 105; 109].
Proof. eexists. split; vm_compute; reflexivity. Qed.

(* A refused append is not without effect: the mask has already been extended, so the set is no longer consistent. *)
Theorem C32_failed_append_refuted : exists a b c offset e, set_ok a /\ set_ok b /\ append_sets a b offset = (c, Err e) /\ c <> a /\ ~ set_ok c.
Proof.
  exists tmax, {| s_mask := [false]; s_time := TScalar (qz 8); s_location := [4]; s_measurement := [qz 10]; s_unc := [qz 1]; s_cor := [[qz 3]] |}.
  exists {| s_mask := [false; false; true; false]; s_time := s_time tmax; s_location := s_location tmax; s_measurement := s_measurement tmax; s_unc := s_unc tmax; s_cor := s_cor tmax |}, 0, ValueError.
  split; [unfold set_ok; cbn; repeat split; repeat constructor|split; [unfold set_ok; cbn; repeat split; repeat constructor|]].
  split; [reflexivity|split; [intro E; apply (f_equal (fun s => length (s_mask s))) in E; discriminate|]]. intros (H & _). discriminate.
Qed.
Print Assumptions C32_failed_append_refuted.

(* ---- C33 *)

(* With the stations reporting in ascending order and the breaks ordered by station and time, the effect associates a station position
   with a break exactly when it is the station's next break after the time; no pair is given twice, and None stands for no pairs. *)
Theorem C33_alignment : forall time station_indices b, breaks_ordered b -> ascending station_indices ->
  exists effect, covariate_effect time station_indices b = Ok effect /\
    let pairs := match effect with Some l => l | None => [] end in
    NoDup pairs /\ effect <> Some [] /\
    forall p i, In (p, i) pairs <-> (p < length station_indices)%nat /\ next_break b time (nth p station_indices 0) i.
Proof. intros. now apply covariate_effect_spec. Qed.
Print Assumptions C33_alignment.
(* at most one next break per station *)
Theorem C33_one_each : forall b time station i j, breaks_ordered b -> next_break b time station i -> next_break b time station j -> i = j.
Proof.
  intros b t s i j [L O] (I1 & I2 & I3 & I4) (J1 & J2 & J3 & J4). specialize (I4 j J1 J2 J3). specialize (J4 i I1 I2 I3).
  destruct (Nat.lt_trichotomy i j) as [H|[H|H]]; [|assumption|].
  - destruct (O i j) as [|[]]; lia.
  - destruct (O j i) as [|[]]; lia.
Qed.
Print Assumptions C33_one_each.
Definition two_stations : breaks := {| bk_time := [100; 200; 300; 150; 250]; bk_station := [2; 2; 2; 5; 5]; bk_likelihood := [1; 1; 1; 1; 1] |}.
Example C33_alignment_nonvacuous : breaks_ordered two_stations /\ ascending [0; 1; 4] /\
  covariate_effect 120 [0; 1; 4] two_stations = Ok (Some [(1, 1); (2, 3)]%nat) /\ covariate_effect 260 [0; 1; 4] two_stations = Ok (Some [(1, 2)]%nat) /\
  covariate_effect 400 [0; 1; 4] two_stations = Ok None.
Proof.
  split; [|split; [|split; [vm_compute; reflexivity|split; vm_compute; reflexivity]]].
  - split; [reflexivity|]. cbn [two_stations bk_station length]. intros i j H.
    destruct i as [|[|[|[|[|i]]]]]; destruct j as [|[|[|[|[|j]]]]]; try lia; cbn; lia.
  - intros i j H. cbn [length] in H. destruct i as [|[|[|i]]]; destruct j as [|[|[|j]]]; try lia; cbn; lia.
Qed.

(* When stations do not report in ascending order the parameters of two stations are exchanged; when one reports twice the call fails. *)
Theorem C33_unordered_refuted : exists time b, breaks_ordered b /\
  covariate_effect time [4; 1] b = Ok (Some [(0, 1); (1, 3)]%nat) /\ next_break b time 1 1 /\ next_break b time 4 3 /\
  covariate_effect time [1; 1; 4] b = Err ValueError.
Proof.
  exists 120, two_stations. split; [apply C33_alignment_nonvacuous|]. split; [vm_compute; reflexivity|].
  split; [|split; [|vm_compute; reflexivity]].
  - unfold next_break. cbn [two_stations bk_station bk_time length]. split; [lia|split; [reflexivity|split; [cbn; lia|]]]. intros j Hj. destruct j as [|[|[|[|[|j]]]]]; cbn; lia.
  - unfold next_break. cbn [two_stations bk_station bk_time length]. split; [lia|split; [reflexivity|split; [cbn; lia|]]]. intros j Hj. destruct j as [|[|[|[|[|j]]]]]; cbn; lia.
Qed.
Print Assumptions C33_unordered_refuted.

(* When the breaks of one station are not in time order a later break than the next may be taken (two or more stations breaking later). *)
Theorem C33_time_order_refuted : exists time b, covariate_effect time [1; 4] b = Ok (Some [(0, 0); (1, 2)]%nat) /\ next_break b time 1 1 /\ ~ next_break b time 1 0.
Proof.
  exists 120, {| bk_time := [300; 200; 150]; bk_station := [2; 2; 5]; bk_likelihood := [1; 1; 1] |}. split; [vm_compute; reflexivity|]. split.
  - unfold next_break. cbn [bk_station bk_time length]. split; [lia|split; [reflexivity|split; [cbn; lia|]]]. intros j Hj. destruct j as [|[|[|j]]]; cbn; lia.
  - intros (_ & _ & _ & H). specialize (H 1%nat). cbn in H. lia.
Qed.
Print Assumptions C33_time_order_refuted.
