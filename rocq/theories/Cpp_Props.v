(* The C++ reader of observation files: C107-C112. *)
From Coq Require Import QArith Qcanon String Ascii Sorted.
From Verif Require Import Base Cat_Model Grid_Model Grid_Proofs Time_Model Obs_Model Obs_Spec Obs_Proofs Obs_Props Cpp_Model Cpp_Spec Cpp_Proofs Cpp_Names.
Local Open Scope Z_scope.
Local Open Scope list_scope.

(* ---- a small directory used in the examples: land temperatures of days 7 and 8 *)
Definition demo_pointers : list byte :=
  match run_pointers (write_lookup demo_table) (write_ranges [9]) [(day_a, 7); (day_b, 8)] with Ok f => f | Err _ => [] end.
Definition B := "/data"%string.
Definition demo_fs : files := fun p =>
  if String.eqb p (path_ranges B SatLand Tmean) then Some (write_ranges [9])
  else if String.eqb p (path_lookup B "satellite") then Some (write_lookup demo_table)
  else if String.eqb p (path_pointers B SatLand Tmean) then Some demo_pointers
  else if String.eqb p (path_observation B SatLand Tmean 7) then Some day_a
  else if String.eqb p (path_observation B SatLand Tmean 8) then Some day_b
  else if String.eqb p (path_ranges B InsituOcean Tmean) then Some (write_ranges [9])
  else if String.eqb p (path_mobile B InsituOcean Tmean 7) then Some (write_lookup demo_table)
  else if String.eqb p (path_observation B InsituOcean Tmean 7) then Some day_a
  else None.
Definition no_junk : junk_buffers := fun _ => repeat 0 16.
Lemma demo_tables : holds_tables demo_fs B SatLand Tmean [9] demo_table.
Proof.
  unfold holds_tables. split; [vm_compute; reflexivity|]. split; [repeat constructor; unfold word; lia|]. split; [vm_compute; reflexivity|].
  split; [exists "satellite"%string; split; vm_compute; reflexivity|]. split; [reflexivity|]. split; [|vm_compute; reflexivity].
  repeat constructor; cbn; unfold word; lia.
Qed.
Lemma new_match fs base : caches_match fs (new_manager base).
Proof. split; discriminate. Qed.

(* ---- C107 *)

(* Retrieving a day that Python wrote gives the observations of that day that are not masked, in order, with the ranges and the
   location table of the source, whatever was retrieved into the same object before. *)
Theorem C107_day : forall fs junk m r s o day ranges table location_uuid obs,
  caches_match fs m -> holds_tables fs (m_base m) s o ranges table ->
  fs (path_observation (m_base m) s o day) = Some (write_day location_uuid obs day) ->
  well_formed obs -> is_uuid location_uuid -> length (o_cor obs) = length ranges -> zlen (write_day location_uuid obs day) < 2 ^ 63 -> 1 <= day ->
  exists m' r', retrieve_day fs junk m r s o day = (m', Ok r') /\ r_ranges r' = ranges /\ r_lookup r' = table /\
    observations_of r' = map (record_at obs) (filter (fun i => unmasked obs i && in_day (time_of obs i) day) (seq 0 (length (o_measurement obs)))) /\
    (forall l x, nth_error (lk_table table) (Z.to_nat l) = Some x -> location_of r' l = Ok x) /\ caches_match fs m'.
Proof.
  intros fs junk m r s o day ranges table u obs C T Fd W U L L63 D.
  destruct (retrieve_day_static fs junk m r s o day ranges table _ C T Fd) as (m' & E & C' & _). rewrite E. clear E. exists m'.
  pose proof (write_day_length u obs day W U) as Lw.
  pose proof (same_as_python (length ranges) (junk (path_observation (m_base m) s o day)) (r_obs r) (write_day u obs day) u day ltac:(lia) L63) as P.
  destruct (read_day_write u obs day u day [] W U) as (o' & R & RR & _); [cbn [length]; unfold record_size; lia|]. rewrite app_nil_r, L in R.
  destruct (cpp_read_observations _ _ _ _) as [e|e] eqn:E.
  - destruct P as (_ & o2 & R2 & _ & _ & _ & _ & P). rewrite R in R2. assert (o2 = o') as -> by congruence.
    cbn [bind]. eexists. split; [reflexivity|]. cbn [r_ranges r_lookup]. split; [reflexivity|]. split; [reflexivity|]. split; [|split; [|exact C']].
    + rewrite P, RR. f_equal. apply valid_positions_in_day; [left; lia|apply W].
    + intros l x H. unfold location_of. cbn [r_lookup]. now rewrite H.
  - exfalso. destruct e; try (destruct P as [P _]; congruence); try (destruct P as [_ P]; congruence).
    destruct P as [P _]. apply P. unfold zlen. rewrite Lw, <- L. replace (Z.of_nat _ - 48) with (Z.of_nat (length (valid_positions obs day)) * Z.of_nat (record_size (length (o_cor obs)))) by lia.
    apply Z.mod_mul. unfold record_size. lia.
Qed.
Print Assumptions C107_day.
Example C107_day_nonvacuous : demo_fs (path_observation B SatLand Tmean 7) = Some (write_day u1 demo 7) /\
  (exists m' r', retrieve_day demo_fs no_junk (new_manager B) new_retrieval SatLand Tmean 7 = (m', Ok r') /\
     observations_of r' = [(5, 100, 1, [11]); (5, 300, 3, [13])] /\ location_of r' 5 = Ok (7, 8)).
Proof. split; [vm_compute; reflexivity|]. eexists _, _. split; [vm_compute; reflexivity|]. split; vm_compute; reflexivity. Qed.

(* Of a file with a whole header the C++ reader makes what the Python reader makes, except that it refuses a file that ends within a
   record, which Python reads up to the last whole one.  Both refuse a file of another kind. *)
Theorem C107_same_as_python : forall num_ranges junk old data verify_uuid daynumber fs path, fs path = Some data -> (48 <= length data)%nat -> zlen data < 2 ^ 63 ->
  let whole := (zlen data - 48) mod (8 * (3 + Z.of_nat num_ranges)) = 0 in
  match read_day num_ranges data verify_uuid daynumber with
  | Ok o => (whole -> exists e, cpp_read_observations num_ranges junk old (sopen fs path) = Ok e /\
                        forall rr rl rm, observations_of {| r_ranges := rr; r_lookup := rl; r_mobile := rm; r_obs := e |} = records o) /\
            (~ whole -> cpp_read_observations num_ranges junk old (sopen fs path) = Err ValueError)
  | Err e => e = OperationException /\ cpp_read_observations num_ranges junk old (sopen fs path) = Err OperationException
  end.
Proof.
  intros k junk old data v d fs path Fd L L63. cbv zeta. rewrite (sopen_some _ _ _ Fd).
  pose proof (same_as_python k junk old data v d L L63) as P. replace (Z.of_nat (record_size k)) with (8 * (3 + Z.of_nat k)) in P by (unfold record_size; lia).
  destruct (cpp_read_observations k junk old (at_ data 0)) as [e|e].
  - destruct P as (M & o & R & _ & _ & _ & _ & P). rewrite R. split; [intros _; exists e; auto|intro N; contradiction].
  - destruct e; try (destruct P as [P P']; try discriminate P; rewrite P'; split; reflexivity).
    destruct P as (M & o & R). rewrite R. split; [intro N; contradiction|reflexivity].
Qed.
Print Assumptions C107_same_as_python.
Definition cut : list byte := [1; 2; 3].
Example C107_same_as_python_nonvacuous : (48 <= length (day_a ++ cut))%nat /\ is_ok (read_day 1 (day_a ++ cut) u1 7) = true /\
  cpp_read_observations 1 [] new_entries (sopen (fun _ => Some (day_a ++ cut)) "f") = Err ValueError /\
  is_ok (cpp_read_observations 1 [] new_entries (sopen (fun _ => Some day_a) "f")) = true /\
  cpp_read_observations 1 [] new_entries (sopen (fun _ => Some (write_lookup demo_table)) "f") = Err OperationException.
Proof. split; [apply Nat.leb_le; vm_compute; reflexivity|]. repeat split; vm_compute; reflexivity. Qed.

(* The tables of locations and correlation ranges too are read as Python reads them, unless the file ends within an entry. *)
Theorem C107_tables : forall junk data fs path, fs path = Some data -> (48 <= length data)%nat -> zlen data < 2 ^ 63 ->
  (forall old, (zlen data - 48) mod 16 = 0 -> cpp_read_lookup junk old (sopen fs path) = read_lookup data) /\
  ((zlen data - 48) mod 16 <> 0 -> forall old t, cpp_read_lookup junk old (sopen fs path) <> Ok t) /\
  ((zlen data - 32) mod 8 = 0 -> cpp_read_ranges junk (sopen fs path) = read_ranges data) /\
  ((zlen data - 32) mod 8 <> 0 -> forall t, cpp_read_ranges junk (sopen fs path) <> Ok t).
Proof.
  intros junk data fs path Fd L L63. rewrite (sopen_some _ _ _ Fd), read_ranges_at by lia.
  split; [|split; [|split]].
  - intros old E. rewrite read_lookup_at, E by lia. cbn [Z.eqb]. unfold read_lookup. rewrite py_header_uuid by lia. destruct (bytes_eqb _ _); reflexivity.
  - intros N old t. rewrite read_lookup_at by lia. destruct (bytes_eqb _ _); [|discriminate]. destruct (Z.eqb_spec ((zlen data - 48) mod 16) 0); [contradiction|discriminate].
  - intros E. rewrite E. cbn [Z.eqb]. unfold read_ranges, read_header. destruct (bytes_eqb _ _); reflexivity.
  - intros N t. destruct (bytes_eqb _ _); [|discriminate]. destruct (Z.eqb_spec ((zlen data - 32) mod 8) 0); [contradiction|discriminate].
Qed.
Print Assumptions C107_tables.
Example C107_tables_nonvacuous : cpp_read_lookup [] new_lookup (sopen demo_fs (path_lookup B "satellite")) = Ok demo_table /\
  cpp_read_ranges [] (sopen demo_fs (path_ranges B SatLand Tmean)) = Ok [9].
Proof. split; vm_compute; reflexivity. Qed.

(* For a source that moves, the locations are those of the day's own file. *)
Theorem C107_mobile : forall fs junk m r s o day ranges table location_uuid obs, staticlocation s = None ->
  caches_match fs m -> fs (path_ranges (m_base m) s o) = Some (write_ranges ranges) -> Forall word ranges -> zlen ranges < 2 ^ 58 ->
  fs (path_mobile (m_base m) s o day) = Some (write_lookup table) ->
  is_uuid (lk_uuid table) -> Forall (fun ll => word (fst ll) /\ word (snd ll)) (lk_table table) -> zlen (lk_table table) < 2 ^ 58 ->
  fs (path_observation (m_base m) s o day) = Some (write_day location_uuid obs day) ->
  well_formed obs -> is_uuid location_uuid -> length (o_cor obs) = length ranges -> zlen (write_day location_uuid obs day) < 2 ^ 63 -> 1 <= day ->
  exists m' r', retrieve_day fs junk m r s o day = (m', Ok r') /\ r_ranges r' = ranges /\ r_lookup r' = table /\
    observations_of r' = map (record_at obs) (filter (fun i => unmasked obs i && in_day (time_of obs i) day) (seq 0 (length (o_measurement obs)))).
Proof.
  intros fs junk m r s o day ranges table u obs S C F1 W1 L1 F2 U2 W2 L2 Fd W U L L63 D.
  destruct (written_ranges ranges W1 L1) as (A1 & A2 & A3). destruct (written_lookup table U2 W2 L2) as (B1 & B2 & B3).
  destruct (ranges_cached fs junk m (path_ranges (m_base m) s o) ranges C) as (m1 & E1 & C1 & M1); [exists (write_ranges ranges); auto|].
  unfold retrieve_day. rewrite E1, S. cbv zeta. rewrite M1, (sopen_some _ _ _ F2), B3, (sopen_some _ _ _ Fd). cbn [bind].
  pose proof (write_day_length u obs day W U) as Lw.
  pose proof (same_as_python (length ranges) (junk (path_observation (m_base m) s o day)) (r_obs r) (write_day u obs day) u day ltac:(lia) L63) as P.
  destruct (read_day_write u obs day u day [] W U) as (o' & R & RR & _); [cbn [length]; unfold record_size; lia|]. rewrite app_nil_r, L in R.
  exists m1. destruct (cpp_read_observations _ _ _ _) as [e|e] eqn:E.
  - destruct P as (_ & o2 & R2 & _ & _ & _ & _ & P). rewrite R in R2. assert (o2 = o') as -> by congruence.
    cbn [bind fst snd]. eexists. split; [reflexivity|]. cbn [r_ranges r_lookup]. split; [reflexivity|]. split; [reflexivity|].
    rewrite P, RR. f_equal. apply valid_positions_in_day; [left; lia|apply W].
  - exfalso. destruct e; try (destruct P as [P _]; congruence); try (destruct P as [_ P]; congruence).
    destruct P as [P _]. apply P. unfold zlen. rewrite Lw, <- L. replace (Z.of_nat _ - 48) with (Z.of_nat (length (valid_positions obs day)) * Z.of_nat (record_size (length (o_cor obs)))) by lia.
    apply Z.mod_mul. unfold record_size. lia.
Qed.
Print Assumptions C107_mobile.
Example C107_mobile_nonvacuous : staticlocation InsituOcean = None /\
  (exists m' r', retrieve_day demo_fs no_junk (new_manager B) new_retrieval InsituOcean Tmean 7 = (m', Ok r') /\
     observations_of r' = [(5, 100, 1, [11]); (5, 300, 3, [13])] /\ location_of r' 5 = Ok (7, 8)).
Proof. split; [reflexivity|]. eexists _, _. split; [vm_compute; reflexivity|]. split; vm_compute; reflexivity. Qed.

(* A day without a file is not always reported: what happens depends on what an uninitialised buffer holds.  If that is the identifier
   (left by a file read just before) the day is taken to have no observations. *)
Theorem C107_missing_file_refuted : forall fs junk m r s o day ranges table, caches_match fs m -> holds_tables fs (m_base m) s o ranges table ->
  let path := path_observation (m_base m) s o day in fs path = None ->
  (junk path = FORMATID_OBSERVATION -> exists m' r', retrieve_day fs junk m r s o day = (m', Ok r') /\ observations_of r' = []) /\
  (junk path <> FORMATID_OBSERVATION -> exists m', retrieve_day fs junk m r s o day = (m', Err OperationException)).
Proof.
  intros fs junk m r s o day ranges table C (F1 & W1 & L1 & (name & S & F2) & U & W2 & L2) path Fn.
  destruct (written_ranges ranges W1 L1) as (A1 & A2 & A3). destruct (written_lookup table U W2 L2) as (B1 & B2 & B3).
  destruct (ranges_cached fs junk m (path_ranges (m_base m) s o) ranges C) as (m1 & E1 & C1 & M1); [exists (write_ranges ranges); auto|].
  destruct (lookup_cached fs junk m1 (path_lookup (m_base m1) name) table C1) as (m2 & E2 & C2 & M2); [exists (write_lookup table); rewrite M1; auto|].
  unfold retrieve_day. rewrite E1, S, E2. cbn [bind]. cbv zeta. rewrite M2, M1. fold path.
  assert (st_fail (sopen fs path) = true) as SF by (unfold sopen; rewrite Fn; reflexivity).
  unfold cpp_read_observations, cpp_read_extended. rewrite header_failed by assumption. split; intro J.
  - rewrite (proj2 (bytes_eqb_iff _ _) J). cbn [bind]. rewrite sread_failed by assumption. rewrite remaining_failed by (try assumption; unfold entry_size; lia).
    cbn [bind fst snd]. eexists _, _. split; [reflexivity|]. reflexivity.
  - destruct (bytes_eqb (junk path) FORMATID_OBSERVATION) eqn:E; [apply bytes_eqb_iff in E; contradiction|]. eexists. reflexivity.
Qed.
Print Assumptions C107_missing_file_refuted.
Example C107_missing_file_nonvacuous : demo_fs (path_observation B SatLand Tmean 9) = None /\ is_ok (snd (retrieve_day demo_fs no_junk (new_manager B) new_retrieval SatLand Tmean 9)) = false /\
  is_ok (snd (retrieve_day demo_fs (fun p => if String.eqb p (path_observation B SatLand Tmean 9) then FORMATID_OBSERVATION else []) (new_manager B) new_retrieval SatLand Tmean 9)) = true.
Proof. repeat split; vm_compute; reflexivity. Qed.

(* A day file cut off inside its header, after the identifier, is read as a day without observations. *)
Theorem C107_truncated_refuted : forall num_ranges junk old data fs path, fs path = Some data -> (16 <= length data < 48)%nat ->
  firstn 16 data = FORMATID_OBSERVATION ->
  exists e, cpp_read_observations num_ranges junk old (sopen fs path) = Ok e /\ oe_num e = 0.
Proof.
  intros k junk old data fs path Fd L Hd. rewrite (sopen_some _ _ _ Fd). unfold cpp_read_observations, cpp_read_extended.
  destruct (Nat.lt_ge_cases (length data) 32) as [G|G].
  - rewrite header_short by lia. rewrite (proj2 (bytes_eqb_iff _ _) Hd). cbn [bind]. rewrite sread_failed by reflexivity.
    rewrite remaining_failed by (try reflexivity; unfold entry_size; lia). cbn [bind fst snd]. eexists. split; reflexivity.
  - rewrite header_at by lia. rewrite (proj2 (bytes_eqb_iff _ _) Hd). cbn [bind].
    pose proof (sread_short 16 (repeat 0 16) data 32 ltac:(change (Z.to_nat 32) with 32%nat; lia) ltac:(lia)) as SS.
    destruct (sread 16 (repeat 0 16) (at_ data 32)) as [u s1]. cbn [snd] in SS. rewrite SS.
    rewrite remaining_failed by (try reflexivity; unfold entry_size; lia). cbn [bind fst snd]. eexists. split; reflexivity.
Qed.
Print Assumptions C107_truncated_refuted.
Example C107_truncated_nonvacuous : (16 <= length (firstn 40 day_a) < 48)%nat /\ firstn 16 (firstn 40 day_a) = FORMATID_OBSERVATION /\ is_ok (read_day 1 (firstn 40 day_a) u1 7) = false.
Proof. split; [split; [apply Nat.leb_le|apply Nat.ltb_lt]; vm_compute; reflexivity|]. split; vm_compute; reflexivity. Qed.

(* The identifier of the location table that a day file carries is not compared with that of the table. *)
Theorem C107_uuid_refuted : exists fs m r', caches_match fs (new_manager B) /\ retrieve_day fs no_junk (new_manager B) new_retrieval SatLand Tmean 7 = (m, Ok r') /\
  oe_uuid (r_obs r') <> lk_uuid (r_lookup r') /\ observations_of r' <> [].
Proof.
  exists (fun p => if String.eqb p (path_observation B SatLand Tmean 7) then Some (write_day u2 demo 7) else demo_fs p).
  eexists _, _. split; [apply new_match|]. split; [vm_compute; reflexivity|]. split; vm_compute; discriminate.
Qed.
Print Assumptions C107_uuid_refuted.

(* ---- C108 *)

Lemma read_ids_long k data v ids : read_location_ids k data v = Ok ids -> (48 <= length data)%nat.
Proof.
  unfold read_location_ids, read_contents. destruct (read_header_uuid _ data) as [[u rest]|] eqn:E; [|discriminate]. intros _.
  apply read_header_uuid_inv in E as (c & -> & Lf & Lc & Lu). rewrite app_length in Lc. rewrite !app_length, Lu. lia.
Qed.

(* Retrieving locations, from day files and the pointer index Python compiles from them, gives for each location asked for, in order,
   exactly the observations made there: over the days in the order in which they were indexed, within a day in the order of the file,
   each carrying the day as its identifier. *)
Theorem C108_history : forall fs junk m s o ranges location_uuid table days file ids,
  let tables := {| lk_uuid := location_uuid; lk_table := table |} in
  caches_match fs m -> holds_tables fs (m_base m) s o ranges tables ->
  Forall (fun fd => fs (path_observation (m_base m) s o (snd fd)) = Some (fst fd) /\ Forall is_byte (fst fd) /\ zlen (fst fd) < 2 ^ 63 /\ 0 <= snd fd < 2 ^ 63) days ->
  run_pointers (write_lookup tables) (write_ranges ranges) days = Ok file -> fs (path_pointers (m_base m) s o) = Some file -> zlen file < 2 ^ 63 ->
  Forall (fun l => 0 <= l < zlen table) ids ->
  exists m' rs obss, retrieve_locations fs junk m s o ids = (m', Ok rs) /\
    Forall2 (fun fd obs => read_day (length ranges) (fst fd) location_uuid (snd fd) = Ok obs) days obss /\
    Forall2 (fun l r => observations_of r = history l (combine (map snd days) (map records obss)) /\ r_ranges r = ranges /\ r_lookup r = tables) ids rs /\ caches_match fs m'.
Proof.
  intros fs junk m s o ranges u table days file ids tables C T D E Fp L63 I. pose proof T as (_ & WR & _ & _ & U & _).
  destruct (pointers_of_days u table ranges days file U WR) as (p & idss & -> & Up & Lp & Wp & RI & NP & _); [|exact E|].
  { eapply Forall_impl; [|exact D]. cbn. tauto. }
  destruct (retrieve_locations_static fs junk m s o ids ranges tables p C T Fp Up L63 Wp) as (m' & ER & C' & _); [now rewrite Lp|].
  assert (exists obss, Forall2 (fun fd obs => read_day (length ranges) (fst fd) u (snd fd) = Ok obs) days obss) as (obss & RO).
  { clear - RI. induction RI as [|fd is ds iss H F [obss IH]]; [exists []; constructor|].
    destruct (read_day_ids _ _ _ (snd fd) _ H) as (ob & Ho). exists (ob :: obss). now constructor. }
  exists m'. eexists. exists obss. split; [exact ER|]. split; [assumption|]. split; [|assumption].
  assert (Forall (fun fd => fs (path_observation (m_base m) s o (snd fd)) = Some (fst fd) /\ zlen (fst fd) < 2 ^ 63) days) as D' by (eapply Forall_impl; [|exact D]; cbn; tauto).
  clear ER E. induction I as [|l ids Hl I IH]; [constructor|]. cbn [map]. constructor; [|exact IH]. cbv zeta. cbn [r_ranges r_lookup]. split; [|split; reflexivity].
  rewrite location_walk.
  - rewrite NP, Z2Nat.id by lia. now apply (walk_days fs (m_base m) s o (length ranges) u).
  - assert (Forall (fun df => 0 <= fst df < 2 ^ 63 /\ word (snd df)) (nth (Z.to_nat l) (lp_lists p) [])) as G.
    { rewrite Forall_forall in Wp. apply Wp. apply nth_In. unfold zlen in *. lia. }
    eapply Forall_impl; [|exact G]. cbn. tauto.
Qed.
Print Assumptions C108_history.
Lemma bytes_check data : forallb (fun b => (0 <=? b) && (b <? 256)) data = true -> Forall is_byte data.
Proof. intros H. rewrite forallb_forall in H. apply Forall_forall. intros x Hx. apply H in Hx. unfold is_byte. lia. Qed.
Lemma demo_days : Forall (fun fd => demo_fs (path_observation B SatLand Tmean (snd fd)) = Some (fst fd) /\ Forall is_byte (fst fd) /\ zlen (fst fd) < 2 ^ 63 /\ 0 <= snd fd < 2 ^ 63) [(day_a, 7); (day_b, 8)].
Proof.
  constructor; [|constructor; [|constructor]]; cbn [fst snd]; (split; [vm_compute; reflexivity|]); (split; [apply bytes_check; vm_compute; reflexivity|]); (split; [vm_compute; reflexivity|lia]).
Qed.
Example C108_history_nonvacuous : run_pointers (write_lookup demo_table) (write_ranges [9]) [(day_a, 7); (day_b, 8)] = Ok demo_pointers /\
  (exists m' r5 r3 r0, retrieve_locations demo_fs no_junk (new_manager B) SatLand Tmean [5; 3; 0] = (m', Ok [r5; r3; r0]) /\
     observations_of r5 = [(7, 100, 1, [11]); (7, 300, 3, [13]); (8, 20, 1, [0])] /\ observations_of r3 = [(8, 10, 1, [0])] /\ observations_of r0 = []).
Proof. split; [vm_compute; reflexivity|]. eexists _, _, _, _. split; [vm_compute; reflexivity|]. repeat split; vm_compute; reflexivity. Qed.

(* It is the same data as retrieving the days one by one and picking out the location. *)
Theorem C108_agrees_with_days : forall fs junk m s o ranges location_uuid table days file ids rds,
  let tables := {| lk_uuid := location_uuid; lk_table := table |} in
  caches_match fs m -> holds_tables fs (m_base m) s o ranges tables ->
  Forall (fun fd => fs (path_observation (m_base m) s o (snd fd)) = Some (fst fd) /\ Forall is_byte (fst fd) /\ zlen (fst fd) < 2 ^ 63 /\ 0 <= snd fd < 2 ^ 63) days ->
  run_pointers (write_lookup tables) (write_ranges ranges) days = Ok file -> fs (path_pointers (m_base m) s o) = Some file -> zlen file < 2 ^ 63 ->
  Forall (fun l => 0 <= l < zlen table) ids ->
  Forall2 (fun fd rd => snd (retrieve_day fs junk m new_retrieval s o (snd fd)) = Ok rd) days rds ->
  exists m' rs, retrieve_locations fs junk m s o ids = (m', Ok rs) /\
    Forall2 (fun l r => observations_of r = history l (combine (map snd days) (map observations_of rds))) ids rs.
Proof.
  intros fs junk m s o ranges u table days file ids rds tables C T D E Fp L63 I RD.
  destruct (C108_history fs junk m s o ranges u table days file ids C T D E Fp L63 I) as (m' & rs & obss & ER & RO & F & _).
  exists m', rs. split; [exact ER|].
  assert (map observations_of rds = map records obss) as EQ.
  { clear - RD RO D C T. revert obss RO. induction RD as [|fd rd ds rds H F IH]; intros obss RO; inversion RO as [|? ob ? obss' H1 H2]; subst; [reflexivity|].
    inversion_clear D as [|? ? (D1 & _ & D2 & _) D']. cbn [map]. f_equal; [|now apply IH].
    assert (48 <= length (fst fd))%nat as L48.
    { apply (read_ids_long (length ranges) (fst fd) u (column 0 match read_contents (length ranges) (fst fd) u with Ok r => r | _ => [] end)).
      unfold read_location_ids. unfold read_day in H1. destruct (read_contents (length ranges) (fst fd) u); [reflexivity|discriminate]. }
    destruct (retrieve_day_static fs junk m new_retrieval s o (snd fd) ranges _ (fst fd) C T D1) as (m1 & E1 & _). rewrite E1 in H. cbn [snd] in H.
    pose proof (same_as_python (length ranges) (junk (path_observation (m_base m) s o (snd fd))) (r_obs new_retrieval) (fst fd) u (snd fd) L48 D2) as P.
    destruct (cpp_read_observations _ _ _ _) as [e|e]; [|discriminate]. cbn [bind] in H. destruct P as (_ & o2 & R2 & _ & _ & _ & _ & P).
    assert (o2 = ob) as -> by congruence. rewrite <- (P ranges {| lk_uuid := u; lk_table := table |} (r_mobile new_retrieval)).
    apply (f_equal (fun r => match r with Ok x => observations_of x | Err _ => [] end)) in H. symmetry. exact H. }
  rewrite EQ. clear - F. induction F as [|l r ids rs (H & _) F IH]; constructor; auto.
Qed.
Print Assumptions C108_agrees_with_days.
Example C108_agrees_with_days_nonvacuous : exists ra rb, Forall2 (fun fd rd => snd (retrieve_day demo_fs no_junk (new_manager B) new_retrieval SatLand Tmean (snd fd)) = Ok rd) [(day_a, 7); (day_b, 8)] [ra; rb] /\
  history 5 (combine [7; 8] [observations_of ra; observations_of rb]) = [(7, 100, 1, [11]); (7, 300, 3, [13]); (8, 20, 1, [0])].
Proof.
  eexists _, _. split; [|].
  - apply Forall2_cons; [|apply Forall2_cons; [|apply Forall2_nil]]; cbn [snd]; vm_compute; reflexivity.
  - vm_compute. reflexivity.
Qed.

(* A source that moves has no fixed locations: nothing is retrieved, for any list of locations and without an error. *)
Theorem C108_mobile : forall fs junk m o ids, retrieve_locations fs junk m InsituOcean o ids = (m, Ok []).
Proof. reflexivity. Qed.
Print Assumptions C108_mobile.
Example C108_mobile_nonvacuous : is_ok (snd (retrieve_day demo_fs no_junk (new_manager B) new_retrieval InsituOcean Tmean 7)) = true.
Proof. vm_compute. reflexivity. Qed.

(* The iterator's location is looked up by the identifier, which here is the day: the place it gives is not the place asked for, or lies
   outside the table. *)
Theorem C108_location_refuted : exists fs m r, caches_match fs (new_manager B) /\ retrieve_locations fs no_junk (new_manager B) SatLand Tmean [5] = (m, Ok [r]) /\
  (exists d v u c rest, observations_of r = (d, v, u, c) :: rest /\ d = 4 /\ location_of r d = Ok (5, 6)) /\ location_of r 5 = Ok (7, 8) /\
  (exists r2, retrieve_locations demo_fs no_junk (new_manager B) SatLand Tmean [5] = (m, Ok [r2]) /\
     exists x rest, observations_of r2 = x :: rest /\ location_of r2 (location x) = Err IndexError).
Proof.
  exists (fun p => if String.eqb p (path_pointers B SatLand Tmean) then
                     Some (match run_pointers (write_lookup demo_table) (write_ranges [9]) [(day_a, 4)] with Ok f => f | Err _ => [] end)
                   else if String.eqb p (path_observation B SatLand Tmean 4) then Some day_a else demo_fs p).
  eexists _, _. split; [apply new_match|]. split; [vm_compute; reflexivity|]. split; [eexists _, _, _, _, _; split; [vm_compute; reflexivity|split; vm_compute; reflexivity]|].
  split; [vm_compute; reflexivity|]. eexists. split; [vm_compute; reflexivity|]. eexists _, _. split; vm_compute; reflexivity.
Qed.
Print Assumptions C108_location_refuted.

(* Locations are not checked against the table.  One that lies beyond the file makes all those asked for after it come back without
   observations. *)
Theorem C108_unknown_location_refuted : exists m m' r5 r r5', caches_match demo_fs (new_manager B) /\
  retrieve_locations demo_fs no_junk (new_manager B) SatLand Tmean [5] = (m, Ok [r5]) /\ length (observations_of r5) = 3%nat /\
  retrieve_locations demo_fs no_junk (new_manager B) SatLand Tmean [1000; 5] = (m', Ok [r; r5']) /\ observations_of r = [] /\ observations_of r5' = [].
Proof.
  eexists _, _, _, _, _. split; [apply new_match|]. split; [vm_compute; reflexivity|]. split; [vm_compute; reflexivity|]. split; [vm_compute; reflexivity|]. split; vm_compute; reflexivity.
Qed.
Print Assumptions C108_unknown_location_refuted.

(* Whatever is asked for, once a location lies beyond the end of the pointer file every later one has no pointers. *)
Theorem C108_failed_stream : forall table_start ids s, st_fail s = true -> read_pointer_lists table_start ids s = Ok (map (fun _ => []) ids).
Proof.
  intros table_start ids. induction ids as [|l ids IH]; intros s F; [reflexivity|]. cbn [read_pointer_lists map].
  unfold sseek at 1. rewrite F. rewrite sread_failed by assumption. change (unle (firstn 8 (repeat 0 16))) with 0. change (unle (skipn 8 (repeat 0 16))) with 0.
  unfold sseek. rewrite F. change (2 ^ 59 <=? 0) with false. cbv iota. change (Z.to_nat (16 * 0)) with 0%nat. rewrite sread_failed by assumption.
  rewrite IH by assumption. reflexivity.
Qed.
Print Assumptions C108_failed_stream.
Example C108_failed_stream_nonvacuous : st_fail (snd (sread 16 (repeat 0 16) (sseek 16056 (sopen demo_fs (path_pointers B SatLand Tmean))))) = true.
Proof. vm_compute. reflexivity. Qed.

(* A day file that the index points to and that is not there is not reported: its observations come back as zeros. *)
Theorem C108_missing_day_refuted : exists fs m r, caches_match fs (new_manager B) /\ fs (path_observation B SatLand Tmean 8) = None /\
  retrieve_locations fs no_junk (new_manager B) SatLand Tmean [3] = (m, Ok [r]) /\ observations_of r = [(8, 0, 0, [0])].
Proof.
  exists (fun p => if String.eqb p (path_observation B SatLand Tmean 8) then None else demo_fs p). eexists _, _.
  split; [apply new_match|]. split; [vm_compute; reflexivity|]. split; vm_compute; reflexivity.
Qed.
Print Assumptions C108_missing_day_refuted.

(* ---- C109 *)

Lemma sumZ_cons x l : sumZ (x :: l) = x + sumZ l.
Proof. reflexivity. Qed.
Lemma walk_count n : forall it, it_index it <= oe_num (it_entries it) -> Z.to_nat (oe_num (it_entries it) - it_index it) = n -> length (walk (S n) it) = n.
Proof.
  induction n as [|n IH]; intros it L E; cbn [walk]; unfold has_element; destruct (Z.ltb_spec (it_index it) (oe_num (it_entries it))) as [G|G]; try lia; [reflexivity|].
  cbn [length]. f_equal. change (length (walk (S n) (next it)) = n). apply IH; cbn [next it_index it_entries]; lia.
Qed.
Lemma observations_count r : 0 <= oe_num (r_obs r) -> zlen (observations_of r) = oe_num (r_obs r).
Proof. intro P. unfold observations_of, zlen. rewrite walk_count; cbn [iterator_of it_index it_entries]; lia. Qed.
Lemma extended_count f size junk s uns : cpp_read_extended f size junk s = Ok uns -> 0 < size -> 0 <= snd (fst uns).
Proof.
  unfold cpp_read_extended. destruct (cpp_read_header f junk s) as [s1|]; [|discriminate]. cbn [bind]. destruct (sread 16 (repeat 0 16) s1) as [u s2].
  unfold num_entries_remaining. cbv zeta. destruct (_ =? 0); [|discriminate]. cbn [bind fst snd]. intros H P. assert (forall a b : list byte * Z * stream, Ok a = Ok b -> a = b) as J by congruence.
  apply J in H. subst uns. cbn [fst snd]. apply Z.div_pos; [|assumption]. apply Z.mod_pos_bound. reflexivity.
Qed.
Lemma retrieved_count fs junk m r s o d m' r' : retrieve_day fs junk m r s o d = (m', Ok r') -> 0 <= oe_num (r_obs r').
Proof.
  unfold retrieve_day. destruct (cached_ranges _ _ _ _) as [m1 [ranges|e]]; [|discriminate].
  destruct (match staticlocation s with Some _ => _ | None => _ end) as [m2 [ml|e]]; [|discriminate]. cbn [bind]. cbv zeta.
  unfold cpp_read_observations. destruct (cpp_read_extended _ _ _ _) as [[[u n] s2]|] eqn:E; [|discriminate]. cbn [bind]. intro H. apply pair_equal_spec in H as [_ H].
  apply (f_equal (fun r => match r with Ok x => oe_num (r_obs x) | Err _ => 0 end)) in H. cbn [r_obs oe_num] in H. rewrite <- H.
  apply (extended_count _ _ _ _ _ E). unfold entry_size. lia.
Qed.

(* The number of observations of a day is the number that retrieving the day gives. *)
Theorem C109_day : forall fs junk base r s o d m' r', retrieve_day fs junk (new_manager base) r s o d = (m', Ok r') ->
  snd (total_daily_observations fs junk (new_manager base) s o d) = Ok (zlen (observations_of r')).
Proof.
  intros fs junk base r s o d m' r' H. destruct (daily_count_day _ _ _ _ _ _ _ _ _ (cache_inv_new fs junk base) H) as (m2 & E & _). rewrite E. cbn [snd].
  rewrite observations_count; [reflexivity|]. now apply (retrieved_count _ _ _ _ _ _ _ _ _ H).
Qed.
Print Assumptions C109_day.
Example C109_day_nonvacuous : snd (total_daily_observations demo_fs no_junk (new_manager B) SatLand Tmean 7) = Ok 2.
Proof. vm_compute. reflexivity. Qed.

(* The total number of observations of a source and observable is the sum over all days of all inputs of that source and observable,
   first and last day included; a day that two inputs cover counts twice. *)
Theorem C109_total : forall fs junk base inputs s o rs,
  Forall2 (fun d r => snd (retrieve_day fs junk (new_manager base) new_retrieval s o d) = Ok r) (asked_days s o inputs) rs ->
  snd (total_observations fs junk (new_manager base) inputs s o) = Ok (sumZ (map (fun r => zlen (observations_of r)) rs) mod 2 ^ 64).
Proof.
  intros fs junk base inputs s o rs. unfold total_observations.
  replace (input_days s o inputs) with (asked_days s o inputs).
  2: { unfold asked_days, input_days. induction inputs as [|i l IH]; [reflexivity|]. cbn [filter flat_map]. destruct (_ && _); cbn [flat_map app]; now rewrite IH. }
  generalize (asked_days s o inputs). intros days F.
  assert (forall m total, cache_inv fs junk m -> m_base m = base -> 0 <= total < 2 ^ 64 ->
    snd (total_days fs junk m s o days total) = Ok ((total + sumZ (map (fun r => zlen (observations_of r)) rs)) mod 2 ^ 64)) as G.
  { induction F as [|d r days rs H F IH]; intros m total I Bm T.
    - cbn [total_days snd map]. change (sumZ []) with 0. rewrite Z.add_0_r, Z.mod_small by assumption. reflexivity.
    - cbn [total_days map]. destruct (retrieve_day fs junk (new_manager base) new_retrieval s o d) as [m1 x] eqn:E. cbn [snd] in H. subst x.
      destruct (same_daily fs junk base s o d) as (a & Ha).
      pose proof (C109_day _ _ _ _ _ _ _ _ _ E) as Hd. destruct (Ha (new_manager base) (cache_inv_new _ _ _) eq_refl) as (m2 & E2 & _). rewrite E2 in Hd. cbn [snd] in Hd. subst a.
      destruct (Ha m I Bm) as (m3 & E3 & I3 & B3). rewrite E3. rewrite IH; [|assumption|assumption|apply Z.mod_pos_bound; reflexivity].
      f_equal. rewrite Zplus_mod_idemp_l. f_equal. rewrite sumZ_cons. lia. }
  apply (G (new_manager base) 0); [apply cache_inv_new|reflexivity|lia].
Qed.
Print Assumptions C109_total.
Definition inp a b : input := {| in_source := SatLand; in_observable := Tmean; in_start := a; in_end := b |}.
Example C109_total_nonvacuous : asked_days SatLand Tmean [inp 7 8; {| in_source := SatLand; in_observable := Tmax; in_start := 1; in_end := 9 |}; inp 8 8] = [7; 8; 8] /\
  snd (total_observations demo_fs no_junk (new_manager B) [inp 7 8; inp 8 8] SatLand Tmean) = Ok 6.
Proof. split; vm_compute; reflexivity. Qed.

(* The number of locations is that of the table the source uses; a moving source has none in general, and those of a day's file on a day. *)
Theorem C109_locations : forall fs junk m s o d,
  (forall name t, staticlocation s = Some name -> fs (path_lookup (m_base m) name) = Some (write_lookup t) -> is_uuid (lk_uuid t) -> zlen (lk_table t) < 2 ^ 58 ->
     total_locations fs junk m s = Ok (zlen (lk_table t))) /\
  (staticlocation s = None -> total_locations fs junk m s = Ok 0) /\
  (forall t, fs (path_mobile (m_base m) s o d) = Some (write_lookup t) -> is_uuid (lk_uuid t) -> zlen (lk_table t) < 2 ^ 58 ->
     total_daily_mobile_locations fs junk m s o d = Ok (zlen (lk_table t))).
Proof.
  intros fs junk m s o d.
  assert (forall path t j, fs path = Some (write_lookup t) -> is_uuid (lk_uuid t) -> zlen (lk_table t) < 2 ^ 58 ->
    (do uns <- cpp_read_extended FORMATID_LOCATION_LOOKUP 16 j (sopen fs path); Ok (snd (fst uns))) = Ok (zlen (lk_table t))) as G.
  { intros path t j F U L. rewrite (sopen_some _ _ _ F). pose proof (write_lookup_length t U) as Lw.
    assert (zlen (write_lookup t) = 48 + 16 * zlen (lk_table t)) as Lz by (unfold zlen; rewrite Lw; lia).
    rewrite extended_at by lia. unfold write_lookup at 1. rewrite firstn_here by auto with obs. rewrite (proj2 (bytes_eqb_iff _ _) eq_refl).
    rewrite Lz. replace (48 + 16 * zlen (lk_table t) - 48) with (zlen (lk_table t) * 16) by lia. rewrite Z.mod_mul, Z.div_mul by lia. reflexivity. }
  split; [|split].
  - intros name t S F U L. unfold total_locations. rewrite S. now apply G.
  - intro S. unfold total_locations. now rewrite S.
  - intros t F U L. now apply G.
Qed.
Print Assumptions C109_locations.
Example C109_locations_nonvacuous : total_locations demo_fs no_junk (new_manager B) SatIce = Ok 6 /\ total_locations demo_fs no_junk (new_manager B) InsituOcean = Ok 0 /\
  total_daily_mobile_locations demo_fs no_junk (new_manager B) InsituOcean Tmean 7 = Ok 6.
Proof. repeat split; vm_compute; reflexivity. Qed.

(* A day of the period whose file is missing makes the whole count an error, unless the uninitialised buffer happens to hold the identifier. *)
Theorem C109_missing_day : forall fs junk base inputs s o d, In d (asked_days s o inputs) -> fs (path_observation base s o d) = None ->
  junk (path_observation base s o d) <> FORMATID_OBSERVATION -> forall n, snd (total_observations fs junk (new_manager base) inputs s o) <> Ok n.
Proof.
  intros fs junk base inputs s o d. unfold total_observations.
  replace (input_days s o inputs) with (asked_days s o inputs).
  2: { unfold asked_days, input_days. induction inputs as [|i l IH]; [reflexivity|]. cbn [filter flat_map]. destruct (_ && _); cbn [flat_map app]; now rewrite IH. }
  generalize (asked_days s o inputs). intros days I Fn J.
  assert (forall m, cache_inv fs junk m -> m_base m = base -> forall total n, snd (total_days fs junk m s o days total) <> Ok n) as G; [|intro n; apply G; [apply cache_inv_new|reflexivity]].
  induction days as [|d' days IH]; [destruct I|]. intros m Im Bm total n. cbn [total_days].
  destruct (same_daily fs junk base s o d') as (a & Ha). destruct (Ha m Im Bm) as (m3 & E3 & I3 & B3). rewrite E3.
  destruct I as [<-|I].
  - assert (exists e, a = Err e) as (e & ->); [|discriminate]. unfold total_daily_observations in E3.
    destruct (cached_ranges_inv fs junk m (path_ranges (m_base m) s o) Im) as (m1 & E1 & _ & B1). rewrite E1 in E3. apply pair_equal_spec in E3 as [_ E3]. rewrite B1, Bm in E3.
    destruct (cpp_read_ranges _ _) as [ranges|e]; cbn [bind] in E3; [|exists e; congruence]. cbv zeta in E3.
    unfold cpp_read_extended in E3. rewrite header_failed in E3 by (unfold sopen; rewrite Fn; reflexivity).
    destruct (bytes_eqb _ _) eqn:Eb; [apply bytes_eqb_iff in Eb; contradiction|]. cbn [bind] in E3. exists OperationException. congruence.
  - destruct a as [k|e]; [|discriminate]. now apply IH.
Qed.
Print Assumptions C109_missing_day.
Example C109_missing_day_nonvacuous : In 9 (asked_days SatLand Tmean [inp 7 9]) /\ demo_fs (path_observation B SatLand Tmean 9) = None /\ no_junk (path_observation B SatLand Tmean 9) <> FORMATID_OBSERVATION.
Proof. split; [vm_compute; auto|]. split; [vm_compute; reflexivity|vm_compute; discriminate]. Qed.

(* ---- C110 *)

(* While the files stay as they are, every answer of a manager, after any calls, is the answer a new manager would give. *)
Theorem C110_caches : forall fs junk base calls,
  do_calls fs junk (new_manager base) calls = map (fun c => snd (do_call fs junk (new_manager base) c)) calls.
Proof. intros. apply calls_fresh; [apply cache_inv_new|reflexivity]. Qed.
Print Assumptions C110_caches.
Example C110_caches_nonvacuous : exists m a, do_call demo_fs no_junk (new_manager B) (CDay new_retrieval SatLand Tmean 7) = (m, a) /\ length (m_ranges m) = 1%nat /\ length (m_lookups m) = 1%nat.
Proof. eexists _, _. split; [vm_compute; reflexivity|]. split; reflexivity. Qed.

(* Files that change are not noticed: ranges and fixed locations are read once. *)
Theorem C110_stale_refuted : exists fs fs' m a b, do_call fs no_junk (new_manager B) (CDay new_retrieval SatLand Tmean 7) = (m, a) /\
  snd (do_call fs' no_junk m (CDay new_retrieval SatLand Tmean 7)) = b /\ snd (do_call fs' no_junk (new_manager B) (CDay new_retrieval SatLand Tmean 7)) <> b.
Proof.
  exists demo_fs, (fun p => if String.eqb p (path_lookup B "satellite") then Some (write_lookup {| lk_uuid := u1; lk_table := [(0, 0)] |}) else demo_fs p).
  eexists _, _, _. split; [vm_compute; reflexivity|]. split; [reflexivity|]. vm_compute. discriminate.
Qed.
Print Assumptions C110_stale_refuted.

(* ---- C111 *)

(* The names the C++ reader makes are those under which Python writes the files. *)
Theorem C111_python_names : forall base s o d, plain_base base -> four_digit_day d ->
  py_filename_observations base (sourcename s) (observablename o) d = Ok (path_observation base s o d) /\
  py_filename_mobile_locations base (sourcename s) (observablename o) d = Ok (path_mobile base s o d) /\
  py_filename_ranges base (sourcename s) (observablename o) = path_ranges base s o /\
  (forall name, staticlocation s = Some name -> s <> SatLake -> py_filename_lookup base (sourcename s) = Some (path_lookup base name)).
Proof.
  intros base s o d P F. destruct (names_observation base s o d P F) as [E1 E2]. split; [exact E1|]. split; [exact E2|]. split.
  - unfold py_filename_ranges, path_ranges. apply base_join; [assumption|]. destruct s; reflexivity.
  - intros name S N. unfold py_filename_lookup. destruct s; cbn in S; try discriminate; try contradiction; injection S as <-; cbn [sourcename];
      (match goal with |- context [py_fixed_lookup ?x] => let y := eval vm_compute in (py_fixed_lookup x) in change (py_fixed_lookup x) with y end); cbn [option_map];
      rewrite base_join by (assumption || reflexivity); reflexivity.
Qed.
Print Assumptions C111_python_names.
Example C111_python_names_nonvacuous : plain_base B /\ four_digit_day 61000 /\ path_observation B SatLand Tmean 61000 = "/data/surfaceairmodel_land/2017/surfaceairmodel_land_Tmean_20170105.bin"%string.
Proof.
  split; [|split; [|vm_compute; reflexivity]].
  - split; [discriminate|]. split; [reflexivity|]. cbn. intuition discriminate.
  - unfold four_digit_day. split; vm_compute; discriminate.
Qed.

(* Python's loader knows no table of locations for lakes. *)
Theorem C111_lake_refuted : forall base, staticlocation SatLake = Some "lake"%string /\ py_filename_lookup base (sourcename SatLake) = None.
Proof. split; reflexivity. Qed.
Print Assumptions C111_lake_refuted.

(* A base directory with a trailing slash gives other names (with two slashes), one with a percent sign may give others still. *)
Theorem C111_base_refuted : exists base, four_digit_day 0 /\ py_filename_observations base "insitu_land" "Tmean" 0 <> Ok (path_observation base InsituLand Tmean 0).
Proof. exists "/data/%Y"%string. split; [split; vm_compute; discriminate|]. vm_compute. discriminate. Qed.
Print Assumptions C111_base_refuted.

(* No two different files have the same name. *)
Lemma year_slash d d' x y : four_digit_day d -> four_digit_day d' -> (str_slice (datestring d) 0 4 ++ "/" ++ x = str_slice (datestring d') 0 4 ++ "/" ++ y)%string -> x = y.
Proof.
  intros F F'. destruct (datestring_year d F) as (z & r & _ & ->). destruct (datestring_year d' F') as (z' & r' & _ & ->).
  unfold pad4, pad2. cbn [append]. intro E. now injection E.
Qed.
Definition tail_of (k : kind_of_file) : string :=
  match k with
  | FObservations s o d => sourcename s ++ "/" ++ (str_slice (datestring d) 0 4 ++ "/" ++ (sourcename s ++ "_" ++ (observablename o ++ "_" ++ (datestring d ++ ".bin"))))
  | FMobileLocations s o d => sourcename s ++ "/" ++ (str_slice (datestring d) 0 4 ++ "/" ++ (sourcename s ++ "_" ++ (observablename o ++ "_" ++ ("mobilelocations_" ++ datestring d ++ ".bin"))))
  | FPointers s o => sourcename s ++ "_" ++ (observablename o ++ "_" ++ "locationpointers.bin")
  | FRanges s o => sourcename s ++ "_" ++ (observablename o ++ "_" ++ "localcorrelationranges.bin")
  | FLookup name => "locationlookup_" ++ (name ++ ".bin")
  end%string.
Lemma tail_path base k : path_of base k = (base ++ "/" ++ tail_of k)%string.
Proof. destruct k; reflexivity. Qed.
Theorem C111_distinct : forall base k k', kind_ok k -> kind_ok k' -> path_of base k = path_of base k' -> k = k'.
Proof.
  intros base k k' K K' E. rewrite !tail_path in E. apply app_cancel in E. apply (app_cancel "/") in E.
  assert (forall s x y, (sourcename s ++ "/" ++ x <> "locationlookup_" ++ y)%string) as NL by (intros; apply source_lookup; auto).
  assert (forall s x y, (sourcename s ++ "_" ++ x <> "locationlookup_" ++ y)%string) as NL' by (intros; apply source_lookup; auto).
  destruct k as [s o d|s o d|s o|s o|n], k' as [s' o' d'|s' o' d'|s' o'|s' o'|n']; cbn [tail_of kind_ok] in *;
    try (exfalso; now apply source_mixed in E); try (exfalso; symmetry in E; now apply source_mixed in E);
    try (exfalso; now apply NL in E); try (exfalso; now apply NL' in E); try (exfalso; symmetry in E; now apply NL in E); try (exfalso; symmetry in E; now apply NL' in E).
  1-4: apply source_slash in E as [<- E]; apply year_slash in E; [|assumption|assumption]; apply source_underscore in E as [_ E]; apply observable_underscore in E as [<- E].
  - apply datestring_inj in E; [|assumption|assumption]. now subst d'.
  - exfalso. now apply date_not_mobile in E.
  - exfalso. symmetry in E. now apply date_not_mobile in E.
  - apply app_cancel in E. apply datestring_inj in E; [|assumption|assumption]. now subst d'.
  - apply source_underscore in E as [<- E]. apply observable_underscore in E as [<- _]. reflexivity.
  - exfalso. apply source_underscore in E as [<- E]. apply observable_underscore in E as [<- E]. discriminate E.
  - exfalso. apply source_underscore in E as [<- E]. apply observable_underscore in E as [<- E]. discriminate E.
  - apply source_underscore in E as [<- E]. apply observable_underscore in E as [<- _]. reflexivity.
  - apply app_cancel in E. f_equal. destruct K as (s & Hs), K' as (s' & Hs'). destruct s; cbn in Hs; try discriminate Hs; injection Hs as <-; destruct s'; cbn in Hs'; try discriminate Hs'; injection Hs' as <-; try reflexivity; discriminate E.
Qed.
Print Assumptions C111_distinct.
Example C111_distinct_nonvacuous : kind_ok (FObservations SatLand Tmean 7) /\ kind_ok (FMobileLocations InsituOcean Tmax 7) /\ kind_ok (FLookup "lake") /\ kind_ok (FPointers SatIce Tmin).
Proof. split; [split; vm_compute; discriminate|]. split; [split; vm_compute; discriminate|]. split; [exists SatLake; reflexivity|exact I]. Qed.

(* ---- C112 *)

(* The C++ reader rejects the same break points as Python, with the same result, for both policies. *)
Theorem C112_policy : forall exp b threshold decay, breaks_ok b ->
  cpp_apply_policy exp 0 b threshold decay = apply_policy exp "HARD_CUTOFF" b threshold decay /\
  cpp_apply_policy exp 1 b threshold decay = apply_policy exp "LAPLACE_KERNEL" b threshold decay.
Proof.
  intros exp b threshold decay W. split; unfold cpp_apply_policy; cbn [Z.eqb Pos.eqb]; rewrite reject_all by (assumption || now rewrite map_length);
    rewrite map_length; unfold apply_policy; cbn [String.eqb Ascii.eqb Bool.eqb]; unfold apply_base_policy, apply_kernel_policy; f_equal; f_equal;
    apply filter_ext_in; intros i Hi; apply in_seq in Hi; cbv beta.
  - rewrite (nth_indep _ _ (qz 0)) by (rewrite map_length; lia). rewrite map_nth. reflexivity.
  - set (f := fun l => exp (qz (- Z.abs (l - 127)) * decay)%Qc). rewrite (nth_indep _ _ (f 0%Z)) by (rewrite map_length; lia). rewrite map_nth. unfold f. f_equal. f_equal. f_equal.
    replace (qz (- Z.abs (nth i (bk_likelihood b) 0 - 127))) with (- qz (Z.abs (nth i (bk_likelihood b) 0%Z - 127)))%Qc; [ring|].
    symmetry. apply qz_opp.
Qed.
Print Assumptions C112_policy.
Example C112_policy_nonvacuous : breaks_ok demo_breaks /\ (exists b, cpp_apply_policy (fun x => x) 0 demo_breaks (qz 60) 0%Qc = Ok b /\ bk_station b = [1; 4]) /\
  (exists b, cpp_apply_policy (fun x => x + 1)%Qc 1 demo_breaks (qz (-80)) (qz 1) = Ok b /\ bk_time b = [100; 300]).
Proof. split; [split; reflexivity|]. split; eexists; (split; [vm_compute; reflexivity|reflexivity]). Qed.
Theorem C112_unknown_policy : forall exp code b threshold decay, code <> 0 -> code <> 1 -> is_ok (cpp_apply_policy exp code b threshold decay) = false.
Proof. intros exp code b th dc H0 H1. unfold cpp_apply_policy. destruct (Z.eqb_spec code 0); [contradiction|]. destruct (Z.eqb_spec code 1); [contradiction|]. reflexivity. Qed.
Print Assumptions C112_unknown_policy.
Example C112_unknown_policy_nonvacuous : (2 <> 0 /\ 2 <> 1)%Z. Proof. lia. Qed.

(* The stations with break points: each once, in ascending order, with the number of its break points, all break points being counted. *)
Lemma filter_eqb_none (l : list Z) x : ~ In x l -> filter (Z.eqb x) l = [].
Proof. induction l as [|y l IH]; intro H; [reflexivity|]. cbn [filter]. destruct (Z.eqb_spec x y) as [->|N]; [exfalso; apply H; now left|]. apply IH. intro. apply H. now right. Qed.
Lemma counts_sum (st : list Z) : forall l, NoDup st -> (forall x, In x l -> In x st) -> sumZ (map (fun s => zlen (filter (Z.eqb s) l)) st) = zlen l.
Proof.
  intros l N. induction l as [|x l IH]; intro C.
  - clear. induction st as [|s st IH]; [reflexivity|]. cbn [map]. rewrite sumZ_cons, IH. reflexivity.
  - rewrite zlen_cons. rewrite <- IH by (intros; apply C; now right). assert (In x st) as I by (apply C; now left). clear C IH. induction N as [|y st Hy N IH]; [destruct I|].
    cbn [map]. rewrite !sumZ_cons. cbn [filter]. destruct (Z.eqb_spec y x) as [->|Ne].
    + rewrite zlen_cons. assert (map (fun s => zlen (filter (Z.eqb s) (x :: l))) st = map (fun s => zlen (filter (Z.eqb s) l)) st) as EQ; [|cbn [filter] in EQ; rewrite EQ; lia].
      apply map_ext_in. intros s Hs. cbn [filter]. destruct (Z.eqb_spec s x) as [->|]; [contradiction|reflexivity].
    + destruct I as [->|I]; [contradiction|]. specialize (IH I). cbn [filter] in IH. rewrite IH. lia.
Qed.
Theorem C112_stations : forall b,
  StronglySorted Z.lt (stations_collection b) /\ (forall s, In s (stations_collection b) <-> In s (bk_station b)) /\
  Forall2 (fun s n => n = Z.of_nat (count_occ Z.eq_dec (bk_station b) s) /\ 0 < n) (stations_collection b) (stations_count b) /\
  sumZ (stations_count b) = zlen (bk_station b).
Proof.
  intro b. destruct (std_sort_spec (bk_station b)) as [S I].
  assert (forall s, In s (stations_collection b) <-> In s (bk_station b)) as M by (intro s; unfold stations_collection; now rewrite std_unique_In, I).
  pose proof (std_unique_sorted _ S) as SS. split; [exact SS|]. split; [exact M|]. split.
  - unfold stations_count. assert (forall st, (forall s, In s st -> In s (bk_station b)) ->
      Forall2 (fun s n => n = Z.of_nat (count_occ Z.eq_dec (bk_station b) s) /\ 0 < n) st (map (fun s => zlen (filter (Z.eqb s) (bk_station b))) st)) as G; [|apply G; intros s Hs; now apply M].
    intros st H. induction st as [|s st IH]; constructor; [|apply IH; intros; apply H; now right].
    assert (zlen (filter (Z.eqb s) (bk_station b)) = Z.of_nat (count_occ Z.eq_dec (bk_station b) s)) as E.
    { unfold zlen. f_equal. clear. induction (bk_station b) as [|x l IH]; [reflexivity|]. cbn [filter count_occ]. destruct (Z.eqb_spec s x) as [->|N]; destruct (Z.eq_dec x _); try congruence; cbn [length]; now rewrite IH. }
    split; [exact E|]. rewrite E. pose proof (H s (or_introl eq_refl)) as Is. apply (count_occ_In Z.eq_dec) in Is. lia.
  - unfold stations_count. apply counts_sum; [|intros; now apply M].
    assert (forall l, StronglySorted Z.lt l -> NoDup l) as N; [|now apply N].
    induction 1 as [|x l S' IH F]; constructor; [|assumption]. intro Ix. rewrite Forall_forall in F. specialize (F x Ix). lia.
Qed.
Print Assumptions C112_stations.
Definition many_breaks : breaks := {| bk_time := [10; 20; 30; 40]; bk_station := [7; 3; 7; 5]; bk_likelihood := [1; 2; 3; 4] |}.
Example C112_stations_nonvacuous : stations_collection many_breaks = [3; 5; 7] /\ stations_count many_breaks = [1; 1; 2].
Proof. split; vm_compute; reflexivity. Qed.

(* The break points of a station: the times of the entries of that station, in the order of the entries. *)
Theorem C112_filtered : forall b station, breaks_ok b ->
  filtered_breakpoints b station = Ok (map fst (filter (fun ts => snd ts =? station) (combine (bk_time b) (bk_station b)))).
Proof.
  intros b station (W1 & W2). unfold filtered_breakpoints. rewrite (pick_filter (fun s => s =? station) 0 0) by congruence. f_equal. unfold take.
  assert (length (bk_time b) = length (bk_station b)) as L by congruence. clear W1 W2. revert L. generalize (bk_time b) (bk_station b). clear b. intros ts ss L.
  rewrite <- L. replace (combine ts ss) with (map (fun i => (nth i ts 0, nth i ss 0)) (seq 0 (length ts))).
  - induction (seq 0 (length ts)) as [|i is IH]; [reflexivity|]. cbn [map filter snd]. destruct (nth i ss 0 =? station); cbn [map fst]; now rewrite IH.
  - revert ss L. induction ts as [|t ts IH]; intros [|s ss] L; try discriminate L; [reflexivity|]. cbn [length seq map combine nth]. f_equal. injection L as L. rewrite <- IH by assumption.
    rewrite <- seq_shift, map_map. apply map_ext. reflexivity.
Qed.
Print Assumptions C112_filtered.
Example C112_filtered_nonvacuous : breaks_ok many_breaks /\ filtered_breakpoints many_breaks 7 = Ok [10; 30].
Proof. split; [split; reflexivity|vm_compute; reflexivity]. Qed.
