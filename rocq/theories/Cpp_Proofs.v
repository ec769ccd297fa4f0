(* Lemmas about the C++ reader. *)
From Coq Require Import QArith Qcanon String Ascii Sorted Permutation.
From Verif Require Import Base Cat_Model Grid_Model Time_Model Obs_Model Obs_Spec Obs_Proofs Cpp_Model Cpp_Spec.
Local Open Scope Z_scope.
Local Open Scope list_scope.

Definition at_ (data : list byte) (p : Z) : stream := {| st_data := data; st_pos := p; st_fail := false |}.
Lemma sopen_some fs path data : fs path = Some data -> sopen fs path = at_ data 0.
Proof. unfold sopen. now intros ->. Qed.
Lemma sread_at n buf data p : 0 <= p -> (Z.to_nat p + n <= length data)%nat ->
  sread n buf (at_ data p) = (firstn n (skipn (Z.to_nat p) data), at_ data (p + Z.of_nat n)).
Proof.
  intros P L. unfold sread. cbn [st_fail st_pos st_data at_]. cbv zeta.
  assert (length (firstn n (skipn (Z.to_nat p) data)) = n) as -> by (rewrite firstn_length, skipn_length; lia).
  rewrite Nat.eqb_refl. reflexivity.
Qed.
Lemma sread_short n buf data p : (length data < Z.to_nat p + n)%nat -> (0 < n)%nat ->
  snd (sread n buf (at_ data p)) = failed (at_ data p).
Proof.
  intros L N. unfold sread. cbn [st_fail st_pos st_data at_]. cbv zeta.
  destruct (Nat.eqb_spec (length (firstn n (skipn (Z.to_nat p) data))) n) as [E|]; [|reflexivity].
  rewrite firstn_length, skipn_length in E. lia.
Qed.
Lemma sread_failed n buf s : st_fail s = true -> sread n buf s = (buf, s).
Proof. intro F. unfold sread. now rewrite F. Qed.
Lemma seek_at data p q : q < 2 ^ 63 -> sseek q (at_ data p) = at_ data q.
Proof. intro H. unfold sseek. cbn [st_fail at_]. destruct (Z.ltb_spec q (2 ^ 63)); [reflexivity|lia]. Qed.

Lemma header_at f junk data : (32 <= length data)%nat ->
  cpp_read_header f junk (at_ data 0) = if bytes_eqb (firstn 16 data) f then Ok (at_ data 32) else Err OperationException.
Proof.
  intro L. unfold cpp_read_header. rewrite (sread_at 16) by (change (Z.to_nat 0) with 0%nat; lia).
  rewrite sread_at by (change (Z.to_nat (0 + Z.of_nat 16)) with 16%nat; lia). reflexivity.
Qed.
Lemma header_failed f junk s : st_fail s = true -> cpp_read_header f junk s = if bytes_eqb junk f then Ok s else Err OperationException.
Proof. intro F. unfold cpp_read_header. rewrite !sread_failed by assumption. reflexivity. Qed.
(* a header cut short but with its identifier *)
Lemma header_short f junk data : (16 <= length data < 32)%nat ->
  cpp_read_header f junk (at_ data 0) = if bytes_eqb (firstn 16 data) f then Ok (failed (at_ data 16)) else Err OperationException.
Proof.
  intro L. unfold cpp_read_header. rewrite (sread_at 16) by (change (Z.to_nat 0) with 0%nat; lia).
  change (0 + Z.of_nat 16) with 16. pose proof (sread_short 16 junk data 16) as SS. destruct (sread 16 junk (at_ data 16)) as [x s].
  cbn [snd] in SS. rewrite SS; [reflexivity|change (Z.to_nat 16) with 16%nat; lia|lia].
Qed.

Lemma remaining_at data p size : 0 <= p <= zlen data -> zlen data < 2 ^ 63 ->
  num_entries_remaining (at_ data p) size =
  if (zlen data - p) mod size =? 0 then Ok ((zlen data - p) / size, at_ data p) else Err ValueError.
Proof.
  intros P L. unfold num_entries_remaining. unfold stellg, sseek_end. cbn [st_fail at_ st_pos st_data move]. cbv zeta.
  rewrite (Z.mod_small (zlen data - p)) by lia. destruct ((zlen data - p) mod size =? 0); [|reflexivity].
  unfold sseek. cbn [st_fail]. destruct (Z.ltb_spec p (2 ^ 63)); [reflexivity|lia].
Qed.
Lemma remaining_failed s size : st_fail s = true -> size <> 0 -> num_entries_remaining s size = Ok (0, s).
Proof.
  intros F N. unfold num_entries_remaining, stellg, sseek_end, sseek. rewrite !F. cbv zeta. rewrite Z.sub_diag, (Z.mod_0_l (2 ^ 64)) by lia.
  rewrite Z.mod_0_l, Z.div_0_l by assumption. reflexivity.
Qed.

Lemma extended_at f size junk data : (48 <= length data)%nat -> zlen data < 2 ^ 63 ->
  cpp_read_extended f size junk (at_ data 0) =
  if bytes_eqb (firstn 16 data) f
  then if (zlen data - 48) mod size =? 0 then Ok (firstn 16 (skipn 32 data), (zlen data - 48) / size, at_ data 48) else Err ValueError
  else Err OperationException.
Proof.
  intros L L63. unfold cpp_read_extended. rewrite header_at by lia. destruct (bytes_eqb _ f); [|reflexivity]. cbn [bind].
  rewrite sread_at by (change (Z.to_nat 32) with 32%nat; lia). change (32 + Z.of_nat 16) with 48.
  rewrite remaining_at by (unfold zlen in *; lia). destruct (_ =? 0); reflexivity.
Qed.

Lemma read_observations_at k junk old data : (48 <= length data)%nat -> zlen data < 2 ^ 63 ->
  cpp_read_observations k junk old (at_ data 0) =
  if bytes_eqb (firstn 16 data) FORMATID_OBSERVATION
  then if (zlen data - 48) mod Z.of_nat (entry_size k) =? 0
       then Ok {| oe_ranges := k; oe_num := (zlen data - 48) / Z.of_nat (entry_size k); oe_uuid := firstn 16 (skipn 32 data); oe_bytes := skipn 48 data |}
       else Err ValueError
  else Err OperationException.
Proof.
  intros L L63. unfold cpp_read_observations. rewrite extended_at by assumption. destruct (bytes_eqb _ _); [|reflexivity].
  destruct (Z.eqb_spec ((zlen data - 48) mod Z.of_nat (entry_size k)) 0) as [E|]; [|reflexivity]. cbn [bind]. cbv zeta.
  assert (Z.of_nat (entry_size k) > 0) as P by (unfold entry_size; lia).
  assert ((zlen data - 48) / Z.of_nat (entry_size k) * Z.of_nat (entry_size k) = zlen data - 48) as -> by (pose proof (Z.div_mod (zlen data - 48) (Z.of_nat (entry_size k))); lia).
  rewrite sread_at by (change (Z.to_nat 48) with 48%nat; unfold zlen in *; lia). cbn [fst]. do 2 f_equal.
  change (Z.to_nat 48) with 48%nat. apply firstn_all2. rewrite skipn_length. unfold zlen in *. lia.
Qed.

(* ---- walking over entries *)
Lemma word_at_nth data p j : (p + 8 * j + 8 <= length data)%nat -> forall n, (8 * j + 8 <= n)%nat -> (p + n <= length data)%nat ->
  word_at data (p + 8 * j) = nthZ (words (firstn n (skipn p data))) j.
Proof.
  intros L n N Ln. unfold word_at, nthZ, words. rewrite (nth_indep _ 0 (unle [])).
  - rewrite map_nth. rewrite fromfile_nth.
    + f_equal. rewrite skipn_firstn_comm, firstn_firstn, skipn_skipn. f_equal. lia.
    + rewrite firstn_length, skipn_length. replace (Nat.min n (length data - p)) with n by lia.
      apply Nat.lt_le_trans with ((8 * j + 8) / 8)%nat; [|apply Nat.div_le_mono; lia].
      replace (8 * j + 8)%nat with ((j + 1) * 8)%nat by lia. rewrite Nat.div_mul by lia. lia.
  - rewrite map_length, fromfile_length, firstn_length, skipn_length. replace (Nat.min n (length data - p)) with n by lia.
    apply Nat.lt_le_trans with ((8 * j + 8) / 8)%nat; [|apply Nat.div_le_mono; lia].
    replace (8 * j + 8)%nat with ((j + 1) * 8)%nat by lia. rewrite Nat.div_mul by lia. lia.
Qed.
Lemma walk_all k n uuid bytes : length bytes = (entry_size k * n)%nat -> forall m i, (i + m = n)%nat ->
  walk (S m) {| it_entries := {| oe_ranges := k; oe_num := Z.of_nat n; oe_uuid := uuid; oe_bytes := bytes |}; it_index := Z.of_nat i; it_pointer := entry_size k * i |} =
  map (fun i => record_of_words k (words (firstn (entry_size k) (skipn (entry_size k * i) bytes)))) (seq i m).
Proof.
  intros L m. induction m as [|m IH]; intros i E.
  - cbn [walk]. unfold has_element. cbn [it_index it_entries oe_num]. destruct (Z.ltb_spec (Z.of_nat i) (Z.of_nat n)); [lia|reflexivity].
  - change (walk (S (S m))) with (fun it => if has_element it then current it :: walk (S m) (next it) else []). cbv beta.
    unfold has_element. cbn [it_index it_entries oe_num]. destruct (Z.ltb_spec (Z.of_nat i) (Z.of_nat n)); [|lia]. cbn [seq map].
    assert (entry_size k * i + entry_size k <= length bytes)%nat as B.
    { rewrite L, <- Nat.mul_succ_r. apply Nat.mul_le_mono_l. lia. }
    f_equal.
    + unfold current, record_of_words. cbn [it_entries it_pointer oe_bytes oe_ranges]. cbv zeta.
      rewrite (Nat.add_comm (entry_size k * i) 8). unfold entry_size in *.
      rewrite <- !(word_at_nth bytes _ _) by lia.
      apply (f_equal2 pair); [apply (f_equal2 pair); [apply (f_equal2 pair)|]|]; try (apply f_equal; lia).
      apply map_ext_in. intros j Hj. apply in_seq in Hj. rewrite <- (word_at_nth bytes _ _) by lia. f_equal. lia.
    + unfold next. cbn [it_entries it_index it_pointer oe_ranges]. rewrite <- (IH (S i)) by lia. f_equal. f_equal; lia.
Qed.
Lemma observations_chunks r : (exists n, oe_num (r_obs r) = Z.of_nat n /\ length (oe_bytes (r_obs r)) = entry_size (oe_ranges (r_obs r)) * n)%nat ->
  observations_of r = map (record_of_words (oe_ranges (r_obs r))) (map words (fromfile (entry_size (oe_ranges (r_obs r))) (oe_bytes (r_obs r)))).
Proof.
  intros (n & En & L). destruct r as [rr rl rm [k num uuid bytes]]. unfold observations_of. cbn [r_obs oe_num oe_ranges oe_bytes] in *. subst num.
  rewrite Nat2Z.id. pose proof (walk_all k n uuid bytes L n 0 eq_refl) as W. rewrite Nat.mul_0_r in W. unfold iterator_of. change (Z.of_nat 0) with 0 in W. rewrite W.
  rewrite map_map. transitivity (map (fun i => record_of_words k (words (nth i (fromfile (entry_size k) bytes) []))) (seq 0 n)).
  - apply map_ext_in. intros i Hi. apply in_seq in Hi. rewrite fromfile_nth; [reflexivity|].
    rewrite L, Nat.mul_comm, Nat.div_mul by (unfold entry_size; lia). lia.
  - rewrite <- (map_nth_seq (fun x => record_of_words k (words x)) [] (fromfile (entry_size k) bytes)). f_equal. f_equal.
    rewrite fromfile_length, L, Nat.mul_comm, Nat.div_mul by (unfold entry_size; lia). reflexivity.
Qed.

(* ---- the Python readers on the same file *)
Lemma py_header_uuid f data : (48 <= length data)%nat -> read_header_uuid f data =
  if bytes_eqb (firstn 16 data) f then Ok (firstn 16 (skipn 32 data), skipn 48 data) else Err OperationException.
Proof.
  intro L. unfold read_header_uuid, read_header. destruct (bytes_eqb _ f); [|reflexivity]. cbn [bind]. rewrite !skipn_skipn.
  change (16 + 16)%nat with 32%nat. change (32 + 16)%nat with 48%nat. cbv zeta.
  assert (length (firstn 16 (skipn 32 data)) = 16)%nat as -> by (rewrite firstn_length, skipn_length; lia). reflexivity.
Qed.
Lemma chunks_sizes size : forall n data, (n * size <= length data)%nat -> Forall (fun c => length c = size) (chunks n size data).
Proof.
  induction n as [|n IH]; intros data L; [constructor|]. cbn [chunks]. constructor; [rewrite firstn_length; lia|]. apply IH. rewrite skipn_length. lia.
Qed.
Lemma pair_of_record r : length r = 16%nat -> (unle (firstn 8 r), unle (skipn 8 r)) = (nthZ (words r) 0, nthZ (words r) 1).
Proof.
  intro L. rewrite (words_step r) by lia. rewrite (words_step (skipn 8 r)) by (rewrite skipn_length; lia). unfold nthZ. cbn [nth].
  f_equal. f_equal. symmetry. apply firstn_all2. rewrite skipn_length. lia.
Qed.
Lemma rem_eq n size : (0 < size)%nat -> forall L, Z.of_nat L - Z.of_nat n >= 0 -> (Z.of_nat L - Z.of_nat n) mod Z.of_nat size = 0 ->
  exists q, (L = n + size * q)%nat /\ (Z.of_nat L - Z.of_nat n) / Z.of_nat size = Z.of_nat q.
Proof.
  intros S L P E. exists (Z.to_nat ((Z.of_nat L - Z.of_nat n) / Z.of_nat size)).
  assert (0 <= (Z.of_nat L - Z.of_nat n) / Z.of_nat size) by (apply Z.div_pos; lia).
  pose proof (Z.div_mod (Z.of_nat L - Z.of_nat n) (Z.of_nat size)). nia.
Qed.

Lemma read_lookup_at junk old data : (48 <= length data)%nat -> zlen data < 2 ^ 63 ->
  cpp_read_lookup junk old (at_ data 0) =
  if bytes_eqb (firstn 16 data) FORMATID_LOCATION_LOOKUP
  then if (zlen data - 48) mod 16 =? 0 then read_lookup data else Err ValueError
  else Err OperationException.
Proof.
  intros L L63. unfold cpp_read_lookup, read_lookup. rewrite extended_at, py_header_uuid by assumption. destruct (bytes_eqb _ _); [|reflexivity].
  destruct (Z.eqb_spec ((zlen data - 48) mod 16) 0) as [E|]; [|reflexivity]. cbn [bind fst snd]. cbv zeta.
  destruct (rem_eq 48 16 ltac:(lia) (length data)) as (q & Lq & Dq); [lia|exact E|]. change (Z.of_nat 48) with 48 in Dq. change (Z.of_nat 16) with 16 in Dq.
  unfold zlen in *. rewrite Dq. rewrite sread_at by (change (Z.to_nat 48) with 48%nat; lia). cbn [fst]. rewrite Nat2Z.id. change (Z.to_nat 48) with 48%nat.
  do 2 f_equal. assert (length (skipn 48 data) = 16 * q)%nat as Ls by (rewrite skipn_length; lia).
  rewrite firstn_all2 by lia. unfold fromfile. rewrite Ls, Nat.mul_comm, Nat.div_mul by lia.
  apply map_ext_in. intros r Hr. apply pair_of_record. pose proof (chunks_sizes 16 q (skipn 48 data) ltac:(lia)) as F. rewrite Forall_forall in F. now apply F.
Qed.
Lemma read_ranges_at junk data : (32 <= length data)%nat -> zlen data < 2 ^ 63 ->
  cpp_read_ranges junk (at_ data 0) =
  if bytes_eqb (firstn 16 data) FORMATID_LOCAL_CORRELATION_RANGE
  then if (zlen data - 32) mod 8 =? 0 then read_ranges data else Err ValueError
  else Err OperationException.
Proof.
  intros L L63. unfold cpp_read_ranges, read_ranges, read_header. rewrite header_at by assumption. destruct (bytes_eqb _ _); [|reflexivity]. cbn [bind].
  rewrite remaining_at by (unfold zlen in *; lia).
  destruct (Z.eqb_spec ((zlen data - 32) mod 8) 0) as [E|]; [|reflexivity]. cbn [bind fst snd]. cbv zeta.
  destruct (rem_eq 32 8 ltac:(lia) (length data)) as (q & Lq & Dq); [lia|exact E|]. change (Z.of_nat 32) with 32 in Dq. change (Z.of_nat 8) with 8 in Dq.
  unfold zlen in *. rewrite Dq. rewrite sread_at by (change (Z.to_nat 32) with 32%nat; lia). cbn [fst]. rewrite Nat2Z.id. change (Z.to_nat 32) with 32%nat.
  f_equal. rewrite skipn_skipn. change (16 + 16)%nat with 32%nat. assert (length (skipn 32 data) = 8 * q)%nat as Ls by (rewrite skipn_length; lia).
  rewrite firstn_all2 by lia. unfold words, fromfile. rewrite Ls, Nat.mul_comm, Nat.div_mul by lia. reflexivity.
Qed.
Lemma entry_size_record k : entry_size k = record_size k.
Proof. unfold entry_size, record_size. lia. Qed.

(* what the two languages make of one day's file *)
Lemma same_as_python k junk old data v d : (48 <= length data)%nat -> zlen data < 2 ^ 63 ->
  match cpp_read_observations k junk old (at_ data 0) with
  | Ok e => (zlen data - 48) mod Z.of_nat (record_size k) = 0 /\
      exists o, read_day k data v d = Ok o /\ oe_ranges e = k /\ oe_num e = zlen (records o) /\ oe_uuid e = firstn 16 (skipn 32 data) /\
      oe_bytes e = skipn 48 data /\
      forall rr rl rm, observations_of {| r_ranges := rr; r_lookup := rl; r_mobile := rm; r_obs := e |} = records o
  | Err ValueError => (zlen data - 48) mod Z.of_nat (record_size k) <> 0 /\ exists o, read_day k data v d = Ok o
  | Err e => e = OperationException /\ read_day k data v d = Err OperationException
  end.
Proof.
  intros L L63. rewrite read_observations_at by assumption. unfold read_day, read_contents. rewrite py_header_uuid by assumption.
  destruct (bytes_eqb _ _); [|split; reflexivity]. rewrite entry_size_record. cbn [bind fst snd].
  destruct (Z.eqb_spec ((zlen data - 48) mod Z.of_nat (record_size k)) 0) as [E|E]; [|split; [assumption|eexists; reflexivity]].
  split; [assumption|]. eexists. split; [reflexivity|]. cbn [oe_ranges oe_num oe_uuid oe_bytes].
  destruct (rem_eq 48 (record_size k) ltac:(unfold record_size; lia) (length data)) as (q & Lq & Dq); [lia|exact E|]. change (Z.of_nat 48) with 48 in Dq.
  assert (length (skipn 48 data) = record_size k * q)%nat as Ls by (rewrite skipn_length; lia).
  assert (length (skipn 48 data) / record_size k = q)%nat as Dn by (rewrite Ls, Nat.mul_comm, Nat.div_mul by (unfold record_size; lia); reflexivity).
  split; [reflexivity|]. split; [|split; [reflexivity|split; [reflexivity|]]].
  - rewrite records_of_rows. unfold zlen at 2. rewrite !map_length, fromfile_length, Dn. exact Dq.
  - intros rr rl rm. rewrite records_of_rows. rewrite observations_chunks; cbn [r_obs oe_ranges oe_num oe_bytes]; rewrite entry_size_record.
    + reflexivity.
    + exists q. split; [exact Dq|exact Ls].
Qed.

(* ---- the caches *)
Lemma ranges_cached fs junk m path ranges : caches_match fs m -> (exists data, fs path = Some data /\ (32 <= length data)%nat /\ zlen data < 2 ^ 63 /\
    forall j, cpp_read_ranges j (at_ data 0) = Ok ranges) ->
  exists m', cached_ranges fs junk m path = (m', Ok ranges) /\ caches_match fs m' /\ m_base m' = m_base m.
Proof.
  intros (C1 & C2) (data & Fd & L & L63 & R). unfold cached_ranges. destruct (cache_find (m_ranges m) path) as [x|] eqn:E.
  - destruct (C1 _ _ E) as (j & Hj). rewrite (sopen_some fs path data Fd), R in Hj. injection Hj as ->. exists m. repeat split; assumption.
  - rewrite (sopen_some fs path data Fd), R. eexists. split; [reflexivity|]. split; [|reflexivity]. split; [|exact C2].
    cbn [m_ranges cache_find]. intros p x. destruct (String.eqb_spec path p) as [<-|]; [|apply C1].
    intro H. injection H as <-. exists (junk path). now rewrite (sopen_some fs path data Fd).
Qed.
Lemma lookup_cached fs junk m path table : caches_match fs m -> (exists data, fs path = Some data /\ (48 <= length data)%nat /\ zlen data < 2 ^ 63 /\
    forall j, cpp_read_lookup j new_lookup (at_ data 0) = Ok table) ->
  exists m', cached_lookup fs junk m path = (m', Ok table) /\ caches_match fs m' /\ m_base m' = m_base m.
Proof.
  intros (C1 & C2) (data & Fd & L & L63 & R). unfold cached_lookup. destruct (cache_find (m_lookups m) path) as [x|] eqn:E.
  - destruct (C2 _ _ E) as (j & Hj). rewrite (sopen_some fs path data Fd), R in Hj. injection Hj as ->. exists m. repeat split; assumption.
  - rewrite (sopen_some fs path data Fd), R. eexists. split; [reflexivity|]. split; [|reflexivity]. split; [exact C1|].
    cbn [m_lookups cache_find]. intros p x. destruct (String.eqb_spec path p) as [<-|]; [|apply C2].
    intro H. injection H as <-. exists (junk path). now rewrite (sopen_some fs path data Fd).
Qed.

(* files that Python wrote *)
Lemma written_ranges ranges : Forall word ranges -> zlen ranges < 2 ^ 58 ->
  (32 <= length (write_ranges ranges))%nat /\ zlen (write_ranges ranges) < 2 ^ 63 /\ forall j, cpp_read_ranges j (at_ (write_ranges ranges) 0) = Ok ranges.
Proof.
  intros W L. assert (length (write_ranges ranges) = 32 + 8 * length ranges)%nat as Lw.
  { unfold write_ranges. rewrite !app_length, encode_length, FORMATID_RANGE_len, CODEID_len. reflexivity. }
  assert (zlen (write_ranges ranges) = 32 + 8 * zlen ranges) as Lz by (unfold zlen; rewrite Lw; lia).
  split; [lia|]. split; [lia|]. intro j. rewrite read_ranges_at by lia. unfold write_ranges at 1. rewrite firstn_here by auto with obs.
  rewrite (proj2 (bytes_eqb_iff _ _) eq_refl). rewrite Lz. replace (32 + 8 * zlen ranges - 32) with (zlen ranges * 8) by lia. rewrite Z.mod_mul by lia. cbn [Z.eqb].
  now apply read_ranges_write.
Qed.
Lemma write_lookup_length t : is_uuid (lk_uuid t) -> length (write_lookup t) = (48 + 16 * length (lk_table t))%nat.
Proof.
  intro U. unfold write_lookup. rewrite !app_length, FORMATID_LOOKUP_len, CODEID_len, U, flat_map_concat_map.
  rewrite (concat_length_fixed 16) by (apply Forall_map, Forall_forall; intros; now rewrite encode_length). rewrite map_length. reflexivity.
Qed.
Lemma written_lookup t : is_uuid (lk_uuid t) -> Forall (fun ll => word (fst ll) /\ word (snd ll)) (lk_table t) -> zlen (lk_table t) < 2 ^ 58 ->
  (48 <= length (write_lookup t))%nat /\ zlen (write_lookup t) < 2 ^ 63 /\ forall j old, cpp_read_lookup j old (at_ (write_lookup t) 0) = Ok t.
Proof.
  intros U W L. pose proof (write_lookup_length t U) as Lw.
  assert (zlen (write_lookup t) = 48 + 16 * zlen (lk_table t)) as Lz by (unfold zlen; rewrite Lw; lia).
  split; [lia|]. split; [lia|]. intros j old. rewrite read_lookup_at by lia. unfold write_lookup at 1. rewrite firstn_here by auto with obs.
  rewrite (proj2 (bytes_eqb_iff _ _) eq_refl). rewrite Lz. replace (48 + 16 * zlen (lk_table t) - 48) with (zlen (lk_table t) * 16) by lia. rewrite Z.mod_mul by lia. cbn [Z.eqb].
  destruct t as [u table]. now apply read_lookup_write.
Qed.
Lemma write_day_length u o d : well_formed o -> is_uuid u -> length (write_day u o d) = (48 + record_size (length (o_cor o)) * length (valid_positions o d))%nat.
Proof.
  intros W U. unfold write_day. rewrite !app_length, FORMATID_OBSERVATION_len, CODEID_len, U, flat_map_concat_map.
  rewrite (concat_length_fixed (record_size (length (o_cor o)))).
  - rewrite map_length. lia.
  - apply Forall_map, Forall_forall. intros i _. rewrite encode_length. destruct (record_words_ok o i W) as [-> _]. reflexivity.
Qed.

(* ---- RetrieveDay *)
Lemma retrieve_day_static fs junk m r s o day ranges table data : caches_match fs m -> holds_tables fs (m_base m) s o ranges table ->
  fs (path_observation (m_base m) s o day) = Some data ->
  exists m', retrieve_day fs junk m r s o day =
      (m', do obs <- cpp_read_observations (length ranges) (junk (path_observation (m_base m) s o day)) (r_obs r) (at_ data 0);
           Ok {| r_ranges := ranges; r_lookup := table; r_mobile := r_mobile r; r_obs := obs |}) /\ caches_match fs m' /\ m_base m' = m_base m.
Proof.
  intros C (F1 & W1 & L1 & (name & S & F2) & U & W2 & L2) Fd. unfold retrieve_day.
  destruct (written_ranges ranges W1 L1) as (A1 & A2 & A3). destruct (written_lookup table U W2 L2) as (B1 & B2 & B3).
  destruct (ranges_cached fs junk m (path_ranges (m_base m) s o) ranges C) as (m1 & E1 & C1 & M1); [exists (write_ranges ranges); auto|]. rewrite E1.
  rewrite S. destruct (lookup_cached fs junk m1 (path_lookup (m_base m1) name) table C1) as (m2 & E2 & C2 & M2).
  { exists (write_lookup table). rewrite M1. auto. }
  rewrite E2. exists m2. cbn [bind fst snd]. rewrite M2, M1, (sopen_some _ _ _ Fd). split; [reflexivity|]. split; [assumption|]. congruence.
Qed.

(* ---- the pointer file *)
Lemma nth_sum_len (L : list (list (Z * Z))) l : (l < length L)%nat -> sum_len (firstn l L) + zlen (nth l L []) <= sum_len L.
Proof.
  revert l. induction L as [|a L IH]; intros [|l] H; cbn [length] in H; try lia.
  - cbn [firstn nth]. change (sum_len []) with 0. rewrite sum_len_cons. pose proof (sum_len_nonneg L). lia.
  - cbn [firstn nth]. rewrite !sum_len_cons. specialize (IH l ltac:(lia)). lia.
Qed.
Lemma pointers_layout p l : is_uuid (lp_uuid p) -> zlen (write_pointers p) < 2 ^ 63 -> (l < length (lp_lists p))%nat ->
  let off := 56 + 16 * zlen (lp_lists p) + 16 * sum_len (firstn l (lp_lists p)) in
  let a := nth l (lp_lists p) [] in
  firstn 16 (skipn (56 + 16 * l) (write_pointers p)) = word_bytes off ++ word_bytes (zlen a) /\
  (56 + 16 * l + 16 <= length (write_pointers p))%nat /\
  firstn (16 * length a) (skipn (Z.to_nat off) (write_pointers p)) = concat (map entry_bytes a) /\
  off + 16 * zlen a <= zlen (write_pointers p).
Proof.
  intros U S63 Hl. cbv zeta. pose proof (pointers_file_length p U) as LW. pose proof (sum_len_nonneg (lp_lists p)) as SN.
  pose proof (nth_sum_len _ _ Hl) as SL. pose proof (sum_len_nonneg (firstn l (lp_lists p))) as SF.
  remember (lp_lists p) as L eqn:EL.
  assert (exists H, write_pointers p = H ++ offset_table (56 + 16 * zlen L) L ++ concat (map (fun a => concat (map entry_bytes a)) L) /\ length H = 56%nat) as (H & EW & LH).
  { unfold write_pointers. rewrite <- EL. destruct (Z.gtb_spec (zlen L) 0) as [G|G]; [|unfold zlen in G; lia].
    exists (FORMATID_LOCATION_POINTERS ++ CODEID ++ lp_uuid p ++ word_bytes (zlen L)). split.
    - rewrite <- !app_assoc. do 5 f_equal. rewrite flat_map_concat_map. f_equal. apply map_ext. intro a. apply flat_map_concat_map.
    - rewrite !app_length, FORMATID_POINTERS_len, CODEID_len, U, word_bytes_length. reflexivity. }
  pose proof (offset_table_length L (56 + 16 * zlen L)) as LT.
  assert (forall n, skipn (56 + n) (write_pointers p) = skipn n (offset_table (56 + 16 * zlen L) L ++ concat (map (fun a => concat (map entry_bytes a)) L))) as S56.
  { intro n. rewrite EW, <- skipn_skipn. f_equal. now apply skipn_here. }
  split; [|split; [|split]].
  - rewrite S56. destruct (offset_table_skip L (56 + 16 * zlen L) l Hl) as [r Er]. rewrite skipn_app, Er, <- !app_assoc. rewrite app_assoc. apply firstn_here.
    rewrite app_length, !word_bytes_length. reflexivity.
  - unfold zlen in *. lia.
  - replace (Z.to_nat (56 + 16 * zlen L + 16 * sum_len (firstn l L))) with (56 + (16 * length L + Z.to_nat (16 * sum_len (firstn l L))))%nat by (unfold zlen; lia).
    rewrite S56, <- skipn_skipn, (skipn_here (offset_table _ _)) by exact LT. rewrite recs_skip.
    assert (skipn l L = nth l L [] :: skipn (S l) L) as ESK.
    { clear - Hl. revert L Hl. induction l as [|n IH]; intros [|a L] LL; cbn in *; try lia; [reflexivity|]. apply IH. lia. }
    rewrite ESK. cbn [map concat]. apply firstn_here. rewrite (concat_length_fixed 16), map_length; [reflexivity|].
    apply Forall_map, Forall_forall. intros. unfold entry_bytes. now rewrite encode_length.
  - lia.
Qed.
Lemma entry_decode a : Forall (fun df => 0 <= fst df < 2 ^ 63 /\ word (snd df)) a ->
  map (fun r => (signed64 (unle (firstn 8 r)), unle (skipn 8 r))) (chunks (length a) 16 (concat (map entry_bytes a))) = a.
Proof.
  intro W. rewrite <- (map_length entry_bytes a), <- (app_nil_r (concat (map entry_bytes a))), chunks_concat.
  - rewrite map_map. rewrite <- (map_id a) at 2. apply map_ext_in. intros [d f] Hd. rewrite Forall_forall in W. destruct (W _ Hd) as [W1 W2]. cbn [fst snd] in *.
    unfold entry_bytes, encode. cbn [flat_map]. rewrite app_nil_r. rewrite firstn_here, skipn_here by apply word_bytes_length. cbn [fst snd]. rewrite !unle_word by (unfold word in *; lia).
    unfold signed64. destruct (Z.ltb_spec d (2 ^ 63)); [reflexivity|lia].
  - apply Forall_map, Forall_forall. intros. unfold entry_bytes. now rewrite encode_length.
Qed.
Lemma read_lists_at p ids : is_uuid (lp_uuid p) -> zlen (write_pointers p) < 2 ^ 63 ->
  Forall (Forall (fun df => 0 <= fst df < 2 ^ 63 /\ word (snd df))) (lp_lists p) -> Forall (fun l => 0 <= l < zlen (lp_lists p)) ids ->
  forall q, read_pointer_lists 56 ids (at_ (write_pointers p) q) = Ok (map (fun l => nth (Z.to_nat l) (lp_lists p) []) ids).
Proof.
  intros U S63 W. induction ids as [|l ids IH]; intros F q; [reflexivity|]. inversion_clear F as [|? ? Hl F'].
  assert (Z.to_nat l < length (lp_lists p))%nat as Ln by (unfold zlen in Hl; lia).
  destruct (pointers_layout p (Z.to_nat l) U S63 Ln) as (E1 & B1 & E2 & B2).
  pose proof (sum_len_nonneg (firstn (Z.to_nat l) (lp_lists p))) as SF.
  cbn [read_pointer_lists map]. set (a := nth (Z.to_nat l) (lp_lists p) []) in *. set (off := 56 + 16 * zlen (lp_lists p) + 16 * sum_len (firstn (Z.to_nat l) (lp_lists p))) in *.
  pose proof (zlen_nonneg a) as Na. pose proof (zlen_nonneg (lp_lists p)) as Nl. pose proof (zlen_nonneg (write_pointers p)).
  assert (0 <= 56 + l * 16 < 2 ^ 63) as R by (unfold zlen in *; lia).
  rewrite (Z.mod_small (56 + l * 16)) by lia. rewrite seek_at by lia.
  rewrite sread_at by lia. replace (Z.to_nat (56 + l * 16)) with (56 + 16 * Z.to_nat l)%nat by lia. rewrite E1.
  rewrite firstn_here, skipn_here by apply word_bytes_length. rewrite !unle_word by (unfold word; lia).
  rewrite seek_at by lia. destruct (Z.leb_spec (2 ^ 59) (zlen a)) as [G|G]; [lia|].
  replace (Z.to_nat (16 * zlen a)) with (16 * length a)%nat by (unfold zlen; lia).
  rewrite sread_at; [|lia|unfold zlen in *; lia]. rewrite E2, IH by assumption. cbn [bind].
  do 2 f_equal. unfold zlen. rewrite Nat2Z.id. apply entry_decode. rewrite Forall_forall in W. apply W. now apply nth_In.
Qed.
Lemma read_pointers_at p ids junk : is_uuid (lp_uuid p) -> zlen (write_pointers p) < 2 ^ 63 ->
  Forall (Forall (fun df => 0 <= fst df < 2 ^ 63 /\ word (snd df))) (lp_lists p) -> Forall (fun l => 0 <= l < zlen (lp_lists p)) ids ->
  cpp_read_pointers junk ids (at_ (write_pointers p) 0) = Ok (map (fun l => nth (Z.to_nat l) (lp_lists p) []) ids).
Proof.
  intros U S63 W F. pose proof (pointers_file_length p U) as LW. pose proof (sum_len_nonneg (lp_lists p)). pose proof (zlen_nonneg (lp_lists p)).
  unfold cpp_read_pointers. rewrite header_at by (unfold zlen in LW; lia).
  unfold write_pointers at 1. rewrite firstn_here by auto with obs. rewrite (proj2 (bytes_eqb_iff _ _) eq_refl). cbn [bind].
  rewrite (sread_at 16) by (change (Z.to_nat 32) with 32%nat; unfold zlen in LW; lia).
  rewrite sread_at by (change (Z.to_nat (32 + Z.of_nat 16)) with 48%nat; unfold zlen in LW; lia).
  unfold stellg. cbn [st_fail at_ st_pos]. change (32 + Z.of_nat 16 + Z.of_nat 8) with 56. now apply read_lists_at.
Qed.

(* ---- the observations of a location *)
Lemma read_at_follow fs k path data v rows i : fs path = Some data -> zlen data < 2 ^ 63 -> read_contents k data v = Ok rows -> (i < length rows)%nat ->
  exists body, read_at fs k path (56 + Z.of_nat (record_size k) * Z.of_nat i) = body /\ length body = (8 * (2 + k))%nat /\ words body = tl (nth i rows []) /\ length (nth i rows []) = (3 + k)%nat.
Proof.
  intros Fd L63 RC Hi. destruct (follow_pointer k data v rows i RC Hi) as (W & _ & B & L).
  eexists. split; [reflexivity|]. unfold read_at. rewrite (sopen_some _ _ _ Fd). cbv zeta.
  assert (56 + record_size k * i + 8 * (2 + k) <= length data)%nat as B2.
  { unfold words in W. apply (f_equal (@length Z)) in W. rewrite map_length, fromfile_length in W.
    destruct (nth i rows []) as [|x r] eqn:En; cbn [tl length] in *; [lia|]. rewrite firstn_length, skipn_length in W.
    assert (length r = 2 + k)%nat as Lr by lia. rewrite Lr in W.
    destruct (Nat.le_gt_cases (8 * (2 + k)) (length data - (56 + record_size k * i))) as [|G]; [lia|]. rewrite Nat.min_r in W by lia.
    assert ((length data - (56 + record_size k * i)) / 8 < 2 + k)%nat by (apply Nat.div_lt_upper_bound; lia). lia. }
  assert (56 + Z.of_nat (record_size k) * Z.of_nat i < 2 ^ 63) as B3 by (unfold zlen in L63; lia).
  rewrite seek_at by assumption. replace (entry_size k - 8)%nat with (8 * (2 + k))%nat by (unfold entry_size; lia).
  replace (56 + Z.of_nat (record_size k) * Z.of_nat i) with (Z.of_nat (56 + record_size k * i)) by lia.
  rewrite sread_at by lia. cbn [fst]. rewrite Nat2Z.id. split; [rewrite firstn_length, skipn_length; lia|]. split; assumption.
Qed.
Lemma sread_length n buf s : length buf = n -> length (fst (sread n buf s)) = n.
Proof.
  intro L. unfold sread. destruct (st_fail s); [exact L|]. cbv zeta. destruct (Nat.eqb_spec (length (firstn n (skipn (Z.to_nat (st_pos s)) (st_data s)))) n) as [E|E]; cbn [fst]; [exact E|].
  rewrite app_length, skipn_length, L. rewrite firstn_length in *. lia.
Qed.
Lemma read_at_length fs k path off : length (read_at fs k path off) = (8 * (2 + k))%nat.
Proof. unfold read_at. cbv zeta. rewrite sread_length by apply repeat_length. unfold entry_size. lia. Qed.

(* what is walked over for a list of pointers *)
Lemma location_walk fs base s o k pointers rr rl rm uu : Forall (fun df => 0 <= fst df < 2 ^ 63) pointers ->
  observations_of {| r_ranges := rr; r_lookup := rl; r_mobile := rm;
                     r_obs := {| oe_ranges := k; oe_num := zlen pointers; oe_uuid := uu; oe_bytes := location_bytes fs base s o k pointers |} |} =
  map (fun df => record_of_words k (fst df :: words (read_at fs k (path_observation base s o (fst df)) (snd df)))) pointers.
Proof.
  intro D. assert (Forall (fun c => length c = entry_size k) (map (fun df => word_bytes (fst df) ++ read_at fs k (path_observation base s o (fst df)) (snd df)) pointers)) as F.
  { apply Forall_map, Forall_forall. intros df _. rewrite app_length, word_bytes_length, read_at_length. unfold entry_size. lia. }
  rewrite observations_chunks; cbn [r_obs oe_ranges oe_num oe_bytes]; unfold location_bytes; rewrite flat_map_concat_map.
  - rewrite fromfile_concat'; [|unfold entry_size; lia|exact F]. rewrite !map_map. apply map_ext_in. intros df Hdf. f_equal.
    rewrite words_step by (rewrite app_length, word_bytes_length; lia). rewrite firstn_here, skipn_here by apply word_bytes_length.
    rewrite unle_word; [reflexivity|]. rewrite Forall_forall in D. specialize (D _ Hdf). unfold word. lia.
  - exists (length pointers). split; [reflexivity|]. rewrite (concat_length_fixed (entry_size k)) by exact F. now rewrite map_length.
Qed.

Lemma positions_filter {A} (f : A -> Z) (d : A) l (rows : list A) : f d = 0 ->
  map (fun i => nth (Z.to_nat i) rows d) (positions l (map f rows)) = filter (fun r => f r =? l) rows.
Proof.
  intro Hd. unfold positions, zrange. rewrite Z.sub_0_r. unfold zlen. rewrite map_length, Nat2Z.id.
  transitivity (filter (fun r => f r =? l) (map (fun i => nth i rows d) (seq 0 (length rows)))); [|rewrite (map_nth_seq (fun x => x)); now rewrite map_id].
  rewrite !filter_map, map_map.
  rewrite (filter_ext (fun x => nth (Z.to_nat (0 + Z.of_nat x)) (map f rows) 0 =? l) (fun i => f (nth i rows d) =? l)).
  - apply map_ext. intro i. now rewrite Z.add_0_l, Nat2Z.id.
  - intro i. rewrite Z.add_0_l, Nat2Z.id. rewrite <- Hd, map_nth. reflexivity.
Qed.
Lemma with_identifier_record k d w ws : with_identifier d (record_of_words k (w :: ws)) = record_of_words k (d :: ws).
Proof. reflexivity. Qed.

(* the rows of a file and the records of what is read from it *)
Lemma read_day_rows k data v d o : read_day k data v d = Ok o -> exists rows, read_contents k data v = Ok rows /\ records o = map (record_of_words k) rows /\
  read_location_ids k data v = Ok (map (fun r => nthZ r 0) rows).
Proof.
  unfold read_day, read_location_ids. destruct (read_contents k data v) as [rows|]; [|discriminate]. cbn [bind]. intro H. exists rows.
  split; [reflexivity|]. split; [|reflexivity]. assert (forall (a b : observations), Ok a = Ok b -> a = b) as J by congruence. rewrite <- (J _ _ H). apply records_of_rows.
Qed.
Lemma read_day_ids k data v d ids : read_location_ids k data v = Ok ids -> exists o, read_day k data v d = Ok o.
Proof. unfold read_day, read_location_ids. destruct (read_contents k data v) as [rows|]; [|discriminate]. cbn [bind]. intros _. eexists. reflexivity. Qed.

Lemma walk_day fs base s o k v l day data obs ids : fs (path_observation base s o day) = Some data -> zlen data < 2 ^ 63 ->
  read_day k data v day = Ok obs -> read_location_ids k data v = Ok ids ->
  map (fun df => record_of_words k (fst df :: words (read_at fs k (path_observation base s o (fst df)) (snd df))))
      (map (fun i => (day, 56 + Z.of_nat (record_size k) * i)) (positions l ids)) =
  map (with_identifier day) (filter (fun r => location r =? l) (records obs)).
Proof.
  intros Fd L63 RD RI. destruct (read_day_rows _ _ _ _ _ RD) as (rows & RC & RR & RI'). rewrite RI in RI'. injection RI' as ->. rewrite RR.
  rewrite map_map, filter_map. cbn [fst snd]. rewrite map_map.
  transitivity (map (fun r => record_of_words k (day :: tl r)) (filter (fun r => nthZ r 0 =? l) rows)).
  - rewrite <- (positions_filter (fun r => nthZ r 0) [] l rows) by reflexivity. rewrite map_map. apply map_ext_in. intros i Hi.
    unfold positions in Hi. apply filter_In in Hi as [Hi _]. apply zrange_In in Hi. unfold zlen in Hi. rewrite map_length in Hi.
    destruct (read_at_follow fs k _ data v rows (Z.to_nat i) Fd L63 RC) as (body & E & _ & W & _); [lia|]. rewrite Z2Nat.id in E by lia. now rewrite E, W.
  - apply map_ext_in. intros r Hr. apply filter_In in Hr as [Hr _].
    assert (length r = 3 + k)%nat as Lr.
    { apply (In_nth _ _ []) in Hr as (i & Hi & <-). destruct (read_at_follow fs k _ data v rows i Fd L63 RC Hi) as (_ & _ & _ & _ & L). exact L. }
    destruct r as [|w r]; [cbn in Lr; lia|]. now rewrite with_identifier_record.
Qed.
Lemma walk_days fs base s o k v l days idss obss :
  Forall (fun fd => fs (path_observation base s o (snd fd)) = Some (fst fd) /\ zlen (fst fd) < 2 ^ 63) days ->
  Forall2 (fun fd ids => read_location_ids k (fst fd) v = Ok ids) days idss -> Forall2 (fun fd obs => read_day k (fst fd) v (snd fd) = Ok obs) days obss ->
  map (fun df => record_of_words k (fst df :: words (read_at fs k (path_observation base s o (fst df)) (snd df)))) (day_pointers k l (combine days idss)) =
  history l (combine (map snd days) (map records obss)).
Proof.
  intros D RI. revert obss. induction RI as [|[f d] ids days idss RI F IH]; intros obss RD.
  - reflexivity.
  - inversion RD as [|? obs ? obss' RD1 RD2]; subst. inversion_clear D as [|? ? [D1 D2] D']. cbn [fst snd] in *.
    cbn [combine day_pointers history map flat_map fst snd]. rewrite map_app. f_equal; [|now apply IH]. now apply (walk_day fs base s o k v l d f obs ids).
Qed.

(* ---- RetrieveLocations, end to end *)
Lemma retrieve_locations_static fs junk m s o ids ranges table p : caches_match fs m -> holds_tables fs (m_base m) s o ranges table ->
  fs (path_pointers (m_base m) s o) = Some (write_pointers p) -> is_uuid (lp_uuid p) -> zlen (write_pointers p) < 2 ^ 63 ->
  Forall (Forall (fun df => 0 <= fst df < 2 ^ 63 /\ word (snd df))) (lp_lists p) -> Forall (fun l => 0 <= l < zlen (lp_lists p)) ids ->
  exists m', retrieve_locations fs junk m s o ids =
    (m', Ok (map (fun l => let pointers := nth (Z.to_nat l) (lp_lists p) [] in
                     {| r_ranges := ranges; r_lookup := table; r_mobile := new_lookup;
                        r_obs := {| oe_ranges := length ranges; oe_num := zlen pointers; oe_uuid := repeat 0 16;
                                    oe_bytes := location_bytes fs (m_base m) s o (length ranges) pointers |} |}) ids)) /\
    caches_match fs m' /\ m_base m' = m_base m.
Proof.
  intros C (F1 & W1 & L1 & (name & S & F2) & U & W2 & L2) Fp Up Sp Wp I. unfold retrieve_locations. rewrite S.
  destruct (written_ranges ranges W1 L1) as (A1 & A2 & A3). destruct (written_lookup table U W2 L2) as (B1 & B2 & B3).
  destruct (ranges_cached fs junk m (path_ranges (m_base m) s o) ranges C) as (m1 & E1 & C1 & M1); [exists (write_ranges ranges); auto|]. rewrite E1.
  destruct (lookup_cached fs junk m1 (path_lookup (m_base m1) name) table C1) as (m2 & E2 & C2 & M2).
  { exists (write_lookup table). rewrite M1. auto. }
  rewrite E2. exists m2. cbn [bind]. cbv zeta. rewrite M2, M1, (sopen_some _ _ _ Fp), read_pointers_at by assumption. cbn [bind]. rewrite map_map.
  split; [reflexivity|]. split; [assumption|congruence].
Qed.

Lemma pointers_of_days u table ranges days file : is_uuid u -> Forall word ranges ->
  Forall (fun fd => Forall is_byte (fst fd) /\ zlen (fst fd) < 2 ^ 63 /\ 0 <= snd fd < 2 ^ 63) days ->
  run_pointers (write_lookup {| lk_uuid := u; lk_table := table |}) (write_ranges ranges) days = Ok file ->
  exists p idss, file = write_pointers p /\ is_uuid (lp_uuid p) /\ zlen (lp_lists p) = zlen table /\
    Forall (Forall (fun df => 0 <= fst df < 2 ^ 63 /\ word (snd df))) (lp_lists p) /\
    Forall2 (fun fd ids => read_location_ids (length ranges) (fst fd) u = Ok ids) days idss /\
    (forall n, nth n (lp_lists p) [] = day_pointers (length ranges) (Z.of_nat n) (combine days idss)) /\
    Forall (Forall (fun i => 0 <= i < zlen table)) idss.
Proof.
  intros U WR D. unfold run_pointers, pointers_init. rewrite read_uuid_and_count_write by assumption. cbn [bind].
  rewrite read_ranges_write by assumption. cbn [bind fst snd].
  destruct (foldM _ _ _) as [p|] eqn:F; [|discriminate]. cbn [bind].
  intro E. assert (file = write_pointers p) as -> by congruence. clear E.
  apply append_days_spec in F as (F1 & F2 & F3 & idss & F4 & F5 & F6); [|eapply Forall_impl; [|exact D]; cbn; tauto]. cbn [lp_uuid lp_ranges lp_lists] in *.
  rewrite repeat_length in F3. exists p, idss.
  assert (forall n, nth n (lp_lists p) [] = day_pointers (length ranges) (Z.of_nat n) (combine days idss)) as F7.
  { intro n. rewrite F6. replace (nth n (repeat [] (Z.to_nat (zlen table))) []) with (@nil (Z * Z)); [reflexivity|].
    destruct (nth_in_or_default n (repeat (@nil (Z * Z)) (Z.to_nat (zlen table))) []) as [I|I]; [apply repeat_spec in I; now rewrite I|now rewrite I]. }
  assert (zlen (repeat (@nil (Z * Z)) (Z.to_nat (zlen table))) = zlen table) as LR by (unfold zlen; rewrite repeat_length; lia). rewrite LR in F5.
  split; [reflexivity|]. split; [now rewrite F1|]. split; [unfold zlen in *; lia|]. split; [|split; [assumption|split; assumption]].
  apply Forall_forall. intros a Ha. apply (In_nth _ _ []) in Ha as (n & Hn & <-). rewrite F7. apply Forall_forall. intros df Hdf.
  unfold day_pointers in Hdf. apply in_flat_map in Hdf as ([fd ids] & I1 & I2). cbn [fst snd] in I2. apply in_map_iff in I2 as (i & <- & Hi).
  unfold positions in Hi. apply filter_In in Hi as [Hi _]. apply zrange_In in Hi.
  rewrite Forall_forall in D. destruct (D fd) as (_ & D2 & D3); [apply (in_combine_l _ _ _ _ I1)|]. cbn [fst snd]. split; [assumption|].
  assert (read_location_ids (length ranges) (fst fd) u = Ok ids) as RI.
  { clear - F4 I1. induction F4 as [|a b ds is H F IH]; [contradiction|]. destruct I1 as [E|I1]; [|now apply IH].
    apply pair_equal_spec in E as [-> ->]. exact H. }
  unfold read_location_ids in RI. destruct (read_contents (length ranges) (fst fd) u) as [rows|] eqn:RC; [|discriminate]. cbn [bind] in RI.
  assert (ids = column 0 rows) as -> by congruence. unfold zlen, column in Hi. rewrite map_length in Hi.
  destruct (follow_pointer _ _ _ _ (Z.to_nat i) RC) as (_ & _ & FP & _); [lia|].
  assert (Z.of_nat (record_size (length ranges) * Z.to_nat i) = Z.of_nat (record_size (length ranges)) * i) as EM by (rewrite Nat2Z.inj_mul, Z2Nat.id by lia; reflexivity).
  unfold word, zlen in *. rewrite <- EM. clear EM. revert FP. generalize (record_size (length ranges) * Z.to_nat i)%nat. intros q FP. clear - FP D2. apply inj_le in FP. rewrite Nat2Z.inj_add in FP. change (Z.of_nat 56) with 56 in FP. unfold byte in *. lia.
Qed.

(* ---- histories of calls *)
Definition cache_inv (fs : files) (junk : junk_buffers) (m : manager) : Prop :=
  (forall path x, cache_find (m_ranges m) path = Some x -> cpp_read_ranges (junk path) (sopen fs path) = Ok x) /\
  (forall path x, cache_find (m_lookups m) path = Some x -> cpp_read_lookup (junk path) new_lookup (sopen fs path) = Ok x).
Lemma cache_inv_new fs junk base : cache_inv fs junk (new_manager base).
Proof. split; discriminate. Qed.
Lemma cache_inv_match fs junk m : cache_inv fs junk m -> caches_match fs m.
Proof. intros [H1 H2]. split; intros p x E; exists (junk p); auto. Qed.
Lemma cached_ranges_inv fs junk m path : cache_inv fs junk m ->
  exists m', cached_ranges fs junk m path = (m', cpp_read_ranges (junk path) (sopen fs path)) /\ cache_inv fs junk m' /\ m_base m' = m_base m.
Proof.
  intros (C1 & C2). unfold cached_ranges. destruct (cache_find (m_ranges m) path) as [x|] eqn:E.
  - rewrite (C1 _ _ E). exists m. repeat split; assumption.
  - destruct (cpp_read_ranges (junk path) (sopen fs path)) as [x|e] eqn:R; eexists; (split; [reflexivity|split; [|reflexivity]]).
    + split; [|exact C2]. cbn [m_ranges cache_find]. intros p y. destruct (String.eqb_spec path p) as [<-|]; [|apply C1]. intro H. injection H as <-. exact R.
    + split; assumption.
Qed.
Lemma cached_lookup_inv fs junk m path : cache_inv fs junk m ->
  exists m', cached_lookup fs junk m path = (m', cpp_read_lookup (junk path) new_lookup (sopen fs path)) /\ cache_inv fs junk m' /\ m_base m' = m_base m.
Proof.
  intros (C1 & C2). unfold cached_lookup. destruct (cache_find (m_lookups m) path) as [x|] eqn:E.
  - rewrite (C2 _ _ E). exists m. repeat split; assumption.
  - destruct (cpp_read_lookup (junk path) new_lookup (sopen fs path)) as [x|e] eqn:R; eexists; (split; [reflexivity|split; [|reflexivity]]).
    + split; [exact C1|]. cbn [m_lookups cache_find]. intros p y. destruct (String.eqb_spec path p) as [<-|]; [|apply C2]. intro H. injection H as <-. exact R.
    + split; assumption.
Qed.

Definition same_answer {A} (fs : files) (junk : junk_buffers) (base : string) (f : manager -> manager * A) : Prop :=
  exists a, forall m, cache_inv fs junk m -> m_base m = base -> exists m', f m = (m', a) /\ cache_inv fs junk m' /\ m_base m' = base.
Lemma same_ranges fs junk base path : same_answer fs junk base (fun m => cached_ranges fs junk m (path base)).
Proof.
  exists (cpp_read_ranges (junk (path base)) (sopen fs (path base))). intros m I B.
  destruct (cached_ranges_inv fs junk m (path base) I) as (m' & E & I' & B'). exists m'. rewrite E. repeat split; try apply I'. congruence.
Qed.
Lemma same_daily fs junk base s o d : same_answer fs junk base (fun m => total_daily_observations fs junk m s o d).
Proof.
  eexists. intros m I B. unfold total_daily_observations.
  destruct (cached_ranges_inv fs junk m (path_ranges (m_base m) s o) I) as (m1 & E1 & I1 & B1). rewrite E1, B1, B.
  exists m1. split; [reflexivity|]. split; [assumption|congruence].
Qed.
Lemma same_total fs junk base s o days : forall total, same_answer fs junk base (fun m => total_days fs junk m s o days total).
Proof.
  induction days as [|d days IH]; intro total.
  - exists (Ok total). intros m I B. exists m. repeat split; try apply I. assumption.
  - destruct (same_daily fs junk base s o d) as (a & Ha). destruct a as [n|e].
    + destruct (IH ((total + n) mod 2 ^ 64)) as (b & Hb). exists b. intros m I B. destruct (Ha m I B) as (m1 & E1 & I1 & B1).
      destruct (Hb m1 I1 B1) as (m2 & E2 & I2 & B2). exists m2. cbn [total_days]. rewrite E1. rewrite E2. repeat split; try apply I2; assumption.
    + exists (Err e). intros m I B. destruct (Ha m I B) as (m1 & E1 & I1 & B1). exists m1. cbn [total_days]. rewrite E1. repeat split; try apply I1; assumption.
Qed.
Lemma same_day fs junk base r s o d : same_answer fs junk base (fun m => retrieve_day fs junk m r s o d).
Proof.
  destruct (cpp_read_ranges (junk (path_ranges base s o)) (sopen fs (path_ranges base s o))) as [ranges|e] eqn:R.
  - destruct (staticlocation s) as [name|] eqn:S; eexists; intros m I B; unfold retrieve_day;
    destruct (cached_ranges_inv fs junk m (path_ranges (m_base m) s o) I) as (m1 & E1 & I1 & B1); rewrite E1, B, R, S.
    + destruct (cached_lookup_inv fs junk m1 (path_lookup (m_base m1) name) I1) as (m2 & E2 & I2 & B2). rewrite E2, B2, B1, B.
      exists m2. split; [reflexivity|]. split; [assumption|congruence].
    + rewrite B1, B. exists m1. split; [reflexivity|]. split; [assumption|congruence].
  - exists (Err e). intros m I B. unfold retrieve_day.
    destruct (cached_ranges_inv fs junk m (path_ranges (m_base m) s o) I) as (m1 & E1 & I1 & B1). rewrite E1, B, R. exists m1. repeat split; try apply I1. congruence.
Qed.
Lemma same_locations fs junk base s o ids : same_answer fs junk base (fun m => retrieve_locations fs junk m s o ids).
Proof.
  destruct (staticlocation s) as [name|] eqn:S.
  2: { exists (Ok []). intros m I B. unfold retrieve_locations. rewrite S. exists m. repeat split; try apply I. assumption. }
  destruct (cpp_read_ranges (junk (path_ranges base s o)) (sopen fs (path_ranges base s o))) as [ranges|e] eqn:R.
  - eexists. intros m I B. unfold retrieve_locations. rewrite S.
    destruct (cached_ranges_inv fs junk m (path_ranges (m_base m) s o) I) as (m1 & E1 & I1 & B1). rewrite E1, B, R.
    destruct (cached_lookup_inv fs junk m1 (path_lookup (m_base m1) name) I1) as (m2 & E2 & I2 & B2). rewrite E2, B2, B1, B.
    exists m2. split; [reflexivity|]. split; [assumption|congruence].
  - exists (Err e). intros m I B. unfold retrieve_locations. rewrite S.
    destruct (cached_ranges_inv fs junk m (path_ranges (m_base m) s o) I) as (m1 & E1 & I1 & B1). rewrite E1, B, R. exists m1. repeat split; try apply I1. congruence.
Qed.
Lemma same_call fs junk base c : same_answer fs junk base (fun m => do_call fs junk m c).
Proof.
  assert (forall A (f : manager -> manager * A) (g : A -> answer), same_answer fs junk base f -> same_answer fs junk base (fun m => let (m, x) := f m in (m, g x))) as L.
  { intros A f g (a & H). exists (g a). intros m I B. destruct (H m I B) as (m' & E & I' & B'). exists m'. rewrite E. repeat split; try apply I'; assumption. }
  destruct c; cbn [do_call].
  - apply (L _ (fun m => retrieve_day fs junk m r s o daynumber) ADay), same_day.
  - apply (L _ (fun m => retrieve_locations fs junk m s o ids) ALocations), same_locations.
  - apply (L _ (fun m => total_daily_observations fs junk m s o daynumber) ACount), same_daily.
  - apply (L _ (fun m => total_observations fs junk m inputs s o) ACount), same_total.
  - eexists. intros m I B. unfold total_locations. rewrite B. exists m. repeat split; try apply I. assumption.
  - eexists. intros m I B. unfold total_daily_mobile_locations. rewrite B. exists m. repeat split; try apply I. assumption.
Qed.
Lemma calls_fresh fs junk base cs : forall m, cache_inv fs junk m -> m_base m = base ->
  do_calls fs junk m cs = map (fun c => snd (do_call fs junk (new_manager base) c)) cs.
Proof.
  induction cs as [|c cs IH]; intros m I B; [reflexivity|]. cbn [do_calls map].
  destruct (same_call fs junk base c) as (a & H). destruct (H m I B) as (m' & E & I' & B'). rewrite E. f_equal; [|now apply IH].
  destruct (H (new_manager base) (cache_inv_new _ _ _) eq_refl) as (m2 & E2 & _). now rewrite E2.
Qed.

(* ---- counts *)
Lemma daily_count_day fs junk m r s o d m' r' : cache_inv fs junk m -> retrieve_day fs junk m r s o d = (m', Ok r') ->
  exists m2, total_daily_observations fs junk m s o d = (m2, Ok (oe_num (r_obs r'))) /\ cache_inv fs junk m2 /\ m_base m2 = m_base m.
Proof.
  intros I. unfold retrieve_day, total_daily_observations.
  destruct (cached_ranges_inv fs junk m (path_ranges (m_base m) s o) I) as (m1 & E1 & I1 & B1). rewrite E1.
  destruct (cpp_read_ranges _ _) as [ranges|e]; [|discriminate]. cbn [bind]. rewrite B1.
  assert (forall (m3 : manager) (x : result (lookup * lookup)), m_base m3 = m_base m ->
    (m3, do ml <- x; let path := path_observation (m_base m3) s o d in
      do obs <- cpp_read_observations (length ranges) (junk path) (r_obs r) (sopen fs path); Ok {| r_ranges := ranges; r_lookup := snd ml; r_mobile := fst ml; r_obs := obs |}) = (m', Ok r') ->
    exists obs, cpp_read_observations (length ranges) (junk (path_observation (m_base m) s o d)) (r_obs r) (sopen fs (path_observation (m_base m) s o d)) = Ok obs /\ oe_num (r_obs r') = oe_num obs) as K.
  { intros m3 x B3 H. rewrite B3 in H. apply pair_equal_spec in H as [_ H]. destruct x as [ml|]; [|discriminate]. cbn [bind] in H. cbv zeta in H.
    destruct (cpp_read_observations _ _ _ _) as [obs|]; [|discriminate]. cbn [bind] in H. exists obs. split; [reflexivity|].
    apply (f_equal (fun r => match r with Ok x => oe_num (r_obs x) | Err _ => 0 end)) in H. symmetry. exact H. }
  assert (forall obs, cpp_read_observations (length ranges) (junk (path_observation (m_base m) s o d)) (r_obs r) (sopen fs (path_observation (m_base m) s o d)) = Ok obs ->
    exists uns, cpp_read_extended FORMATID_OBSERVATION (Z.of_nat (entry_size (length ranges))) (junk (path_observation (m_base m) s o d)) (sopen fs (path_observation (m_base m) s o d)) = Ok uns /\ snd (fst uns) = oe_num obs) as K2.
  { intros obs H. unfold cpp_read_observations in H. destruct (cpp_read_extended _ _ _ _) as [[[u n] s2]|]; [|discriminate]. cbn [bind] in H. exists (u, n, s2). split; [reflexivity|].
    apply (f_equal (fun r => match r with Ok x => oe_num x | Err _ => 0 end)) in H. exact H. }
  intro H. destruct (staticlocation s) as [name|].
  - destruct (cached_lookup_inv fs junk m1 (path_lookup (m_base m) name) I1) as (m2 & E2 & I2 & B2). rewrite E2 in H.
    destruct (K m2 _ ltac:(congruence) H) as (obs & Ho & En). destruct (K2 obs Ho) as (uns & Eu & Es). exists m1. rewrite Eu. cbn [bind]. rewrite Es, <- En.
    split; [reflexivity|]. split; [assumption|exact B1].
  - destruct (K m1 _ B1 H) as (obs & Ho & En). destruct (K2 obs Ho) as (uns & Eu & Es). exists m1. rewrite Eu. cbn [bind]. rewrite Es, <- En.
    split; [reflexivity|]. split; [assumption|exact B1].
Qed.
