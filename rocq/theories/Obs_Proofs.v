(* Lemmas behind Obs_Props. *)
From Coq Require Import QArith Qcanon String Ascii Sorted.
From Verif Require Import Base Grid_Model Grid_Proofs Obs_Model Obs_Spec.
From Verif Require Work_Proofs Cat_Proofs.
Local Open Scope Z_scope.
Local Open Scope list_scope.

(* ---- words and bytes *)

Lemma le_length n : forall v, length (le n v) = n.
Proof. induction n; intro v; cbn; [reflexivity|now rewrite IHn]. Qed.

Lemma unle_le n : forall v, 0 <= v < 256 ^ Z.of_nat n -> unle (le n v) = v.
Proof.
  induction n as [|n IH]; intros v H; cbn [le unle].
  - change (256 ^ Z.of_nat 0) with 1 in H. lia.
  - replace (256 ^ Z.of_nat (S n)) with (256 * 256 ^ Z.of_nat n) in H by (rewrite Nat2Z.inj_succ, Z.pow_succ_r by lia; reflexivity).
    rewrite IH; [pose proof (Z.div_mod v 256); lia|]. split; [apply Z.div_pos; lia|apply Z.div_lt_upper_bound; lia].
Qed.
Lemma unle_word v : word v -> unle (word_bytes v) = v.
Proof. intro H. apply unle_le. exact H. Qed.
Lemma unle_nonneg bs : Forall is_byte bs -> 0 <= unle bs.
Proof. induction 1 as [|b r Hb Hr IH]; cbn [unle]; [lia|]. unfold is_byte in Hb. lia. Qed.
Lemma unle_inj_len a : forall b, length a = length b -> Forall is_byte a -> Forall is_byte b -> unle a = unle b -> a = b.
Proof.
  induction a as [|x a IH]; intros [|y b] L Ha Hb E; try discriminate; [reflexivity|].
  inversion_clear Ha. inversion_clear Hb. cbn [unle] in E. unfold is_byte in *.
  assert (x = y /\ unle a = unle b) as [-> E'] by lia. f_equal. apply IH; auto.
Qed.
Lemma word_bytes_length v : length (word_bytes v) = 8%nat.
Proof. apply le_length. Qed.
Lemma le_bytes n : forall v, Forall is_byte (le n v).
Proof. induction n; intro v; cbn; constructor; [unfold is_byte; lia|apply IHn]. Qed.

Lemma encode_length ws : length (encode ws) = (8 * length ws)%nat.
Proof. unfold encode. induction ws as [|w ws IH]; [reflexivity|]. cbn [flat_map]. rewrite app_length, IH, word_bytes_length. cbn. lia. Qed.

Lemma bytes_eqb_iff a : forall b, bytes_eqb a b = true <-> a = b.
Proof.
  induction a as [|x a IH]; intros [|y b]; cbn; split; intro H; try discriminate; try reflexivity.
  - apply andb_prop in H as [H1 H2]. apply Z.eqb_eq in H1. apply IH in H2. congruence.
  - injection H as -> ->. apply andb_true_intro. split; [apply Z.eqb_refl|now apply IH].
Qed.

(* ---- records of a fixed size *)

Lemma chunks_concat size (ls : list (list byte)) rest : Forall (fun l => length l = size) ls -> chunks (length ls) size (concat ls ++ rest) = ls.
Proof.
  induction 1 as [|l ls Hl Hls IH]; [reflexivity|]. cbn [length chunks concat]. rewrite <- app_assoc.
  rewrite firstn_app, skipn_app, Hl, Nat.sub_diag. cbn [firstn skipn]. rewrite app_nil_r, <- Hl, firstn_all, skipn_all. cbn [app].
  f_equal. rewrite Hl. exact IH.
Qed.
Lemma concat_length_fixed size (ls : list (list byte)) : Forall (fun l => length l = size) ls -> length (concat ls) = (size * length ls)%nat.
Proof. induction 1 as [|l ls Hl Hls IH]; cbn; [lia|]. rewrite app_length, IH, Hl. lia. Qed.
Lemma fromfile_concat size (ls : list (list byte)) rest : (0 < size)%nat -> Forall (fun l => length l = size) ls -> (length rest < size)%nat ->
  fromfile size (concat ls ++ rest) = ls.
Proof.
  intros S0 H R. unfold fromfile. rewrite app_length, (concat_length_fixed size) by assumption.
  rewrite (Nat.mul_comm size), Nat.add_comm, Nat.div_add by lia. rewrite Nat.div_small by lia. cbn [Nat.add]. now apply chunks_concat.
Qed.
Lemma fromfile_concat' size (ls : list (list byte)) : (0 < size)%nat -> Forall (fun l => length l = size) ls -> fromfile size (concat ls) = ls.
Proof. intros. rewrite <- (app_nil_r (concat ls)). apply fromfile_concat; auto. Qed.
Lemma chunks_length n size : forall data, length (chunks n size data) = n.
Proof. induction n; intro data; cbn; [reflexivity|now rewrite IHn]. Qed.
Lemma fromfile_length size data : length (fromfile size data) = (length data / size)%nat.
Proof. apply chunks_length. Qed.
Lemma skipn_skipn {A} a : forall b (l : list A), skipn a (skipn b l) = skipn (b + a) l.
Proof. intros b. induction b as [|b IH]; intros l; [reflexivity|]. destruct l as [|x l]; [now rewrite !skipn_nil|]. cbn [skipn Nat.add]. apply IH. Qed.
Lemma chunks_nth n size : forall data i, (i < n)%nat -> nth i (chunks n size data) [] = firstn size (skipn (size * i) data).
Proof.
  induction n as [|n IH]; intros data i H; [lia|]. destruct i as [|i]; cbn [chunks nth].
  - now rewrite Nat.mul_0_r.
  - rewrite IH by lia. rewrite skipn_skipn. do 2 f_equal. lia.
Qed.
Lemma fromfile_nth size data i : (i < length data / size)%nat -> nth i (fromfile size data) [] = firstn size (skipn (size * i) data).
Proof. apply chunks_nth. Qed.
(* bytes after the last whole record are not looked at *)
Lemma chunks_app n size : forall data rest, (n * size <= length data)%nat -> chunks n size (data ++ rest) = chunks n size data.
Proof.
  induction n as [|n IH]; intros data rest H; [reflexivity|]. cbn [chunks].
  rewrite firstn_app, skipn_app. replace (size - length data)%nat with 0%nat by lia. cbn [firstn skipn]. rewrite app_nil_r.
  f_equal. apply IH. rewrite skipn_length. lia.
Qed.

Lemma words_encode ws : Forall word ws -> words (encode ws) = ws.
Proof.
  intro H. unfold words, encode. rewrite flat_map_concat_map, fromfile_concat'; [|lia|].
  - rewrite map_map. induction H as [|w ws Hw Hws IH]; [reflexivity|]. cbn [map]. now rewrite unle_word, IH.
  - apply Forall_map. apply Forall_forall. intros. apply word_bytes_length.
Qed.
Lemma records_decode {A} (f : A -> list Z) k (l : list A) rest : (0 < k)%nat -> (length rest < 8 * k)%nat ->
  Forall (fun a => length (f a) = k /\ Forall word (f a)) l ->
  map words (fromfile (8 * k) (flat_map (fun a => encode (f a)) l ++ rest)) = map f l.
Proof.
  intros K R H. rewrite flat_map_concat_map, fromfile_concat; [|lia| |assumption].
  - rewrite map_map. apply map_ext_in. intros a Ha. apply words_encode. rewrite Forall_forall in H. now apply H.
  - apply Forall_map. apply Forall_forall. intros a Ha. rewrite Forall_forall in H. rewrite encode_length. f_equal. now apply H.
Qed.

(* ---- headers *)

Lemma firstn_here {A} (a b : list A) n : length a = n -> firstn n (a ++ b) = a.
Proof. intro L. rewrite firstn_app, <- L, Nat.sub_diag, firstn_all. cbn. apply app_nil_r. Qed.
Lemma skipn_here {A} (a b : list A) n : length a = n -> skipn n (a ++ b) = b.
Proof. intro L. rewrite skipn_app, <- L, Nat.sub_diag, skipn_all. reflexivity. Qed.

Lemma read_header_ok f c rest : length f = 16%nat -> length c = 16%nat -> read_header f (f ++ c ++ rest) = Ok rest.
Proof.
  intros Lf Lc. unfold read_header. rewrite (firstn_here f), (skipn_here f), (skipn_here c) by assumption.
  assert (bytes_eqb f f = true) as -> by now apply bytes_eqb_iff. reflexivity.
Qed.
Lemma read_header_uuid_ok f c u rest : length f = 16%nat -> length c = 16%nat -> is_uuid u -> read_header_uuid f (f ++ c ++ u ++ rest) = Ok (u, rest).
Proof.
  intros Lf Lc Lu. unfold read_header_uuid. rewrite read_header_ok by assumption. cbn [bind].
  rewrite (firstn_here u), (skipn_here u) by assumption. rewrite Lu. reflexivity.
Qed.
Lemma read_header_uuid_inv f data u rest : read_header_uuid f data = Ok (u, rest) ->
  exists c, data = f ++ c ++ u ++ rest /\ (length f <= 16)%nat /\ length (f ++ c) = 32%nat /\ is_uuid u.
Proof.
  unfold read_header_uuid, read_header. destruct (bytes_eqb _ _) eqn:E; [|discriminate]. cbn [bind].
  apply bytes_eqb_iff in E. destruct (Nat.eqb_spec (length (firstn 16 (skipn 16 (skipn 16 data)))) 16) as [L|]; [|discriminate].
  intro H. assert (firstn 16 (skipn 16 (skipn 16 data)) = u /\ skipn 16 (skipn 16 (skipn 16 data)) = rest) as [<- <-] by (split; congruence). clear H.
  exists (firstn 16 (skipn 16 data)). rewrite <- E. repeat rewrite firstn_skipn.
  rewrite firstn_length, skipn_length, skipn_length in L.
  split; [reflexivity|split; [rewrite firstn_length; lia|split; [rewrite app_length, !firstn_length, skipn_length; lia|]]].
  unfold is_uuid. rewrite firstn_length, !skipn_length. lia.
Qed.

Lemma FORMATID_OBSERVATION_len : length FORMATID_OBSERVATION = 16%nat. Proof. reflexivity. Qed.
Lemma FORMATID_LOOKUP_len : length FORMATID_LOCATION_LOOKUP = 16%nat. Proof. reflexivity. Qed.
Lemma FORMATID_RANGE_len : length FORMATID_LOCAL_CORRELATION_RANGE = 16%nat. Proof. reflexivity. Qed.
Lemma FORMATID_POINTERS_len : length FORMATID_LOCATION_POINTERS = 16%nat. Proof. reflexivity. Qed.
Lemma CODEID_len : length CODEID = 16%nat. Proof. reflexivity. Qed.
Global Hint Resolve FORMATID_OBSERVATION_len FORMATID_LOOKUP_len FORMATID_RANGE_len FORMATID_POINTERS_len CODEID_len : obs.
Global Opaque FORMATID_OBSERVATION FORMATID_LOCATION_LOOKUP FORMATID_LOCAL_CORRELATION_RANGE FORMATID_LOCATION_POINTERS CODEID.

(* ---- day files *)

Lemma Forall_nth_word l i : Forall word l -> word (nthZ l i).
Proof.
  intro H. unfold nthZ. destruct (Nat.lt_ge_cases i (length l)).
  - rewrite Forall_forall in H. apply H. now apply nth_In.
  - rewrite nth_overflow by assumption. unfold word. lia.
Qed.
Lemma record_words_ok o i : well_formed o -> length (record_words o i) = (3 + length (o_cor o))%nat /\ Forall word (record_words o i).
Proof.
  intros (_ & _ & _ & _ & _ & W1 & W2 & W3 & W4). unfold record_words. split; [cbn; now rewrite map_length|].
  repeat constructor; try now apply Forall_nth_word.
  apply Forall_map. rewrite Forall_forall in W4 |- *. intros c Hc. apply Forall_nth_word. now apply W4.
Qed.
Lemma read_contents_write u o d v rest : well_formed o -> is_uuid u -> (length rest < record_size (length (o_cor o)))%nat ->
  read_contents (length (o_cor o)) (write_day u o d ++ rest) v = Ok (map (record_words o) (valid_positions o d)).
Proof.
  intros W U R. unfold read_contents, write_day. rewrite <- !app_assoc.
  rewrite read_header_uuid_ok by auto with obs. cbn [bind snd]. f_equal. unfold record_size in *.
  apply records_decode; [lia|assumption|]. apply Forall_forall. intros i _. now apply record_words_ok.
Qed.
Lemma seq_from a n : seq a n = map (fun k => (a + k)%nat) (seq 0 n).
Proof. apply seq_as_map. Qed.
(* what is read as a set of observations *)
Definition record_of_words (k : nat) (ws : list Z) : obs_record := (nthZ ws 0, nthZ ws 1, nthZ ws 2, map (fun i => nthZ ws (3 + i)) (seq 0 k)).
Lemma map_nth_seq {A B} (f : A -> B) d (l : list A) : map (fun i => f (nth i l d)) (seq 0 (length l)) = map f l.
Proof.
  induction l as [|x l IH]; [reflexivity|]. cbn [length seq map nth]. f_equal. rewrite <- seq_shift, map_map. exact IH.
Qed.
Lemma nth_column k rows i : (i < length rows)%nat -> nth i (column k rows) 0 = nthZ (nth i rows []) k.
Proof. intro H. unfold column. rewrite (nth_indep _ 0 (nthZ [] k)) by now rewrite map_length. apply (map_nth (fun r => nthZ r k)). Qed.
Lemma records_of_rows k rows t : records {| o_mask := map (fun _ => false) rows; o_time := t; o_location := column 0 rows;
    o_measurement := column 1 rows; o_unc := column 2 rows; o_cor := map (fun k => column (3 + k) rows) (seq 0 k) |} = map (record_of_words k) rows.
Proof.
  unfold records, record_at. cbn [o_location o_measurement o_unc o_cor]. replace (length (column 1 rows)) with (length rows) by (unfold column; now rewrite map_length).
  rewrite <- (map_nth_seq (record_of_words k) [] rows). apply map_ext_in. intros i Hi. apply in_seq in Hi.
  unfold record_of_words. rewrite !nth_column by lia. f_equal. rewrite map_map. apply map_ext. intro j. now rewrite nth_column by lia.
Qed.
Lemma record_words_record o i : record_of_words (length (o_cor o)) (record_words o i) = record_at o i.
Proof.
  unfold record_of_words, record_words, record_at, nthZ. cbn [nth]. f_equal.
  transitivity (map (fun j => nth j (map (fun c => nth i c 0) (o_cor o)) 0) (seq 0 (length (o_cor o)))).
  - reflexivity.
  - rewrite <- (map_length (fun c => nth i c 0) (o_cor o)). rewrite (map_nth_seq (fun x => x)). apply map_id.
Qed.
Lemma read_day_write u o d v d' rest : well_formed o -> is_uuid u -> (length rest < record_size (length (o_cor o)))%nat ->
  exists o', read_day (length (o_cor o)) (write_day u o d ++ rest) v d' = Ok o' /\ records o' = map (record_at o) (valid_positions o d) /\
    o_mask o' = repeat false (length (valid_positions o d)) /\ o_time o' = TScalar (qz d') /\ length (o_cor o') = length (o_cor o) /\ well_formed o'.
Proof.
  intros W U R. unfold read_day. rewrite read_contents_write by assumption. cbn [bind]. eexists. split; [reflexivity|].
  split; [|split; [|split; [reflexivity|split]]].
  - rewrite records_of_rows, map_map. apply map_ext. intro i. apply record_words_record.
  - cbn [o_mask]. rewrite map_map. induction (valid_positions o d); [reflexivity|]. cbn. now rewrite IHl.
  - cbn [o_cor]. now rewrite map_length, seq_length.
  - assert (forall k, Forall word (column k (map (record_words o) (valid_positions o d)))) as CW.
    { intro k. unfold column. rewrite map_map. apply Forall_map, Forall_forall. intros i _. apply Forall_nth_word. now apply record_words_ok. }
    unfold well_formed. cbn. unfold column. rewrite !map_length. repeat split; try apply CW.
    + apply Forall_map, Forall_forall. intros. now rewrite !map_length.
    + apply Forall_map, Forall_forall. intros. apply (CW (3 + x)%nat).
Qed.

(* counts from the file size *)
Lemma count_is_length k data v :
  read_observation_count k data = match read_contents k data v with Ok rows => Ok (zlen rows) | Err e => Err e end.
Proof.
  unfold read_observation_count, read_contents. destruct (read_header_uuid _ _) as [[u rest]|e]; [|reflexivity]. cbn [bind snd]. f_equal.
  unfold count_remaining, zlen. rewrite map_length, fromfile_length. symmetry. apply Nat2Z.inj_div.
Qed.
Lemma read_contents_partial k data tail : (length tail < record_size k)%nat ->
  (exists n, length data = 48 + n * record_size k)%nat -> forall v, read_contents k (data ++ tail) v = read_contents k data v.
Proof.
  intros Lt [n Ln] v. unfold read_contents, read_header_uuid, read_header.
  rewrite (firstn_app 16 data), (skipn_app 16 data). replace (16 - length data)%nat with 0%nat by lia. rewrite ?skipn_O, ?firstn_O, app_nil_r.
  destruct (bytes_eqb _ _); [|reflexivity]. cbn [bind].
  rewrite (skipn_app 16 (skipn 16 data)), skipn_length. replace (16 - (length data - 16))%nat with 0%nat by lia. rewrite skipn_O.
  rewrite (firstn_app 16 (skipn 16 (skipn 16 data))), (skipn_app 16 (skipn 16 (skipn 16 data))), !skipn_length.
  replace (16 - (length data - 16 - 16))%nat with 0%nat by lia. rewrite ?skipn_O, ?firstn_O, app_nil_r.
  destruct (Nat.eqb _ _); [|reflexivity]. cbn [bind snd]. do 2 f_equal. unfold fromfile. rewrite app_length, !skipn_length.
  replace (length data - 16 - 16 - 16)%nat with (n * record_size k)%nat by lia.
  assert (record_size k <> 0)%nat by (unfold record_size; lia).
  rewrite Nat.add_comm, Nat.div_add, (Nat.div_small (length tail)), Nat.div_mul by assumption. cbn [Nat.add].
  apply chunks_app. rewrite !skipn_length. lia.
Qed.

(* ---- days *)
Lemma Qle_bool_Qc (a b : Qc) : Qle_bool a b = true <-> (a <= b)%Qc.
Proof. apply Qle_bool_iff. Qed.
Lemma in_day_iff t d : in_day t d = true <-> (qz d <= t)%Qc /\ (t < qz d + 1)%Qc.
Proof.
  unfold in_day. rewrite andb_true_iff, negb_true_iff, Qle_bool_Qc. rewrite <- qz_1, <- qz_plus.
  split; intros [H1 H2]; (split; [assumption|]).
  - apply Qcnot_le_lt. intro H. apply Qle_bool_Qc in H. congruence.
  - destruct (Qle_bool (qz (d + 1)) t) eqn:E; [|reflexivity]. apply Qle_bool_Qc in E. now apply Qcle_not_lt in E.
Qed.
Lemma trunc_in_day t d : d >= 1 \/ (d = 0 /\ (0 <= t)%Qc) -> (trunc t =? d) = in_day t d.
Proof.
  intro H. apply Bool.eq_iff_eq_true. rewrite Z.eqb_eq, in_day_iff.
  destruct (Qclt_le_dec t 0) as [N|P].
  - destruct H as [H|[-> H]]; [|apply Qcle_not_lt in H; contradiction].
    destruct (trunc_cases t) as [(P & _)|C]; [apply Qcle_not_lt in P; contradiction|].
    assert (trunc t <= 0) as Tn by (pose proof (trunc_opp t); destruct (trunc_cases (- t)%Qc) as [(_ & _ & _ & Q)|C']; [lia|
      exfalso; clear - N C'; destruct C' as (C' & _); qc]).
    split; intro E; [lia|]. exfalso. destruct E as [E _]. assert (qz d < qz 0)%Qc as L by (rewrite qz_0; eapply Qcle_lt_trans; eassumption).
    apply qz_lt_inv in L. lia.
  - now apply trunc_nonneg.
Qed.
Lemma valid_positions_in_day o d : d >= 1 \/ (d = 0 /\ forall i, (0 <= time_of o i)%Qc) -> length (o_mask o) = length (o_measurement o) ->
  valid_positions o d = filter (fun i => unmasked o i && in_day (time_of o i) d) (seq 0 (length (o_measurement o))).
Proof.
  intros H L. unfold valid_positions. rewrite L. apply filter_ext. intro i. unfold unmasked. f_equal. apply trunc_in_day.
  destruct H as [H|[H H']]; [now left|right; split; [assumption|apply H']].
Qed.

(* ---- lookup tables, ranges *)
Lemma read_lookup_write u table : is_uuid u -> Forall (fun ll => word (fst ll) /\ word (snd ll)) table ->
  read_lookup (write_lookup {| lk_uuid := u; lk_table := table |}) = Ok {| lk_uuid := u; lk_table := table |}.
Proof.
  intros U H. unfold read_lookup, write_lookup. cbn [lk_uuid lk_table]. rewrite read_header_uuid_ok by auto with obs. cbn [bind fst snd]. do 2 f_equal.
  rewrite <- (map_map words (fun ws => (nthZ ws 0, nthZ ws 1))).
  rewrite <- (app_nil_r (flat_map _ _)). change 16%nat with (8 * 2)%nat.
  rewrite (records_decode (fun ll : Z * Z => [fst ll; snd ll])); [|lia|cbn; lia|].
  - rewrite map_map. rewrite <- (map_id table) at 2. apply map_ext. now intros [].
  - eapply Forall_impl; [|exact H]. intros [a b] [Ha Hb]. split; [reflexivity|]. repeat constructor; try apply Ha; apply Hb.
Qed.
Lemma read_uuid_and_count_write u table : is_uuid u -> read_uuid_and_count (write_lookup {| lk_uuid := u; lk_table := table |}) = Ok (u, zlen table).
Proof.
  intro U. unfold read_uuid_and_count, write_lookup. cbn [lk_uuid lk_table]. rewrite read_header_uuid_ok by auto with obs. cbn [bind fst snd]. do 2 f_equal.
  unfold count_remaining, zlen. rewrite flat_map_concat_map, (concat_length_fixed 16).
  - rewrite map_length, Nat2Z.inj_mul, Z.mul_comm, Z.div_mul; [reflexivity|cbn; lia].
  - apply Forall_map, Forall_forall. intros. now rewrite encode_length.
Qed.
Lemma read_ranges_write ranges : Forall word ranges -> read_ranges (write_ranges ranges) = Ok ranges.
Proof. intro H. unfold read_ranges, write_ranges. rewrite read_header_ok by auto with obs. cbn [bind]. now rewrite words_encode. Qed.

(* ---- pointers *)
Lemma push_ok i x : forall l l', push i x l = Ok l' <-> (i < length l)%nat /\ length l' = length l /\
  (forall k, nth k l' [] = if (k =? i)%nat then nth k l [] ++ [x] else nth k l []).
Proof.
  induction i as [|i IH]; intros [|a l] l'; cbn [push].
  1,3: split; [discriminate|intros (H & _); cbn in H; lia].
  - split.
    + intro E. assert (l' = (a ++ [x]) :: l) as -> by congruence. split; [cbn; lia|split; [reflexivity|]]. intros [|k]; reflexivity.
    + intros (_ & L & H). destruct l' as [|b l']; [discriminate|]. f_equal. f_equal; [symmetry; exact (H 0%nat)|].
      cbn in L. apply (nth_ext _ _ [] []); [lia|]. intros n _. symmetry. exact (H (S n)).
  - destruct (push i x l) as [r|e] eqn:E; cbn [bind].
    + apply IH in E as (E1 & E2 & E3). split.
      * intro F. assert (l' = a :: r) as -> by congruence. split; [cbn; lia|split; [cbn; lia|]]. intros [|k]; [reflexivity|]. cbn [nth Nat.eqb]. apply E3.
      * intros (_ & L & H). f_equal. destruct l' as [|b l']; [discriminate|]. f_equal; [symmetry; exact (H 0%nat)|].
        cbn in L. apply (nth_ext _ _ [] []); [lia|]. intros n _. rewrite (E3 n). symmetry. exact (H (S n)).
    + split; [discriminate|]. intros (H1 & L & H). exfalso. destruct l' as [|b l']; [discriminate|].
      assert (push i x l = Ok l') as F; [|congruence]. apply IH. cbn in H1, L. split; [lia|split; [lia|]]. intro k. exact (H (S k)).
Qed.

Lemma append_ids_spec day size ids : forall start l l', Forall (fun i => 0 <= i) ids -> append_ids day size ids start l = Ok l' ->
  length l' = length l /\ Forall (fun i => i < zlen l) ids /\
  forall k, nth k l' [] = nth k l [] ++ map (fun i => (day, 56 + size * i)) (filter (fun i => nth (Z.to_nat (i - start)) ids 0 =? Z.of_nat k) (zrange start (start + zlen ids))).
Proof.
  unfold append_ids. induction ids as [|a ids IH]; intros start l l' N H.
  - assert (zrange start (start + zlen (@nil Z)) = []) as Z0 by (apply zrange_empty; rewrite zlen_nil; lia). rewrite Z0 in H |- *. cbn [combine foldM] in H. assert (l' = l) as -> by congruence. split; [reflexivity|split; [constructor|]]. intro k. rewrite ?Z0. cbn [filter map]. symmetry. apply app_nil_r.
  - inversion_clear N as [|? ? Na Nids]. rewrite zlen_cons in *. pose proof (zlen_nonneg ids).
    rewrite zrange_cons in * by lia. cbn [combine foldM fst snd] in H.
    destruct (push (Z.to_nat a) _ l) as [m|e] eqn:P; [|discriminate]. cbn [bind] in H. apply push_ok in P as (P1 & P2 & P3).
    replace (start + (1 + zlen ids)) with (start + 1 + zlen ids) in * by lia.
    apply IH in H as (H1 & H2 & H3); [|assumption]. unfold zlen in *.
    split; [lia|split; [constructor; [lia|eapply Forall_impl; [|exact H2]; cbn; intros; lia]|]].
    intro k. rewrite H3, P3. cbn [filter]. rewrite Z.sub_diag. change (nth (Z.to_nat 0) (a :: ids) 0) with a.
    assert (filter (fun i => nth (Z.to_nat (i - (start + 1))) ids 0 =? Z.of_nat k) (zrange (start + 1) (start + 1 + Z.of_nat (length ids))) =
            filter (fun i => nth (Z.to_nat (i - start)) (a :: ids) 0 =? Z.of_nat k) (zrange (start + 1) (start + 1 + Z.of_nat (length ids)))) as ->.
    { apply filter_ext_in. intros i Hi. apply zrange_In in Hi. replace (Z.to_nat (i - start)) with (S (Z.to_nat (i - (start + 1)))) by lia. reflexivity. }
    destruct (Nat.eqb_spec k (Z.to_nat a)) as [->|Hk].
    + rewrite Z2Nat.id by assumption. rewrite Z.eqb_refl. cbn [map]. now rewrite <- app_assoc.
    + destruct (Z.eqb_spec a (Z.of_nat k)); [exfalso; lia|]. reflexivity.
Qed.
Lemma append_ids_total day size ids : forall start l, Forall (fun i => 0 <= i < zlen l) ids -> exists l', append_ids day size ids start l = Ok l'.
Proof.
  unfold append_ids. induction ids as [|a ids IH]; intros start l N.
  - rewrite zlen_nil, zrange_empty by lia. eexists. reflexivity.
  - inversion_clear N as [|? ? Na Nids]. rewrite zlen_cons. pose proof (zlen_nonneg ids). rewrite zrange_cons by lia. cbn [combine foldM fst snd].
    assert (exists m, push (Z.to_nat a) (day, 56 + size * start) l = Ok m) as [m P].
    { assert (Z.to_nat a < length l)%nat as L by (unfold zlen in Na; lia). clear - L. remember (Z.to_nat a) as i. clear Heqi. revert l L.
      induction i as [|i IH]; intros [|b l] L; cbn in *; try lia; [eexists; reflexivity|]. destruct (IH l) as [m ->]; [lia|]. eexists; reflexivity. }
    rewrite P. cbn [bind]. apply push_ok in P as (_ & P2 & _).
    replace (start + (1 + zlen ids)) with (start + 1 + zlen ids) by lia. apply IH. unfold zlen in *. rewrite P2. assumption.
Qed.

Lemma bytes_ids_nonneg k data v ids : Forall is_byte data -> read_location_ids k data v = Ok ids -> Forall (fun i => 0 <= i) ids.
Proof.
  intros B. unfold read_location_ids, read_contents. destruct (read_header_uuid _ data) as [[u rest]|] eqn:E; [|discriminate]. cbn [bind snd].
  intro H. assert (ids = column 0 (map words (fromfile (record_size k) rest))) as -> by congruence.
  apply read_header_uuid_inv in E as (c & -> & _). rewrite !Forall_app in B. destruct B as (_ & _ & _ & B).
  unfold column. rewrite map_map. apply Forall_map, Forall_forall. intros x Hx.
  assert (forall n size l, Forall is_byte l -> forall y, In y (chunks n size l) -> Forall is_byte y) as CB.
  { clear. induction n as [|n IH]; intros size l H y Hy; [contradiction|]. cbn in Hy. rewrite <- (firstn_skipn size l), Forall_app in H. destruct H as [H1 H2].
    destruct Hy as [<-|Hy]; [assumption|]. eapply IH; eassumption. }
  apply CB in Hx; [|assumption]. unfold words, nthZ.
  match goal with |- 0 <= nth 0 ?l ?d => destruct (nth_in_or_default 0 l d) as [I|I] end.
  - apply in_map_iff in I as (y & <- & Hy). apply unle_nonneg. eapply CB; [|exact Hy]. assumption.
  - rewrite I. lia.
Qed.

Definition day_pointers (k : nat) (l : Z) (fds : list ((list byte * Z) * list Z)) : list (Z * Z) :=
  flat_map (fun fdi => map (fun i => (snd (fst fdi), 56 + Z.of_nat (record_size k) * i)) (positions l (snd fdi))) fds.

Lemma append_days_spec days : forall p p', Forall (fun fd => Forall is_byte (fst fd)) days ->
  foldM (fun p fd => append_day p (fst fd) (snd fd)) p days = Ok p' ->
  lp_uuid p' = lp_uuid p /\ lp_ranges p' = lp_ranges p /\ length (lp_lists p') = length (lp_lists p) /\
  exists idss, Forall2 (fun fd ids => read_location_ids (lp_ranges p) (fst fd) (lp_uuid p) = Ok ids) days idss /\
    Forall (Forall (fun i => 0 <= i < zlen (lp_lists p))) idss /\
    forall l, nth l (lp_lists p') [] = nth l (lp_lists p) [] ++ day_pointers (lp_ranges p) (Z.of_nat l) (combine days idss).
Proof.
  induction days as [|fd days IH]; intros p p' B H; cbn [foldM] in H.
  - assert (p' = p) as -> by congruence. repeat (split; [reflexivity|]). exists []. split; [constructor|split; [constructor|]]. intro l. cbn. symmetry. apply app_nil_r.
  - inversion_clear B as [|? ? Bf Bd]. unfold append_day in H at 1.
    destruct (read_location_ids _ _ _) as [ids|] eqn:E; [|discriminate]. cbn [bind] in H.
    destruct (append_ids _ _ _ _ _) as [l1|] eqn:A; [|discriminate]. cbn [bind] in H.
    pose proof (bytes_ids_nonneg _ _ _ _ Bf E) as N. apply append_ids_spec in A as (A1 & A2 & A3); [|assumption].
    apply IH in H as (H1 & H2 & H3 & idss & H4 & H5 & H6); [|assumption]. cbn [lp_uuid lp_ranges lp_lists] in *. clear IH.
    split; [assumption|split; [assumption|split; [lia|]]]. exists (ids :: idss). split; [now constructor|split].
    + constructor; [rewrite Forall_forall in *; intros i Hi; split; [now apply N|now apply A2]|]. unfold zlen in *. now rewrite <- A1.
    + intro l. rewrite H6, A3, <- app_assoc. cbn [combine day_pointers flat_map fst snd]. f_equal. f_equal. f_equal. unfold positions. rewrite Z.add_0_l.
      apply filter_ext. intro i. now rewrite Z.sub_0_r.
Qed.
Lemma append_days_total days : forall p idss, Forall2 (fun fd ids => read_location_ids (lp_ranges p) (fst fd) (lp_uuid p) = Ok ids) days idss ->
  Forall (Forall (fun i => 0 <= i < zlen (lp_lists p))) idss -> exists p', foldM (fun p fd => append_day p (fst fd) (snd fd)) p days = Ok p'.
Proof.
  induction days as [|fd days IH]; intros p idss F R; [eexists; reflexivity|].
  inversion F as [|? ids ? idss' E F' E1 E2]; subst. inversion_clear R as [|? ? R1 R2]. cbn [foldM]. unfold append_day at 1. rewrite E. cbn [bind].
  destruct (append_ids_total (snd fd) (Z.of_nat (record_size (lp_ranges p))) ids 0 (lp_lists p) R1) as [l1 A]. rewrite A. cbn [bind].
  assert (length l1 = length (lp_lists p)) as L1.
  { apply append_ids_spec in A as (A1 & _); [assumption|]. eapply Forall_impl; [|exact R1]. cbn. lia. }
  apply (IH _ idss'); cbn [lp_ranges lp_uuid lp_lists]; [assumption|]. unfold zlen in *. now rewrite L1.
Qed.

(* following a pointer *)
Lemma words_step l : (8 <= length l)%nat -> words l = unle (firstn 8 l) :: words (skipn 8 l).
Proof.
  intro H. unfold words, fromfile. rewrite skipn_length.
  replace (length l / 8)%nat with (S ((length l - 8) / 8)).
  - reflexivity.
  - replace (length l) with (1 * 8 + (length l - 8))%nat at 2 by lia. rewrite Nat.div_add_l by lia. reflexivity.
Qed.
Lemma follow_pointer k data v rows i : read_contents k data v = Ok rows -> (i < length rows)%nat ->
  words (firstn (8 * (2 + k)) (skipn (56 + record_size k * i) data)) = tl (nth i rows []) /\
  words (firstn 8 (skipn (56 + record_size k * i - 8) data)) = [hd 0 (nth i rows [])] /\
  (56 + record_size k * i <= length data)%nat /\ length (nth i rows []) = (3 + k)%nat.
Proof.
  unfold read_contents. destruct (read_header_uuid _ data) as [[u rest]|] eqn:E; [|discriminate]. cbn [bind snd].
  intro H. assert (rows = map words (fromfile (record_size k) rest)) as -> by congruence. clear H. rewrite map_length, fromfile_length. intro Hi.
  rewrite (nth_indep _ [] (words [])) by (rewrite map_length, fromfile_length; assumption). rewrite map_nth, fromfile_nth by assumption.
  apply read_header_uuid_inv in E as (c & -> & Lf & Lc & Lu). 
  assert (record_size k * i + record_size k <= length rest)%nat as Le.
  { assert (record_size k <> 0)%nat as R0 by (unfold record_size; lia). pose proof (Nat.mul_div_le (length rest) (record_size k) R0).
    apply Nat.le_trans with (record_size k * (length rest / record_size k))%nat; [|assumption].
    rewrite <- Nat.mul_succ_r. apply Nat.mul_le_mono_l. lia. }
  assert (forall n, skipn (48 + n) (FORMATID_OBSERVATION ++ c ++ u ++ rest) = skipn n rest) as SK.
  { intro n. rewrite <- skipn_skipn. f_equal. rewrite app_assoc, app_assoc. apply skipn_here. rewrite app_length, Lc, Lu. reflexivity. }
  replace (56 + record_size k * i)%nat with (48 + (8 + record_size k * i))%nat by lia.
  replace (48 + (8 + record_size k * i) - 8)%nat with (48 + (record_size k * i))%nat by lia. rewrite !SK.
  rewrite (Nat.add_comm 8), <- skipn_skipn. remember (skipn (record_size k * i) rest) as tail eqn:Et.
  assert (record_size k <= length tail)%nat as Lt by (rewrite Et, skipn_length; lia).
  unfold record_size in *. rewrite (words_step (firstn (8 * (3 + k)) tail)) by (rewrite firstn_length; lia). cbn [tl hd].
  rewrite skipn_firstn_comm. replace (8 * (3 + k) - 8)%nat with (8 * (2 + k))%nat by lia.
  split; [reflexivity|split; [|split]].
  - rewrite firstn_firstn. replace (Nat.min 8 (8 * (3 + k))) with 8%nat by lia. rewrite words_step by (rewrite firstn_length; lia).
    rewrite firstn_firstn, skipn_firstn_comm. replace (8 - 8)%nat with 0%nat by lia. replace (Nat.min 8 8) with 8%nat by lia. reflexivity.
  - rewrite !app_length. rewrite app_length in Lc. rewrite Lu. lia.
  - cbn [length]. unfold words. rewrite map_length, fromfile_length, firstn_length, skipn_length.
    replace (Nat.min (8 * (2 + k)) (length tail - 8)) with ((2 + k) * 8)%nat by lia. rewrite Nat.div_mul by lia. reflexivity.
Qed.

(* the pointer file *)
Definition entry_bytes (df : Z * Z) : list byte := encode [fst df; snd df].
Definition sum_len (L : list (list (Z * Z))) : Z := sumZ (map zlen L).
Lemma sum_len_cons a L : sum_len (a :: L) = zlen a + sum_len L.
Proof. reflexivity. Qed.
Lemma sum_len_nonneg M : 0 <= sum_len M.
Proof. induction M as [|b M IH]; [unfold sum_len; cbn; lia|]. rewrite sum_len_cons. pose proof (zlen_nonneg b). lia. Qed.
Lemma sum_len_app M N : sum_len (M ++ N) = sum_len M + sum_len N.
Proof. induction M as [|b M IH]; [change (sum_len []) with 0; cbn [app]; lia|]. cbn [app]. rewrite !sum_len_cons. lia. Qed.
Lemma offset_table_length L : forall at_, length (offset_table at_ L) = (16 * length L)%nat.
Proof. induction L as [|a L IH]; intro at_; [reflexivity|]. cbn [offset_table length]. rewrite !app_length, !word_bytes_length, IH. lia. Qed.
Lemma offset_table_skip L : forall at_ l, (l < length L)%nat -> exists r,
  skipn (16 * l) (offset_table at_ L) = word_bytes (at_ + 16 * sum_len (firstn l L)) ++ word_bytes (zlen (nth l L [])) ++ r.
Proof.
  induction L as [|a L IH]; intros at_ l H; [cbn in H; lia|]. destruct l as [|l].
  - rewrite Nat.mul_0_r. cbn [skipn firstn nth offset_table]. exists (offset_table (at_ + 16 * zlen a) L). change (sum_len []) with 0. now rewrite Z.mul_0_r, Z.add_0_r.
  - cbn [offset_table nth firstn]. replace (16 * S l)%nat with (16 + 16 * l)%nat by lia. rewrite <- skipn_skipn, app_assoc, skipn_here by (rewrite app_length, !word_bytes_length; reflexivity).
    cbn [length] in H. destruct (IH (at_ + 16 * zlen a) l) as [r E]; [lia|]. rewrite E. exists r. do 2 f_equal. rewrite sum_len_cons. lia.
Qed.
Lemma recs_skip (L : list (list (Z * Z))) l : skipn (Z.to_nat (16 * sum_len (firstn l L))) (concat (map (fun a => concat (map entry_bytes a)) L)) = concat (map (fun a => concat (map entry_bytes a)) (skipn l L)).
Proof.
  rewrite <- (firstn_skipn l L) at 2. rewrite map_app, concat_app. apply skipn_here.
  induction (firstn l L) as [|a M IH]; [reflexivity|]. cbn [map concat]. rewrite app_length, IH, sum_len_cons.
  rewrite (concat_length_fixed 16) by (apply Forall_map, Forall_forall; intros; unfold entry_bytes; now rewrite encode_length). rewrite map_length.
  pose proof (sum_len_nonneg M).
  unfold zlen. lia.
Qed.
Lemma pointers_file_length p : is_uuid (lp_uuid p) -> zlen (write_pointers p) = 56 + 16 * zlen (lp_lists p) + 16 * sum_len (lp_lists p).
Proof.
  intro U. unfold write_pointers, is_uuid in *. unfold zlen at 1. rewrite !app_length, FORMATID_POINTERS_len, CODEID_len, U, word_bytes_length.
  destruct (Z.gtb_spec (zlen (lp_lists p)) 0) as [G|G].
  - rewrite app_length, offset_table_length. replace (length (flat_map _ _)) with (16 * Z.to_nat (sum_len (lp_lists p)))%nat.
    + pose proof (sum_len_nonneg (lp_lists p)). unfold zlen. lia.
    + clear. induction (lp_lists p) as [|a L IH]; [reflexivity|]. cbn [flat_map]. rewrite app_length, <- IH, sum_len_cons. pose proof (sum_len_nonneg L). pose proof (zlen_nonneg a).
      rewrite flat_map_concat_map, (concat_length_fixed 16) by (apply Forall_map, Forall_forall; intros; now rewrite encode_length). rewrite map_length.
      unfold zlen in *. lia.
  - assert (lp_lists p = []) as E by (destruct (lp_lists p); [reflexivity|rewrite zlen_cons in G; pose proof (zlen_nonneg l0); lia]). rewrite E. reflexivity.
Qed.

Lemma read_pointers_write p l : is_uuid (lp_uuid p) -> zlen (write_pointers p) < 2 ^ 64 ->
  Forall (Forall (fun df => word (fst df) /\ word (snd df))) (lp_lists p) -> 0 <= l < zlen (lp_lists p) ->
  read_pointer_records true (write_pointers p) (lp_uuid p) l = Ok (nth (Z.to_nat l) (lp_lists p) []).
Proof.
  intros U S64 W Hl. rewrite pointers_file_length in S64 by assumption. pose proof (sum_len_nonneg (lp_lists p)) as SN.
  remember (lp_lists p) as L eqn:EL. unfold write_pointers, read_pointer_records. rewrite <- EL.
  destruct (Z.gtb_spec (zlen L) 0); [|lia].
  remember (flat_map (fun a => flat_map (fun df => encode [fst df; snd df]) a) L) as recs eqn:ER.
  assert (recs = concat (map (fun a => concat (map entry_bytes a)) L)) as ER'.
  { rewrite ER, flat_map_concat_map. f_equal. apply map_ext. intro a. apply flat_map_concat_map. } clear ER.
  rewrite (firstn_here FORMATID_LOCATION_POINTERS) by auto with obs.
  assert (bytes_eqb FORMATID_LOCATION_POINTERS FORMATID_LOCATION_POINTERS = true) as -> by now apply bytes_eqb_iff. cbn [negb].
  set (table := offset_table (56 + 16 * zlen L) L).
  assert (forall X, skipn 32 (FORMATID_LOCATION_POINTERS ++ CODEID ++ X) = X) as S32 by (intro X; rewrite app_assoc; apply skipn_here; rewrite app_length, FORMATID_POINTERS_len, CODEID_len; reflexivity).
  assert (forall X, skipn 48 (FORMATID_LOCATION_POINTERS ++ CODEID ++ lp_uuid p ++ X) = X) as S48.
  { intro X. change 48%nat with (32 + 16)%nat. rewrite <- skipn_skipn, S32. now apply skipn_here. }
  assert (forall n X, skipn (56 + n) (FORMATID_LOCATION_POINTERS ++ CODEID ++ lp_uuid p ++ word_bytes (zlen L) ++ X) = skipn n X) as S56.
  { intros n X. rewrite <- skipn_skipn. f_equal. change 56%nat with (48 + 8)%nat. rewrite <- skipn_skipn, S48. apply skipn_here, word_bytes_length. }
  rewrite S32, S48, (S56 0%nat), skipn_O. rewrite (firstn_here (lp_uuid p)) by assumption. rewrite U. cbn [Nat.eqb negb].
  assert (bytes_eqb (lp_uuid p) (lp_uuid p) = true) as -> by now apply bytes_eqb_iff. cbn [negb].
  rewrite (firstn_here (word_bytes (zlen L))) by apply word_bytes_length.
  rewrite unle_word by (unfold word; lia).
  destruct (Z.ltb_spec l 0); [lia|]. destruct (Z.geb_spec l (zlen L)); [lia|]. cbn [orb].
  assert (sum_len (firstn (Z.to_nat l) L) + zlen (nth (Z.to_nat l) L []) <= sum_len L) as SL.
  { rewrite <- (firstn_skipn (Z.to_nat l) L) at 3. rewrite sum_len_app. apply Z.add_le_mono_l.
    destruct (skipn (Z.to_nat l) L) as [|a M] eqn:ESK.
    - assert (length (skipn (Z.to_nat l) L) = 0)%nat as L0 by now rewrite ESK. rewrite skipn_length in L0. unfold zlen in Hl. lia.
    - replace (nth (Z.to_nat l) L []) with a.
      + rewrite sum_len_cons. pose proof (sum_len_nonneg M). lia.
      + rewrite <- (firstn_skipn (Z.to_nat l) L), ESK. rewrite app_nth2; rewrite firstn_length; [|lia]. replace (_ - _)%nat with 0%nat; [reflexivity|unfold zlen in Hl; lia]. }
  pose proof (zlen_nonneg (nth (Z.to_nat l) L [])). pose proof (sum_len_nonneg (firstn (Z.to_nat l) L)).
  destruct (offset_table_skip L (56 + 16 * zlen L) (Z.to_nat l)) as [r Er]; [unfold zlen in Hl; lia|].
  replace (Z.to_nat (16 * l)) with (16 * Z.to_nat l)%nat by lia.
  rewrite (skipn_app _ table). replace (16 * Z.to_nat l - length table)%nat with 0%nat by (unfold table; rewrite offset_table_length; unfold zlen in Hl; lia).
  rewrite skipn_O. unfold table at 1 2. rewrite Er, <- !app_assoc.
  rewrite (firstn_here (word_bytes (56 + 16 * zlen L + 16 * sum_len (firstn (Z.to_nat l) L)))) by apply word_bytes_length.
  rewrite (skipn_here (word_bytes (56 + 16 * zlen L + 16 * sum_len (firstn (Z.to_nat l) L)))) by apply word_bytes_length.
  rewrite (firstn_here (word_bytes (zlen (nth _ L [])))) by apply word_bytes_length.
  rewrite !unle_word by (unfold word; lia).
  replace (Z.to_nat (56 + 16 * zlen L + 16 * sum_len (firstn (Z.to_nat l) L))) with (56 + (16 * length L + Z.to_nat (16 * sum_len (firstn (Z.to_nat l) L))))%nat by (unfold zlen; lia).
  rewrite S56, <- skipn_skipn, (skipn_here table) by (unfold table; apply offset_table_length).
  rewrite ER', recs_skip. f_equal. unfold zlen at 1. rewrite Nat2Z.id.
  assert (skipn (Z.to_nat l) L = nth (Z.to_nat l) L [] :: skipn (S (Z.to_nat l)) L) as ESK.
  { assert (Z.to_nat l < length L)%nat as LL by (unfold zlen in Hl; lia). clear - LL. revert L LL. induction (Z.to_nat l) as [|n IH]; intros [|a L] LL; cbn in *; try lia; [reflexivity|]. apply IH. lia. }
  rewrite ESK. cbn [map concat]. set (a := nth (Z.to_nat l) L []) in *.
  set (M := skipn (S (Z.to_nat l)) L). rewrite <- (map_map (map entry_bytes) (@concat byte)).
  assert (forall X : list (list (list byte)), concat (map (@concat byte) X) = concat (concat X)) as CC by (induction X as [|x X IH]; [reflexivity|cbn [map concat]; rewrite concat_app, IH; reflexivity]).
  rewrite CC, <- concat_app. rewrite fromfile_concat'; [|lia|].
  - rewrite firstn_here by apply map_length. rewrite map_map. rewrite <- (map_id a) at 2. apply map_ext_in. intros df Hdf.
    assert (word (fst df) /\ word (snd df)) as [W1 W2].
    { rewrite Forall_forall in W. assert (Forall (fun df => word (fst df) /\ word (snd df)) a) as Wa by (apply W; apply nth_In; unfold zlen in Hl; lia).
      rewrite Forall_forall in Wa. now apply Wa. }
    unfold entry_bytes. rewrite words_encode by (repeat constructor; try apply W1; apply W2). now destruct df.
  - apply Forall_app. split; [apply Forall_map, Forall_forall; intros; unfold entry_bytes; now rewrite encode_length|].
    apply Forall_concat. apply Forall_map, Forall_forall. intros b _. apply Forall_map, Forall_forall. intros. unfold entry_bytes. now rewrite encode_length.
Qed.

(* ---- break policies *)
Lemma take_length {A} (d : A) l is : length (take d l is) = length is.
Proof. apply map_length. Qed.
Lemma nth_take {A} (d : A) l is i : (i < length is)%nat -> nth i (take d l is) d = nth (nth i is 0%nat) l d.
Proof. intro H. unfold take. rewrite (nth_indep _ d (nth 0%nat l d)) by now rewrite map_length. apply (map_nth (fun i => nth i l d)). Qed.
Lemma filter_map {A B} (f : A -> B) (P : B -> bool) l : filter P (map f l) = map f (filter (fun a => P (f a)) l).
Proof. induction l as [|a l IH]; [reflexivity|]. cbn. destruct (P (f a)); cbn; now rewrite IH. Qed.
Lemma break_list_keep b is : break_list (keep_at b is) = map (fun i => (nth i (bk_time b) 0, nth i (bk_station b) 0, nth i (bk_likelihood b) 0)) is.
Proof.
  unfold break_list, keep_at. cbn [bk_time bk_station bk_likelihood]. rewrite take_length.
  rewrite <- (map_nth_seq (fun i => (nth i (bk_time b) 0, nth i (bk_station b) 0, nth i (bk_likelihood b) 0)) 0%nat is).
  apply map_ext_in. intros i Hi. apply in_seq in Hi. now rewrite !nth_take by lia.
Qed.
Lemma keep_filter b (P : Z -> bool) :
  let b' := keep_at b (filter (fun i => P (nth i (bk_likelihood b) 0)) (seq 0 (length (bk_likelihood b)))) in
  break_list b' = filter (fun x => P (snd x)) (break_list b) /\ breaks_ok b'.
Proof.
  cbv zeta. split.
  - rewrite break_list_keep. unfold break_list. rewrite filter_map. reflexivity.
  - split; cbn; now rewrite !take_length.
Qed.
Lemma break_list_inj b c : breaks_ok b -> breaks_ok c -> break_list b = break_list c -> b = c.
Proof.
  intros [B1 B2] [C1 C2] E. unfold break_list in E.
  assert (length (bk_likelihood b) = length (bk_likelihood c)) as L by (apply (f_equal (@length _)) in E; now rewrite !map_length, !seq_length in E).
  assert (forall n, (n < length (bk_likelihood b))%nat -> nth n (bk_time b) 0 = nth n (bk_time c) 0 /\ nth n (bk_station b) 0 = nth n (bk_station c) 0 /\ nth n (bk_likelihood b) 0 = nth n (bk_likelihood c) 0) as H.
  { intros n Hn. rewrite <- L in E.
    assert (forall (f g : nat -> Z * Z * Z) m k, map f (seq k m) = map g (seq k m) -> forall i, (k <= i < k + m)%nat -> f i = g i) as EX.
    { clear. induction m as [|m IH]; intros k E i Hi; [lia|]. cbn [seq map] in E. apply (f_equal (fun l => (hd (f 0%nat) l, tl l))) in E. cbn [hd tl] in E.
      apply pair_equal_spec in E as [E1 E2]. destruct (Nat.eq_dec i k) as [->|N]; [assumption|]. apply (IH (S k)); [assumption|lia]. }
    apply (EX _ _ _ _ E n) in Hn || (assert (0 <= n < 0 + length (bk_likelihood b))%nat as Hn' by lia; apply (EX _ _ _ _ E n) in Hn').
    apply pair_equal_spec in Hn' as [Hn' H3]. apply pair_equal_spec in Hn' as [H1 H2]. auto. }
  destruct b as [bt bs bl], c as [ct cs cl]. cbn in *. f_equal; apply (nth_ext _ _ 0 0); try lia; intros n Hn; apply H; lia.
Qed.

(* ---- mean *)
Lemma take_isin l m : take 0 l (isin l m) = filter (fun x => existsb (Z.eqb x) m) l.
Proof. unfold take, isin. rewrite <- (filter_map (fun i => nth i l 0) (fun x => existsb (Z.eqb x) m)). now rewrite (map_nth_seq (fun x => x)), map_id. Qed.
Lemma isin_In l m i : In i (isin l m) <-> (i < length l)%nat /\ In (nth i l 0) m.
Proof.
  unfold isin. rewrite filter_In, in_seq, existsb_exists. split.
  - intros [H (x & Hx & E)]. apply Z.eqb_eq in E. split; [lia|congruence].
  - intros [H1 H2]. split; [lia|]. exists (nth i l 0). split; [assumption|apply Z.eqb_refl].
Qed.
Lemma list_eqb_iff (l m : list Z) : length l = length m -> forallb (fun xy => fst xy =? snd xy) (combine l m) = true <-> l = m.
Proof.
  revert m. induction l as [|x l IH]; intros [|y m] L; try discriminate; cbn; [tauto|].
  rewrite andb_true_iff, Z.eqb_eq, IH by (cbn in L; lia). split; [intros []; congruence|intro E; split; congruence].
Qed.
Lemma nth_combine_map {A B C} (f : A * B -> C) da db dc l m i : length l = length m -> (i < length l)%nat ->
  nth i (map f (combine l m)) dc = f (nth i l da, nth i m db).
Proof.
  intros L H. rewrite (nth_indep _ dc (f (da, db))) by (rewrite map_length, combine_length; lia). rewrite map_nth. f_equal. now apply combine_nth.
Qed.
Lemma mean_sets_ok a b c : mean_sets a b = Ok c ->
  let ra := isin (s_location a) (s_location b) in let rb := isin (s_location b) (s_location a) in
  take 0 (s_location a) ra = take 0 (s_location b) rb /\ times_eqb (s_time a) (s_time b) = true /\ length (s_cor a) = length (s_cor b) /\
  c = {| s_mask := map (fun xy => fst xy || snd xy) (combine (take true (s_mask a) ra) (take true (s_mask b) rb));
        s_time := s_time a;
        s_location := take 0 (s_location a) ra;
        s_measurement := mean2 (take 0%Qc (s_measurement a) ra) (take 0%Qc (s_measurement b) rb);
        s_unc := meansq2 (take 0%Qc (s_unc a) ra) (take 0%Qc (s_unc b) rb);
        s_cor := map (fun ab => meansq2 (take 0%Qc (fst ab) ra) (take 0%Qc (snd ab) rb)) (combine (s_cor a) (s_cor b)) |}.
Proof.
  unfold mean_sets. cbv zeta. destruct (Nat.eqb_spec (length (isin (s_location a) (s_location b))) (length (isin (s_location b) (s_location a)))) as [L|]; cbn [negb]; [|discriminate].
  destruct (forallb _ _) eqn:E; cbn [negb]; [|discriminate]. apply list_eqb_iff in E; [|now rewrite !take_length].
  destruct (times_eqb _ _); cbn [negb]; [|discriminate]. destruct (Nat.eqb_spec (length (s_cor a)) (length (s_cor b))); cbn [negb]; [|discriminate].
  intro H. repeat (split; [assumption||reflexivity|]). congruence.
Qed.
Lemma mean_sets_total a b : 
  filter (fun x => existsb (Z.eqb x) (s_location b)) (s_location a) = filter (fun x => existsb (Z.eqb x) (s_location a)) (s_location b) ->
  times_eqb (s_time a) (s_time b) = true -> length (s_cor a) = length (s_cor b) -> exists c, mean_sets a b = Ok c.
Proof.
  intros E T C. unfold mean_sets. rewrite <- !take_isin in E.
  assert (length (isin (s_location a) (s_location b)) = length (isin (s_location b) (s_location a))) as L by (rewrite <- (take_length 0 (s_location a)), E; apply take_length).
  apply list_eqb_iff in E; [|now rewrite !take_length].
  rewrite L, Nat.eqb_refl. cbn [negb]. rewrite E, T, C, Nat.eqb_refl. cbn [negb]. eexists. reflexivity.
Qed.

(* ---- bias effect *)
Lemma mask_keep_map {A B} (p : A -> bool) (f : A -> B) l : mask_keep (map p l) (map f l) = map f (filter p l).
Proof. unfold mask_keep. induction l as [|a l IH]; [reflexivity|]. cbn. destruct (p a); cbn; now rewrite IH. Qed.
Lemma as_map_seq (l : list Z) n : length l = n -> l = map (fun i => nth i l 0) (seq 0 n).
Proof. intros <-. now rewrite (map_nth_seq (fun x => x)), map_id. Qed.

Section Heads.
  Variable st : nat -> Z.
  Fixpoint heads (prev : Z) (F : list nat) : list nat :=
    match F with [] => [] | i :: r => if prev =? st i then heads (st i) r else i :: heads (st i) r end.
  Definition changes_from (prev : Z) (l : list Z) : list bool := map (fun xy => negb (fst xy =? snd xy)) (combine l (prev :: l)).
  Lemma changes_from_cons p x l : changes_from p (x :: l) = negb (x =? p) :: changes_from x l.
  Proof. reflexivity. Qed.
  Lemma mask_keep_heads {A} (f : nat -> A) F : forall p, mask_keep (changes_from p (map st F)) (map f F) = map f (heads p F).
  Proof.
    induction F as [|i r IH]; intro p; [reflexivity|]. cbn [map heads]. rewrite changes_from_cons. unfold mask_keep. cbn [combine filter fst].
    rewrite (Z.eqb_sym p). destruct (st i =? p); cbn [negb]; [exact (IH (st i))|cbn [map snd]; f_equal; exact (IH (st i))].
  Qed.
  Variable R : nat -> nat -> Prop.
  Hypothesis R_st : forall i j, R i j -> st i <= st j.
  Lemma heads_In F : StronglySorted R F -> (forall i j, In i F -> In j F -> R i j -> ~ R j i) -> forall p, (forall i, In i F -> p <= st i) ->
    forall k, In k (heads p F) <-> In k F /\ st k <> p /\ (forall j, In j F -> st j = st k -> j = k \/ R k j).
  Proof.
    induction 1 as [|i r Hr IH Hi]; intros As p Hp k; [cbn; tauto|]. cbn [heads].
    rewrite Forall_forall in Hi.
    assert (forall a b, In a r -> In b r -> R a b -> ~ R b a) as As' by (intros; apply As; [right|right|]; assumption).
    assert (forall j, In j r -> st i <= st j) as Hp' by (intros; now apply R_st, Hi).
    specialize (IH As' (st i) Hp' k).
    destruct (Z.eqb_spec p (st i)) as [->|Np].
    - rewrite IH. split.
      + intros (H1 & H2 & H3). split; [now right|split; [assumption|]]. intros j [<-|Hj] E; [congruence|]. now apply H3.
      + intros ([<-|H1] & H2 & H3); [congruence|]. split; [assumption|split; [assumption|]]. intros j Hj. apply H3. now right.
    - split.
      + intros [<-|H].
        * split; [now left|split; [congruence|]]. intros j [<-|Hj] _; [now left|right; now apply Hi].
        * apply IH in H as (H1 & H2 & H3). split; [now right|split].
          -- assert (p <= st i) by (apply Hp; now left). assert (st i <= st k) by (apply R_st, Hi, H1). lia.
          -- intros j [<-|Hj] E; [congruence|now apply H3].
      + intros ([<-|H1] & H2 & H3); [now left|]. right. apply IH. split; [assumption|split].
        * intro E. destruct (H3 i (or_introl eq_refl) (eq_sym E)) as [->|Rk].
          -- apply (As k k); try (now left); now apply Hi.
          -- apply (As i k); [now left|now right|now apply Hi|assumption].
        * intros j Hj. apply H3. now right.
  Qed.
  Lemma heads_sorted F : StronglySorted R F -> forall p, (forall i, In i F -> p <= st i) -> StronglySorted Z.lt (map st (heads p F)) /\ Forall (fun x => p < x) (map st (heads p F)).
  Proof.
    induction 1 as [|i r Hr IH Hi]; intros p Hp; [split; constructor|]. cbn [heads]. rewrite Forall_forall in Hi.
    destruct (IH (st i)) as [I1 I2]; [intros; now apply R_st, Hi|]. assert (p <= st i) by (apply Hp; now left).
    destruct (Z.eqb_spec p (st i)) as [->|Np]; [now split|]. cbn [map]. split; [now constructor|]. constructor; [lia|]. eapply Forall_impl; [|exact I2]. cbn. intros. lia.
  Qed.
  Lemma all_same F : StronglySorted R F -> forall p, (forall i, In i F -> p <= st i) -> last (map st F) p = p -> forallb negb (changes_from p (map st F)) = true /\ heads p F = [].
  Proof.
    induction 1 as [|i r Hr IH Hi]; intros p Hp E; [split; reflexivity|]. cbn [map heads] in *. rewrite Forall_forall in Hi.
    assert (st i = p) as Ei.
    { assert (p <= st i) by (apply Hp; now left). cut (st i <= p); [lia|]. rewrite <- E. destruct r as [|j r]; [cbn; lia|].
      cbn [map last]. change (st i <= last (map st (j :: r)) p). 
      assert (In (last (map st (j :: r)) p) (map st (j :: r))) as I. { rewrite (app_removelast_last (l := map st (j :: r)) p) at 2 by discriminate. apply in_or_app. right. now left. }
      apply in_map_iff in I as (x & Ex & Hx). rewrite <- Ex. now apply R_st, Hi. }
    rewrite Ei, Z.eqb_refl. rewrite changes_from_cons, Z.eqb_refl. cbn [negb forallb andb].
    apply IH; [intros j Hj; rewrite <- Ei; now apply R_st, Hi|].
    destruct r as [|j r]; [reflexivity|]. exact E.
  Qed.
End Heads.

Lemma argmin_cons x y l : argmin (x :: y :: l) = if x <=? nth (argmin (y :: l)) (y :: l) 0 then O else S (argmin (y :: l)).
Proof. reflexivity. Qed.
Lemma argmin_lt l : l <> [] -> (argmin l < length l)%nat.
Proof.
  induction l as [|x l IH]; [congruence|]. intros _. destruct l as [|y l]; [cbn; lia|]. rewrite argmin_cons.
  destruct (x <=? _); [cbn; lia|]. cbn [length]. apply -> Nat.succ_lt_mono. apply IH. discriminate.
Qed.
Lemma argmin_first x l : (forall y, In y l -> x <= y) -> argmin (x :: l) = O.
Proof.
  intro H. destruct l as [|y l]; [reflexivity|]. rewrite argmin_cons.
  destruct (Z.leb_spec x (nth (argmin (y :: l)) (y :: l) 0)) as [_|L]; [reflexivity|]. exfalso.
  specialize (H (nth (argmin (y :: l)) (y :: l) 0)). cut (x <= nth (argmin (y :: l)) (y :: l) 0); [lia|]. apply H, nth_In, argmin_lt. discriminate.
Qed.
Lemma changes_changes_from l : changes l = changes_from (last l 0) l.
Proof. reflexivity. Qed.
Lemma last_indep {A} (l : list A) d e : l <> [] -> last l d = last l e.
Proof. induction l as [|x l IH]; [congruence|]. intros _. destruct l as [|y l]; [reflexivity|]. cbn [last]. apply IH. discriminate. Qed.

(* the choice of active adjustments, whichever way it is made *)
Lemma pick_heads (st td : nat -> Z) F {A} (f : nat -> A) (d : A) :
  (forall i j, In i F -> In j F -> (i < j)%nat -> st i < st j \/ (st i = st j /\ td i < td j)) -> StronglySorted lt F ->
  (if negb (length (changes (map st F)) =? 0)%nat && forallb negb (changes (map st F)) then [nth (argmin (map td F)) (map f F) d] else mask_keep (changes (map st F)) (map f F))
  = match F with [] => [] | i :: r => map f (heads st (st i - 1) F) end.
Proof.
  intros O SF. destruct F as [|i r]; [reflexivity|]. inversion_clear SF as [|? ? Sr Hi]. rewrite Forall_forall in Hi.
  set (R := fun a b : nat => (a < b)%nat /\ In a r /\ In b r). 
  assert (forall j, In j r -> st i <= st j) as Lo by (intros j Hj; specialize (Hi j Hj); destruct (O i j) as [|[]]; cbn; auto; lia).
  set (R' := fun a b : nat => st a <= st b).
  assert (StronglySorted R' r) as SR.
  { assert (forall l, (forall x, In x l -> In x r) -> StronglySorted lt l -> StronglySorted R' l) as G.
    { intros l Hl. induction 1 as [|a l Sl IH Ha]; constructor.
      - apply IH. intros; apply Hl; now right.
      - rewrite Forall_forall in *. intros b Hb. unfold R'. destruct (O a b) as [|[]]; try lia; [right; apply Hl; now left|right; apply Hl; now right|now apply Ha]. }
    now apply G. }
  assert (negb (length (changes (map st (i :: r))) =? 0)%nat = true) as -> by reflexivity. cbn [andb].
  rewrite changes_changes_from. cbn [map]. rewrite changes_from_cons. cbn [forallb].
  cbn [heads]. destruct (Z.eqb_spec (st i - 1) (st i)); [lia|]. cbn [map].
  destruct (Z.eqb_spec (st i) (last (st i :: map st r) 0)) as [E|E]; cbn [negb andb].
  - assert (last (map st r) (st i) = st i) as E'. { destruct r as [|j r]; [reflexivity|]. cbn [last map] in E. rewrite (last_indep _ (st i) 0) by discriminate. symmetry. exact E. }
    destruct (all_same st R' (fun a b h => h) r SR (st i) Lo E') as [-> ->]. rewrite argmin_first; [reflexivity|].
    intros y Hy. apply in_map_iff in Hy as (j & <- & Hj). specialize (Hi j Hj).
    assert (st j = st i) as Ej.
    { assert (st i <= st j) by now apply Lo. cut (st j <= st i); [lia|]. rewrite <- E'. clear - SR Hj. induction SR as [|a l Sl IH Ha]; [contradiction|].
      destruct l as [|b l]; [destruct Hj as [->|[]]; cbn; lia|]. destruct Hj as [->|Hj].
      - rewrite Forall_forall in Ha. assert (In (last (map st (b :: l)) (st i)) (map st (b :: l))) as I. { rewrite (app_removelast_last (l := map st (b :: l)) (st i)) at 2 by discriminate. apply in_or_app. right. now left. }
        apply in_map_iff in I as (x & Ex & Hx). change (st j <= last (map st (b :: l)) (st i)). rewrite <- Ex. now apply Ha.
      - change (st j <= last (map st (b :: l)) (st i)). now apply IH. }
    destruct (O i j) as [|[]]; cbn; auto; lia.
  - unfold mask_keep. cbn [combine filter fst]. cbn [map snd]. f_equal. apply mask_keep_heads.
Qed.

Lemma sortedZ_unique (l m : list Z) : StronglySorted Z.lt l -> StronglySorted Z.lt m -> (forall x, In x l <-> In x m) -> l = m.
Proof.
  intros S; revert m; induction S as [|x l S IH F]; intros m T H.
  - destruct m as [|y m]; [reflexivity|]. exfalso. apply (H y). now left.
  - destruct T as [|y m T G]; [exfalso; apply (H x); now left|]. rewrite Forall_forall in F, G.
    assert (x = y).
    { destruct (proj1 (H x) (or_introl eq_refl)) as [E|E]; [congruence|]. destruct (proj2 (H y) (or_introl eq_refl)) as [E'|E']; [congruence|].
      specialize (G x E). specialize (F y E'). lia. }
    subst y. f_equal. apply IH; [assumption|]. intro z. split; intro Hz.
    + destruct (proj1 (H z) (or_intror Hz)) as [<-|]; [|assumption]. specialize (F x Hz). lia.
    + destruct (proj2 (H z) (or_intror Hz)) as [<-|]; [|assumption]. specialize (G x Hz). lia.
Qed.
Lemma ascending_sorted l : ascending l <-> StronglySorted Z.lt l.
Proof.
  split.
  - induction l as [|x l IH]; intro A; constructor.
    + apply IH. intros i j H. apply (A (S i) (S j)). cbn. lia.
    + apply Forall_forall. intros y Hy. apply (In_nth _ _ 0) in Hy as (n & Hn & <-). apply (A 0%nat (S n)). cbn. lia.
  - induction 1 as [|x l S IH F]; intros i j H; [cbn in H; lia|]. cbn [length] in H. destruct j as [|j]; [lia|]. destruct i as [|i].
    + cbn [nth]. rewrite Forall_forall in F. apply F, nth_In. lia.
    + cbn [nth]. apply IH. lia.
Qed.
Lemma sorted_nth_inj l i j : StronglySorted Z.lt l -> (i < length l)%nat -> (j < length l)%nat -> nth i l 0 = nth j l 0 -> i = j.
Proof.
  intros S Hi Hj E. apply ascending_sorted in S. destruct (Nat.lt_trichotomy i j) as [L|[->|L]]; [|reflexivity|].
  - specialize (S i j). lia.
  - specialize (S j i). lia.
Qed.

(* positions paired by value *)
Lemma paired (si H : list Z) : StronglySorted Z.lt si -> StronglySorted Z.lt H ->
  length (isin si H) = length (isin H si) /\
  forall p q, In (p, q) (combine (isin si H) (isin H si)) <-> (p < length si)%nat /\ (q < length H)%nat /\ nth p si 0 = nth q H 0.
Proof.
  intros S1 S2.
  assert (take 0 si (isin si H) = take 0 H (isin H si)) as E.
  { rewrite !take_isin. apply sortedZ_unique; try now apply Cat_Proofs.StronglySorted_filter.
    intro x. rewrite !filter_In, !existsb_exists. split; intros [H1 (y & H2 & H3)]; apply Z.eqb_eq in H3; subst y; (split; [assumption|]); exists x; (split; [assumption|apply Z.eqb_refl]). }
  assert (length (isin si H) = length (isin H si)) as L by (rewrite <- (take_length 0 si), E; apply take_length).
  split; [exact L|]. intros p q. split.
  - intro I. apply (In_nth _ _ (0%nat, 0%nat)) in I as (n & Hn & En). rewrite combine_length in Hn. rewrite combine_nth in En by exact L.
    apply pair_equal_spec in En as [E1 E2].
    assert (In p (isin si H)) as P1 by (rewrite <- E1; apply nth_In; lia). assert (In q (isin H si)) as Q1 by (rewrite <- E2; apply nth_In; lia).
    apply isin_In in P1. apply isin_In in Q1. split; [tauto|split; [tauto|]].
    rewrite <- E1, <- E2. rewrite <- !nth_take by lia. now rewrite E.
  - intros (Hp & Hq & V). assert (In p (isin si H)) as P1 by (apply isin_In; split; [assumption|rewrite V; now apply nth_In]).
    apply (In_nth _ _ 0%nat) in P1 as (n & Hn & En).
    replace (p, q) with (nth n (combine (isin si H) (isin H si)) (0%nat, 0%nat)).
    + apply nth_In. rewrite combine_length. lia.
    + rewrite combine_nth by exact L. f_equal; [exact En|].
      assert (nth n (isin H si) 0%nat < length H)%nat as B by (apply (isin_In H si), nth_In; lia).
      apply (sorted_nth_inj H); [assumption|assumption|assumption|].
      rewrite <- nth_take by lia. rewrite <- E, nth_take by lia. now rewrite En.
Qed.
Lemma isin_NoDup l m : NoDup (isin l m).
Proof. apply NoDup_filter, seq_NoDup. Qed.
Lemma combine_NoDup {A B} (l : list A) (m : list B) : NoDup l -> NoDup (combine l m).
Proof.
  intro N. revert m. induction N as [|a l Na N IH]; intros [|b m]; try constructor.
  - intro I. apply in_combine_l in I. contradiction.
  - apply IH.
Qed.
Lemma combine_take {A} (sr br : list nat) (l : list A) d : combine sr (take d l br) = map (fun pq => (fst pq, nth (snd pq) l d)) (combine sr br).
Proof. unfold take. revert br. induction sr as [|a sr IH]; intros [|b br]; try reflexivity. cbn [map combine fst snd]. f_equal. apply IH. Qed.

Lemma covariate_effect_spec time si b : breaks_ordered b -> ascending si ->
  exists r, covariate_effect time si b = Ok r /\ NoDup (match r with Some l => l | None => [] end) /\ r <> Some [] /\
    forall p i, In (p, i) (match r with Some l => l | None => [] end) <-> (p < length si)%nat /\ next_break b time (nth p si 0) i.
Proof.
  intros [LB OB] A. apply ascending_sorted in A.
  set (n := length (bk_station b)) in *. set (st := fun i => nth i (bk_station b) 0 - 1). set (td := fun i => nth i (bk_time b) 0 - time).
  set (F := filter (fun i => td i >? 0) (seq 0 n)).
  assert (map (fun s => s - 1) (bk_station b) = map st (seq 0 n)) as E1 by (rewrite (as_map_seq (bk_station b) n) at 1 by reflexivity; rewrite map_map; reflexivity).
  assert (map (fun t => t - time) (bk_time b) = map td (seq 0 n)) as E2 by (rewrite (as_map_seq (bk_time b) n) at 1 by exact LB; rewrite map_map; reflexivity).
  unfold covariate_effect. cbv zeta. rewrite E1, E2, map_length, seq_length.
  assert (map (fun d => d >? 0) (map td (seq 0 n)) = map (fun i => td i >? 0) (seq 0 n)) as E3 by now rewrite map_map. rewrite E3.
  rewrite <- (map_id (seq 0 n)) at 2 3 4 5 || idtac.
  assert (mask_keep (map (fun i => td i >? 0) (seq 0 n)) (seq 0 n) = F) as E4 by (rewrite <- (map_id (seq 0 n)) at 2; rewrite mask_keep_map; apply map_id).
  assert (forall f : nat -> Z, mask_keep (map (fun i => td i >? 0) (seq 0 n)) (map f (seq 0 n)) = map f F) as E5 by (intro f; apply mask_keep_map).
  rewrite ?map_id, E4, !E5.
  assert (forall i, In i F <-> (i < n)%nat /\ td i > 0) as InF.
  { intro i. unfold F. rewrite filter_In, in_seq. destruct (Z.gtb_spec (td i) 0); split; intros []; split; lia || congruence. }
  assert (forall i j, In i F -> In j F -> (i < j)%nat -> st i < st j \/ (st i = st j /\ td i < td j)) as OF.
  { intros i j Hi Hj Hij. apply InF in Hi. apply InF in Hj. unfold st, td. destruct (OB i j) as [|[]]; [lia|left; lia|right; lia]. }
  assert (StronglySorted lt F) as SF by apply Cat_Proofs.StronglySorted_filter, Cat_Proofs.seq_sorted.
  rewrite (pick_heads st td F st 0 OF SF).
  assert ((if negb (length (changes (map st F)) =? 0)%nat && forallb negb (changes (map st F)) then [nth (argmin (map td F)) F 0%nat] else mask_keep (changes (map st F)) F)
    = match F with [] => [] | i :: r => heads st (st i - 1) F end) as E6.
  { pose proof (pick_heads st td F (fun i => i) 0%nat OF SF) as Q. rewrite map_id in Q. rewrite Q. destruct F; [reflexivity|apply map_id]. }
  rewrite E6. clear E6.
  set (Hd := match F with [] => [] | i :: r => heads st (st i - 1) F end).
  replace (match F with [] => [] | i :: r => map st (heads st (st i - 1) F) end) with (map st Hd) by (unfold Hd; destruct F; reflexivity).
  set (R := fun i j => (i < j)%nat /\ st i <= st j).
  assert (StronglySorted R F) as SR.
  { assert (forall l, (forall x, In x l -> In x F) -> StronglySorted lt l -> StronglySorted R l) as G.
    { intros l Hl. induction 1 as [|a l Sl IH Ha]; constructor.
      - apply IH. intros; apply Hl; now right.
      - rewrite Forall_forall in *. intros x Hx. split; [now apply Ha|]. destruct (OF a x) as [|[]]; try lia; [apply Hl; now left|apply Hl; now right|now apply Ha]. }
    now apply G. }
  assert (forall i j, R i j -> st i <= st j) as RS by (intros i j []; assumption).
  assert (StronglySorted Z.lt (map st Hd) /\ forall k, In k Hd <-> In k F /\ forall j, In j F -> st j = st k -> (k <= j)%nat) as [SH IH].
  { unfold Hd. destruct F as [|i0 r0] eqn:EF; [split; [constructor|]; intro k; cbn; tauto|]. rewrite <- EF in *.
    assert (forall i, In i F -> st i0 - 1 <= st i) as Lo.
    { intros i Hi. assert (st i0 <= st i); [|lia]. rewrite EF in SR, Hi. inversion_clear SR as [|? ? _ Hr]. destruct Hi as [<-|Hi]; [lia|]. rewrite Forall_forall in Hr. now apply RS, Hr. }
    split; [now apply (heads_sorted st R RS F SR)|]. intro k.
    rewrite (heads_In st R RS F SR); [|intros x y _ _ [Q _] [Q' _]; lia|exact Lo]. split.
    - intros (H1 & _ & H3). split; [assumption|]. intros j Hj Ej. destruct (H3 j Hj Ej) as [->|[]]; lia.
    - intros (H1 & H3). split; [assumption|split].
      + assert (st i0 <= st k); [|lia]. rewrite EF in SR, H1. inversion_clear SR as [|? ? _ Hr]. destruct H1 as [<-|H1]; [lia|]. rewrite Forall_forall in Hr. now apply RS, Hr.
      + intros j Hj Ej. specialize (H3 j Hj Ej). destruct (Nat.eq_dec j k) as [|Njk]; [now left|right]. split; lia. }
  destruct (paired si (map st Hd) A SH) as [L P]. rewrite L, Nat.eqb_refl. cbn [negb].
  rewrite combine_take. set (pairs := map _ _).
  assert (forall p i, In (p, i) pairs <-> (p < length si)%nat /\ next_break b time (nth p si 0) i) as PS.
  { intros p i. unfold pairs. rewrite in_map_iff. split.
    - intros ([p' q] & E & I). apply P in I as (I1 & I2 & I3). cbn [fst snd] in E. apply pair_equal_spec in E as [-> E]. split; [assumption|].
      rewrite map_length in I2. rewrite (nth_indep (map st Hd) 0 (st 0%nat)) in I3 by now rewrite map_length. rewrite map_nth in I3.
      rewrite E in I3.
      assert (In i Hd) as Ii by (rewrite <- E; now apply nth_In). apply IH in Ii as [Ii1 Ii2]. apply InF in Ii1 as [Ii3 Ii4].
      unfold next_break. fold n. unfold st, td in *. split; [assumption|split; [lia|split; [lia|]]].
      intros j Hj Ej Tj. assert (i <= j)%nat as Lij by (apply Ii2; [apply InF; split; [assumption|lia]|lia]).
      destruct (Nat.eq_dec i j) as [->|]; [lia|]. destruct (OB i j) as [|[]]; lia.
    - intros (Hp & N1 & N2 & N3 & N4). fold n in N1, N4.
      assert (In i Hd) as Ii.
      { apply IH. split; [apply InF; split; [assumption|unfold td; lia]|]. intros j Hj Ej. apply InF in Hj as [Hj Tj]. unfold st, td in *.
        destruct (Nat.le_gt_cases i j) as [|G]; [assumption|]. exfalso. specialize (N4 j Hj ltac:(lia) ltac:(lia)). destruct (OB j i) as [|[]]; lia. }
      apply (In_nth _ _ 0%nat) in Ii as (q & Hq & Eq). exists (p, q). cbn [fst snd]. split; [now rewrite Eq|]. apply P.
      split; [assumption|split; [now rewrite map_length|]]. rewrite (nth_indep (map st Hd) 0 (st 0%nat)) by now rewrite map_length. rewrite map_nth, Eq. unfold st. lia. }
  assert (NoDup pairs) as ND.
  { unfold pairs. rewrite <- combine_take. apply combine_NoDup, isin_NoDup. }
  destruct pairs as [|x l]; [exists None|exists (Some (x :: l))]; (split; [reflexivity|split; [assumption|split; [discriminate|exact PS]]]).
Qed.
