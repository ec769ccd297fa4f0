(* Proofs about daily files of stations, ship reports, lakes, break points and times (Src_Model, Src_Spec). *)
From Coq Require Import QArith Qcanon String Ascii Psatz.
From Verif Require Import Base Time_Model Time_Proofs Grid_Model Grid_Proofs Land_Model Obs_Model Obs_Spec Obs_Proofs Src_Model Src_Spec Src_Proofs.
From Verif Require Obs_Props.
Local Open Scope Z_scope.
Local Open Scope list_scope.

(* ---- days of stations *)

Lemma mapM_all {A B} (g : A -> result B) (h : A -> B) l : (forall x, In x l -> g x = Ok (h x)) -> mapM g l = Ok (map h l).
Proof. induction l as [|x l IH]; intros H; cbn [mapM map]; [reflexivity|]. rewrite H by (left; reflexivity). cbn [bind]. rewrite IH by (intros; apply H; right; assumption). reflexivity. Qed.
Lemma Qle_refl_tol (x : Qc) : Qle_bool (x - x)%Qc (1 / qz 10000)%Qc = true.
Proof. replace (x - x)%Qc with 0%Qc by ring. vm_compute. reflexivity. Qed.
Lemma prepare_same num file uuid table o day : read_lookup file = Ok {| lk_uuid := uuid; lk_table := table |} -> o_location o <> [] ->
  Forall (fun l => 0 <= l < zlen table) (o_location o) -> prepare_day num file table o day = Ok (write_day uuid o day).
Proof.
  intros R N B. unfold prepare_day. rewrite R. cbn [bind lk_table lk_uuid].
  rewrite (mapM_all _ (fun _ => true)).
  - cbn [bind]. destruct (o_location o) as [|l ls] eqn:E; [congruence|]. cbn [map forallb andb].
    assert (forallb (fun d => d) (map (fun _ : Z => true) ls) = true) as -> by (clear; induction ls; [reflexivity|exact IHls]). reflexivity.
  - intros l I. rewrite Forall_forall in B. specialize (B l I). unfold zlen in B.
    destruct (nth_error table (Z.to_nat l)) as [ab|] eqn:E; [|apply nth_error_None in E; lia].
    unfold within_tolerance. cbv zeta. now rewrite !Qle_refl_tol.
Qed.
Lemma nth_seq_filter_ascending p n : ascending_nat (filter p (seq 0 n)).
Proof.
  generalize 0%nat. induction n as [|n IH]; intros a; cbn [seq filter]; [exact I|].
  assert (F : Forall (fun y => (a < y)%nat) (filter p (seq (S a) n))).
  { apply Forall_forall. intros y Y. apply filter_In in Y. destruct Y as [Y _]. apply in_seq in Y. lia. }
  destruct (p a); [|apply IH]. cbn [ascending_nat]. split; [exact F|apply IH].
Qed.
Lemma qle_qz a b : Qle_bool (qz a) (qz b) = (a <=? b).
Proof.
  destruct (a <=? b) eqn:E.
  - apply Qle_bool_iff. apply Z.leb_le in E. now apply qz_le.
  - apply not_true_is_false. intros H. apply Qle_bool_iff in H. apply (proj1 (qz_le a b)) in H. lia.
Qed.
Lemma in_day_qz day : in_day (qz day) day = true.
Proof. unfold in_day. rewrite !qle_qz. apply andb_true_iff. split; [lia|]. apply negb_true_iff. lia. Qed.
Lemma zero_le_qz d : 0 <= d -> (0 <= qz d)%Qc.
Proof. intros H. rewrite <- qz_0. now apply qz_le. Qed.

Lemma row_time f day i : row_of_day f day i -> nth i (lf_time f) 0%Qc = qz day.
Proof. intros [L H]. now apply H. Qed.

Lemma day_set root f day codes adjust e qc i : file_ok f -> row_of_day f day i ->
  exists o, land_observations root f (Some day) codes adjust (observable_name e) qc = Ok (Some o) /\ sized o (stations f) /\
    forall s, (s < stations f)%nat -> exists masked value error, entry o s = (masked, qz day, Z.of_nat s, value, error) /\
      (masked = true <-> masked_by_code f e (Some day) codes (match adjust with Some _ => true | None => false end) qc 0 i s) /\
      (masked = false -> value = at_reference f e adjust i s /\ error = error_of root f adjust s).
Proof.
  intros W D. pose proof (land_observations_is root f (Some day) codes adjust e qc W) as H.
  destruct (land_observations root f (Some day) codes adjust (observable_name e) qc) as [[o|]|er] eqn:E.
  - exists o. split; [reflexivity|]. destruct (station_entries root f (Some day) codes adjust e qc o W E) as (rows & (j & -> & R) & S & P).
    assert (j = i) as ->. { destruct D as [L U], R as [L' U']. apply U; [assumption|]. now apply U'. }
    cbn [List.length] in S, P. replace (1 * stations f)%nat with (stations f) in S by lia. split; [exact S|].
    intros s L. destruct (P 0%nat s ltac:(lia) L) as (m & v & u & EN & M & V). cbn [nth Nat.mul Nat.add] in *. rewrite (row_time _ _ _ D) in EN. eauto 8.
  - destruct H as (d & Ed & N). exfalso. apply N. injection Ed as <-. eauto.
  - contradiction.
Qed.

Lemma words_of_ok enc o n : (forall x, word (enc x)) -> sized o n -> (forall s, (s < n)%nat -> nth s (s_location o) 0 = Z.of_nat s) -> Z.of_nat n <= 2 ^ 64 -> well_formed (words_of enc o).
Proof.
  intros E (M & T & L & V & U & C) P N. unfold well_formed, words_of. cbn [o_measurement o_mask o_location o_unc o_cor o_time]. rewrite !map_length, V, C.
  split; [exact M|]. split; [exact L|]. split; [exact U|]. split; [constructor|]. split; [destruct (s_time o); [exact I|exact T]|]. split.
  - apply Forall_forall. intros l I. apply In_nth with (d := 0) in I. destruct I as (s & S & <-). rewrite P by lia. unfold word. lia.
  - split; [apply Forall_map, Forall_forall; intros; apply E|]. split; [apply Forall_map, Forall_forall; intros; apply E|]. constructor.
Qed.
Lemma entry_parts o s m t l v u : entry o s = (m, t, l, v, u) -> nth s (s_mask o) true = m /\ nth s (s_location o) 0 = l /\ nth s (s_measurement o) 0%Qc = v /\ nth s (s_unc o) 0%Qc = u /\
  match s_time o with TScalar t' => t' | TArray ts => nth s ts 0%Qc end = t.
Proof. unfold entry. intros H. repeat split; congruence. Qed.

(* the records of a day file, from the entries *)
Lemma day_records enc uuid verify o n day (masked : nat -> bool) (value error : nat -> Qc) : (forall x, word (enc x)) -> is_uuid uuid -> sized o n -> Z.of_nat n <= 2 ^ 64 -> 0 <= day ->
  (forall s, (s < n)%nat -> nth s (s_location o) 0 = Z.of_nat s) ->
  (forall s, (s < n)%nat -> nth s (s_mask o) true = masked s /\ nth s (s_measurement o) 0%Qc = value s /\ nth s (s_unc o) 0%Qc = error s) ->
  (forall i, (0 <= time_of (words_of enc o) i)%Qc) ->
  exists o', read_day 0 (write_day uuid (words_of enc o) day) verify day = Ok o' /\
    records o' = map (fun s => (Z.of_nat s, enc (value s), enc (error s), [])) (filter (fun s => negb (masked s) && in_day (time_of (words_of enc o) s) day) (seq 0 n)).
Proof.
  intros E U S N D L H T. pose proof (words_of_ok enc o n E S L N) as W.
  assert (C : o_cor (words_of enc o) = []) by (destruct S as (_ & _ & _ & _ & _ & C); cbn; now rewrite C).
  assert (DD : day >= 1 \/ day = 0 /\ (forall i, (0 <= time_of (words_of enc o) i)%Qc)) by (destruct (Z.eq_dec day 0); [right; auto|left; lia]).
  destruct (Obs_Props.C28_day_file (words_of enc o) uuid verify day W U DD) as (o' & R1 & R2). rewrite C in R1. cbn [List.length] in R1.
  exists o'. split; [exact R1|]. rewrite R2. destruct S as (M & _ & LL & V & UU & CC).
  assert (LM : List.length (o_measurement (words_of enc o)) = n) by (cbn; now rewrite map_length). rewrite LM.
  rewrite (filter_ext_in _ (fun s => negb (masked s) && in_day (time_of (words_of enc o) s) day)).
  - apply map_ext_in. intros s I. apply filter_In in I. destruct I as [I _]. apply in_seq in I. destruct (H s ltac:(lia)) as (_ & V' & U').
    unfold record_at, words_of. cbn [o_measurement o_location o_unc o_cor]. rewrite CC. cbn [map].
    rewrite L by lia. rewrite !(nth_map enc _ _ _ 0%Qc) by lia. now rewrite V', U'.
  - intros s I. apply in_seq in I. destruct (H s ltac:(lia)) as (M' & _). unfold unmasked. cbn [words_of o_mask]. now rewrite M'.
Qed.

(* ---- text *)

Lemma is_space_iff c : is_space c = true <-> white c.
Proof.
  unfold is_space, white. rewrite existsb_exists. split; [intros (x & I & E); apply Ascii.eqb_eq in E; now subst|]. intros I. exists c. split; [exact I|apply Ascii.eqb_refl].
Qed.
Lemma is_space_false c : ~ white c -> is_space c = false.
Proof. intros N. apply not_true_is_false. rewrite is_space_iff. exact N. Qed.
Lemma split_words_white s l : Forall white s -> split_words [] (s ++ l) = split_words [] l.
Proof. induction 1 as [|c s C _ IH]; [reflexivity|]. cbn [app split_words]. apply is_space_iff in C. now rewrite C. Qed.
Lemma split_words_word w acc rest : Forall (fun c => ~ white c) w -> split_words acc (w ++ rest) = split_words (rev w ++ acc) rest.
Proof. intros H. revert acc. induction H as [|c w C _ IH]; intros acc; [reflexivity|]. cbn [app split_words rev]. rewrite (is_space_false c C), IH. now rewrite <- app_assoc. Qed.
Lemma words_in_spaced l ws : spaced l ws -> words_in l = ws.
Proof.
  unfold words_in. induction 1 as [s H|s w rest ws H N V R _ IH].
  - rewrite <- (app_nil_r s), split_words_white by exact H. reflexivity.
  - rewrite split_words_white by exact H. rewrite split_words_word by exact V. rewrite app_nil_r.
    assert (NR : rev w <> []) by (intros E; apply N; rewrite <- (rev_involutive w), E; reflexivity).
    destruct R as [->|(c & r & -> & C)].
    + cbn [split_words] in *. subst ws. destruct (rev w) eqn:E; [congruence|]. now rewrite <- E, rev_involutive.
    + cbn [split_words] in *. apply is_space_iff in C. rewrite C in *. destruct (rev w) eqn:E; [congruence|]. rewrite <- E, rev_involutive. now f_equal.
Qed.
Lemma index_of_iff w ws i : index_of w ws = Some i <-> first_at w ws i.
Proof.
  revert i; induction ws as [|x ws IH]; intros i; cbn [index_of].
  - split; [discriminate|]. intros [H _]. destruct i; discriminate.
  - destruct (ascii_list_eqb x w) eqn:E.
    + apply ascii_list_eqb_iff in E. subst x. split.
      * intros H. injection H as <-. split; [reflexivity|]. intros j J. lia.
      * intros [_ H]. destruct i as [|i]; [reflexivity|]. exfalso. apply (H 0%nat); [lia|reflexivity].
    + assert (x <> w) by (intros ->; rewrite (proj2 (ascii_list_eqb_iff w w) eq_refl) in E; discriminate). split.
      * intros H1. destruct (index_of w ws) as [j|] eqn:EI; [|discriminate]. cbn in H1. injection H1 as <-. destruct (proj1 (IH j) eq_refl) as [A B]. split; [exact A|].
        intros [|k] K; cbn [nth_error]; [congruence|]. apply B. lia.
      * intros [A B]. destruct i as [|i]; [cbn in A; congruence|]. cbn [nth_error] in A. assert (F : first_at w ws i). { split; [exact A|]. intros j J. apply (B (S j)). lia. }
        apply IH in F. rewrite F. reflexivity.
Qed.
Lemma pieces_eights text cols n : eights text cols -> (List.length text <= n)%nat -> pieces n 8 text = cols.
Proof.
  intros H. revert n. induction H as [|c N L|c line cs L H IH]; intros n B.
  - destruct n; reflexivity.
  - destruct c as [|a c]; [congruence|]. destruct n as [|n]; [cbn in B; lia|]. cbn [pieces]. rewrite firstn_all2, skipn_all2 by exact L. destruct n; reflexivity.
  - rewrite app_length in B. destruct n as [|n]; [lia|]. destruct (c ++ line) as [|a r] eqn:E; [destruct c; cbn in *; [lia|discriminate]|]. cbn [pieces]. rewrite <- E.
    rewrite firstn_app, skipn_app, L, Nat.sub_diag. rewrite firstn_all2, skipn_all2 by lia. cbn [firstn skipn app]. rewrite app_nil_r. f_equal. apply IH. lia.
Qed.
Lemma drop_ends_none l : no_end l -> drop_ends l = l.
Proof.
  intros [A B]. destruct l as [|c l]; [reflexivity|]. cbn [drop_ends]. unfold is_end.
  destruct (Ascii.eqb_spec c "013"%char) as [->|]; [exfalso; apply B; left; reflexivity|]. destruct (Ascii.eqb_spec c "010"%char) as [->|]; [exfalso; apply A; left; reflexivity|]. reflexivity.
Qed.
Lemma no_end_rev l : no_end l -> no_end (rev l).
Proof. intros [A B]. split; rewrite <- in_rev; assumption. Qed.
Lemma no_end_nonempty c l : no_end (c :: l) -> is_end c = false.
Proof.
  intros [A B]. unfold is_end. destruct (Ascii.eqb_spec c "013"%char) as [->|]; [exfalso; apply B; left; reflexivity|].
  destruct (Ascii.eqb_spec c "010"%char) as [->|]; [exfalso; apply A; left; reflexivity|]. reflexivity.
Qed.
Lemma strip_ends_text text tail : no_end text -> Forall (fun c => is_end c = true) tail -> strip_ends (text ++ tail) = text.
Proof.
  intros N T. assert (D : forall t l, Forall (fun c => is_end c = true) t -> drop_ends (t ++ l) = drop_ends l).
  { intros t l H. induction H as [|c t C _ IH]; [reflexivity|]. cbn [app drop_ends]. now rewrite C. }
  unfold strip_ends. destruct text as [|c text].
  - cbn [app]. rewrite <- (app_nil_r tail), D by exact T. reflexivity.
  - cbn [app drop_ends]. rewrite (no_end_nonempty c text N). change (c :: text ++ tail) with ((c :: text) ++ tail). rewrite rev_app_distr, D by (apply Forall_rev; exact T).
    rewrite drop_ends_none by (apply no_end_rev; exact N). apply rev_involutive.
Qed.
Lemma fixed_width_line columns line : line_of columns line -> fixed_width line = columns.
Proof.
  intros (text & E & N & H). assert (S : strip_ends line = text).
  { destruct H as [->|[->| ->]]; [rewrite <- (app_nil_r text) at 1| |]; apply strip_ends_text; try exact N; repeat constructor. }
  unfold fixed_width. rewrite S. now apply pieces_eights.
Qed.

(* ---- numbers in text *)

Lemma digit_cases (P : Z -> Prop) : P 0 -> P 1 -> P 2 -> P 3 -> P 4 -> P 5 -> P 6 -> P 7 -> P 8 -> P 9 -> forall d, 0 <= d <= 9 -> P d.
Proof. intros. assert (d = 0 \/ d = 1 \/ d = 2 \/ d = 3 \/ d = 4 \/ d = 5 \/ d = 6 \/ d = 7 \/ d = 8 \/ d = 9) as K by lia. destruct K as [->|[->|[->|[->|[->|[->|[->|[->|[->| ->]]]]]]]]]; assumption. Qed.
Lemma digit_value_digit d : 0 <= d <= 9 -> digit_value (digit d) = Some d.
Proof. revert d. apply digit_cases; reflexivity. Qed.
Lemma digit_plain d : 0 <= d <= 9 -> is_space (digit d) = false /\ Ascii.eqb (digit d) "-"%char = false /\ Ascii.eqb (digit d) "+"%char = false.
Proof. revert d. apply digit_cases; repeat split; reflexivity. Qed.
Lemma read_digits_is ds v : Forall (fun d => 0 <= d <= 9) ds -> read_digits v (map digit ds) = Some (fold_left (fun v d => 10 * v + d) ds v).
Proof. intros H. revert v. induction H as [|d ds D _ IH]; intros v; [reflexivity|]. cbn [map read_digits fold_left]. rewrite (digit_value_digit d D). apply IH. Qed.
Lemma read_unsigned_is ds : Forall (fun d => 0 <= d <= 9) ds -> ds <> [] -> read_unsigned (map digit ds) = Some (number_of_digits ds).
Proof. intros H N. destruct ds as [|d ds]; [congruence|]. unfold read_unsigned. cbn [map]. change (digit d :: map digit ds) with (map digit (d :: ds)). now apply read_digits_is. Qed.
Lemma drop_spaces_blank n l : drop_spaces (repeat " "%char n ++ l) = drop_spaces l.
Proof. induction n; [reflexivity|]. cbn. exact IHn. Qed.
Lemma drop_spaces_plain c l : is_space c = false -> drop_spaces (c :: l) = c :: l.
Proof. intros H. cbn [drop_spaces]. now rewrite H. Qed.
Lemma strip_spaces_core a b core : (exists c l, core = c :: l /\ is_space c = false) -> (exists c l, core = l ++ [c] /\ is_space c = false) ->
  strip_spaces (repeat " "%char a ++ core ++ repeat " "%char b) = core.
Proof.
  intros (c & l & E1 & F) (d & m & E2 & L). unfold strip_spaces. rewrite drop_spaces_blank. rewrite E1 at 1. cbn [app]. rewrite drop_spaces_plain by exact F.
  change (c :: l ++ repeat " "%char b) with ((c :: l) ++ repeat " "%char b). rewrite <- E1. rewrite rev_app_distr, rev_repeat, drop_spaces_blank, E2, rev_app_distr. cbn [rev app].
  rewrite drop_spaces_plain by exact L. cbn [rev]. now rewrite rev_involutive.
Qed.
Lemma says_to_int text v : says text v -> to_int text = v.
Proof.
  intros (a & b & ds & neg & D & N & -> & ->). unfold to_int, read_int.
  destruct ds as [|d0 ds0] eqn:Eds; [congruence|]. assert (D0 : 0 <= d0 <= 9) by (inversion D; assumption). destruct (digit_plain d0 D0) as (P1 & P2 & P3).
  assert (Last : exists c l, map digit (d0 :: ds0) = l ++ [c] /\ is_space c = false).
  { destruct (exists_last N) as (m & z & E). rewrite E. rewrite map_app. cbn [map]. exists (digit z), (map digit m). split; [reflexivity|]. apply digit_plain.
    rewrite E in D. apply Forall_app in D. destruct D as [_ D]. now inversion D. }
  assert (U : read_unsigned (map digit (d0 :: ds0)) = Some (number_of_digits (d0 :: ds0))) by (apply read_unsigned_is; assumption).
  destruct neg.
  - rewrite (app_assoc ["-"%char]). rewrite strip_spaces_core.
    + change (["-"%char] ++ map digit (d0 :: ds0)) with ("-"%char :: map digit (d0 :: ds0)). cbv iota. rewrite Ascii.eqb_refl, U. reflexivity.
    + exists "-"%char, (map digit (d0 :: ds0)). split; reflexivity.
    + destruct Last as (c & l & -> & L). exists c, ("-"%char :: l). split; [reflexivity|exact L].
  - cbn [app]. rewrite strip_spaces_core.
    + change (map digit (d0 :: ds0)) with (digit d0 :: map digit ds0) at 1. cbv iota. rewrite P2, P3. change (digit d0 :: map digit ds0) with (map digit (d0 :: ds0)). now rewrite U.
    + exists (digit d0), (map digit ds0). split; [reflexivity|exact P1].
    + exact Last.
Qed.

(* ---- ship reports *)

Lemma report_row usecols columns r : report usecols columns r -> ocean_row_of usecols columns = Ok r.
Proof.
  intros (a & lat & lon & y & m & d & h & air & -> & A & H & Clat & Clon & Cy & Cm & Cd & Cair).
  destruct Clat as (t1 & N1 & S1), Clon as (t2 & N2 & S2), Cy as (t3 & N3 & S3), Cm as (t4 & N4 & S4), Cd as (t5 & N5 & S5), Cair as (t6 & N6 & S6).
  apply nth_error_Some in A. apply nth_error_Some in H. unfold ocean_row_of. cbn [mapM].
  destruct (nth_error columns a) as [ta|]; [|congruence]. destruct (nth_error columns h) as [th|]; [|congruence]. rewrite N1, N2, N3, N4, N5, N6. cbn [bind].
  rewrite (says_to_int _ _ S1), (says_to_int _ _ S2), (says_to_int _ _ S3), (says_to_int _ _ S4), (says_to_int _ _ S5), (says_to_int _ _ S6). destruct r. reflexivity.
Qed.
Lemma reports_read usecols lines rows : reports usecols lines rows -> genfromtxt usecols lines = Ok rows.
Proof.
  unfold genfromtxt. induction 1 as [|line ls rs L _ IH|line columns ls r rs L N R _ IH]; [reflexivity| |].
  - cbn [map filter]. rewrite (fixed_width_line _ _ L). exact IH.
  - cbn [map filter]. rewrite (fixed_width_line _ _ L). destruct columns as [|c cs]; [congruence|]. cbn [mapM]. rewrite (report_row _ _ _ R). cbn [bind]. rewrite IH. reflexivity.
Qed.
Lemma date_number_is r : real_date r -> date_number (or_year r) (or_month r) (or_day r) = Ok (day_of_report r).
Proof.
  intros (Y & M & D). unfold date_number, mk_datetime.
  replace ((1 <=? or_year r) && (or_year r <=? 9999) && (1 <=? or_month r) && (or_month r <=? 12) && (1 <=? or_day r) && (or_day r <=? days_in_month (or_year r) (or_month r)) &&
    (0 <=? 0) && (0 <=? 23) && (0 <=? 0) && (0 <=? 59) && (0 <=? 0) && (0 <=? 59)) with true by (symmetry; rewrite !andb_true_iff, !Z.leb_le; lia).
  cbn [bind]. f_equal. unfold day_of_report.
  replace (ymd2ord (or_year r) (or_month r) (or_day r) * DAY + (0 * 3600 + 0 * 60 + 0) * SECOND)
    with (EPOCH + ((ymd2ord (or_year r) (or_month r) (or_day r) - ymd2ord 1850 1 1) * 86400) * SECOND).
  - rewrite days_number_whole. unfold int_days. replace ((ymd2ord (or_year r) (or_month r) (or_day r) - ymd2ord 1850 1 1) * 86400 * SECOND) with ((ymd2ord (or_year r) (or_month r) (or_day r) - ymd2ord 1850 1 1) * DAY) by (unfold DAY, SECOND; lia).
    apply Z.quot_mul. discriminate.
  - unfold EPOCH. change (ymd2ord 1850 1 1) with 675334. unfold DAY, SECOND. lia.
Qed.
Lemma date_number_bad r : ~ real_date r -> date_number (or_year r) (or_month r) (or_day r) = Err ValueError.
Proof.
  intros N. unfold date_number, mk_datetime. match goal with |- context [if ?b then _ else _] => destruct b eqn:E end; [|reflexivity].
  exfalso. apply N. rewrite !andb_true_iff, !Z.leb_le in E. unfold real_date. lia.
Qed.
Lemma ocean_open_is usecols lines rows : reports usecols lines rows -> Forall real_date rows -> List.length rows <> 1%nat ->
  ocean_open usecols lines = Ok {| oc_coords := map (fun r => (degrees (or_lat r), degrees (or_lon r))) rows; oc_time := map (fun r => qz (day_of_report r)) rows;
                                   oc_tmean := map (fun r => kelvin (or_air r)) rows |}.
Proof.
  intros R D N. unfold ocean_open. rewrite (reports_read _ _ _ R). cbn [bind].
  assert (M : mapM (fun r => date_number (or_year r) (or_month r) (or_day r)) rows = Ok (map day_of_report rows)).
  { apply mapM_all. intros r I. apply date_number_is. rewrite Forall_forall in D. now apply D. }
  assert (E : forall v, ocean_coordinate v = degrees v) by (intros v; unfold ocean_coordinate, degrees; apply Qcdiv_mul).
  assert (F : forall v, ocean_temperature v = kelvin v) by (intros v; unfold ocean_temperature, kelvin; now rewrite Qcdiv_mul).
  destruct rows as [|r1 [|r2 rows]]; [reflexivity|cbn in N; lia|]. rewrite M. cbn [bind]. rewrite map_map.
  assert (C : map (fun r => (ocean_coordinate (or_lat r), ocean_coordinate (or_lon r))) (r1 :: r2 :: rows) = map (fun r => (degrees (or_lat r), degrees (or_lon r))) (r1 :: r2 :: rows)) by (apply map_ext; intros r; now rewrite !E).
  assert (K : map (fun r => ocean_temperature (or_air r)) (r1 :: r2 :: rows) = map (fun r => kelvin (or_air r)) (r1 :: r2 :: rows)) by (apply map_ext; intros r; now rewrite !F).
  rewrite C, K. reflexivity.
Qed.

(* ---- lakes *)

Lemma insert_z_in x y l : In y (insert_z x l) <-> y = x \/ In y l.
Proof.
  induction l as [|z l IH]; cbn [insert_z In]; [intuition congruence|]. destruct (x <? z); [cbn [In]; intuition congruence|]. destruct (Z.eqb_spec x z) as [->|]; cbn [In]; [intuition congruence|]. rewrite IH. tauto.
Qed.
Lemma unique_z_in y l : In y (unique_z l) <-> In y l.
Proof. unfold unique_z. induction l as [|x l IH]; cbn [fold_right]; [reflexivity|]. rewrite insert_z_in, IH. cbn [In]. intuition congruence. Qed.
Fixpoint increasing (l : list Z) : Prop := match l with [] => True | x :: r => Forall (fun y => x < y) r /\ increasing r end.
Lemma insert_z_increasing x l : increasing l -> increasing (insert_z x l).
Proof.
  induction l as [|z l IH]; intros H; cbn [insert_z]; [cbn; auto|]. destruct H as [F H]. destruct (Z.ltb_spec x z).
  - cbn [increasing]. split; [|split; assumption]. constructor; [assumption|]. eapply Forall_impl; [|exact F]. cbv beta. lia.
  - destruct (Z.eqb_spec x z); [cbn; auto|]. cbn [increasing]. split; [|apply IH; exact H]. apply Forall_forall. intros y Y. apply insert_z_in in Y. destruct Y as [->|Y]; [lia|].
    rewrite Forall_forall in F. now apply F.
Qed.
Lemma unique_z_increasing l : increasing (unique_z l).
Proof. unfold unique_z. induction l; cbn [fold_right]; [exact I|]. now apply insert_z_increasing. Qed.
Lemma increasing_nodup l : increasing l -> NoDup l.
Proof. induction l as [|x l IH]; intros H; constructor; destruct H as [F H]; [|now apply IH]. intros C. rewrite Forall_forall in F. specialize (F _ C). lia. Qed.
Lemma first_position_nth x l : In x l -> nth_error l (first_position x l) = Some x.
Proof. induction l as [|y l IH]; intros H; [destruct H|]. cbn [first_position]. destruct (Z.eqb_spec x y) as [->|N]; [reflexivity|]. cbn [nth_error]. apply IH. destruct H; [congruence|assumption]. Qed.
Lemma first_position_least x l j : (j < first_position x l)%nat -> nth_error l j <> Some x.
Proof.
  revert j; induction l as [|y l IH]; intros j H; cbn [first_position] in H; [lia|]. destruct (Z.eqb_spec x y) as [->|N]; [lia|]. destruct j; cbn [nth_error]; [congruence|]. apply IH. lia.
Qed.
Lemma lake_place rows k r : nth_error rows k = Some r ->
  exists j r' l, nth_error (lake_ids rows) k = Some (Z.of_nat l) /\ nth_error (lake_lookup rows) l = Some (lr_lat r', lr_lon r') /\
    nth_error rows j = Some r' /\ signature r' = signature r /\ (j <= k)%nat /\ forall i x, (i < j)%nat -> nth_error rows i = Some x -> signature x <> signature r.
Proof.
  intros K. set (sigs := map signature rows). assert (I : In (signature r) sigs) by (apply in_map; eapply nth_error_In; exact K).
  assert (KS : nth_error sigs k = Some (signature r)) by (unfold sigs; now rewrite nth_error_map, K).
  pose proof (first_position_nth _ _ I) as F. set (j := first_position (signature r) sigs) in *. unfold sigs in F. rewrite nth_error_map in F.
  destruct (nth_error rows j) as [r'|] eqn:J; [|discriminate]. cbn [option_map] in F.
  exists j, r', (first_position (signature r) (unique_z sigs)). split; [|split; [|split; [exact J|split; [congruence|split]]]].
  - unfold lake_ids. cbv zeta. fold sigs. now rewrite nth_error_map, KS.
  - unfold lake_lookup. cbv zeta. fold sigs. rewrite nth_error_map. rewrite first_position_nth by (now apply unique_z_in). cbn [option_map]. fold j. now rewrite J.
  - destruct (Nat.le_gt_cases j k); [assumption|]. exfalso. apply (first_position_least (signature r) sigs k); [assumption|exact KS].
  - intros i x Hi X E. apply (first_position_least (signature r) sigs i Hi). unfold sigs. rewrite nth_error_map, X. cbn. now rewrite E.
Qed.

(* ---- break points *)

Lemma select_is {A} (p : nat -> bool) (l : list A) d n : List.length l = n -> select (map p (seq 0 n)) l = map (fun i => nth i l d) (filter p (seq 0 n)).
Proof.
  intros <-. unfold select. assert (G : forall a, map snd (filter (fun x => fst x) (combine (map p (seq a (List.length l))) l)) = map (fun i => nth (i - a) l d) (filter p (seq a (List.length l)))).
  { induction l as [|x l IH]; intros a; [reflexivity|]. cbn [List.length seq map combine filter fst].
    assert (E : map (fun i => nth (i - a) (x :: l) d) (filter p (seq (S a) (List.length l))) = map (fun i => nth (i - S a) l d) (filter p (seq (S a) (List.length l)))).
    { apply map_ext_in. intros i I. apply filter_In in I. destruct I as [I _]. apply in_seq in I. replace (i - a)%nat with (S (i - S a)) by lia. reflexivity. }
    destruct (p a); cbn [map snd]; rewrite IH, E; [|reflexivity]. now rewrite Nat.sub_diag. }
  rewrite G. apply map_ext. intros i. now rewrite Nat.sub_0_r.
Qed.
Lemma map_seq_nth {A B} (g : A -> B) l d : map g l = map (fun i => g (nth i l d)) (seq 0 (List.length l)).
Proof.
  apply nth_ext with (d := g d) (d' := g d); [now rewrite !map_length, seq_length|]. intros n N. rewrite map_length in N. rewrite map_nth.
  rewrite (nth_map _ _ _ _ 0%nat) by (now rewrite seq_length). now rewrite seq_nth by exact N.
Qed.
Definition kept_breaks (f : break_file) (station : option Z) : list nat := filter (fun i => wanted station f i && break_known f i) (seq 0 (List.length (bf_time f))).
Lemma final_mask_is f station : break_file_ok f ->
  match station with
  | Some s => map (fun x => (fst x =? s) && snd x) (combine (bf_station f) (map (fun c => negb (fst c)) (bf_likelihood f)))
  | None => map (fun c => negb (fst c)) (bf_likelihood f)
  end = map (fun i => wanted station f i && break_known f i) (seq 0 (List.length (bf_time f))).
Proof.
  intros [L1 L2]. destruct station as [s|].
  - rewrite (map_seq_nth _ (combine (bf_station f) (map (fun c => negb (fst c)) (bf_likelihood f))) (0, negb (fst (true, 0)))). rewrite combine_length, map_length, L1, L2, Nat.min_id.
    apply map_ext_in. intros i I. apply in_seq in I. rewrite combine_nth by (rewrite map_length; lia). cbn [fst snd]. unfold wanted, break_known.
    rewrite (map_nth (fun c : bool * Z => negb (fst c)) (bf_likelihood f) (true, 0)). reflexivity.
  - rewrite (map_seq_nth _ (bf_likelihood f) (true, 0)), L2. apply map_ext. intros i. reflexivity.
Qed.
Lemma break_observations_is f station : break_file_ok f ->
  break_observations f station =
  do feasibility <- match station with Some s => do v <- at_index (bf_feasibility f) s; Ok [v] | None => Ok (bf_feasibility f) end;
  Ok {| bs_time := map (fun i => nth i (bf_time f) 0) (kept_breaks f station); bs_station := map (fun i => nth i (bf_station f) 0) (kept_breaks f station);
        bs_likelihood := map (fun i => snd (nth i (bf_likelihood f) (true, 0))) (kept_breaks f station); bs_feasibility := feasibility |}.
Proof.
  intros W. unfold break_observations. cbv zeta. rewrite (final_mask_is f station W). destruct W as [L1 L2].
  rewrite (select_is _ (bf_time f) 0 (List.length (bf_time f)) eq_refl). rewrite (select_is _ (bf_station f) 0 (List.length (bf_time f)) L1).
  rewrite (select_is _ (map snd (bf_likelihood f)) (snd (true, 0)) (List.length (bf_time f))) by (now rewrite map_length).
  destruct (match station with Some s => do v <- at_index (bf_feasibility f) s; Ok [v] | None => Ok (bf_feasibility f) end); [|reflexivity]. cbn [bind]. f_equal. f_equal.
  apply map_ext. intros i. apply (map_nth (@snd bool Z)).
Qed.

(* ---- decimal years *)

Lemma year_start_ok y : 1 <= y <= 9999 -> mk_datetime y 1 1 0 0 0 = Ok (year_begins y).
Proof.
  intros Y. unfold mk_datetime. replace (days_in_month y 1) with 31 by reflexivity.
  replace ((1 <=? y) && (y <=? 9999) && (1 <=? 1) && (1 <=? 12) && (1 <=? 1) && (1 <=? 31) && (0 <=? 0) && (0 <=? 23) && (0 <=? 0) && (0 <=? 59) && (0 <=? 0) && (0 <=? 59)) with true
    by (symmetry; rewrite !andb_true_iff, !Z.leb_le; lia).
  f_equal. unfold year_begins. lia.
Qed.
Lemma in_year_parts t y m d q r : 1 <= m <= 12 -> 1 <= d <= days_in_month y m -> ymd2ord y m d = q -> t = 86400000000 * q + r -> 0 <= r < 86400000000 ->
  ymd2ord y 1 1 * 86400000000 <= t < ymd2ord (y + 1) 1 1 * 86400000000.
Proof.
  intros M D O X Y. unfold ymd2ord in *. pose proof (month_end y m M) as E. pose proof (days_before_month_nonneg y m M) as P.
  rewrite !days_before_month_1, days_before_year_next.
  generalize dependent (days_before_year y). generalize dependent (days_before_month y m). generalize dependent (days_in_month y m). generalize (if is_leap y then 366 else 365). intros. lia.
Qed.
Lemma in_year t : year_begins (dt_year t) <= t < year_begins (dt_year t + 1).
Proof.
  destruct (date_fields t) as (M & D & _). exact (in_year_parts t _ _ _ (t / DAY) (t mod DAY) M D (ord_of_fields t) (Z.div_mod t DAY ltac:(discriminate)) (Z.mod_pos_bound t DAY eq_refl)).
Qed.
Lemma year_begins_lt y : year_begins y < year_begins (y + 1).
Proof. unfold year_begins, ymd2ord. rewrite !days_before_month_1, days_before_year_next. assert (DP : DAY > 0) by reflexivity. destruct (is_leap y); nia. Qed.
Lemma year_begins_mono y y' : y < y' -> year_begins (y + 1) <= year_begins y'.
Proof.
  intros H. pose proof (days_before_year_mono y y' H) as M. unfold year_begins, ymd2ord. rewrite !days_before_month_1, days_before_year_next. assert (DP : DAY > 0) by reflexivity. nia.
Qed.
Lemma year_of_iff t y : dt_year t = y <-> year_begins y <= t < year_begins (y + 1).
Proof.
  pose proof (in_year t) as I. split; [intros <-; exact I|]. intros J. destruct (Z.lt_trichotomy (dt_year t) y) as [L|[E|L]]; [|exact E|].
  - pose proof (year_begins_mono _ _ L). lia.
  - pose proof (year_begins_mono _ _ L). lia.
Qed.
Lemma decimal_year_is t : 1 <= dt_year t <= 9998 ->
  decimal_year t = Ok (qz (dt_year t) + qz (t - year_begins (dt_year t)) / qz (year_begins (dt_year t + 1) - year_begins (dt_year t)))%Qc.
Proof.
  intros Y. unfold decimal_year. rewrite !year_start_ok by lia. cbn [bind]. f_equal. f_equal.
  assert (N1 : qz SECOND <> 0%Qc) by (apply qz_nonzero; discriminate).
  assert (N2 : qz (year_begins (dt_year t + 1) - year_begins (dt_year t)) <> 0%Qc) by (apply qz_nonzero; pose proof (year_begins_lt (dt_year t)); lia).
  field. split; assumption.
Qed.

(* ---- attributes *)
Lemma last_of_in {A} k (d : list (string * A)) v : last_of k d = Some v -> In (k, v) d.
Proof.
  unfold last_of. destruct (find _ _) as [[k' v']|] eqn:F; [|discriminate]. cbn. intros E. injection E as <-. apply find_some in F. destruct F as [I E]. cbn in E. apply String.eqb_eq in E. subst.
  now apply in_rev.
Qed.
Lemma last_of_none {A} k (d : list (string * A)) : last_of k d = None <-> ~ In k (map fst d).
Proof.
  unfold last_of. split.
  - intros H I. apply in_map_iff in I. destruct I as ((k', v) & E & I). cbn in E. subst k'. destruct (find _ _) as [e|] eqn:F; [discriminate|].
    pose proof (find_none _ _ F (k, v) (proj1 (in_rev _ _) I)) as N. cbn in N. rewrite String.eqb_refl in N. discriminate.
  - intros N. destruct (find _ _) as [[k' v]|] eqn:F; [|reflexivity]. exfalso. apply N. apply find_some in F. destruct F as [I E]. cbn in E. apply String.eqb_eq in E. subst k'. apply in_rev in I. apply in_map_iff. exists (k, v). auto.
Qed.
