(* Lemmas about the names of the files the C++ reader opens and about its break points. *)
From Coq Require Import QArith Qcanon String Ascii Sorted.
From Verif Require Import Base Cat_Model Cat_Proofs Grid_Model Time_Model Time_Spec Time_Proofs Name_Proofs Obs_Model Obs_Spec Obs_Proofs Cpp_Model Cpp_Spec.
Local Open Scope Z_scope.
Local Open Scope string_scope.
Local Open Scope list_scope.

Lemma build_clean s u t : ~ In "%"%char (list_ascii_of_string s) -> build_from_pattern (s ++ u) t = (s ++ build_from_pattern u t)%string.
Proof.
  induction s as [|c s IH]; cbn [append list_ascii_of_string]; intros H; [reflexivity|].
  rewrite build_pattern_char; [|intros [E _]; apply H; now left]. rewrite IH by (intro I; apply H; now right). reflexivity.
Qed.
Lemma day_time d : four_digit_day d -> days_number_to_datetime EPOCH (d * DAY) = Ok (EPOCH + d * DAY) /\
  datestring d = (pad4 (dt_year (EPOCH + d * DAY)) ++ pad2 (dt_month (EPOCH + d * DAY)) ++ pad2 (dt_day (EPOCH + d * DAY)))%string /\
  valid_datetime (EPOCH + d * DAY) = true /\ (EPOCH + d * DAY) / DAY = ymd2ord 1850 1 1 + d.
Proof.
  intro F. unfold four_digit_day in F. assert ((EPOCH + d * DAY) / DAY = ymd2ord 1850 1 1 + d) as E.
  { unfold EPOCH. rewrite <- Z.mul_add_distr_r. apply Z.div_mul. discriminate. }
  assert (valid_datetime (EPOCH + d * DAY) = true) as V.
  { apply valid_datetime_iff. rewrite E. change (ymd2ord 1000 1 1) with 364878 in F. change (ymd2ord 9999 12 31) with 3652059 in F. lia. }
  unfold days_number_to_datetime, dt_add. cbv zeta. rewrite V. split; [reflexivity|]. split; [|split; [reflexivity|exact E]].
  unfold datestring, dt_year, dt_month, dt_day. rewrite E. now destruct (ord2ymd _) as [[y m] dd].
Qed.
Lemma year_part y x : str_slice (pad4 y ++ x) 0 4 = pad4 y.
Proof. unfold str_slice. change (4 - 0)%nat with 4%nat. unfold pad4, pad2. cbn [append substring]. replace (substring 0 0 x) with ""; [reflexivity|now destruct x]. Qed.
Lemma plain_not_empty base : plain_base base -> String.eqb base "" = false.
Proof. intros (N & _). now apply String.eqb_neq. Qed.
Lemma base_join base b : plain_base base -> starts_with_slash b = false -> join_one base b = (base ++ "/" ++ b)%string.
Proof. intros P S. unfold join_one. rewrite S, (plain_not_empty _ P). destruct P as (_ & E & _). now rewrite E. Qed.
Lemma year_ends p y : ends_with_slash (p ++ pad4 y) = false.
Proof.
  rewrite ends_app by (unfold pad4, pad2; discriminate). unfold pad4, pad2. cbn [append ends_with_slash]. apply digit_ne; [lia|]. unfold numeral. cbn. lia.
Qed.
Lemma dir_of base src t : plain_base base -> ~ In "%"%char (list_ascii_of_string src) -> starts_with_slash src = false -> src <> "" ->
  build_from_pattern (py_subdir base src) t = (base ++ "/" ++ src ++ "/" ++ pad4 (dt_year t))%string.
Proof.
  intros P C S N. unfold py_subdir. rewrite base_join; [|assumption|destruct src; [congruence|exact S]].
  rewrite build_clean by apply P. do 1 f_equal. change ("/" ++ src ++ "/%Y")%string with ("/" ++ (src ++ "/%Y"))%string. rewrite (build_clean "/") by (cbn; intros [E|[]]; discriminate).
  f_equal. rewrite build_clean by assumption. f_equal. change "/%Y" with ("/" ++ String "%" (String (letter FY) ""))%string. rewrite build_clean by (cbn; intros [E|[]]; discriminate).
  rewrite build_pattern_field. reflexivity.
Qed.
Lemma append_not_empty a b c : (a ++ String b c)%string <> "".
Proof. destruct a; discriminate. Qed.
Lemma named_in_dir base src t b : plain_base base -> starts_with_slash b = false ->
  join_one (base ++ "/" ++ src ++ "/" ++ pad4 (dt_year t)) b = (base ++ "/" ++ src ++ "/" ++ pad4 (dt_year t) ++ "/" ++ b)%string.
Proof.
  intros P S. unfold join_one. rewrite S.
  assert (base ++ "/" ++ src ++ "/" ++ pad4 (dt_year t) = (base ++ "/" ++ src ++ "/") ++ pad4 (dt_year t))%string as E by (rewrite !string_app_assoc; reflexivity).
  rewrite E at 1 2. rewrite year_ends. assert (String.eqb ((base ++ "/" ++ src ++ "/") ++ pad4 (dt_year t)) "" = false) as ->.
  { apply String.eqb_neq. unfold pad4, pad2. cbn [append]. apply append_not_empty. }
  cbn [orb]. rewrite !string_app_assoc. reflexivity.
Qed.
Ltac clean_name := cbn; intuition discriminate.
Lemma source_clean s : ~ In "%"%char (list_ascii_of_string (sourcename s)) /\ starts_with_slash (sourcename s) = false /\ sourcename s <> "".
Proof. destruct s; repeat split; try discriminate; clean_name. Qed.
Lemma names_observation base s o d : plain_base base -> four_digit_day d ->
  py_filename_observations base (sourcename s) (observablename o) d = Ok (path_observation base s o d) /\
  py_filename_mobile_locations base (sourcename s) (observablename o) d = Ok (path_mobile base s o d).
Proof.
  intros P F. destruct (day_time d F) as (E1 & E2 & V & _). unfold py_filename_observations, py_filename_mobile_locations, path_observation, path_mobile.
  rewrite E1, E2. cbn [bind]. cbv zeta. rewrite year_part. set (t := EPOCH + d * DAY).
  destruct (source_clean s) as (C1 & C2 & C3). unfold filename_from_patterns, os_path_join. cbn [map fold_left].
  rewrite dir_of by assumption.
  assert (forall mid, ~ In "%"%char (list_ascii_of_string mid) ->
    build_from_pattern (sourcename s ++ "_" ++ observablename o ++ mid ++ "%Y%m%d.bin") t =
    (sourcename s ++ "_" ++ observablename o ++ mid ++ (pad4 (dt_year t) ++ pad2 (dt_month t) ++ pad2 (dt_day t)) ++ ".bin")%string) as B.
  { intros mid M. rewrite build_clean by assumption. f_equal. rewrite (build_clean "_") by clean_name. f_equal. rewrite build_clean by (destruct o; clean_name). f_equal.
    rewrite build_clean by assumption. f_equal.
    change "%Y%m%d.bin" with (String "%" (String (letter FY) (String "%" (String (letter Fm) (String "%" (String (letter Fd) ".bin")))))).
    rewrite !build_pattern_field. cbn [shown]. rewrite !string_app_assoc.
    replace (build_from_pattern ".bin" t) with ".bin" by reflexivity. reflexivity. }
  split.
  - change (sourcename s ++ "_" ++ observablename o ++ "_%Y%m%d.bin")%string with (sourcename s ++ "_" ++ observablename o ++ "_" ++ "%Y%m%d.bin")%string.
    rewrite B by clean_name. rewrite named_in_dir; [reflexivity|assumption|]. destruct s; reflexivity.
  - change (sourcename s ++ "_" ++ observablename o ++ "_mobilelocations_%Y%m%d.bin")%string with (sourcename s ++ "_" ++ observablename o ++ "_mobilelocations_" ++ "%Y%m%d.bin")%string.
    rewrite B by clean_name. rewrite named_in_dir; [reflexivity|assumption|]. destruct s; reflexivity.
Qed.

(* ---- no two files share a name *)
Lemma app_cancel a x y : (a ++ x = a ++ y)%string -> x = y.
Proof. induction a as [|c a IH]; cbn; intro H; [exact H|]. injection H as H. auto. Qed.
Lemma source_slash s s' x y : (sourcename s ++ "/" ++ x = sourcename s' ++ "/" ++ y)%string -> s = s' /\ x = y.
Proof. destruct s, s'; cbn; intro H; try discriminate H; (split; [reflexivity|]); congruence. Qed.
Lemma source_underscore s s' x y : (sourcename s ++ "_" ++ x = sourcename s' ++ "_" ++ y)%string -> s = s' /\ x = y.
Proof. destruct s, s'; cbn; intro H; try discriminate H; (split; [reflexivity|]); congruence. Qed.
Lemma observable_underscore o o' x y : (observablename o ++ "_" ++ x = observablename o' ++ "_" ++ y)%string -> o = o' /\ x = y.
Proof. destruct o, o'; cbn; intro H; try discriminate H; (split; [reflexivity|]); congruence. Qed.
Lemma source_mixed s s' x y : (sourcename s ++ "/" ++ x <> sourcename s' ++ "_" ++ y)%string.
Proof. destruct s, s'; cbn; intro H; discriminate H. Qed.
Lemma source_lookup s c x y : (c = "/" \/ c = "_") -> (sourcename s ++ c ++ x <> "locationlookup_" ++ y)%string.
Proof. intros [-> | ->]; destruct s; cbn; intro H; discriminate H. Qed.
Lemma datestring_inj d d' x y : four_digit_day d -> four_digit_day d' -> (datestring d ++ x = datestring d' ++ y)%string -> d = d'.
Proof.
  intros F F' H. destruct (day_time d F) as (_ & E & V & O). destruct (day_time d' F') as (_ & E' & V' & O'). rewrite E, E' in H. clear E E'.
  set (t := EPOCH + d * DAY) in *. set (t' := EPOCH + d' * DAY) in *. apply valid_year in V. apply valid_year in V'.
  pose proof (fields_range t) as R. pose proof (fields_range t') as R'. rewrite !string_app_assoc in H.
  apply string_app_split in H as [H1 H]; [|reflexivity]. apply string_app_split in H as [H2 H]; [|reflexivity]. apply string_app_split in H as [H3 H]; [|reflexivity].
  apply pad4_inj in H1; [|lia|lia]. apply pad2_inj in H2; [|lia|lia]. apply pad2_inj in H3; [|lia|lia].
  pose proof (ord_of_fields t) as G. pose proof (ord_of_fields t') as G'. rewrite H1, H2, H3 in G. rewrite O in G. rewrite O' in G'. clear - G G'. lia.
Qed.
Lemma datestring_year d : four_digit_day d -> exists y r, datestring d = (pad4 y ++ r)%string /\ str_slice (datestring d) 0 4 = pad4 y.
Proof. intro F. destruct (day_time d F) as (_ & E & _). rewrite E. eexists _, _. split; [reflexivity|]. apply year_part. Qed.
Lemma date_not_mobile d x y : four_digit_day d -> (datestring d ++ x <> "mobilelocations_" ++ y)%string.
Proof.
  intro F. destruct (day_time d F) as (_ & E & _). rewrite E. generalize (dt_year (EPOCH + d * DAY)) (dt_month (EPOCH + d * DAY)) (dt_day (EPOCH + d * DAY)).
  intros yy mm dd. unfold pad4, pad2. cbn [append]. intro H. apply (f_equal (fun s => match s with String c _ => c | _ => "m"%char end)) in H.
  assert (0 <= yy / 100 / 10 mod 10 <= 9) as R by lia. apply digit_numeral in R. rewrite H in R. unfold numeral in R. cbn in R. lia.
Qed.

(* ---- break points *)
Lemma enumerate_seq {A} (d : A) (l : list A) : enumerate l = map (fun i => (Z.of_nat i, nth i l d)) (seq 0 (length l)).
Proof.
  unfold enumerate. assert (forall a, combine (map Z.of_nat (seq a (length l))) l = map (fun i => (Z.of_nat (a + i), nth i l d)) (seq 0 (length l))) as G; [|now rewrite G].
  induction l as [|x l IH]; intro a; [reflexivity|]. cbn [length seq map combine nth]. rewrite Nat.add_0_r. f_equal. rewrite IH.
  rewrite <- seq_shift, map_map. apply map_ext. intro i. f_equal. f_equal. lia.
Qed.
Lemma pick_filter {A B} (P : B -> bool) (d : B) (e : A) (member : list A) (disc : list B) : length member = length disc ->
  (do kept <- mapM (fun id : Z * B => if P (snd id) then match nth_error member (Z.to_nat (fst id)) with Some x => Ok [x] | None => Err IndexError end else Ok []) (enumerate disc);
   Ok (concat kept)) = Ok (take e member (filter (fun i => P (nth i disc d)) (seq 0 (length disc)))).
Proof.
  intro L. rewrite (enumerate_seq d).
  assert (forall is, Forall (fun i => i < length disc)%nat is ->
    mapM (fun id : Z * B => if P (snd id) then match nth_error member (Z.to_nat (fst id)) with Some x => Ok [x] | None => Err IndexError end else Ok [])
         (map (fun i => (Z.of_nat i, nth i disc d)) is) = Ok (map (fun i => if P (nth i disc d) then [nth i member e] else []) is)) as G.
  { induction 1 as [|i is Hi F IH]; [reflexivity|]. cbn [map mapM fst snd]. rewrite Nat2Z.id. rewrite (nth_error_nth' member e) by lia.
    destruct (P (nth i disc d)); cbn [bind]; rewrite IH; reflexivity. }
  rewrite G by (apply Forall_forall; intros i Hi; apply in_seq in Hi; lia). cbn [bind]. f_equal. unfold take.
  induction (seq 0 (length disc)) as [|i is IH]; [reflexivity|]. cbn [map concat filter]. destruct (P (nth i disc d)); cbn [app map]; now rewrite IH.
Qed.
Lemma reject_all b disc threshold : breaks_ok b -> length disc = length (bk_likelihood b) ->
  cpp_reject_all b disc threshold = Ok (keep_at b (filter (fun i => Qle_bool threshold (nth i disc 0%Qc)) (seq 0 (length disc)))).
Proof.
  intros (B1 & B2) L. unfold cpp_reject_all, cpp_reject. rewrite !(pick_filter (fun x : Qc => Qle_bool threshold x) 0%Qc 0) by congruence. reflexivity.
Qed.

Lemma insertZ_In x l y : In y (insertZ x l) <-> y = x \/ In y l.
Proof.
  induction l as [|z l IH]; cbn [insertZ In]; [intuition|]. destruct (x <=? z)%Z; cbn [In]; [intuition|]. rewrite IH. intuition.
Qed.
Lemma insertZ_sorted x l : Sorted Z.le l -> Sorted Z.le (insertZ x l).
Proof.
  induction l as [|z l IH]; cbn [insertZ]; intro S; [repeat constructor|]. destruct (Z.leb_spec x z); [constructor; [assumption|constructor; assumption]|].
  inversion_clear S as [|? ? S' H']. constructor; [auto|]. destruct l as [|w l]; cbn [insertZ]; [constructor; lia|]. destruct (x <=? w)%Z; constructor; [lia|]. now inversion_clear H'.
Qed.
Lemma std_sort_spec l : Sorted Z.le (std_sort l) /\ (forall x, In x (std_sort l) <-> In x l).
Proof.
  induction l as [|x l [S I]]; cbn [std_sort fold_right]; [split; [constructor|reflexivity]|]. split; [now apply insertZ_sorted|].
  intro y. rewrite insertZ_In. cbn [In]. unfold std_sort in I. rewrite I. intuition.
Qed.
Lemma std_unique_In l x : In x (std_unique l) <-> In x l.
Proof.
  induction l as [|y l IH]; [reflexivity|]. destruct l as [|z l]; [reflexivity|]. change (std_unique (y :: z :: l)) with (if (y =? z)%Z then std_unique (z :: l) else y :: std_unique (z :: l)).
  destruct (Z.eqb_spec y z) as [->|N]; [rewrite IH; cbn [In]; intuition|]. cbn [In] in *. rewrite IH. intuition.
Qed.
Lemma std_unique_sorted l : Sorted Z.le l -> StronglySorted Z.lt (std_unique l).
Proof.
  intro S. apply Sorted_StronglySorted in S; [|intros a b c; lia]. induction S as [|y l S IH F]; [constructor|]. destruct l as [|z l]; [repeat constructor|].
  change (std_unique (y :: z :: l)) with (if (y =? z)%Z then std_unique (z :: l) else y :: std_unique (z :: l)). destruct (Z.eqb_spec y z) as [->|N]; [exact IH|].
  constructor; [exact IH|]. apply Forall_forall. intros x Hx. apply (proj1 (std_unique_In _ _)) in Hx. inversion_clear F as [|? ? Fz Fl]. inversion_clear S as [|? ? S' Fz'].
  destruct Hx as [<-|Hx]; [lia|]. rewrite Forall_forall in Fz'. specialize (Fz' x Hx). lia.
Qed.
