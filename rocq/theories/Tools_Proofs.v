(* Lemmas for the Tools group *)
From Coq Require Import QArith Qcanon String Ascii.
From Verif Require Import Base Time_Model Time_Proofs Batch_Model Batch_Proofs Grid_Model Obs_Model Obs_Spec Obs_Proofs NcObj_Model NcObj_Proofs Stn_Model Land_Model Land_Proofs Src_Model Fill_Model Fill_Proofs Tools_Model Tools_Spec.
Local Open Scope Z_scope.
Local Open Scope list_scope.

(* ---- strings *)
Lemma prefix_app a b : String.prefix a (a ++ b) = true.
Proof. induction a as [|c a IH]; [now destruct b|]. cbn. destruct (ascii_dec c c); [exact IH|congruence]. Qed.
Lemma prefix_split a s : String.prefix a s = true -> exists b, s = (a ++ b)%string.
Proof.
  revert s. induction a as [|c a IH]; intros s H; [now exists s|]. destruct s as [|d s]; [discriminate H|]. cbn in H. destruct (ascii_dec c d) as [->|]; [|discriminate H].
  apply IH in H. destruct H as (b & ->). now exists b.
Qed.
Lemma contains_occurs sub s : contains sub s = true <-> occurs sub s.
Proof.
  split.
  - induction s as [|c s IH]; cbn [contains]; intros H; apply orb_true_iff in H; destruct H as [H|H].
    + apply prefix_split in H. destruct H as (b & E). exists EmptyString, b. exact E.
    + discriminate.
    + apply prefix_split in H. destruct H as (b & E). exists EmptyString, b. exact E.
    + destruct (IH H) as (a & b & E). exists (String c a), b. cbn. now rewrite <- E.
  - intros (a & b & ->). induction a as [|c a IH]; cbn [String.append]; [|cbn [contains]; now rewrite IH, orb_true_r].
    destruct (sub ++ b)%string eqn:E; cbn [contains]; rewrite <- E, prefix_app; reflexivity.
Qed.
Lemma contains_not sub s : contains sub s = false <-> ~ occurs sub s.
Proof. rewrite <- contains_occurs. destruct (contains sub s); split; intros H; try discriminate; try congruence. Qed.

Lemma between_skip s e before rest : Forall (fun p => ~ occurs s p) before -> between_from false s e (before ++ rest) = between_from false s e rest.
Proof. induction 1 as [|p l H _ IH]; [reflexivity|]. cbn [app between_from]. apply contains_not in H. now rewrite H. Qed.
Lemma between_body s e body rest : Forall (fun p => ~ occurs e p) body -> match rest with [] => True | x :: _ => occurs e x end -> between_from true s e (body ++ rest) = body.
Proof.
  induction 1 as [|p l H _ IH]; intros R.
  - destruct rest as [|x r]; [reflexivity|]. cbn [app between_from]. apply contains_occurs in R. now rewrite R.
  - cbn [app between_from]. apply contains_not in H. rewrite H. f_equal. now apply IH.
Qed.
Lemma between_table document s e body : has_table document s e body -> get_paragraphs_between document s e = body.
Proof.
  intros (before & start & rest & -> & B & S & F & R). unfold get_paragraphs_between. rewrite between_skip by exact B. cbn [between_from]. apply contains_occurs in S. rewrite S. now apply between_body.
Qed.

(* separators of one and two characters *)
Lemma prefix1 a c s : String.prefix (String a EmptyString) (String c s) = Ascii.eqb c a.
Proof. cbn. destruct (ascii_dec a c) as [->|N]; [rewrite Ascii.eqb_refl; now destruct s|]. symmetry. apply Ascii.eqb_neq. congruence. Qed.
Lemma split1 a key rest : ~ occurs (String a EmptyString) key -> split (String a EmptyString) (key ++ String a EmptyString ++ rest) = key :: split (String a EmptyString) rest.
Proof.
  intros H. apply contains_not in H. unfold split. induction key as [|c key IH].
  - cbn [String.append split_at]. rewrite prefix1, Ascii.eqb_refl. reflexivity.
  - cbn [contains] in H. apply orb_false_iff in H. destruct H as [P H]. rewrite prefix1 in P. cbn [String.append split_at]. rewrite prefix1, P. specialize (IH H). cbn [String.append] in IH. now rewrite IH.
Qed.
Lemma split1_end a key : ~ occurs (String a EmptyString) key -> split (String a EmptyString) key = [key].
Proof.
  intros H. apply contains_not in H. unfold split. induction key as [|c key IH]; [reflexivity|].
  cbn [contains] in H. apply orb_false_iff in H. destruct H as [P H]. rewrite prefix1 in P. cbn [split_at]. rewrite prefix1, P. now rewrite (IH H).
Qed.
Definition two (a b : ascii) : string := String a (String b EmptyString).
Lemma prefix2 a b c s : String.prefix (two a b) (String c s) = Ascii.eqb c a && String.prefix (String b EmptyString) s.
Proof. unfold two. cbn [String.prefix]. destruct (ascii_dec a c) as [->|N]; [rewrite Ascii.eqb_refl; reflexivity|]. assert (Ascii.eqb c a = false) as -> by (apply Ascii.eqb_neq; congruence). reflexivity. Qed.
Lemma split2 a b key rest : a <> b -> ~ occurs (two a b) key -> split (two a b) (key ++ two a b ++ rest) = key :: split (two a b) rest.
Proof.
  intros N H. apply contains_not in H. unfold split. induction key as [|c key IH].
  - cbn [String.append two]. cbn [split_at]. change (String a (String b EmptyString)) with (two a b). rewrite prefix2, Ascii.eqb_refl, prefix1, Ascii.eqb_refl. reflexivity.
  - cbn [contains] in H. apply orb_false_iff in H. destruct H as [P H]. rewrite prefix2 in P. cbn [String.append split_at]. rewrite prefix2.
    replace (Ascii.eqb c a && String.prefix (String b EmptyString) (key ++ two a b ++ rest)) with false.
    + specialize (IH H). rewrite IH. reflexivity.
    + symmetry. apply andb_false_iff in P. apply andb_false_iff. destruct P as [P|P]; [now left|right]. destruct key as [|d key].
      * cbn [String.append two]. rewrite prefix1. apply Ascii.eqb_neq. exact N.
      * cbn [String.append]. rewrite prefix1 in *. exact P.
Qed.
Lemma split2_end a b key : ~ occurs (two a b) key -> split (two a b) key = [key].
Proof.
  intros H. apply contains_not in H. unfold split. induction key as [|c key IH]; [reflexivity|].
  cbn [contains] in H. apply orb_false_iff in H. destruct H as [P H]. cbn [split_at]. rewrite P. now rewrite (IH H).
Qed.
Lemma colon_two : COLON = two ":" " ". Proof. reflexivity. Qed.
Lemma split_first sep s : exists h t, split_at sep 0 s = h :: t.
Proof.
  assert (G : forall k, exists h t, split_at sep k s = h :: t).
  { induction s as [|c s IH]; intros k; [do 2 eexists; reflexivity|]. cbn [split_at]. destruct k as [|k]; [|apply IH]. destruct (String.prefix sep (String c s)); [do 2 eexists; reflexivity|].
    destruct (IH 0%nat) as (h & t & E). rewrite E. do 2 eexists. reflexivity. }
  apply G.
Qed.

(* ---- dictionaries *)
Lemma set_key_new {V} k (v : V) d : ~ In k (map fst d) -> set_key k v d = d ++ [(k, v)].
Proof.
  induction d as [|[k' v'] d IH]; intros H; [reflexivity|]. cbn [set_key map fst] in *. destruct (String.eqb_spec k' k) as [->|N]; [exfalso; apply H; now left|]. cbn [app]. f_equal. apply IH. intros I. apply H. now right.
Qed.
Fixpoint lookup {V} (key : string) (d : list (string * V)) : option V := match d with [] => None | (k, v) :: r => if String.eqb k key then Some v else lookup key r end.
Lemma lookup_set {V} key k (v : V) d : lookup key (set_key k v d) = if String.eqb k key then Some v else lookup key d.
Proof.
  induction d as [|[k' v'] d IH]; cbn [set_key lookup]; [reflexivity|]. destruct (String.eqb_spec k' k) as [->|N]; cbn [lookup].
  - destruct (String.eqb k key); reflexivity.
  - rewrite IH. destruct (String.eqb_spec k' key) as [->|]; [|reflexivity]. destruct (String.eqb_spec k key) as [->|]; [contradiction|reflexivity].
Qed.
Lemma set_key_keys {V} k (v : V) d : NoDup (map fst d) -> NoDup (map fst (set_key k v d)).
Proof.
  induction d as [|[k' v'] d IH]; intros N; cbn [set_key map fst]; [repeat constructor; intros []|]. inversion N as [|? ? M N']. subst. destruct (String.eqb_spec k' k) as [->|E]; cbn [map fst].
  - exact N.
  - constructor; [|now apply IH]. intros I. apply M. assert (G : forall x, In x (map fst (set_key k v d)) -> x = k \/ In x (map fst d)).
    { clear. induction d as [|[a b] d IH]; cbn [set_key map fst In]; [intuition auto|]. destruct (String.eqb_spec a k) as [->|]; cbn [map fst In]; [tauto|]. intros x [<-|I]; [auto|]. destruct (IH x I); auto. }
    destruct (G k' I) as [->|G']; [contradiction|exact G'].
Qed.

Lemma attributes_step p r key value acc : split COLON p = key :: value -> attributes_from acc (p :: r) = match value with [] => Err IndexError | v :: _ => attributes_from (set_key key v acc) r end.
Proof. intros E. cbn [attributes_from]. rewrite E. now destruct value. Qed.
Lemma line_split k v : ~ occurs ": " k -> split COLON (line (k, v)) = k :: split COLON v.
Proof. intros H. unfold line. cbn [fst snd]. apply (split2 ":" " " k v); [discriminate|exact H]. Qed.
Lemma value_split v : ~ occurs ": " v -> split COLON v = [v].
Proof. intros H. now apply (split2_end ":" " "). Qed.
Lemma attributes_table table acc : Forall (fun kv => ~ occurs ": " (fst kv) /\ ~ occurs ": " (snd kv)) table ->
  attributes_from acc (map line table) = Ok (fold_left (fun d kv => set_key (fst kv) (snd kv) d) table acc).
Proof.
  intros F. revert acc. induction F as [|[k v] l [K V] F IH]; intros acc; [reflexivity|]. cbn [map]. rewrite (attributes_step _ _ k [v]) by (rewrite line_split by exact K; now rewrite value_split). cbn [fold_left fst snd]. apply IH.
Qed.
Lemma fold_lookup {V} key table (acc : list (string * V)) :
  lookup key (fold_left (fun d kv => set_key (fst kv) (snd kv) d) table acc) = match value_of key table with Some v => Some v | None => lookup key acc end.
Proof.
  revert acc. induction table as [|[k v] l IH]; intros acc; [reflexivity|]. cbn [fold_left fst snd value_of]. rewrite IH. destruct (value_of key l); [reflexivity|]. rewrite lookup_set. now destruct (String.eqb k key).
Qed.
Lemma fold_new {V} table (acc : list (string * V)) : NoDup (map fst (acc ++ table)) -> fold_left (fun d kv => set_key (fst kv) (snd kv) d) table acc = acc ++ table.
Proof.
  revert acc. induction table as [|[k v] l IH]; intros acc N; [now rewrite app_nil_r|]. cbn [fold_left fst snd]. rewrite set_key_new.
  - rewrite IH; rewrite <- app_assoc; [reflexivity|exact N].
  - rewrite map_app in N. cbn [map fst] in N. apply NoDup_remove_2 in N. intros I. apply N. apply in_app_iff. now left.
Qed.

(* ---- variables *)
Lemma prefix_head a c k s : String.prefix (String a k) (String c s) = true -> a = c /\ String.prefix k s = true.
Proof. cbn. destruct (ascii_dec a c); [auto|discriminate]. Qed.
Lemma variable_line_key k v : ~ occurs ": " k -> k <> "Variable"%string -> String.prefix "Variable: " (line (k, v)) = false.
Proof.
  intros O N. destruct (String.prefix "Variable: " (line (k, v))) eqn:E; [|reflexivity]. exfalso. unfold line in E. cbn [fst snd] in E.
  assert (G : forall w k, w <> k -> ~ occurs ": " k -> ~ occurs ":" w -> String.prefix (w ++ ": ") (k ++ ": " ++ v) = true -> False).
  { clear. induction w as [|a w IH]; intros k N O W H.
    - destruct k as [|c k]; [contradiction|]. cbn [String.append] in H. apply prefix_head in H. destruct H as [<- H]. destruct k as [|d k]; [cbn [String.append] in H; apply prefix_head in H; destruct H; discriminate|].
      cbn [String.append] in H. apply prefix_head in H. destruct H as [<- _]. apply O. exists EmptyString, k. reflexivity.
    - destruct k as [|c k].
      + cbn [String.append] in H. apply prefix_head in H. destruct H as [-> _]. apply W. exists EmptyString, w. reflexivity.
      + cbn [String.append] in H. apply prefix_head in H. destruct H as [<- H]. apply (IH k); [congruence| | |exact H].
        * intros (x & y & Z). apply O. exists (String a x), y. now rewrite Z.
        * intros (x & y & Z). apply W. exists (String a x), y. now rewrite Z. }
  apply (G "Variable"%string k); [congruence|exact O| |exact E]. apply contains_not. reflexivity.
Qed.
Lemma substring_drop a b : from_position (String.length a) (a ++ b) = b.
Proof.
  unfold from_position. induction a as [|c a IH].
  - cbn [String.append String.length]. rewrite Nat.sub_0_r. clear. induction b as [|c b IH]; [reflexivity|]. cbn. now rewrite IH.
  - cbn [String.append String.length substring]. rewrite Nat.sub_succ. exact IH.
Qed.
Lemma length_app a b : String.length (a ++ b) = (String.length a + String.length b)%nat.
Proof. induction a as [|c a IH]; [reflexivity|]. cbn. now rewrite IH. Qed.
Lemma line_text k v : from_position (String.length k + 2) (line (k, v)) = v.
Proof. unfold line. cbn [fst snd]. rewrite <- append_assoc. replace (String.length k + 2)%nat with (String.length (k ++ ": ")) by (rewrite length_app; reflexivity). apply substring_drop. Qed.
Lemma line_nonempty k v : String.eqb (line (k, v)) EmptyString = false.
Proof. unfold line. cbn [fst snd]. destruct k; reflexivity. Qed.

Definition meta {V} (literal_eval : string -> result V) (t : string) : result (metadata V) :=
  if String.prefix "[" t then do v <- literal_eval t; Ok (Literal v) else Ok (Text t).
Lemma variables_meta {V} (le : string -> result V) before c k v r : ~ occurs ": " k -> k <> "Variable"%string ->
  variables_from le before (Some c) (line (k, v) :: r) = (do m <- meta le v; variables_from le before (Some (with_metadata k m c)) r).
Proof.
  intros O N. cbn [variables_from]. rewrite (variable_line_key k v O N), line_nonempty, (line_split k v O). cbn [column nth_error bind]. rewrite line_text. reflexivity.
Qed.
Lemma variables_blank {V} (le : string -> result V) before c r : variables_from le before c (EmptyString :: r) = variables_from le before c r.
Proof. reflexivity. Qed.
Lemma variables_filter {V} (le : string -> result V) body before c : variables_from le before c body = variables_from le before c (filter (fun p => negb (String.eqb p EmptyString)) body).
Proof.
  revert before c. induction body as [|p r IH]; intros before c; [reflexivity|]. cbn [filter]. destruct (String.eqb_spec p EmptyString) as [->|N]; cbn [negb]; [apply IH|].
  cbn [variables_from]. destruct (String.prefix "Variable: " p).
  - destruct (column 1 (split " " p)); [|reflexivity]. cbn [bind]. destruct (column 2 (split " " p)); [|reflexivity]. cbn [bind]. destruct (find _ _); [apply IH|reflexivity].
  - destruct (String.eqb p EmptyString); [apply IH|]. destruct (column 0 (split COLON p)); [|reflexivity]. cbn [bind]. destruct (if String.prefix "[" _ then _ else _); [|reflexivity]. cbn [bind]. destruct c; [apply IH|reflexivity].
Qed.
Lemma type_found t : In t known_types -> find (fun e => String.eqb (fst e) ("(" ++ t ++ ")")%string) VARIABLE_TYPES = Some (("(" ++ t ++ ")")%string, type_name t).
Proof. intros [<-|[<-|[<-|[<-|[<-|[]]]]]]; reflexivity. Qed.
Lemma type_no_space t : In t known_types -> ~ occurs " " ("(" ++ t ++ ")")%string.
Proof. intros I. apply contains_not. destruct I as [<-|[<-|[<-|[<-|[<-|[]]]]]]; reflexivity. Qed.
Lemma variables_head {V} (le : string -> result V) before c name t r : ~ occurs " " name -> In t known_types ->
  variables_from le before c (("Variable: " ++ name ++ " (" ++ t ++ ")")%string :: r) =
  variables_from le (before ++ match c with Some c => [c] | None => [] end) (Some {| vs_name := name; vs_type := type_name t; vs_metadata := [] |}) r.
Proof.
  intros N T. cbn [variables_from]. rewrite prefix_app.
  assert (S : split " " ("Variable: " ++ name ++ " (" ++ t ++ ")") = ["Variable:"; name; "(" ++ t ++ ")"]%string).
  { change ("Variable: " ++ name ++ " (" ++ t ++ ")")%string with ("Variable:" ++ " " ++ (name ++ " " ++ ("(" ++ t ++ ")")))%string.
    rewrite split1 by (apply contains_not; reflexivity). rewrite split1 by exact N. now rewrite split1_end by now apply type_no_space. }
  rewrite S. cbn [column nth_error bind]. rewrite type_found by exact T. reflexivity.
Qed.

(* ---- whole numbers *)
Lemma list_ascii_app a b : list_ascii_of_string (a ++ b) = list_ascii_of_string a ++ list_ascii_of_string b.
Proof. induction a as [|c a IH]; [reflexivity|]. cbn. now rewrite IH. Qed.
Lemma read_digits_app v a b : read_digits v (a ++ b) = match read_digits v a with Some u => read_digits u b | None => None end.
Proof. revert v. induction a as [|c a IH]; intros v; [reflexivity|]. cbn [app read_digits]. destruct (digit_value c); [apply IH|reflexivity]. Qed.
Lemma read_decimals w n v : 0 <= n -> read_digits v (list_ascii_of_string (decimals w n)) = Some (v * 10 ^ Z.of_nat w + n mod 10 ^ Z.of_nat w).
Proof.
  revert n v. induction w as [|w IH]; intros n v H.
  - cbn [decimals list_ascii_of_string read_digits]. change (10 ^ Z.of_nat 0) with 1. rewrite Z.mod_1_r. f_equal. lia.
  - cbn [decimals]. rewrite list_ascii_app, read_digits_app, IH by (apply Z.div_pos; lia). cbn [list_ascii_of_string read_digits]. rewrite digit_value_digit by (pose proof (Z.mod_pos_bound n 10); lia). f_equal.
    rewrite Nat2Z.inj_succ, Z.pow_succ_r by lia. rewrite (Z.rem_mul_r n 10 (10 ^ Z.of_nat w)) by lia. lia.
Qed.
Lemma digits_decimals w n : 0 <= n -> Forall (fun c => exists d, digit_value c = Some d) (list_ascii_of_string (decimals w n)).
Proof.
  revert n. induction w as [|w IH]; intros n H; [constructor|]. cbn [decimals]. rewrite list_ascii_app. apply Forall_app. split; [apply IH, Z.div_pos; lia|]. constructor; [|constructor].
  exists (n mod 10). apply digit_value_digit. pose proof (Z.mod_pos_bound n 10). lia.
Qed.
Lemma digit_not_space c d : digit_value c = Some d -> is_space c = false.
Proof. intros H. apply digit_of_value in H. destruct H as [-> H]. assert (d = 0 \/ d = 1 \/ d = 2 \/ d = 3 \/ d = 4 \/ d = 5 \/ d = 6 \/ d = 7 \/ d = 8 \/ d = 9) as K by lia. repeat destruct K as [->|K]; try reflexivity. subst. reflexivity. Qed.
Lemma drop_kept l : match l with c :: _ => is_space c = false | [] => True end -> drop_spaces l = l.
Proof. destruct l as [|c l]; [reflexivity|]. cbn. now intros ->. Qed.
Lemma drop_spaces_app lead l : forallb is_space lead = true -> drop_spaces (lead ++ l) = drop_spaces l.
Proof. induction lead as [|c lead IH]; [reflexivity|]. cbn [forallb app drop_spaces]. intros H. apply andb_true_iff in H. destruct H as [-> H]. now apply IH. Qed.
Lemma strip_middle lead l trail : forallb is_space lead = true -> forallb is_space trail = true -> l <> [] ->
  match l with c :: _ => is_space c = false | [] => True end -> is_space (last l " "%char) = false -> strip_spaces (lead ++ l ++ trail) = l.
Proof.
  intros A B N F L. unfold strip_spaces. rewrite drop_spaces_app by exact A. rewrite (drop_kept (l ++ trail)) by (destruct l; [contradiction|exact F]).
  rewrite rev_app_distr, drop_spaces_app by (rewrite forallb_forall in *; intros x I; apply B; now apply in_rev).
  destruct (exists_last N) as (l' & c & ->). rewrite last_last in L. rewrite rev_app_distr. cbn [rev app]. rewrite drop_kept by exact L. rewrite <- (rev_involutive (l' ++ [c])), rev_app_distr. reflexivity.
Qed.
Lemma decimals_length w n : List.length (list_ascii_of_string (decimals w n)) = w.
Proof. revert n. induction w as [|w IH]; intros n; [reflexivity|]. cbn [decimals]. rewrite list_ascii_app, app_length, IH. cbn. lia. Qed.
Lemma int_decimals lead trail w n : (0 < w)%nat -> 0 <= n < 10 ^ Z.of_nat w -> forallb is_space lead = true -> forallb is_space trail = true ->
  read_int (lead ++ list_ascii_of_string (decimals w n) ++ trail) = Some n.
Proof.
  intros W H A B. pose proof (digits_decimals w n ltac:(lia)) as D. pose proof (decimals_length w n) as L. pose proof (read_decimals w n 0 ltac:(lia)) as R. set (l := list_ascii_of_string (decimals w n)) in *.
  assert (N : l <> []) by (intros E; rewrite E in L; cbn in L; lia).
  unfold read_int. rewrite strip_middle; try assumption.
  - destruct l as [|c r]; [contradiction|]. inversion D as [|? ? (d & Dc) _]. subst.
    assert (Ascii.eqb c "-"%char = false /\ Ascii.eqb c "+"%char = false) as [-> ->].
    { apply digit_of_value in Dc. destruct Dc as [-> K]. assert (d = 0 \/ d = 1 \/ d = 2 \/ d = 3 \/ d = 4 \/ d = 5 \/ d = 6 \/ d = 7 \/ d = 8 \/ d = 9) as M by lia. repeat destruct M as [->|M]; try (split; reflexivity). subst. split; reflexivity. }
    unfold read_unsigned. rewrite R. f_equal. rewrite Z.mod_small by lia. lia.
  - destruct l as [|c r]; [exact I|]. inversion D as [|? ? (d & Dc) _]. now apply digit_not_space in Dc.
  - destruct (exists_last N) as (l' & c & E). rewrite E, last_last. rewrite E in D. apply Forall_app in D. destruct D as [_ D]. inversion D as [|? ? (d & Dc) _]. now apply digit_not_space in Dc.
Qed.
Lemma width_pos f w n : (w <= decimal_width f w n)%nat.
Proof. revert w. induction f as [|f IH]; intros w; cbn [decimal_width]; [lia|]. destruct (n <? _); [lia|]. specialize (IH (S w)). lia. Qed.
Lemma width_enough w n : (0 < w)%nat -> 0 <= n -> n < 10 ^ Z.of_nat (decimal_width (S (Z.to_nat n)) w n).
Proof.
  intros W H. apply decimal_width_enough; [exact H|]. apply Z.lt_le_trans with (10 ^ n).
  - apply Z.pow_gt_lin_r; lia.
  - apply Z.pow_le_mono_r; lia.
Qed.
