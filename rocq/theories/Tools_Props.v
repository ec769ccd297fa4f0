(* C164: specification documents; C165: revisions *)
From Coq Require Import QArith Qcanon String Ascii.
From Verif Require Import Base Time_Model NcObj_Model Stn_Model Src_Model Fill_Model Fill_Proofs Tools_Model Tools_Spec Tools_Proofs.
Local Open Scope Z_scope.
Local Open Scope list_scope.

(* The table between the markers is read, up to the end of the document if there is no end marker. *)
Theorem C164_between : forall document s e body, has_table document s e body -> get_paragraphs_between document s e = body.
Proof. exact between_table. Qed.
Print Assumptions C164_between.
(* Without a start marker nothing is read. *)
Theorem C164_no_start : forall document s e, Forall (fun p => ~ occurs s p) document -> get_paragraphs_between document s e = [].
Proof. intros document s e F. unfold get_paragraphs_between. rewrite <- (app_nil_r document). now rewrite between_skip. Qed.
Print Assumptions C164_no_start.
Definition a_document : list string := ["Contents"; "1 Attributes"; "title: Temperatures"; "source: Stations"; "2 Variables"; "end"]%string.
Lemma occurs_by sub s : contains sub s = true -> occurs sub s. Proof. apply contains_occurs. Qed.
Lemma occurs_not_by sub s : contains sub s = false -> ~ occurs sub s. Proof. apply contains_not. Qed.
Example C164_between_nonvacuous : has_table a_document "Attributes" "Variables" ["title: Temperatures"; "source: Stations"].
Proof.
  exists ["Contents"]%string, "1 Attributes"%string, ["2 Variables"; "end"]%string. split; [reflexivity|]. split; [repeat constructor; apply occurs_not_by; reflexivity|].
  split; [apply occurs_by; reflexivity|]. split; [repeat constructor; apply occurs_not_by; reflexivity|apply occurs_by; reflexivity].
Qed.

(* Attributes: each key has the value given last for it. *)
Theorem C164_attributes : forall document s e table, has_table document s e (map line table) -> Forall (fun kv => ~ occurs ": " (fst kv) /\ ~ occurs ": " (snd kv)) table ->
  exists d, read_attributes document s e = Ok d /\ NoDup (map fst d) /\ forall key, value_of key d = value_of key table.
Proof.
  intros document s e table H F. unfold read_attributes. rewrite (between_table _ _ _ _ H), (attributes_table table [] F). eexists. split; [reflexivity|].
  assert (N : forall acc, NoDup (map fst acc) -> NoDup (map fst (fold_left (fun d kv => set_key (fst kv) (snd kv) d) table acc))).
  { clear. induction table as [|kv l IH]; intros acc N; [exact N|]. cbn [fold_left]. apply IH, set_key_keys, N. }
  specialize (N [] (NoDup_nil _)). split; [exact N|]. intros key.
  transitivity (lookup key (fold_left (fun d kv => set_key (fst kv) (snd kv) d) table [])).
  - revert N. generalize (fold_left (fun d kv => set_key (fst kv) (snd kv) d) table []). clear. induction l as [|[k v] l IH]; intros N; [reflexivity|]. cbn [value_of lookup]. cbn [map fst] in N. inversion N as [|? ? M N']. subst.
    rewrite (IH N'). destruct (String.eqb_spec k key) as [->|]; [|now destruct (lookup key l)]. destruct (lookup key l) as [x|] eqn:L; [|reflexivity]. exfalso. apply M. clear - L. induction l as [|[a b] l IH]; [discriminate|]. cbn [lookup] in L. cbn [map fst]. destruct (String.eqb_spec a key) as [->|]; [now left|right; auto].
  - rewrite fold_lookup. cbn [lookup]. now destruct (value_of key table).
Qed.
Print Assumptions C164_attributes.
(* With different keys it is the table, in its order. *)
Theorem C164_attributes_table : forall document s e table, has_table document s e (map line table) -> Forall (fun kv => ~ occurs ": " (fst kv) /\ ~ occurs ": " (snd kv)) table -> NoDup (map fst table) ->
  read_attributes document s e = Ok table.
Proof. intros document s e table H F N. unfold read_attributes. rewrite (between_table _ _ _ _ H), (attributes_table table [] F). now rewrite fold_new. Qed.
Print Assumptions C164_attributes_table.
Example C164_attributes_nonvacuous : read_attributes a_document "Attributes" "Variables" = Ok [("title", "Temperatures"); ("source", "Stations")]%string.
Proof. vm_compute. reflexivity. Qed.

(* Finding: a value of an attribute is cut at the first colon and blank in it. *)
Theorem C164_attribute_cut_refuted : forall document s e key first rest, has_table document s e [line (key, line (first, rest))] -> ~ occurs ": " key -> ~ occurs ": " first ->
  read_attributes document s e = Ok [(key, first)].
Proof.
  intros document s e key first rest H K V. unfold read_attributes. rewrite (between_table _ _ _ _ H). rewrite (attributes_step _ _ key (split COLON (line (first, rest)))) by now apply line_split. rewrite (line_split first rest V). reflexivity.
Qed.
Print Assumptions C164_attribute_cut_refuted.
Example C164_attribute_cut_nonvacuous : read_attributes ["A"; "comment: see: page 3"; "B"]%string "A" "B" = Ok [("comment", "see")]%string /\ has_table ["A"; "comment: see: page 3"; "B"]%string "A" "B" [line ("comment", line ("see", "page 3"))]%string.
Proof.
  split; [vm_compute; reflexivity|]. exists [], "A"%string, ["B"]%string. split; [reflexivity|]. split; [constructor|]. split; [apply occurs_by; reflexivity|]. split; [repeat constructor; apply occurs_not_by; reflexivity|apply occurs_by; reflexivity].
Qed.
(* Finding: a paragraph without colon and blank in the table of attributes, such as an empty one, fails the whole table. *)
Theorem C164_empty_paragraph_refuted : forall document s e table other rest, has_table document s e (map line table ++ other :: rest) -> Forall (fun kv => ~ occurs ": " (fst kv)) table -> ~ occurs ": " other ->
  read_attributes document s e = Err IndexError.
Proof.
  intros document s e table other rest H F O. unfold read_attributes. rewrite (between_table _ _ _ _ H). generalize (@nil (string * string)). induction F as [|[k v] l K F IH]; intros acc.
  - cbn [map app]. rewrite (attributes_step _ _ other []) by now apply value_split. reflexivity.
  - assert (G : forall l acc, Forall (fun kv : string * string => ~ occurs ": " (fst kv)) l -> attributes_from acc (map line l ++ other :: rest) = Err IndexError).
    { clear - O. intros l acc F. revert acc. induction F as [|[k v] l K F IH]; intros acc; cbn [map app].
      - rewrite (attributes_step _ _ other []) by now apply value_split. reflexivity.
      - destruct (split_first COLON v) as (h & t & E). rewrite (attributes_step _ _ k (h :: t)) by (rewrite line_split by exact K; now rewrite <- E). apply IH. }
    apply G. now constructor.
Qed.
Print Assumptions C164_empty_paragraph_refuted.
Example C164_empty_paragraph_nonvacuous : read_attributes ["A"; "k: v"; ""; "B"]%string "A" "B" = Err IndexError.
Proof. vm_compute. reflexivity. Qed.

(* Variables come with their types and metadata, in their order; empty paragraphs do not matter; metadata may have colons in them. *)
Theorem C164_variables : forall V (literal_eval : string -> result V) document s e body vs (value : string -> metadata V),
  has_table document s e body -> filter (fun p => negb (String.eqb p "")) body = flat_map variable_lines vs -> Forall well_described vs ->
  (forall v k t, In v vs -> In (k, t) (d_metadata v) -> if plain t then value t = Text t else exists x, literal_eval t = Ok x /\ value t = Literal x) ->
  read_variables literal_eval document s e =
    Ok (map (fun v => {| vs_name := d_name v; vs_type := type_name (d_type v); vs_metadata := map (fun kt => (fst kt, value (snd kt))) (d_metadata v) |}) vs).
Proof.
  intros V le document s e body vs value H B W L. unfold read_variables. rewrite (between_table _ _ _ _ H), variables_filter, B. clear H B body document s e.
  set (out := fun v => {| vs_name := d_name v; vs_type := type_name (d_type v); vs_metadata := map (fun kt => (fst kt, value (snd kt))) (d_metadata v) |}).
  assert (M : forall l before c r, (forall k t, In (k, t) l -> ~ occurs ": " k /\ k <> "Variable"%string) -> (forall k t, In (k, t) l -> if plain t then value t = Text t else exists x, le t = Ok x /\ value t = Literal x) ->
    NoDup (map fst (vs_metadata c ++ map (fun kt => (fst kt, value (snd kt))) l)) ->
    variables_from le before (Some c) (map line l ++ r) = variables_from le before (Some {| vs_name := vs_name c; vs_type := vs_type c; vs_metadata := vs_metadata c ++ map (fun kt => (fst kt, value (snd kt))) l |}) r).
  { clear. induction l as [|[k t] l IH]; intros before c r K X N.
    - cbn [map app]. rewrite app_nil_r. now destruct c.
    - cbn [map app]. destruct (K k t (or_introl eq_refl)) as [O U]. rewrite variables_meta by assumption. specialize (X k t (or_introl eq_refl)) as X0. unfold meta. unfold plain in X0.
      assert (E : (if String.prefix "[" t then do v <- le t; Ok (Literal v) else Ok (Text t)) = Ok (value t)).
      { destruct (String.prefix "[" t); cbn [negb] in X0; [|now rewrite X0]. destruct X0 as (x & -> & ->). reflexivity. }
      rewrite E. cbn [bind]. cbn [map fst snd] in N.
      assert (N1 : ~ In k (map fst (vs_metadata c))). { rewrite map_app in N. cbn [map fst] in N. apply NoDup_remove_2 in N. intros I. apply N. apply in_app_iff. now left. }
      rewrite IH.
      + unfold with_metadata. cbn [vs_name vs_type vs_metadata]. rewrite (set_key_new k (value t) _ N1), <- app_assoc. reflexivity.
      + intros k' t' I. apply (K k' t'). now right.
      + intros k' t' I. apply (X k' t'). now right.
      + unfold with_metadata. cbn [vs_metadata]. rewrite (set_key_new k (value t) _ N1), <- app_assoc. exact N. }
  assert (G : forall vs before c, Forall well_described vs -> (forall v k t, In v vs -> In (k, t) (d_metadata v) -> if plain t then value t = Text t else exists x, le t = Ok x /\ value t = Literal x) ->
    variables_from le before c (flat_map variable_lines vs) = Ok (before ++ match c with Some c => [c] | None => [] end ++ map out vs)).
  { clear vs W L. induction vs as [|v vs IH]; intros before c W L.
    - cbn [flat_map variables_from map]. now rewrite app_nil_r.
    - cbn [flat_map]. inversion W as [|? ? (Wn & Wt & Wd & Wk) W']. subst. unfold variable_lines at 1. rewrite <- app_comm_cons. rewrite variables_head by assumption. rewrite M.
      + rewrite IH; [|exact W'|intros v' k t I; apply L; now right]. cbn [vs_metadata vs_name vs_type app map]. f_equal. rewrite <- !app_assoc. reflexivity.
      + exact Wk.
      + intros k t I. apply (L v k t); [now left|exact I].
      + cbn [vs_metadata app]. rewrite map_map. cbn [fst]. exact Wd. }
  rewrite G by assumption. reflexivity.
Qed.
Print Assumptions C164_variables.
Definition a_variable : described := {| d_name := "tas"; d_type := "int16"; d_metadata := [("long_name", "air temperature: mean"); ("units", "K")] |}%string.
Example C164_variables_nonvacuous : well_described a_variable /\
  read_variables (fun _ : string => @Err nat ValueError) (["V"; ""]%string ++ variable_lines a_variable ++ [""; "E"]%string) "V" "E" =
    Ok [{| vs_name := "tas"; vs_type := "int16"; vs_metadata := [("long_name", Text "air temperature: mean"); ("units", Text "K")] |}]%string.
Proof.
  split; [|].
  - unfold well_described, a_variable. cbn [d_name d_type d_metadata]. split; [apply occurs_not_by; reflexivity|]. split; [cbn; tauto|]. split; [repeat constructor; cbn; intuition discriminate|].
    intros k t [E|[E|[]]]; injection E as <- <-; (split; [apply occurs_not_by; reflexivity|discriminate]).
  - reflexivity.
Qed.
(* A variable of another type, and metadata before the first variable, are refused. *)
Theorem C164_unknown_type : forall V (literal_eval : string -> result V) document s e body name t, ~ occurs " " name -> ~ occurs " " t -> ~ In t known_types ->
  has_table document s e (("Variable: " ++ name ++ " (" ++ t ++ ")")%string :: body) -> read_variables literal_eval document s e = Err KeyError.
Proof.
  intros V le document s e body name t N T K H. unfold read_variables. rewrite (between_table _ _ _ _ H). cbn [variables_from]. rewrite prefix_app.
  assert (S : split " " ("Variable: " ++ name ++ " (" ++ t ++ ")") = ["Variable:"; name; "(" ++ t ++ ")"]%string).
  { change ("Variable: " ++ name ++ " (" ++ t ++ ")")%string with ("Variable:" ++ " " ++ (name ++ " " ++ ("(" ++ t ++ ")")))%string.
    rewrite split1 by (apply contains_not; reflexivity). rewrite split1 by exact N. rewrite split1_end; [reflexivity|].
    intros (a & b & E). destruct a as [|c a]; [discriminate E|]. injection E as _ E. apply T. revert a E. clear. induction t as [|d t IH]; intros a E.
    - destruct a as [|x a]; [discriminate E|]. cbn in E. injection E as _ E. destruct a; discriminate E.
    - destruct a as [|x a]; cbn in E; injection E as E1 E; [subst; exists EmptyString, t; reflexivity|]. destruct (IH a E) as (u & w & ->). exists (String d u), w. reflexivity. }
  rewrite S. cbn [column nth_error bind]. destruct (find _ VARIABLE_TYPES) as [x|] eqn:F; [|reflexivity]. exfalso. apply K. apply find_some in F. destruct F as [I F]. apply String.eqb_eq in F.
  assert (G : forall a, ("(" ++ a ++ ")" = "(" ++ t ++ ")")%string -> t = a).
  { clear. intros a E. injection E as E. revert t E. induction a as [|c a IH]; intros [|d t] E; cbn in E; try reflexivity.
    - injection E as E1 E2. destruct t; discriminate E2.
    - injection E as E1 E2. destruct a; discriminate E2.
    - injection E as -> E. f_equal. now apply IH. }
  cbn [VARIABLE_TYPES In] in I. destruct I as [<-|[<-|[<-|[<-|[<-|[]]]]]]; cbn [fst] in F; [apply (G "float32"%string) in F|apply (G "int32"%string) in F|apply (G "int16"%string) in F|apply (G "char"%string) in F|apply (G "uint8"%string) in F]; subst t; cbn; tauto.
Qed.
Print Assumptions C164_unknown_type.
Theorem C164_orphan_metadata : forall V (literal_eval : string -> result V) document s e body key t, ~ occurs ": " key -> key <> "Variable"%string -> plain t = true ->
  has_table document s e (line (key, t) :: body) -> read_variables literal_eval document s e = Err AttributeError.
Proof.
  intros V le document s e body key t O N P H. unfold read_variables. rewrite (between_table _ _ _ _ H). cbn [variables_from]. rewrite (variable_line_key key t O N), line_nonempty, (line_split key t O). cbn [column nth_error bind]. rewrite line_text. unfold plain in P.
  apply negb_true_iff in P. rewrite P. reflexivity.
Qed.
Print Assumptions C164_orphan_metadata.
Example C164_refused_nonvacuous :
  read_variables (fun _ : string => @Err nat ValueError) ["V"; "Variable: x (float64)"; "E"]%string "V" "E" = Err KeyError /\ ~ In "float64"%string known_types /\
  read_variables (fun _ : string => @Err nat ValueError) ["V"; "units: K"; "E"]%string "V" "E" = Err AttributeError.
Proof. split; [reflexivity|]. split; [cbn; intuition discriminate|reflexivity]. Qed.

(* Dimensions: the first paragraph is a heading; whole numbers and UNLIMITED. *)
Lemma py_int_text n : 0 <= n -> py_int (py_str n) = Ok n.
Proof.
  intros H. rewrite py_str_nonneg by exact H. unfold py_int. set (w := decimal_width (S (Z.to_nat n)) 1 n).
  pose proof (int_decimals [] [] w n) as E. rewrite app_nil_r in E. cbn [app] in E. rewrite E; [reflexivity| | |reflexivity|reflexivity].
  - pose proof (width_pos (S (Z.to_nat n)) 1 n). unfold w. lia.
  - split; [exact H|]. apply width_enough; lia.
Qed.
Lemma decimals_no_char c w n : 0 <= n -> digit_value c = None -> ~ occurs (String c EmptyString) (decimals w n).
Proof.
  intros H N (a & b & E). pose proof (digits_decimals w n H) as D. rewrite E, !list_ascii_app in D. apply Forall_app in D. destruct D as [_ D]. cbn in D. inversion D as [|? ? (d & Dd) _]. congruence.
Qed.
Theorem C164_dimensions : forall document s e heading table, has_table document s e (heading :: map (fun kn => line (fst kn, dimension_text (snd kn))) table) ->
  Forall (fun kn => ~ occurs ": " (fst kn) /\ match snd kn with Some n => 0 <= n | None => True end) table -> NoDup (map fst table) ->
  read_dimensions document s e = Ok table.
Proof.
  intros document s e heading table H F N. unfold read_dimensions. rewrite (between_table _ _ _ _ H). cbn [tl]. clear H document s e heading.
  assert (G : forall l acc, Forall (fun kn : string * option Z => ~ occurs ": " (fst kn) /\ match snd kn with Some n => 0 <= n | None => True end) l ->
    dimensions_from acc (map (fun kn => line (fst kn, dimension_text (snd kn))) l) = Ok (fold_left (fun d kv => set_key (fst kv) (snd kv) d) l acc)).
  { clear. induction l as [|[k n] l IH]; intros acc F; [reflexivity|]. inversion F as [|? ? [K P] F']. subst. cbn [fst snd] in K, P. cbn [map dimensions_from fold_left fst snd].
    assert (V : split COLON (dimension_text n) = [dimension_text n]).
    { apply value_split. destruct n as [n|]; cbn [dimension_text]; [|apply occurs_not_by; reflexivity]. rewrite py_str_nonneg by exact P. intros (a & b & E). apply (decimals_no_char ":"%char (decimal_width (S (Z.to_nat n)) 1 n) n P eq_refl). exists a, (" " ++ b)%string. exact E. }
    rewrite (line_split k _ K), V. cbn [column nth_error bind]. destruct n as [n|]; cbn [dimension_text].
    - destruct (String.eqb_spec (py_str n) "UNLIMITED") as [E|_]; [|rewrite py_int_text by exact P; cbn [bind]; now apply IH].
      exfalso. rewrite py_str_nonneg in E by exact P. apply (decimals_no_char "U"%char (decimal_width (S (Z.to_nat n)) 1 n) n P eq_refl). exists EmptyString, "NLIMITED"%string. exact E.
    - rewrite String.eqb_refl. now apply IH. }
  rewrite G by exact F. now rewrite fold_new.
Qed.
Print Assumptions C164_dimensions.
Example C164_dimensions_nonvacuous : read_dimensions ["D"; "Dimensions"; "time: UNLIMITED"; "latitude: 720"; "end"]%string "D" "end" = Ok [("time"%string, None); ("latitude"%string, Some 720)].
Proof. vm_compute. reflexivity. Qed.

(* Names: the first paragraph, separated by commas and blanks, with blanks around it left out. *)
Theorem C164_names : forall document s e lead trail names rest,
  has_table document s e ((string_of_list_ascii lead ++ String.concat ", " names ++ string_of_list_ascii trail)%string :: rest) ->
  Forall blank lead -> Forall blank trail -> names <> [] -> Forall (fun n => ~ occurs ", " n) names ->
  (forall c, In c (firstn 1 (list_ascii_of_string (hd ""%string names))) -> ~ blank c) -> hd ""%string names <> ""%string ->
  (forall c, In c (firstn 1 (rev (list_ascii_of_string (last names ""%string)))) -> ~ blank c) -> last names ""%string <> ""%string ->
  read_name_list document s e = Ok names.
Proof.
  intros document s e lead trail names rest H L T N F A A0 B B0. unfold read_name_list. rewrite (between_table _ _ _ _ H). f_equal.
  assert (SP : forall l, Forall blank l -> forallb is_space l = true).
  { clear. induction 1 as [|c l I _ IH]; [reflexivity|]. cbn [forallb]. rewrite IH, andb_true_r. unfold is_space. apply existsb_exists. exists c. split; [exact I|apply Ascii.eqb_refl]. }
  assert (NS : forall c, ~ blank c -> is_space c = false).
  { clear. intros c H. destruct (is_space c) eqn:E; [|reflexivity]. exfalso. apply H. unfold is_space in E. apply existsb_exists in E. destruct E as (x & I & E). apply Ascii.eqb_eq in E. now subst. }
  assert (S : strip (string_of_list_ascii lead ++ String.concat ", " names ++ string_of_list_ascii trail) = String.concat ", " names).
  { unfold strip. rewrite !list_ascii_app, !list_ascii_of_string_of_list_ascii. rewrite strip_middle; [apply string_of_list_ascii_of_string|now apply SP|now apply SP| | |].
    - destruct names as [|n names]; [contradiction|]. cbn [hd] in A0. destruct n as [|c n]; [contradiction|]. destruct names; discriminate.
    - destruct names as [|n names]; [contradiction|]. cbn [hd] in A, A0. destruct n as [|c n]; [contradiction|]. destruct names as [|n' names]; cbn; apply NS, A; now left.
    - clear - B B0 N NS. induction names as [|n names IH]; [contradiction|]. destruct names as [|n' names].
      + cbn [String.concat last] in *. destruct (exists_last (l := list_ascii_of_string n)) as (l & c & E); [destruct n; [contradiction|discriminate]|]. rewrite E in *. rewrite last_last. rewrite rev_app_distr in B. apply NS, B. now left.
      + change (String.concat ", " (n :: n' :: names)) with (n ++ ", " ++ String.concat ", " (n' :: names))%string. rewrite !list_ascii_app.
        assert (M : list_ascii_of_string (String.concat ", " (n' :: names)) <> []).
        { destruct names as [|n2 names]; [cbn [String.concat last] in *; destruct n'; [contradiction|discriminate]|]. cbn [String.concat]. rewrite list_ascii_app. cbn. destruct n'; discriminate. }
        destruct (exists_last M) as (l & c & E). specialize (IH ltac:(discriminate) B B0). rewrite E in *. rewrite !app_assoc, !last_last in *. exact IH. }
  rewrite S. clear - F N. induction F as [|n l O F IH]; [contradiction|]. destruct l as [|n' l].
  - cbn [String.concat]. now apply (split2_end "," " ").
  - change (String.concat ", " (n :: n' :: l)) with (n ++ two "," " " ++ String.concat ", " (n' :: l))%string. rewrite (split2 "," " "); [|discriminate|exact O]. f_equal. apply IH. discriminate.
Qed.
Print Assumptions C164_names.
Example C164_names_nonvacuous : read_name_list ["N"; " tas, tasmin, tasmax "; "E"]%string "N" "E" = Ok ["tas"; "tasmin"; "tasmax"]%string.
Proof. vm_compute. reflexivity. Qed.

(* ---- C165 *)
(* What svnversion prints for a clean copy is the number of its revision. *)
Theorem C165_clean : forall allow n, 0 <= n -> get_revision_id allow (py_str n ++ NEWLINE) = Ok (revision_id n).
Proof.
  intros allow n H. unfold get_revision_id, parse_revision_string, py_int. rewrite list_ascii_app. rewrite py_str_nonneg by exact H. set (w := decimal_width (S (Z.to_nat n)) 1 n).
  pose proof (int_decimals [] (list_ascii_of_string NEWLINE) w n) as E. cbn [app] in E. rewrite E; [reflexivity| | |reflexivity|reflexivity].
  - pose proof (width_pos (S (Z.to_nat n)) 1 n). unfold w. lia.
  - split; [exact H|]. apply width_enough; lia.
Qed.
Print Assumptions C165_clean.
(* Different revisions have different identifiers, and none is that of code without revision. *)
Theorem C165_distinct : forall n n', 0 <= n -> 0 <= n' -> revision_id n = revision_id n' -> n = n'.
Proof.
  intros n n' H H' E. unfold revision_id in E. assert (T : forall a b : string, ("R" ++ a = "R" ++ b)%string -> a = b) by (intros a b X; now injection X). apply T in E.
  assert (G : forall k, 0 <= k -> read_digits 0 (list_ascii_of_string (decimals (decimal_width (S (Z.to_nat k)) 6 k) k)) = Some k).
  { intros k K. rewrite read_decimals by exact K. f_equal. rewrite Z.mod_small; [lia|]. split; [exact K|]. apply width_enough; lia. }
  pose proof (G n H) as A. pose proof (G n' H') as B. rewrite E in A. congruence.
Qed.
Print Assumptions C165_distinct.
Theorem C165_six_digits : forall n, 0 <= n -> (7 <= String.length (revision_id n))%nat /\ (n < 1000000 -> String.length (revision_id n) = 7%nat) /\ revision_id n <> "UNVERSIONED"%string.
Proof.
  intros n H. unfold revision_id. cbn [String.append String.length].
  assert (L : String.length (decimals (decimal_width (S (Z.to_nat n)) 6 n) n) = decimal_width (S (Z.to_nat n)) 6 n).
  { rewrite <- (decimals_length (decimal_width (S (Z.to_nat n)) 6 n) n) at 2. clear. induction (decimals _ n) as [|c s IH]; [reflexivity|]. cbn. now rewrite IH. }
  rewrite L. pose proof (width_pos (S (Z.to_nat n)) 6 n). split; [lia|]. split; [|discriminate]. intros S. cbn [decimal_width]. change (10 ^ Z.of_nat 6) with 1000000. destruct (Z.ltb_spec n 1000000); [reflexivity|lia].
Qed.
Print Assumptions C165_six_digits.
(* Anything else, such as a range of revisions or a mark for modifications, is refused, or named as without revision if that is allowed. *)
Lemma int_chars s n : py_int s = Ok n -> forall c, In c (list_ascii_of_string s) -> blank c \/ numeral c \/ c = "-"%char \/ c = "+"%char.
Proof.
  unfold py_int. destruct (read_int _) as [v|] eqn:E; [|discriminate]. intros _.
  assert (RD : forall l v u, read_digits v l = Some u -> forall c, In c l -> numeral c).
  { clear. induction l as [|x l IH]; intros v u H c [].
    - subst. cbn [read_digits] in H. destruct (digit_value c) as [d|] eqn:D; [|discriminate]. apply Time_Proofs.digit_of_value in D. destruct D as [-> K]. assert (d = 0 \/ d = 1 \/ d = 2 \/ d = 3 \/ d = 4 \/ d = 5 \/ d = 6 \/ d = 7 \/ d = 8 \/ d = 9) as M by lia. unfold numeral. cbn [In].
      repeat destruct M as [->|M]; [..|subst]; cbn; tauto.
    - cbn [read_digits] in H. destruct (digit_value x); [|discriminate]. eapply IH; eassumption. }
  assert (RU : forall l u, read_unsigned l = Some u -> forall c, In c l -> numeral c) by (intros [|x l] u H; [discriminate|]; unfold read_unsigned in H; exact (RD _ _ _ H)).
  assert (DS : forall l c, In c l -> blank c \/ In c (drop_spaces l)).
  { clear. induction l as [|x l IH]; intros c I; [destruct I|]. cbn [drop_spaces]. destruct (is_space x) eqn:S; [|now right]. destruct I as [->|I]; [left|now apply IH]. unfold is_space in S. apply existsb_exists in S. destruct S as (y & J & S). apply Ascii.eqb_eq in S. now subst. }
  intros c I. destruct (DS _ _ I) as [B|I1]; [now left|]. rewrite in_rev in I1. destruct (DS _ _ I1) as [B|I2]; [now left|]. rewrite in_rev in I2. unfold read_int, strip_spaces in E. right.
  destruct (rev (drop_spaces (rev (drop_spaces (list_ascii_of_string s))))) as [|x l]; [destruct I2|]. destruct (Ascii.eqb_spec x "-"%char) as [->|].
  - destruct I2 as [<-|I2]; [tauto|]. destruct (read_unsigned l) eqn:R; [|discriminate]. left. eapply RU; eassumption.
  - destruct (Ascii.eqb_spec x "+"%char) as [->|]; [destruct I2 as [<-|I2]; [tauto|left; eapply RU; eassumption]|left; eapply RU; eassumption].
Qed.
Theorem C165_not_clean : forall s c, In c (list_ascii_of_string s) -> ~ blank c -> ~ numeral c -> c <> "-"%char -> c <> "+"%char ->
  get_revision_id false s = Err OperationException /\ get_revision_id true s = Ok "UNVERSIONED"%string.
Proof.
  intros s c I B N M P. unfold get_revision_id, parse_revision_string. destruct (py_int s) as [n|] eqn:E; [|split; reflexivity]. exfalso. destruct (int_chars s n E c I) as [X|[X|[X|X]]]; contradiction.
Qed.
Print Assumptions C165_not_clean.
Theorem C165_nothing_printed : get_revision_id false ""%string = Err OperationException /\ get_revision_id true ""%string = Ok "UNVERSIONED"%string.
Proof. split; reflexivity. Qed.
Print Assumptions C165_nothing_printed.
Example C165_nonvacuous : get_revision_id false ("550" ++ NEWLINE) = Ok "R000550"%string /\ In "M"%char (list_ascii_of_string ("550M" ++ NEWLINE)) /\
  get_revision_id false ("550M" ++ NEWLINE) = Err OperationException /\ get_revision_id true ("540:550" ++ NEWLINE) = Ok "UNVERSIONED"%string.
Proof. repeat split; try reflexivity. vm_compute. tauto. Qed.
