(* Properties of the search for files by name patterns: C17, C65-C67. *)
From Coq Require Import String Ascii.
From Verif Require Import Base Work_Model Cat_Model Cat_Proofs Time_Model Time_Spec Time_Proofs Time_Props Name_Model Name_Spec Name_Proofs.
Local Open Scope Z_scope.
Local Open Scope list_scope.

(* The order of Python's dictionaries is arbitrary but made of the same elements. *)
Definition reorders {A} (f : list A -> list A) : Prop := forall l, Permutation (f l) l.

(* ============================================================ C17 *)

(* Directory patterns with at most one of the text fields %A %B %C: each file gets the fields of its own name, for
   every order of the dictionaries. *)
Theorem C17_fields_come_from_the_name_partial :
  forall dict_order traversal parent child names found, reorders dict_order -> reorders traversal ->
  (forall f g, mentions parent f -> mentions parent g -> width f = None -> width g = None -> f = g) ->
  nested_search_patterns dict_order traversal [parent; child] names = Ok found ->
  forall name d, In (name, d) found ->
  In name names /\ exists directory file more va vb,
    name = (directory ++ file ++ more)%string /\ spelled [] parent va directory /\ d = vb ++ va /\
    ((forall f v, lookup va f = Some v -> no_dot v) -> spelled va child vb file).
Proof.
  intros dict_order traversal parent child names found P1 P2 One E name d I.
  destruct (two_In dict_order traversal P1 P2 _ _ _ _ _ _ E One I) as (In1 & va & vb & rem & r & Ma & Mb & ->). split; [exact In1|].
  apply re_match_In, matches_spec in Ma as (a & -> & Ra). apply re_match_In, matches_spec in Mb as (b & -> & Rb).
  exists a, b, r, va, vb. split; [reflexivity|]. split; [now apply spelled_iff|]. split; [reflexivity|]. intros PV. now apply rx_spelled.
Qed.
Print Assumptions C17_fields_come_from_the_name_partial.

Theorem C17_single_pattern :
  forall dict_order traversal pattern names found, nested_search_patterns dict_order traversal [pattern] names = Ok found ->
  forall name d, In (name, d) found -> In name names /\ exists form more, name = (form ++ more)%string /\ spelled [] pattern d form.
Proof.
  intros dict_order traversal pattern names found E name d I. destruct (single_In _ _ _ _ _ _ _ E I) as (In1 & r & M). split; [exact In1|].
  apply re_match_In, matches_spec in M as (a & -> & R). exists a, r. split; [reflexivity|]. now apply spelled_iff.
Qed.
Print Assumptions C17_single_pattern.

(* Patterns without text fields find every file of the right form. *)
Theorem C17_every_file_of_the_form_is_found :
  forall dict_order traversal parent child names found, reorders dict_order -> reorders traversal ->
  (forall f, mentions parent f \/ mentions child f -> width f <> None) ->
  nested_search_patterns dict_order traversal [parent; child] names = Ok found ->
  forall directory file more va vb, In (directory ++ file ++ more)%string names ->
  spelled [] parent va directory -> spelled va child vb file -> In ((directory ++ file ++ more)%string, vb ++ va) found.
Proof.
  intros dict_order traversal parent child names found P1 P2 T E a b r va vb I Ra Rb.
  eapply (two_In_intro dict_order traversal P1 P2); eauto.
  - intros f g Mf Mg Wf. destruct (T f (or_introl Mf) Wf).
  - apply re_match_fixed; [apply tagless_fixed; auto|]. now apply spelled_iff.
  - apply re_match_fixed; [apply tagless_fixed; auto|]. now apply spelled_rx.
Qed.
Print Assumptions C17_every_file_of_the_form_is_found.

Theorem C17_every_file_of_a_single_form_is_found :
  forall dict_order traversal pattern names found,
  nested_search_patterns dict_order traversal [pattern] names = Ok found ->
  forall form more d, In (form ++ more)%string names -> spelled [] pattern d form ->
  exists d', In ((form ++ more)%string, d') found /\ ((forall f, mentions pattern f -> width f <> None) -> d' = d).
Proof.
  intros dict_order traversal pattern names found E a r d I R. cbn [nested_search_patterns] in E. apply spelled_iff in R as R'.
  destruct (re_match_exists (make_search_expression pattern []) (a ++ r)%string) as [[d' r'] M]; [eauto|].
  exists d'. split.
  - rewrite <- (app_nil_r d'). change (@nil (field * string)) with (fst (@nil (field * string), map (fun name : string => (name, name)) names)) at 1.
    eapply child_In_intro; [exact E| |exact M]. cbn [snd]. apply in_map_iff. exists (a ++ r)%string. auto.
  - intros T. rewrite (re_match_fixed _ d a r) in M; [congruence|now apply tagless_fixed|assumption].
Qed.
Print Assumptions C17_every_file_of_a_single_form_is_found.

(* Full claim for all directory patterns: two files are in the same group only if their captured fields agree, so that
   a file's fields are those in its own name.  With two text fields it is false, whatever the order of dictionaries:
   the values are joined without a separator. *)
Theorem C17_two_text_fields_refuted :
  forall dict_order traversal, reorders dict_order -> reorders traversal ->
  exists names found name d, nested_search_patterns dict_order traversal ["%A_%B/"%string; "x.nc"%string] names = Ok found /\
  In (name, d) found /\ forall directory va, spelled [] "%A_%B/" va directory -> name = (directory ++ "x.nc")%string ->
  lookup d TagA <> lookup va TagA.
Proof.
  intros dict_order traversal P1 P2.
  assert (forall n1 n2 k v1 v2,
            parent_groups dict_order (make_search_expression "%A_%B/" []) [n1; n2] = [(k, ([(TagA, v1); (TagB, v2)], [(n1, "x.nc"%string); (n2, "x.nc"%string)]))] ->
            nested_search_patterns dict_order traversal ["%A_%B/"%string; "x.nc"%string] [n1; n2] = Ok [(n1, [(TagA, v1); (TagB, v2)]); (n2, [(TagA, v1); (TagB, v2)])]) as G.
  { intros n1 n2 k v1 v2 E. cbn [nested_search_patterns]. replace (compile (make_search_expression "%A_%B/" [])) with (Ok (make_search_expression "%A_%B/" [])) by reflexivity.
    cbn [bind]. rewrite E. pose proof (P2 [(k, ([(TagA, v1); (TagB, v2)], [(n1, "x.nc"%string); (n2, "x.nc"%string)]))]) as P. apply Permutation_sym, Permutation_length_1_inv in P.
    rewrite P. reflexivity. }
  assert (forall va s, spelled [] "%A_%B/" va s -> exists v1 v2, s = (v1 ++ "_" ++ v2 ++ "/")%string /\ va = [(TagA, v1); (TagB, v2)]) as Sp.
  { intros va s R. apply spelled_iff in R. cbn in R. inversion R as [| | | |f1 v1 e1 d1 s1 N1 R1]; subst. inversion R1 as [|c e2 d2 s2 R2| | |]; subst.
    inversion R2 as [| | | |f3 v3 e3 d3 s3 N3 R3]; subst. inversion R3 as [|c e4 d4 s4 R4| | |]; subst. inversion R4; subst. exists v1, v3. split; reflexivity. }
  assert (Permutation (dict_order [TagA; TagB]) [TagA; TagB]) as P by apply P1.
  assert (dict_order [TagA; TagB] = [TagA; TagB] \/ dict_order [TagA; TagB] = [TagB; TagA]) as [O|O].
  { symmetry in P. apply Permutation_length_2_inv in P. tauto. }
  - exists ["ab_c/x.nc"%string; "a_bc/x.nc"%string]. eexists. exists "a_bc/x.nc"%string, [(TagA, "ab"%string); (TagB, "c"%string)]. split; [|split].
    + eapply G. unfold parent_groups. cbn [fold_left]. unfold hash_string_dictionary. cbn -[String.eqb hash_string_list]. rewrite O. reflexivity.
    + cbn. auto.
    + intros dir va R E. destruct (Sp _ _ R) as (v1 & v2 & -> & ->). cbn [lookup find fst snd field_eqb]. intros X. injection X as <-. discriminate.
  - exists ["ab_c/x.nc"%string; "b_ca/x.nc"%string]. eexists. exists "b_ca/x.nc"%string, [(TagA, "ab"%string); (TagB, "c"%string)]. split; [|split].
    + eapply G. unfold parent_groups. cbn [fold_left]. unfold hash_string_dictionary. cbn -[String.eqb hash_string_list]. rewrite O. reflexivity.
    + cbn. auto.
    + intros dir va R E. destruct (Sp _ _ R) as (v1 & v2 & -> & ->). cbn [lookup find fst snd field_eqb]. intros X. injection X as <-. discriminate.
Qed.
Print Assumptions C17_two_text_fields_refuted.

(* Dots in captured directory text match any character in the file name. *)
Theorem C17_dots_in_text_refuted :
  forall dict_order, reorders dict_order -> 
  exists name d, nested_search_patterns dict_order (fun l => l) ["%A/"%string; "%A_%Y.nc"%string] [name] = Ok [(name, d)] /\
  forall directory va vb file more, spelled [] "%A/" va directory -> spelled va "%A_%Y.nc" vb file -> name <> (directory ++ file ++ more)%string.
Proof.
  intros dict_order P1. exists "v1.0/v1x0_2010.nc"%string. eexists. split.
  - cbn [nested_search_patterns]. unfold parent_groups. cbn [fold_left]. unfold hash_string_dictionary. cbn -[String.eqb hash_string_list].
    reflexivity.
  - intros dir va vb file more Ra Rb E. apply spelled_iff in Ra. cbn in Ra. inversion Ra as [| | | |f1 v1 e1 d1 s1 N1 R1]; subst.
    inversion R1 as [|c e2 d2 s2 R2| | |]; subst. inversion R2; subst.
    inversion Rb as [| |c p d s Hq Hd Hl R|x f v p d s D L R|x f v p d s D L R|x f n v p d s D L W N R|x f v p d s D L W N R]; subst.
    + destruct (Hd _ _ TagA eq_refl eq_refl eq_refl).
    + cbn in D. injection D as <-. rewrite lookup_cons in L. cbn in L. injection L as <-.
      assert (v1 = "v1.0"%string) as ->.
      { rewrite string_app_assoc in E. cbn [append] in E. revert E. generalize (append (append v1 s) more). intros z E.
        do 17 (destruct v1 as [|? v1]; cbn in E; [first [discriminate|reflexivity]|injection E as <- E]). destruct v1; discriminate. }
      cbn in E. discriminate.
    + discriminate.
    + cbn in D. injection D as <-. discriminate.
    + cbn in D. injection D as <-. rewrite lookup_cons in L. discriminate.
Qed.
Print Assumptions C17_dots_in_text_refuted.

(* A text field in the directory pattern takes as much as it can, subdirectories included: a file of the right form is
   not found. *)
Theorem C17_subdirectories_refuted :
  exists names d, nested_search_patterns (fun l => l) (fun l => l) ["%A/"%string; "%Y/x.nc"%string] names = Ok [] /\
  exists directory va vb file, spelled [] "%A/" va directory /\ spelled va "%Y/x.nc" vb file /\ names = [(directory ++ file)%string] /\ d = vb ++ va.
Proof.
  exists ["a/2010/x.nc"%string], [(Year, "2010"%string); (TagA, "a"%string)]. split; [vm_compute; reflexivity|].
  exists "a/"%string, [(TagA, "a"%string)], [(Year, "2010"%string)], "2010/x.nc"%string. split; [|split; [|split; reflexivity]].
  - change "a/"%string with ("a" ++ "/")%string. eapply sp_text; try reflexivity.
    + intros [|x [|y a]] b; cbn; discriminate.
    + apply sp_same; try discriminate. apply sp_end.
  - change "2010/x.nc"%string with ("2010" ++ "/x.nc")%string. eapply sp_numerals; try reflexivity.
    + cbn. unfold numeral. cbn. repeat split; lia.
    + repeat (apply sp_same; [discriminate|discriminate|discriminate|]). apply sp_end.
Qed.
Print Assumptions C17_subdirectories_refuted.

(* Nothing requires the name to end with the form: other files are catalogued too. *)
Theorem C17_longer_names_accepted :
  forall dict_order traversal pattern names found more form d,
  nested_search_patterns dict_order traversal [pattern] names = Ok found -> spelled [] pattern d form -> In (form ++ more)%string names ->
  exists d', In ((form ++ more)%string, d') found.
Proof.
  intros dict_order traversal pattern names found more form d E R I.
  destruct (C17_every_file_of_a_single_form_is_found _ _ _ _ _ E _ _ _ I R) as (d' & X & _). eauto.
Qed.
Print Assumptions C17_longer_names_accepted.

Example C17_nonvacuous :
  exists found, nested_search_patterns (fun l => l) (@rev _) ["%A/%Y/"%string; "%a_%Y%m%d.nc"%string]
    ["Sst/2010/sst_20100304.nc"%string; "Lst/2011/lst_20111231.nc"%string; "Lst/2011/lst_20101231.nc"%string; "readme"%string; "Sst/2010/sst_20100305.nc.bak"%string] = Ok found /\
  map fst found = ["Lst/2011/lst_20111231.nc"%string; "Sst/2010/sst_20100304.nc"%string; "Sst/2010/sst_20100305.nc.bak"%string] /\
  (forall f g, mentions "%A/%Y/" f -> mentions "%A/%Y/" g -> width f = None -> width g = None -> f = g).
Proof.
  eexists. split; [vm_compute; reflexivity|]. split; [reflexivity|].
  assert (forall f, mentions "%A/%Y/" f -> width f = None -> f = TagA) as H.
  { intros f M W. assert (In f (groups (make_search_expression "%A/%Y/" []))) as I by (apply groups_mentions; split; [exact M|reflexivity]).
    cbn in I. destruct I as [<-|[<-|[]]]; [reflexivity|discriminate]. }
  intros f g Mf Mg Wf Wg. rewrite (H f Mf Wf), (H g Mg Wg). reflexivity.
Qed.

(* ============================================================ C65: outputs are found again *)

(* The date fields mentioned by the pattern(s) include year, month and day, and no text field is mentioned. *)
Definition shows_date (patterns : list string) : Prop :=
  (forall p f, In p patterns -> mentions p f -> width f <> None) /\
  (forall f, In f [Year; Month; Day] -> exists p, In p patterns /\ mentions p f).

(* u is the time t as far as the patterns show it. *)
Definition as_shown (patterns : list string) (t u : Z) : Prop :=
  date_of u = date_of t /\ u mod SECOND = 0 /\
  dt_hour u = (if existsb (fun p => contains2 "%" "H" p) patterns then dt_hour t else 0) /\
  dt_minute u = (if existsb (fun p => contains2 "%" "M" p) patterns then dt_minute t else 0) /\
  dt_second u = (if existsb (fun p => contains2 "%" "S" p) patterns then dt_second t else 0).

Lemma contains_mentions k p : contains2 "%" (letter k) p = true <-> mentions p (kind k).
Proof.
  rewrite contains2_occurs. split.
  - intros O. exists (letter k). split; [apply directive_letter|assumption].
  - intros (x & D & O). destruct (directive_inv _ _ D) as [(k' & -> & E)|W]; [|destruct k; discriminate].
    assert (k = k') as <- by (destruct k, k'; try discriminate; reflexivity). exact O.
Qed.

Lemma lookup_shows d patterns k : (forall f, In f (map fst d) <-> exists p, In p patterns /\ mentions p f) ->
  forall (a b : Z), (if lookup d (kind k) then a else b) = (if existsb (fun p => contains2 "%" (letter k) p) patterns then a else b).
Proof.
  intros H a b. destruct (existsb _ patterns) eqn:X.
  - apply existsb_exists in X as (p & I & M). apply contains_mentions in M.
    destruct (lookup d (kind k)) eqn:L; [reflexivity|]. apply lookup_None in L. exfalso. apply L, H. eauto.
  - destruct (lookup d (kind k)) eqn:L; [|reflexivity]. apply lookup_In in L. apply (in_map fst) in L. apply H in L as (p & I & M).
    apply contains_mentions in M. assert (existsb (fun p => contains2 "%" (letter k) p) patterns = true) as Y; [|congruence].
    apply existsb_exists. eauto.
Qed.

Lemma parse_as_shown d patterns t : valid_datetime t = true -> shows_date patterns ->
  (forall f v, In (f, v) d -> exists k, f = kind k /\ v = shown k t) ->
  (forall f, In f (map fst d) <-> exists p, In p patterns /\ mentions p f) ->
  exists u, parse_fields d = Ok (Some u) /\ as_shown patterns t u /\ tags_of d = [].
Proof.
  intros V [_ S] Hv Hk. assert (forall f, In f [Year; Month; Day] -> In f (map fst d)) as I by (intros f If; apply Hk, S, If).
  destruct (parse_shown d t V Hv) as (u & E & Du & _ & Tg & Hu & Mu & Su & Zu); try (apply I; cbn; tauto).
  exists u. split; [exact E|]. split; [|exact Tg]. unfold as_shown. split; [exact Du|]. split; [exact Zu|].
  rewrite Hu, Mu, Su. repeat split.
  - exact (lookup_shows d patterns FH Hk _ _).
  - exact (lookup_shows d patterns FM Hk _ _).
  - exact (lookup_shows d patterns FS Hk _ _).
Qed.

Lemma no_value t : forall k v, lookup [] (kind k) = Some v -> v = shown k t.
Proof. discriminate. Qed.

Lemma append_results_In l r name d t : append_results l = Ok r -> In (name, d) l -> parse_fields d = Ok t -> In (name, t, tags_of d) (fst r).
Proof.
  revert r. induction l as [|[n d'] l IH]; intros r E I P; [destruct I|]. cbn [append_results] in E. destruct I as [X|I].
  - injection X as -> ->. rewrite P in E. destruct (append_results l); [|discriminate]. cbn in E. injection E as <-. now left.
  - destruct (parse_fields d') as [t'|e].
    + destruct (append_results l) as [r'|]; [|discriminate]. cbn in E. injection E as <-. right. auto.
    + destruct e; try discriminate. destruct (append_results l) as [r'|]; [|discriminate]. cbn in E. injection E as <-. cbn. auto.
Qed.

(* The file that a step writes for time t, searched with the same patterns, is catalogued with that time: one pattern. *)
Theorem C65_single_pattern_round_trip :
  forall dict_order traversal p t name names matches errors flagged,
  valid_datetime t = true -> shows_date [p] -> filename_from_patterns [p] t = Ok name -> In name names ->
  search_subset dict_order traversal [p] names = Ok (matches, errors, flagged) ->
  exists u, In (name, Some u, []) matches /\ as_shown [p] t u.
Proof.
  intros dict_order traversal p t name names ms es fl V [T S] F I E. cbn in F. injection F as <-. rewrite build_from_pattern_render, <- build_from_pattern_render in *.
  destruct (build_spelled [] p t (fun f => T p f (or_introl eq_refl)) (no_value t) (fun f _ => eq_refl)) as (d & R & Hv & Hm).
  unfold search_subset in E. destruct (nested_search_patterns dict_order traversal [p] names) as [found|] eqn:N; [|discriminate]. cbn [bind] in E.
  destruct (append_results found) as [r|] eqn:A; [|discriminate]. cbn [bind] in E. injection E as <- <- <-.
  rewrite <- (string_app_nil_r (build_from_pattern p t)) in I.
  destruct (C17_every_file_of_a_single_form_is_found _ _ _ _ _ N _ _ _ I R) as (d' & I' & Ed). rewrite Ed in I' by (intros f; apply T; now left). clear d' Ed.
  rewrite string_app_nil_r in I'. destruct (parse_as_shown d [p] t V (conj T S) Hv) as (u & P & Sh & Tg).
  - intros f. split.
    + intros If. exists p. split; [now left|]. apply spelled_iff, rxspell_keys in R. rewrite R in If. apply groups_mentions in If. tauto.
    + intros (q & [<-|[]] & M). destruct (Hm f M) as [X|X]; [exact X|destruct (X eq_refl)].
  - exists u. split; [|exact Sh]. pose proof (append_results_In _ _ _ _ _ A I' P) as X. now rewrite Tg in X.
Qed.
Print Assumptions C65_single_pattern_round_trip.

(* A directory and a file pattern; the directory pattern must end with a slash, since the search does not insert one. *)
Theorem C65_two_patterns_round_trip :
  forall dict_order traversal q c t name names matches errors flagged, reorders dict_order -> reorders traversal ->
  valid_datetime t = true -> shows_date [(q ++ "/")%string; c] -> (forall c', c <> String "/" c') ->
  filename_from_patterns [(q ++ "/")%string; c] t = Ok name -> In name names ->
  search_subset dict_order traversal [(q ++ "/")%string; c] names = Ok (matches, errors, flagged) ->
  exists u, In (name, Some u, []) matches /\ as_shown [(q ++ "/")%string; c] t u.
Proof.
  intros dict_order traversal q c t name names ms es fl P1 P2 V [T S] Nc F I E. set (p := (q ++ "/")%string) in *.
  assert (name = (build_from_pattern p t ++ build_from_pattern c t)%string) as ->.
  { unfold filename_from_patterns, os_path_join in F. cbn [map fold_left] in F. injection F as <-. unfold join_one.
    assert (starts_with_slash (build_from_pattern c t) = false) as ->.
    { rewrite build_from_pattern_render, starts_render, items_starts. destruct c as [|x c]; [reflexivity|]. cbn. destruct (Ascii.eqb_spec x "/") as [->|]; [destruct (Nc c eq_refl)|reflexivity]. }
    assert (ends_with_slash (build_from_pattern p t) = true) as ->.
    { unfold p. rewrite build_pattern_slash. rewrite ends_app by discriminate. reflexivity. }
    rewrite orb_true_r. reflexivity. }
  destruct (build_spelled [] p t (fun f => T p f (or_introl eq_refl)) (no_value t) (fun f _ => eq_refl)) as (da & Ra & Hva & Hma).
  assert (forall k v, lookup da (kind k) = Some v -> v = shown k t) as Ka.
  { intros k v L. apply lookup_In in L. destruct (Hva _ _ L) as (k' & Ek & ->). destruct k, k'; try discriminate; reflexivity. }
  assert (forall f, width f = None -> lookup da f = None) as Ta.
  { intros f W. destruct (lookup da f) eqn:L; [|reflexivity]. apply lookup_In in L. destruct (Hva _ _ L) as (k & -> & _). destruct k; discriminate. }
  destruct (build_spelled da c t (fun f => T c f (or_intror (or_introl eq_refl))) Ka Ta) as (db & Rb & Hvb & Hmb).
  unfold search_subset in E. destruct (nested_search_patterns dict_order traversal [p; c] names) as [found|] eqn:N; [|discriminate]. cbn [bind] in E.
  destruct (append_results found) as [r|] eqn:A; [|discriminate]. cbn [bind] in E. injection E as <- <- <-.
  assert (In ((build_from_pattern p t ++ build_from_pattern c t)%string, db ++ da) found) as I'.
  { rewrite <- (string_app_nil_r (build_from_pattern c t)) in I |- *.
    eapply (C17_every_file_of_the_form_is_found dict_order traversal p c names found P1 P2); eauto.
    intros f [M|M]; [apply (T p)|apply (T c)]; cbn; auto. }
  assert (forall f, In f (map fst (db ++ da)) <-> exists x, In x [p; c] /\ mentions x f) as Hk.
  { intros f. rewrite map_app, in_app_iff. apply spelled_rx, rxspell_keys in Ra as Ga. apply spelled_rx, rxspell_keys in Rb as Gb. split.
    - intros [If|If].
      + exists c. split; [cbn; auto|]. rewrite Gb in If. apply groups_mentions in If. tauto.
      + exists p. split; [cbn; auto|]. rewrite Ga in If. apply groups_mentions in If. tauto.
    - intros (x & [<-|[<-|[]]] & M).
      + right. destruct (Hma f M) as [X|X]; [exact X|destruct (X eq_refl)].
      + destruct (Hmb f M) as [X|X]; [now left|]. right. destruct (lookup da f) eqn:L; [|congruence]. apply lookup_In in L. now apply (in_map fst) in L. }
  assert (forall f v, In (f, v) (db ++ da) -> exists k, f = kind k /\ v = shown k t) as Hv by (intros f v If; apply in_app_iff in If as [If|If]; auto).
  destruct (parse_as_shown (db ++ da) [p; c] t V (conj T S) Hv Hk) as (u & P & Sh & Tg).
  exists u. split; [|exact Sh]. pose proof (append_results_In _ _ _ _ _ A I' P) as X. now rewrite Tg in X.
Qed.
Print Assumptions C65_two_patterns_round_trip.

(* For daily steps that start at midnight the found time is the time of the step, so the file belongs to its step. *)
Theorem C65_daily_outputs_are_found_for_their_step :
  forall start end_ i patterns t u, start mod DAY = 0 -> st_time_at_index (step_daily start end_) i = Ok t ->
  as_shown patterns t u -> u = t /\ st_index_at_time (step_daily start end_) (Some u) = Ok i.
Proof.
  intros start end_ i patterns t u Hs E (D & Z0 & Hh & Hm & Hss).
  assert (t = start + i * DAY) as Et.
  { cbn in E. unfold daily_time_at_index, days_number_to_datetime, dt_add in E. cbv zeta in E. destruct (valid_datetime _); [|discriminate]. congruence. }
  assert (t mod DAY = 0) as Ht by (subst t; unfold DAY in *; lia).
  assert (dt_hour t = 0 /\ dt_minute t = 0 /\ dt_second t = 0) as (A1 & A2 & A3).
  { unfold dt_hour, dt_minute, dt_second. rewrite Ht. repeat split; reflexivity. }
  rewrite A1 in Hh. rewrite A2 in Hm. rewrite A3 in Hss.
  assert (dt_hour u = 0 /\ dt_minute u = 0 /\ dt_second u = 0) as (B1 & B2 & B3).
  { assert (forall b : bool, (if b then 0 else 0) = 0) as Q by (intros []; reflexivity). rewrite Q in Hh, Hm, Hss. auto. }
  assert (u / DAY = t / DAY) as Eu.
  { destruct (date_fields u) as (_ & _ & O1). destruct (date_fields t) as (_ & _ & O2). unfold date_of in D.
    assert (forall a b c a' b' c' : Z, (a, b, c) = (a', b', c') -> a = a' /\ b = b' /\ c = c') as Q by (intros; repeat split; congruence).
    apply Q in D as (D1 & D2 & D3). rewrite D1, D2, D3 in O1. lia. }
  assert (u = t) as ->.
  { unfold dt_hour in B1. unfold dt_minute in B2. unfold dt_second in B3. unfold DAY, SECOND in *. lia. }
  split; [reflexivity|]. now apply Time_Props.C08_index_of_step_time.
Qed.
Print Assumptions C65_daily_outputs_are_found_for_their_step.

(* Without the slash at the end of the directory pattern the outputs are never found again. *)
Theorem C65_missing_slash_refuted :
  exists t name, filename_from_patterns ["%Y"%string; "a%m%d.nc"%string] t = Ok name /\
  search_subset (fun l => l) (fun l => l) ["%Y"%string; "a%m%d.nc"%string] [name] = Ok ([], [], []).
Proof. exists (ymd2ord 2010 1 2 * DAY), "2010/a0102.nc"%string. split; vm_compute; reflexivity. Qed.
Print Assumptions C65_missing_slash_refuted.

Example C65_nonvacuous :
  exists t name, parse "20120229000000" = Ok t /\ filename_from_patterns ["%Y/"%string; "a_%Y%m%d.nc"%string] t = Ok name /\ name = "2012/a_20120229.nc"%string /\
  shows_date [("%Y" ++ "/")%string; "a_%Y%m%d.nc"%string] /\
  search_subset (fun l => l) (@rev _) ["%Y/"%string; "a_%Y%m%d.nc"%string] ["x"%string; name; "2011/a_20110229.nc"%string]
  = Ok ([(name, Some t, [])], ["2011/a_20110229.nc"%string], ["2011/a_20110229.nc"%string; name]).
Proof.
  exists (ymd2ord 2012 2 29 * DAY), "2012/a_20120229.nc"%string.
  split; [vm_compute; reflexivity|]. split; [vm_compute; reflexivity|]. split; [reflexivity|]. split; [|vm_compute; reflexivity]. split.
  - intros p f Ip M. assert (In f (groups (make_search_expression p []))) as I by (apply groups_mentions; split; [exact M|reflexivity]).
    destruct Ip as [<-|[<-|[]]]; cbn in I; repeat (destruct I as [<-|I]; [discriminate|]); destruct I.
  - intros f I. exists "a_%Y%m%d.nc"%string. split; [cbn; auto|].
    assert (In f (groups (make_search_expression "a_%Y%m%d.nc" []))) as X by (cbn in *; tauto). apply groups_mentions in X. tauto.
Qed.

(* ============================================================ C66: every file found is accounted for *)

Lemma append_results_names l r : append_results l = Ok r ->
  Permutation (map fst l) (map (fun m => fst (fst m)) (fst r) ++ snd r).
Proof.
  revert r. induction l as [|[n d] l IH]; intros r E; cbn [append_results] in E.
  - injection E as <-. reflexivity.
  - destruct (parse_fields d) as [t|e].
    + destruct (append_results l) as [r'|]; [|discriminate]. cbn in E. injection E as <-. cbn [map fst app snd]. constructor. auto.
    + destruct e; try discriminate. destruct (append_results l) as [r'|]; [|discriminate]. cbn in E. injection E as <-. cbn [map fst app snd].
      rewrite IH by reflexivity. apply Permutation_middle.
Qed.

Theorem C66_every_file_is_accounted_for :
  forall dict_order traversal subsets names results non_matching,
  search_dataset dict_order traversal subsets names = Ok (results, non_matching) ->
  length results = length subsets /\
  forall name, In name names ->
  (In name non_matching <-> ~ exists r, In r results /\ (In name (map (fun m => fst (fst m)) (fst r)) \/ In name (snd r))).
Proof.
  intros dict_order traversal subsets names results nm E. unfold search_dataset in E. destruct (mapM _ subsets) as [found|] eqn:M; [|discriminate].
  cbn [bind] in E. injection E as <- <-. split; [rewrite map_length; eapply mapM_length; exact M|].
  intros name I. rewrite filter_In, negb_true_iff.
  assert (existsb (fun r => existsb (String.eqb name) (snd r)) found = true <->
          exists r, In r (map fst found) /\ (In name (map (fun m => fst (fst m)) (fst r)) \/ In name (snd r))) as X.
  { rewrite existsb_exists. split.
    - intros ([[m e] fl] & Ir & X). exists (m, e). split; [apply in_map_iff; exists (m, e, fl); auto|].
      apply existsb_exists in X as (n & In1 & En). apply String.eqb_eq in En. subst n. cbn [fst snd] in *.
      destruct (mapM_In _ _ _ _ M Ir) as (pats & _ & Es). unfold search_subset in Es. destruct (nested_search_patterns _ _ pats names) as [ex|]; [|discriminate].
      cbn [bind] in Es. destruct (append_results ex) as [r|] eqn:A; [|discriminate]. cbn [bind] in Es. injection Es as <- <- <-.
      apply append_results_names in A. apply (Permutation_in _ A) in In1. now apply in_app_iff in In1.
    - intros (r & Ir & X). apply in_map_iff in Ir as ([[m e] fl] & <- & Ir). exists (m, e, fl). split; [exact Ir|]. cbn [fst snd] in *.
      destruct (mapM_In _ _ _ _ M Ir) as (pats & _ & Es). unfold search_subset in Es. destruct (nested_search_patterns _ _ pats names) as [ex|]; [|discriminate].
      cbn [bind] in Es. destruct (append_results ex) as [r|] eqn:A; [|discriminate]. cbn [bind] in Es. injection Es as <- <- <-.
      apply append_results_names in A. apply in_app_iff in X. apply (Permutation_in _ (Permutation_sym A)) in X.
      apply existsb_exists. exists name. split; [exact X|apply String.eqb_refl]. }
  rewrite <- X. split.
  - intros [_ F]. congruence.
  - intros N. split; [exact I|]. now apply not_true_is_false.
Qed.
Print Assumptions C66_every_file_is_accounted_for.

Lemma NoDup_app_iff {A} (l l' : list A) : NoDup (l ++ l') <-> NoDup l /\ NoDup l' /\ (forall x, In x l -> In x l' -> False).
Proof.
  induction l as [|a l IH]; cbn [app].
  - split; [intros H; split; [constructor|]; split; [exact H|intros x []]|tauto].
  - rewrite !NoDup_cons_iff, IH, in_app_iff. cbn [In]. split.
    + intros (H1 & H2 & H3 & H4). repeat split; auto. intros x [->|I] J; [tauto|eauto].
    + intros ((H1 & H2) & H3 & H4). repeat split; auto. intros [I|I]; [tauto|]. apply (H4 a); auto. intros x I J. apply (H4 x); auto.
Qed.

(* Each file is listed at most once per subset. *)
Theorem C66_listed_once :
  forall dict_order traversal patterns names matches errors flagged, reorders traversal -> NoDup names ->
  search_subset dict_order traversal patterns names = Ok (matches, errors, flagged) ->
  NoDup (map (fun m => fst (fst m)) matches ++ errors).
Proof.
  intros dict_order traversal patterns names ms es fl P2 ND E. unfold search_subset in E.
  destruct (nested_search_patterns dict_order traversal patterns names) as [ex|] eqn:N; [|discriminate]. cbn [bind] in E.
  destruct (append_results ex) as [r|] eqn:A; [|discriminate]. cbn [bind] in E. injection E as <- <- <-.
  eapply Permutation_NoDup; [exact (append_results_names _ _ A)|]. clear A r.
  assert (forall child g found, child_matches child g = Ok found -> exists keep, map fst found = map fst (filter keep (snd g))) as CM.
  { intros child g found C. unfold child_matches in C. destruct (compile _) as [e|]; [|discriminate]. cbn [bind] in C. injection C as <-.
    exists (fun en => match re_match e (snd en) with Some _ => true | None => false end). induction (snd g) as [|en l IH]; [reflexivity|].
    cbn [flat_map filter]. destruct (re_match e (snd en)) as [[? ?]|]; cbn [app map fst]; [f_equal|]; exact IH. }
  assert (forall (l : list (string * string)) keep, NoDup (map fst l) -> NoDup (map fst (filter keep l))) as NF.
  { intros l keep. induction l as [|x l IH]; [auto|]. cbn. intros H. inversion H as [|? ? H1 H2]; subst. destruct (keep x); [|auto]. cbn. constructor; [|auto].
    intros I. apply H1. apply in_map_iff in I as (y & <- & I). apply filter_In in I as [I _]. now apply in_map. }
  destruct patterns as [|p [|c [|? ?]]]; try discriminate.
  - cbn in N. destruct (CM _ _ _ N) as [keep ->]. apply NF. cbn [snd]. rewrite map_map. cbn. now rewrite map_id.
  - apply two_inv in N as (_ & fs & M & ->). set (gs := traversal _) in M.
    assert (NoDup (map fst (members gs))) as NG.
    { assert (Permutation (members gs) (members (parent_groups dict_order (make_search_expression p []) names))) as P by (apply Permutation_flat_map, P2).
      eapply Permutation_NoDup; [apply Permutation_map; symmetry; rewrite P; apply parent_members|].
      clear -ND. induction names as [|n names IH]; [constructor|]. inversion ND as [|? ? H1 H2]; subst. cbn [flat_map].
      destruct (re_match _ n) as [[v r]|]; [|auto]. cbn [app map fst]. constructor; [|auto]. intros I. apply H1. apply in_map_iff in I as ([n' r'] & <- & I).
      apply in_flat_map in I as (m & Im & I). destruct (re_match _ m) as [[? ?]|]; [|destruct I]. destruct I as [X|[]]. injection X as <- <-. exact Im. }
    clearbody gs. apply mapM_ok_Forall2 in M. induction M as [|[k g] f gs fs C M IH]; [constructor|].
    unfold members in *. cbn [flat_map snd concat] in *. rewrite map_app in *. destruct (CM _ _ _ C) as [keep Ek]. cbn [snd] in Ek.
    assert (forall f0 gs0 n, Forall2 (fun kg y => child_matches c (snd kg) = Ok y) gs0 f0 -> In n (map fst (concat f0)) -> In n (map fst (flat_map (fun g0 : string * (fields * list (string * string)) => snd (snd g0)) gs0))) as Sub.
    { intros f0 gs0 n F. induction F as [|[k0 g0] f1 gs0 f0 C0 F IHF]; [auto|]. cbn [concat flat_map snd]. rewrite !map_app, !in_app_iff. intros [I|I]; [left|right; auto].
      destruct (CM _ _ _ C0) as [kp Ekp]. cbn [snd] in *. assert (In n (map fst (filter kp (snd g0)))) as I2 by (rewrite <- Ekp; exact I). clear I. rename I2 into I. apply in_map_iff in I as (y & <- & I). apply filter_In in I as [I _]. now apply in_map. }
    apply NoDup_app_iff in NG as (N1 & N2 & N3). apply NoDup_app_iff. split; [eapply eq_ind_r; [|exact Ek]; now apply NF|]. split; [now apply IH|].
    intros n I1 I2. apply (N3 n); [|now apply (Sub fs gs)]. assert (In n (map fst (filter keep (snd g)))) as I3 by (rewrite <- Ek; exact I1). clear I1. rename I3 into I1. apply in_map_iff in I1 as (y & <- & I1). apply filter_In in I1 as [I1 _]. now apply in_map.
Qed.
Print Assumptions C66_listed_once.

(* ============================================================ C67: dates from captured fields *)

Theorem C67_dates_are_those_shown :
  forall d y m dd, lookup d Year = Some y -> lookup d Month = Some m -> lookup d Day = Some dd ->
  forall t, parse_fields d = Ok t -> exists u, t = Some u /\ valid_datetime u = true /\ date_of u = (int_of 0 y, int_of 0 m, int_of 0 dd).
Proof.
  intros d y m dd E1 E2 E3 t. unfold parse_fields. rewrite E1, E2, E3. cbn [option_map].
  destruct (mk_datetime _ _ _ _ _ _) as [u|] eqn:M; [|discriminate]. cbn [bind]. intros X. injection X as <-. apply mk_datetime_ok in M. exists u. tauto.
Qed.
Print Assumptions C67_dates_are_those_shown.

(* Missing month or day mean the first. *)
Theorem C67_missing_means_first :
  forall d y t, lookup d Year = Some y -> parse_fields d = Ok t ->
  exists u, t = Some u /\ dt_year u = int_of 0 y /\
    (lookup d Month = None -> date_of u = (int_of 0 y, 1, 1)) /\
    (forall m, lookup d Month = Some m -> lookup d Day = None -> date_of u = (int_of 0 y, int_of 0 m, 1)).
Proof.
  intros d y t E1. unfold parse_fields. rewrite E1. cbn [option_map].
  assert (forall a b c : Z, forall u, date_of u = (a, b, c) -> dt_year u = a) as Q by (unfold date_of; congruence).
  destruct (lookup d Month) as [m|] eqn:E2; cbn [option_map]; [destruct (lookup d Day) as [dd|] eqn:E3; cbn [option_map]|];
    (destruct (mk_datetime _ _ _ _ _ _) as [u|] eqn:M; [|discriminate]); cbn [bind]; intros X; injection X as <-; apply mk_datetime_ok in M as (V & D & _);
    exists u; (split; [reflexivity|]); (split; [exact (Q _ _ _ _ D)|]); split; try congruence; intros; try congruence.
Qed.
Print Assumptions C67_missing_means_first.

(* A day without a month is silently replaced by the first (full claim: fields shown in the name are respected). *)
Theorem C67_day_without_month_refuted :
  exists d t, lookup d Day = Some "17"%string /\ parse_fields d = Ok (Some t) /\ dt_day t = 1.
Proof. exists [(Year, "2010"%string); (Day, "17"%string)], (ymd2ord 2010 1 1 * DAY). split; [reflexivity|]. split; vm_compute; reflexivity. Qed.
Print Assumptions C67_day_without_month_refuted.

(* Date fields without a year: one such file makes the whole search fail, instead of being listed as an error. *)
Theorem C67_missing_year_fails_refuted :
  forall dict_order traversal names name, In name names ->
  (exists form more d, name = (form ++ more)%string /\ spelled [] "%m%d.nc" d form) ->
  search_subset dict_order traversal ["%m%d.nc"%string] names = Err TypeError.
Proof.
  intros dict_order traversal names name I (form & more & d & -> & R). unfold search_subset.
  destruct (nested_search_patterns dict_order traversal ["%m%d.nc"%string] names) as [found|] eqn:N.
  2:{ cbn [nested_search_patterns] in N. unfold child_matches in N. cbn [fst] in N. replace (compile (make_search_expression "%m%d.nc" [])) with (Ok (make_search_expression "%m%d.nc" [])) in N by reflexivity. discriminate. }
  cbn [bind]. destruct (C17_every_file_of_a_single_form_is_found _ _ _ _ _ N _ _ _ I R) as (d' & I' & _).
  assert (forall n x, In (n, x) found -> parse_fields x = Err TypeError) as All.
  { intros n x Ix. destruct (single_In _ _ _ _ _ _ _ N Ix) as (_ & r & M). apply re_match_In, matches_spec in M as (a & _ & Ra). apply rxspell_keys in Ra.
    destruct x as [|[f1 v1] [|[f2 v2] [|? ?]]]; try discriminate. cbn in Ra. injection Ra as -> ->. reflexivity. }
  destruct found as [|[n x] found]; [destruct I'|]. cbn [append_results]. rewrite (All n x) by (now left). reflexivity.
Qed.
Print Assumptions C67_missing_year_fails_refuted.

Lemma append_results_inv l r name t tags : append_results l = Ok r -> In (name, t, tags) (fst r) ->
  exists d, In (name, d) l /\ parse_fields d = Ok t /\ tags = tags_of d.
Proof.
  revert r. induction l as [|[n d] l IH]; intros r E I; cbn [append_results] in E.
  - injection E as <-. destruct I.
  - destruct (parse_fields d) as [t'|e] eqn:P.
    + destruct (append_results l) as [r'|]; [|discriminate]. cbn in E. injection E as <-. cbn [fst] in I. destruct I as [X|I].
      * injection X as -> -> <-. exists d. split; [now left|auto].
      * destruct (IH _ eq_refl I) as (d' & I' & X). exists d'. split; [now right|auto].
    + destruct e; try discriminate. destruct (append_results l) as [r'|]; [|discriminate]. cbn in E. injection E as <-. cbn [fst] in I.
      destruct (IH _ eq_refl I) as (d' & I' & X). exists d'. split; [now right|auto].
Qed.

(* The tags of a file are the texts of %A, %B, %C in that order, up to the first that is missing. *)
Theorem C67_tags_are_the_text_fields :
  forall dict_order traversal patterns names matches errors flagged found,
  search_subset dict_order traversal patterns names = Ok (matches, errors, flagged) ->
  nested_search_patterns dict_order traversal patterns names = Ok found ->
  forall name t tags, In (name, t, tags) matches -> exists d, In (name, d) found /\
    nth_error tags 0 = lookup d TagA /\
    (lookup d TagA <> None -> nth_error tags 1 = lookup d TagB) /\
    (lookup d TagA <> None -> lookup d TagB <> None -> nth_error tags 2 = lookup d TagC) /\ nth_error tags 3 = None.
Proof.
  intros dict_order traversal patterns names ms es fl found E N name t tags I. unfold search_subset in E. rewrite N in E. cbn [bind] in E.
  destruct (append_results found) as [r|] eqn:A; [|discriminate]. cbn [bind] in E. injection E as <- <- <-.
  destruct (append_results_inv _ _ _ _ _ A I) as (d & Id & _ & ->). exists d. split; [exact Id|]. unfold tags_of.
  destruct (lookup d TagA); [|split; [reflexivity|]; split; [tauto|]; split; [tauto|reflexivity]].
  destruct (lookup d TagB); [destruct (lookup d TagC)|]; repeat split; intros; try reflexivity; congruence.
Qed.
Print Assumptions C67_tags_are_the_text_fields.

Example C67_nonvacuous :
  exists u, parse_fields [(Day, "29"%string); (Year, "2012"%string); (Month, "02"%string); (TagA, "x"%string)] = Ok (Some u) /\ parse "20120229000000" = Ok u /\
  parse_fields [(Day, "29"%string); (Year, "2011"%string); (Month, "02"%string)] = Err ValueError /\
  search_subset (fun l => l) (fun l => l) ["%m%d.nc"%string] ["readme"%string; "0203.nc"%string] = Err TypeError /\
  search_subset (fun l => l) (fun l => l) ["%A/"%string; "%B-%Y"%string] ["a/b-2012"%string] = Ok ([("a/b-2012"%string, Some (ymd2ord 2012 1 1 * DAY), ["a"%string; "b"%string])], [], ["a/b-2012"%string]).
Proof. exists (ymd2ord 2012 2 29 * DAY). repeat split; vm_compute; reflexivity. Qed.
