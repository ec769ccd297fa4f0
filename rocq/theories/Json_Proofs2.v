(* Catalogues through JSON. *)
From Coq Require Import QArith Qcanon String Ascii Lia.
From Verif Require Import Base Time_Model Time_Spec Time_Proofs NcObj_Model Json_Model Json_Spec Json_Proofs.
Local Open Scope Z_scope.
Local Open Scope list_scope.

Section Catalogue.
Variables (fresh : string) (runs : string -> bool) (other : string -> list (string * py) -> result py).
Notation make := (construct fresh runs other).
Notation ok := (row_ok make).

Lemma row_text n o : whenever plain_text o -> ok (n, Some PNone, if_any PStr o, if_any PStr (some_text o)).
Proof. destruct o as [[|c s]|]; cbn [whenever]; intros P; [right; split; reflexivity| |right; split; reflexivity]. left. split; [reflexivity|]. apply returns_str. exact P. Qed.
Lemma row_number n o : ok (n, Some PNone, if_any PInt o, if_any PInt (some_number o)).
Proof. destruct o as [[| |]|]; (right; split; reflexivity) || (left; split; [reflexivity|]; apply returns_simple; exact I). Qed.
Lemma row_time n o : whenever (fun t => valid_datetime t = true) o -> ok (n, Some PNone, if_any PTime o, if_any PTime (option_map to_the_second o)).
Proof. destruct o as [t|]; cbn [whenever]; intros P; [left; split; [reflexivity|]; apply returns_time; exact P|right; split; reflexivity]. Qed.
Lemma returns_map {A B} (f : A -> py) (g : B -> py) (h : A -> B) inside l : (forall a, In a l -> returns make inside (f a) (g (h a))) -> returns make inside (PList (map f l)) (PList (map g (map h l))).
Proof. intros H. apply returns_list. rewrite map_map. induction l as [|a l IH]; cbn; constructor; [apply H; now left|apply IH; intros b I; apply H; now right]. Qed.
Lemma returns_texts l : plain_texts l -> returns make true (texts l) (texts l).
Proof. intros P. unfold texts. pattern l at 2. rewrite <- map_id. apply returns_map. unfold plain_texts in P. rewrite Forall_forall in P. intros s I. apply returns_str, P, I. Qed.
Lemma row_texts n o : whenever plain_texts o -> ok (n, Some PNone, if_any texts o, if_any texts (some_list o)).
Proof. destruct o as [[|s l]|]; cbn [whenever]; intros P; [right; split; reflexivity| |right; split; reflexivity]. left. split; [reflexivity|]. cbn [r_value r_back fst snd if_any some_list]. now apply returns_texts. Qed.
Lemma row_list {A} n (f : A -> py) (h : A -> A) o : whenever (Forall (fun a => returns make true (f a) (f (h a)))) o ->
  ok (n, Some PNone, if_any (fun l => PList (map f l)) o, if_any (fun l => PList (map f l)) (option_map (map h) (some_list o))).
Proof.
  destruct o as [[|s l]|]; cbn [whenever]; intros P; [right; split; reflexivity| |right; split; reflexivity]. left. split; [reflexivity|]. rewrite Forall_forall in P. apply (returns_map f f h). exact P.
Qed.
Ltac class_name_tac := unfold class_name; split; [apply is_ascii_iff; vm_compute; reflexivity|]; split; [|discriminate].
Lemma eumopps_name c : exists a b, ("eumopps." ++ c)%string = (a ++ "." ++ b)%string.
Proof. exists "eumopps"%string, c. reflexivity. Qed.
Ltac name_tac := unfold class_name; split; [apply is_ascii_iff; vm_compute; reflexivity|split; [apply eumopps_name|discriminate]].
Ltac nodup_tac := cbn [map r_name fst snd]; repeat constructor; cbn; intuition discriminate.
Ltac rows_tac := repeat apply Forall_cons; [..|apply Forall_nil].
Ltac notin_tac := cbn; intuition discriminate.

Lemma plain_instance cls rows : class_name cls -> NoDup (map r_name rows) -> ~ In CLASSID (map r_name rows) -> Forall ok rows ->
  String.eqb cls CATALOGUE = false -> String.eqb cls OPERATION = false -> String.eqb cls STEP_DAILY = false -> get CLASSES cls = Some (plain_class (params_of rows)) ->
  forall inside, returns make inside (PObj cls (attributes_of rows)) (PObj cls (back_of rows)).
Proof.
  intros C N NC F A B D G inside. eapply rows_return; [exact C|exact N|exact NC|exact F|]. unfold construct. rewrite A, B, D, G. unfold construct_plain, plain_class. cbn [c_params c_fields]. rewrite (bind_rows make) by assumption. cbn [bind].
  replace (fields_of (back_of rows) (same_fields (map fst (params_of rows)))) with (Ok (back_of rows)); [reflexivity|]. symmetry.
  assert (G2 : forall part, (forall r, In r part -> In r rows) -> fields_of (back_of rows) (same_fields (map fst (params_of part))) = Ok (back_of part)); [|apply G2; auto].
  induction part as [|r part IH]; intros S; [reflexivity|]. unfold fields_of, same_fields, params_of, back_of. cbn [map mapM fst snd field_value].
  assert (E : get (back_of rows) (r_name r) = Some (r_back r)).
  { assert (I := S r (or_introl eq_refl)). clear -I N. unfold get, back_of. induction rows as [|x rows IH]; [destruct I|]. cbn [map] in N. inversion N as [|? ? NI N']; subst. cbn [map find fst snd]. destruct I as [->|I]; [now rewrite String.eqb_refl|].
    destruct (String.eqb_spec (r_name x) (r_name r)) as [E|_]; [exfalso; apply NI; rewrite E; now apply in_map|]. now apply IH. }
  unfold back_of in E. rewrite E. cbn [bind]. specialize (IH (fun y J => S y (or_intror J))). unfold fields_of, same_fields, params_of, back_of in IH. rewrite IH. reflexivity.
Qed.

Lemma entry_returns e inside : entry_ok e -> returns make inside (of_entry e) (of_entry (entry_again e)).
Proof.
  intros (N & T & G & C). apply (plain_instance ENTRY [("name"%string, Some PNone, if_any PStr (fe_name e), if_any PStr (some_text (fe_name e)));
      ("time"%string, Some PNone, if_any PTime (fe_time e), if_any PTime (option_map to_the_second (fe_time e))); ("tags"%string, Some PNone, if_any texts (fe_tags e), if_any texts (some_list (fe_tags e)));
      ("checksum"%string, Some PNone, if_any PStr (fe_checksum e), if_any PStr (some_text (fe_checksum e))); ("size"%string, Some PNone, if_any PInt (fe_size e), if_any PInt (some_number (fe_size e)))]);
    [name_tac|nodup_tac|notin_tac| |reflexivity|reflexivity|reflexivity|reflexivity].
  rows_tac; [now apply row_text|now apply row_time|now apply row_texts|now apply row_text|apply row_number].
Qed.
Lemma layout_returns l inside : layout_ok l -> returns make inside (of_layout l) (of_layout l).
Proof.
  destruct l as [patterns| |]; cbn [layout_ok]; [|contradiction|contradiction]. intros [N P]. apply (plain_instance FILES [("patterns"%string, None, texts patterns, texts patterns)]); [name_tac|nodup_tac|notin_tac| |reflexivity|reflexivity|reflexivity|reflexivity].
  rows_tac. left. split; [now destruct patterns|]. cbn [r_value r_back fst snd]. now apply returns_texts.
Qed.
Lemma layout_true l : truth (of_layout l) = Ok true.
Proof. now destruct l. Qed.
(* a list that is empty comes back as None and is made a list again *)
Definition back_list (l l' : list py) : py := match l with [] => PNone | _ => PList l' end.
Lemma row_empty n (l l' : list py) : returns make true (PList l) (PList l') -> ok (n, Some PNone, PList l, back_list l l').
Proof. intros R. destruct l as [|x l]; [right; split; reflexivity|]. left. split; [reflexivity|exact R]. Qed.
Lemma or_empty_back (l l' : list py) : (l = [] <-> l' = []) -> or_empty (back_list l l') = Ok (PList l').
Proof. intros E. destruct l as [|x l]; [assert (l' = []) as -> by tauto; reflexivity|]. destruct l' as [|y l']; [exfalso; assert (x :: l = []) by tauto; discriminate|reflexivity]. Qed.
Lemma map_empty {A B} (f : A -> B) l : map f l = [] <-> l = [].
Proof. destruct l; cbn; split; congruence. Qed.
Lemma make_plain cls d arguments env fields : String.eqb cls CATALOGUE = false -> String.eqb cls OPERATION = false -> String.eqb cls STEP_DAILY = false -> get CLASSES cls = Some d ->
  bind_arguments (c_params d) arguments = Ok env -> fields_of env (c_fields d) = Ok fields -> make cls arguments = Ok (PObj cls fields).
Proof. intros A B D G E F. unfold construct. rewrite A, B, D, G. unfold construct_plain. rewrite E. cbn [bind]. now rewrite F. Qed.
Lemma subset_returns s inside : subset_ok s -> returns make inside (of_subset s) (of_subset (subset_again s)).
Proof.
  intros (L & M & E & U). unfold of_subset. cbn [subset_again su_layout su_matches su_errors su_unused].
  set (m := map of_entry (su_matches s)). set (m' := map of_entry (map entry_again (su_matches s))).
  set (e := map PStr (su_errors s)). set (u := map texts (su_unused s)). unfold texts at 1 2. fold e.
  assert (EM : m = [] <-> m' = []) by (unfold m, m'; rewrite !map_empty; tauto).
  assert (RM : returns make true (PList m) (PList m')) by (apply returns_map; rewrite Forall_forall in M; intros a I; apply entry_returns, M, I).
  assert (RE : returns make true (PList e) (PList e)) by (now apply returns_texts).
  assert (RU : returns make true (PList u) (PList u)).
  { unfold u. pattern (su_unused s) at 2. rewrite <- map_id. apply returns_map. rewrite Forall_forall in U. intros a I. apply returns_texts, U, I. }
  set (rows := [("layout"%string, Some PNone, of_layout (su_layout s), of_layout (su_layout s)); ("matches"%string, Some PNone, PList m, back_list m m');
      ("value_errors"%string, Some PNone, PList e, back_list e e); ("archive_unused"%string, Some PNone, PList u, back_list u u)]).
  assert (N : NoDup (map r_name rows)) by nodup_tac.
  assert (F : Forall ok rows) by (unfold rows; rows_tac; [left; split; [apply layout_true|now apply layout_returns]|now apply row_empty|now apply row_empty|now apply row_empty]).
  apply (rows_return make inside SUBSET rows); [name_tac|exact N|notin_tac|exact F|].
  eapply make_plain; [reflexivity|reflexivity|reflexivity|reflexivity|exact (bind_rows make rows N F)|].
  cbn [c_fields fields_of mapM snd fst field_value]. unfold rows. cbn [back_of map r_name r_back fst snd get find String.eqb Ascii.eqb Bool.eqb]. rewrite !or_empty_back by tauto. reflexivity.
Qed.
Lemma dataset_returns d inside : dataset_ok d -> returns make inside (of_dataset d) (of_dataset (dataset_again d)).
Proof.
  intros (N & P & T & S & M). apply (plain_instance DATASET [("name"%string, Some PNone, if_any PStr (ds_name d), if_any PStr (some_text (ds_name d)));
      ("path"%string, Some PNone, if_any PStr (ds_path d), if_any PStr (some_text (ds_path d))); ("toolchain"%string, Some PNone, if_any texts (ds_toolchain d), if_any texts (some_list (ds_toolchain d)));
      ("subsets"%string, Some PNone, if_any (fun l => PList (map of_subset l)) (ds_subsets d), if_any (fun l => PList (map of_subset l)) (option_map (map subset_again) (some_list (ds_subsets d))));
      ("non_matching"%string, Some PNone, if_any texts (ds_non_matching d), if_any texts (some_list (ds_non_matching d)))]);
    [name_tac|nodup_tac|notin_tac| |reflexivity|reflexivity|reflexivity|reflexivity].
  rows_tac; [now apply row_text|now apply row_text|now apply row_texts| |now apply row_texts].
  apply row_list. destruct (ds_subsets d); [|exact I]. cbn [whenever] in *. eapply Forall_impl; [|exact S]. intros a K. now apply subset_returns.
Qed.
Lemma step_returns s inside : step_ok s -> returns make inside (of_step s) (of_step (step_again s)).
Proof.
  destruct s as [|a b]; cbn [step_ok step_again of_step].
  - intros _. apply (plain_instance STEP_ONCE []); [name_tac|nodup_tac|notin_tac| |reflexivity|reflexivity|reflexivity|reflexivity]. constructor.
  - intros [A B]. set (rows := [("start"%string, None : option py, PTime a, PTime (to_the_second a)); ("end"%string, None, PTime b, PTime (to_the_second b))]).
    assert (N : NoDup (map r_name rows)) by nodup_tac.
    assert (F : Forall ok rows) by (unfold rows; rows_tac; left; (split; [reflexivity|now apply returns_time])).
    apply (rows_return make inside STEP_DAILY rows); [name_tac|exact N|notin_tac|exact F|]. change (construct fresh runs other STEP_DAILY) with construct_step_daily. unfold construct_step_daily.
    assert (E := bind_rows make rows N F). change (params_of rows) with [required "start"; required "end"] in E. rewrite E. reflexivity.
Qed.
Lemma step_true s : truth (of_step s) = Ok true.
Proof. now destruct s. Qed.
Lemma operation_returns module_again o inside : operation_ok make runs module_again o -> returns make inside (of_operation o) (of_operation (operation_again module_again o)).
Proof.
  intros (R & T & RM & S & N & TC & ND). unfold of_operation. cbn [operation_again op_module op_step op_name op_toolchain op_newdatasets op_count].
  set (r1 := ("runmodule"%string, None : option py, op_module o, module_again (op_module o))). set (r2 := ("step"%string, None : option py, of_step (op_step o), of_step (step_again (op_step o)))).
  set (r3 := ("name"%string, Some PNone, if_any PStr (op_name o), if_any PStr (some_text (op_name o)))).
  set (r4 := ("newdatasets"%string, Some PNone, if_any (fun l => PList (map of_dataset l)) (op_newdatasets o), if_any (fun l => PList (map of_dataset l)) (option_map (map dataset_again) (some_list (op_newdatasets o))))).
  set (r5 := ("count"%string, Some PNone, if_any PInt (op_count o), if_any PInt (some_number (op_count o)))).
  set (r6 := ("toolchain"%string, Some PNone, if_any texts (op_toolchain o), if_any texts (some_list (op_toolchain o)))).
  set (rows := [r1; r2; r3; r4; r5; r6]). set (given := [r1; r2; r3; r6; r4; r5]).
  assert (NN : NoDup (map r_name rows)) by nodup_tac.
  assert (F : Forall ok rows).
  { unfold rows. rows_tac; [left; split; assumption|left; split; [apply step_true|now apply step_returns]|now apply row_text| |apply row_number|now apply row_texts].
    apply row_list. destruct (op_newdatasets o); [|exact I]. cbn [whenever] in *. eapply Forall_impl; [|exact ND]. intros a K. now apply dataset_returns. }
  assert (E : bind_arguments (params_of given) (back_of (filter r_kept rows)) = Ok (back_of given)) by (apply (bind_some make); try assumption; intros x; cbn; tauto).
  apply (rows_return make inside OPERATION rows); [name_tac|exact NN|notin_tac|exact F|]. change (construct fresh runs other OPERATION) with (construct_operation runs). unfold construct_operation.
  change (params_of given) with (required "runmodule" :: required "step" :: optional ["name"; "toolchain"; "newdatasets"; "count"]%string) in E. rewrite E. cbn [bind].
  change (get (back_of given) "runmodule") with (Some (module_again (op_module o))). cbv iota. unfold runnable in RM.
  assert (FO : fields_of (back_of given) (same_fields ["runmodule"; "step"; "name"; "newdatasets"; "count"; "toolchain"]%string) = Ok (back_of rows)) by reflexivity. rewrite FO. cbn [bind].
  clear E FO F NN. subst rows given r1. destruct (module_again (op_module o)) as [| | | | | | | | |d|c a]; try contradiction; [|rewrite RM; reflexivity]. destruct RM as [f G]. unfold FUNCTIONID. rewrite G. reflexivity.
Qed.
Lemma catalogue_returns module_again c inside : catalogue_ok make runs module_again c -> returns make inside (of_catalogue c) (of_catalogue (catalogue_again module_again c)).
Proof.
  intros (D & O & NI & PI). unfold of_catalogue. cbn [catalogue_again ca_datasets ca_operations ca_identifier].
  set (d := map of_dataset (ca_datasets c)). set (d' := map of_dataset (map dataset_again (ca_datasets c))). set (o := map of_operation (ca_operations c)). set (o' := map of_operation (map (operation_again module_again) (ca_operations c))).
  assert (ED : d = [] <-> d' = []) by (unfold d, d'; rewrite !map_empty; tauto). assert (EO : o = [] <-> o' = []) by (unfold o, o'; rewrite !map_empty; tauto).
  assert (RD : returns make true (PList d) (PList d')) by (apply returns_map; rewrite Forall_forall in D; intros a I; apply dataset_returns, D, I).
  assert (RO : returns make true (PList o) (PList o')) by (apply returns_map; rewrite Forall_forall in O; intros a I; apply operation_returns, O, I).
  set (r1 := ("datasets"%string, Some PNone, PList d, back_list d d')). set (r2 := ("operations"%string, Some PNone, PList o, back_list o o')). set (r3 := ("identifier"%string, Some PNone, PStr (ca_identifier c), PStr (ca_identifier c))).
  set (rows := [r1; r2; r3]). set (given := [r1; r3; r2]).
  assert (NN : NoDup (map r_name rows)) by nodup_tac.
  assert (TI : truth (PStr (ca_identifier c)) = Ok true) by (destruct (ca_identifier c); [congruence|reflexivity]).
  assert (F : Forall ok rows) by (unfold rows; rows_tac; [now apply row_empty|now apply row_empty|left; split; [exact TI|now apply returns_str]]).
  assert (E : bind_arguments (params_of given) (back_of (filter r_kept rows)) = Ok (back_of given)) by (apply (bind_some make); try assumption; intros x; cbn; tauto).
  apply (rows_return make inside CATALOGUE rows); [name_tac|exact NN|notin_tac|exact F|]. change (construct fresh runs other CATALOGUE) with (construct_catalogue fresh). unfold construct_catalogue.
  change (params_of given) with (optional ["datasets"; "identifier"; "operations"]%string) in E. rewrite E. cbn [bind]. unfold fields_of. cbn [mapM snd fst field_value].
  change (get (back_of given) "datasets") with (Some (back_list d d')). change (get (back_of given) "operations") with (Some (back_list o o')). change (get (back_of given) "identifier") with (Some (PStr (ca_identifier c))). cbv iota beta.
  rewrite !or_empty_back by tauto. cbn [bind]. change (get [("datasets"%string, PList d'); ("operations"%string, PList o'); ("identifier"%string, PStr (ca_identifier c))] "identifier") with (Some (PStr (ca_identifier c))). cbv iota. rewrite TI. reflexivity.
Qed.
End Catalogue.
