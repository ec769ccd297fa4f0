(* C152-C154: objects and catalogues in JSON files. *)
From Coq Require Import QArith Qcanon String Ascii Lia.
From Verif Require Import Base Time_Model Time_Spec Time_Proofs NcObj_Model Json_Model Json_Spec Json_Proofs Json_Proofs2 Json_Proofs3.
Local Open Scope Z_scope.
Local Open Scope list_scope.

Ltac vc := vm_compute; reflexivity.
Ltac plain := apply is_ascii_iff; vc.

(* ==== C152: objects through JSON *)

(* What is saved can be loaded, and what comes back is: numbers, truth values and None as they are, times to the second, strings as
   byte strings within instances and as unicode strings elsewhere, lists and dictionaries element by element, and for an instance
   what its class makes of the attributes that are not false. *)
Theorem C152_round_trip : forall make v w, returns make false v w -> exists j, save v = Ok j /\ load make j = Ok w.
Proof. intros make v w R. destruct (returns_through make false v w R) as (j & r & E & L & <-). exists j. split; [exact E|exact L]. Qed.
Print Assumptions C152_round_trip.
Definition plain_make (c : string) (arguments : list (string * py)) : result py := Ok (PObj c arguments).
Definition spring : Z := 63626515200 * SECOND + 5.
Example C152_round_trip_nonvacuous :
  returns plain_make false (PObj "a.B" [("x", PInt 3); ("flag", PBool false); ("when", PTime spring); ("names", PList [PStr "p"; PUni "q"]); ("table", PDict [("k", PStr "r")])]%string)
                           (PObj "a.B" [("x", PInt 3); ("when", PTime (spring - 5)); ("names", PList [PStr "p"; PStr "q"]); ("table", PDict [("k", PUni "r")])]%string).
Proof.
  eapply returns_instance; [split; [plain|]; split; [exists "a"%string, "B"%string; reflexivity|discriminate]| | | |reflexivity| |reflexivity].
  - repeat constructor; cbn; intuition discriminate.
  - cbn. intuition discriminate.
  - intros x I. cbn in I. repeat destruct I as [<-|I]; try (eexists; reflexivity). destruct I.
  - vm_compute filter. repeat (constructor; [split; [reflexivity|]|]); [apply returns_simple; exact I| | | |constructor].
    + change (PTime (spring - 5)) with (PTime (to_the_second spring)). apply returns_time. vc.
    + apply returns_list. constructor; [apply returns_str; plain|]. constructor; [apply returns_uni; plain|constructor].
    + apply returns_dict; [repeat constructor; cbn; tauto|cbn; intuition discriminate|]. constructor; [|constructor]. split; [reflexivity|]. apply returns_str_outside. plain.
Qed.

(* Saving a value or saving the dictionaries that stand for it gives the same text. *)
Theorem C152_encoder : forall v w, no_class_attribute v -> save_object v = Ok w -> save w = save v.
Proof. exact encode_default. Qed.
Print Assumptions C152_encoder.
Example C152_encoder_nonvacuous : let v := PObj "a.B" [("x", PInt 3); ("inner", PObj "a.C" [("y", PNone); ("z", PTime spring)])]%string in
  no_class_attribute v /\ exists w, save_object v = Ok w /\ w <> v.
Proof. cbv zeta. split; [cbn; repeat split; discriminate|]. eexists. split; [reflexivity|discriminate]. Qed.

(* An instance does not come back with the attributes it had: those that are false are not written, and its class puts its own
   defaults in their place. *)
Theorem C152_attributes_refuted : ~ (forall fresh runs other c a j w, save (PObj c a) = Ok j -> load (construct fresh runs other) j = Ok w -> w = PObj c a).
Proof.
  intros H. specialize (H ""%string (fun _ => true) (fun _ _ => Err ModuleError) INPUT [("datasetname", PStr "d"); ("subsetindex", PInt 1); ("missing_data", PStr "")]%string).
  specialize (H (JObj [("datasetname", JStr "d"); ("subsetindex", JInt 1); (CLASSID, JStr INPUT)]%string)
                (PObj INPUT [("datasetname", PStr "d"); ("subsetindex", PInt 1); ("missing_data", PStr "not_allowed")]%string)).
  specialize (H ltac:(vc) ltac:(vc)). discriminate.
Qed.
Print Assumptions C152_attributes_refuted.

(* A string of a dictionary comes back as another type: only within instances are strings byte strings again. *)
Theorem C152_strings_refuted : ~ (forall make s j w, plain_text s -> save (PDict [("k"%string, PStr s)]) = Ok j -> load make j = Ok w -> w = PDict [("k"%string, PStr s)]).
Proof.
  intros H. specialize (H plain_make "r"%string (JObj [("k"%string, JStr "r")]) (PDict [("k"%string, PUni "r")]) ltac:(plain) ltac:(vc) ltac:(vc)). discriminate.
Qed.
Print Assumptions C152_strings_refuted.

(* No value that holds an array of two or more numbers anywhere can be saved. *)
Theorem C152_arrays : forall l v, (2 <= List.length l)%nat -> part_of (PArray l) v -> save v = Err ValueError.
Proof. exact array_error. Qed.
Print Assumptions C152_arrays.
Example C152_arrays_nonvacuous : part_of (PArray [0; 1]) (PDict [("operations"%string, PList [PNone; PObj "a.B" [("indices"%string, PArray [0; 1])]])]).
Proof. apply part_dict with "operations"%string (PList [PNone; PObj "a.B" [("indices"%string, PArray [0; 1])]]); [now left|]. eapply part_list; [right; left; reflexivity|]. eapply part_attribute; [now left|discriminate|constructor]. Qed.

(* An instance with text beyond ASCII can be saved and not loaded. *)
Theorem C152_text : forall make c k s j, class_name c -> k <> "python_class"%string -> ~ plain_text s -> save (PObj c [(k, PUni s)]) = Ok j -> exists e, load make j = Err e.
Proof.
  intros make c k s j (PC & (x & y & DOT) & ND) N P E. unfold save in E. rewrite encode_obj in E. cbn [encode_items encode] in E.
  assert (T : truth (PUni s) = Ok true) by (destruct s; [exfalso; apply P; constructor|reflexivity]). rewrite T in E. cbn [bind] in E. rewrite (proj2 (is_ascii_iff c) PC) in E. rewrite put_new in E by (cbn; intuition congruence). injection E as <-.
  rewrite load_dict. cbn [app mapM]. unfold load_entry. cbn [fst snd load bind]. rewrite dict_of_nodup by (cbn [map fst]; constructor; [intros [F|[]]; apply N; now symmetry|constructor; [intros []|constructor]]). rewrite load_object_dict.
  change [(k, PUni s); (CLASSID, PUni c)] with ([(k, PUni s)] ++ [(CLASSID, PUni c)]). rewrite get_app_new by (cbn; intuition congruence).
  assert (D : has_dot c = true) by (rewrite DOT; apply has_dot_app). rewrite D. cbn [negb]. destruct (String.eqb_spec c DATETIME_CLASS) as [->|_]; [congruence|].
  cbn [app mapM]. unfold settle_entry at 1. cbn [fst snd load_object]. unfold to_str. destruct (is_ascii s) eqn:A; [exfalso; apply P; now apply is_ascii_iff|]. eexists. reflexivity.
Qed.
Print Assumptions C152_text.
Definition e_acute : string := String (ascii_of_nat 233) "".
Example C152_text_nonvacuous : ~ plain_text e_acute /\ class_name "a.B" /\ exists j, save (PObj "a.B" [("name"%string, PUni e_acute)]) = Ok j.
Proof.
  split; [intros P; apply is_ascii_iff in P; vm_compute in P; discriminate|]. split; [split; [plain|]; split; [exists "a"%string, "B"%string; reflexivity|discriminate]|]. eexists. vc.
Qed.

(* ==== C153: catalogues through JSON *)

(* A catalogue of data in files, with any operations whose modules can be loaded, comes back with the same data sets, files, tags,
   times, operations and identifier, in the same order; what was empty or zero comes back as None. *)
Theorem C153_round_trip : forall fresh runs other module_again c, catalogue_ok (construct fresh runs other) runs module_again c ->
  exists j, save (of_catalogue c) = Ok j /\ load (construct fresh runs other) j = Ok (of_catalogue (catalogue_again module_again c)).
Proof. intros. apply C152_round_trip. now apply catalogue_returns. Qed.
Print Assumptions C153_round_trip.
Definition midnight : Z := 63626515200 * SECOND.
Definition a_module : py :=
  PObj OUTPUT [("datasetname", PStr "result"); ("subsetindex", PInt 0)]%string.
Definition a_dataset : dataset :=
  {| ds_name := Some "stations"; ds_path := Some "/data"; ds_toolchain := None;
     ds_subsets := Some [{| su_layout := InFiles ["a_%Y%m%d.nc"];
                            su_matches := [{| fe_name := Some "a_1.nc"; fe_time := Some midnight; fe_tags := Some ["x"; "y"]; fe_checksum := None; fe_size := Some 5 |}];
                            su_errors := []; su_unused := [[]; ["u"]] |}];
     ds_non_matching := Some ["readme"] |}%string.
Definition a_catalogue : catalogue :=
  {| ca_datasets := [a_dataset; a_dataset];
     ca_operations := [{| op_module := a_module; op_step := Daily midnight (midnight + 2 * DAY); op_name := Some "op"; op_toolchain := None; op_newdatasets := Some [a_dataset]; op_count := Some 3 |};
                       {| op_module := a_module; op_step := Once; op_name := None; op_toolchain := Some ["tool"]; op_newdatasets := None; op_count := None |}];
     ca_identifier := "id" |}%string.
Lemma a_module_returns fresh runs other : returns (construct fresh runs other) true a_module a_module.
Proof.
  eapply returns_instance; [split; [plain|]; split; [exists "eumopps"%string, "catalogue.placeholder.OutputFile"%string; reflexivity|discriminate]| | | |reflexivity| |].
  - repeat constructor; cbn; intuition discriminate.
  - cbn. intuition discriminate.
  - intros x I. cbn in I. repeat destruct I as [<-|I]; try (eexists; reflexivity). destruct I.
  - vm_compute filter. constructor; [|constructor]. split; [reflexivity|]. apply returns_str with (s := "result"%string). plain.
  - reflexivity.
Qed.
Lemma a_dataset_ok : dataset_ok a_dataset.
Proof.
  repeat (split; [first [exact I | plain]|]). split; [|constructor; [plain|constructor]].
  constructor; [|constructor]. split; [split; [discriminate|constructor; [plain|constructor]]|]. split; [constructor; [|constructor]|].
  - split; [plain|]. split; [vc|]. split; [repeat (constructor; [plain|]); constructor|exact I].
  - split; [constructor|]. constructor; [constructor|]. constructor; [|constructor]. constructor; [plain|constructor].
Qed.
Lemma a_catalogue_ok fresh other : catalogue_ok (construct fresh (fun _ => true) other) (fun _ => true) (fun m => m) a_catalogue.
Proof.
  split; [repeat (constructor; [exact a_dataset_ok|]); constructor|]. split; [|split; [discriminate|plain]].
  constructor; [|constructor; [|constructor]]; (split; [apply a_module_returns|]); (split; [vc|]); (split; [vc|]).
  - split; [split; vc|]. split; [plain|]. split; [exact I|]. constructor; [exact a_dataset_ok|constructor].
  - split; [exact I|]. split; [exact I|]. split; [constructor; [plain|constructor]|exact I].
Qed.
Example C153_round_trip_nonvacuous : forall fresh other, catalogue_ok (construct fresh (fun _ => true) other) (fun _ => true) (fun m => m) a_catalogue.
Proof. exact a_catalogue_ok. Qed.

(* If nothing it states is empty, zero or a fraction of a second, the catalogue comes back as it is. *)
Theorem C153_same : forall fresh runs other module_again c, catalogue_ok (construct fresh runs other) runs module_again c -> catalogue_stated c ->
  (forall o, In o (ca_operations c) -> module_again (op_module o) = op_module o) ->
  exists j, save (of_catalogue c) = Ok j /\ load (construct fresh runs other) j = Ok (of_catalogue c).
Proof. intros fresh runs other module_again c K S M. destruct (C153_round_trip _ _ _ _ _ K) as (j & E & L). rewrite catalogue_same in L by assumption. eauto. Qed.
Print Assumptions C153_same.
Lemma a_dataset_stated : dataset_stated a_dataset.
Proof.
  repeat (split; [first [discriminate | exact I]|]). split; [|discriminate]. constructor; [|constructor]. constructor; [|constructor]. split; [discriminate|]. split; [vc|]. repeat (split; [discriminate|]). discriminate.
Qed.
Example C153_same_nonvacuous : catalogue_stated a_catalogue /\ (forall fresh other, catalogue_ok (construct fresh (fun _ => true) other) (fun _ => true) (fun m => m) a_catalogue).
Proof.
  split; [|exact a_catalogue_ok]. split; [repeat (constructor; [exact a_dataset_stated|]); constructor|]. constructor; [|constructor; [|constructor]].
  - split; [split; vc|]. split; [discriminate|]. split; [discriminate|]. split; [discriminate|]. split; [constructor; [exact a_dataset_stated|constructor]|discriminate].
  - split; [exact I|]. split; [discriminate|]. split; [discriminate|]. split; [discriminate|]. split; [exact I|discriminate].
Qed.

(* A file of no bytes comes back as one of unknown size, and a data set without subsets as one whose subsets are None. *)
Theorem C153_zero_refuted : ~ (forall fresh runs other c j w, catalogue_ok (construct fresh runs other) runs (fun m => m) c -> save (of_catalogue c) = Ok j ->
  load (construct fresh runs other) j = Ok w -> w = of_catalogue c).
Proof.
  intros H. set (d := {| ds_name := Some "d"; ds_path := None; ds_toolchain := None; ds_subsets := Some []; ds_non_matching := None |}%string).
  set (c := {| ca_datasets := [d]; ca_operations := []; ca_identifier := "id" |}%string).
  assert (K : catalogue_ok (construct "" (fun _ => true) (fun _ _ => Err ModuleError)) (fun _ => true) (fun m => m) c).
  { split; [constructor; [|constructor]|split; [constructor|split; [discriminate|plain]]]. repeat (split; [first [exact I | plain]|]). split; [constructor|exact I]. }
  destruct (C153_round_trip _ _ _ _ _ K) as (j & E & L). specialize (H _ _ _ _ _ _ K E L). discriminate.
Qed.
Print Assumptions C153_zero_refuted.

(* Whatever holds the description of an archive can be saved and never loaded: the archive is written under the name of its
   attribute, which is not the name of the constructor's argument.  The same holds of lists of files or parameters that are empty. *)
Definition unloadable : list py := [PObj FILES [("patterns", PList [])]; PObj PARAMETERS [("operation_parameters", PList [])]; PObj FILE_REFERENCE [("operation_parameters", PList [])];
  PObj LIST_REFERENCE [("operation_parameters", PList [])]]%string.
Lemma fails_within make x v j : part_of x v -> truth x = Ok true -> (forall jx, encode x = Ok jx -> exists e, load make jx = Err e) -> save v = Ok j -> exists e, load make j = Err e.
Proof. intros P T F E. destruct (part_within x v j P T E) as (jx & EX & W). destruct (F jx EX) as [e L]. eapply load_within; eassumption. Qed.
Theorem C153_archives : forall fresh runs other v j archive internal, part_of (of_layout (InTar archive internal)) v \/ part_of (of_layout (InTarGZip archive internal)) v ->
  save v = Ok j -> exists e, load (construct fresh runs other) j = Err e.
Proof.
  intros fresh runs other v j a i P E. destruct P as [P|P]; (eapply fails_within; [exact P|reflexivity| |exact E]); intros jx EX; cbn [of_layout] in EX; rewrite encode_obj in EX; cbn [encode_items truth encode bind] in EX;
  destruct a as [|x a], i as [|y i]; cbn [String.eqb negb] in EX; repeat match type of EX with context [if is_ascii (String ?h ?t) then Ok (JStr (String ?h ?t)) else Err ValueError] => destruct (is_ascii (String h t)); [|discriminate] end; cbn [bind] in EX;
  (match type of EX with (if is_ascii ?c then _ else _) = _ => change (is_ascii c) with true in EX end); cbn [put String.eqb Ascii.eqb Bool.eqb CLASSID] in EX; injection EX as <-;
  match goal with |- exists e, ?l = Err e => destruct l as [w|e] eqn:L; [|eexists; reflexivity] end; exfalso;
  (match type of L with load ?m (JObj ?d) = _ => assert (N : NoDup (map fst d)) by (repeat constructor; cbn; intuition discriminate); assert (G := load_class m d _ w N (eq_refl _)) end);
  (destruct (G ltac:(discriminate) L) as (_ & args & K & S)); eapply make_binds in K; try reflexivity; destruct K as (ps & env & SG & B); destruct (signature_given _ _ _ _ SG B) as [_ R]; specialize (R "archivepathname"%string (or_introl eq_refl)); apply S in R; cbn in R; intuition discriminate.
Qed.
Print Assumptions C153_archives.
Example C153_archives_nonvacuous : exists j, save (PList [of_layout (InTar "a.tar" "x.nc")]) = Ok j.
Proof. eexists. vc. Qed.
Theorem C153_empty : forall fresh runs other v j x, In x unloadable -> part_of x v -> save v = Ok j -> exists e, load (construct fresh runs other) j = Err e.
Proof.
  intros fresh runs other v j x I P E. cbn in I.
  repeat destruct I as [<-|I]; try contradiction; (eapply fails_within; [exact P|reflexivity| |exact E]); intros jx EX; vm_compute in EX; injection EX as <-; exists TypeError; reflexivity.
Qed.
Print Assumptions C153_empty.
Example C153_empty_nonvacuous : exists x j, In x unloadable /\ save (PDict [("k"%string, x)]) = Ok j.
Proof. eexists. eexists. split; [right; left; reflexivity|vc]. Qed.

(* ==== C154: descriptions that are not right *)

(* If any part of a file cannot be loaded then the file cannot. *)
Theorem C154_parts : forall make j j' e, within j j' -> load make j = Err e -> exists e', load make j' = Err e'.
Proof. exact load_within. Qed.
Print Assumptions C154_parts.
Example C154_parts_nonvacuous : forall make, exists j j' e, within j j' /\ j <> j' /\ load make j = Err e.
Proof. intros. exists (JObj [(CLASSID, JStr "nodot")]), (JList [JNull; JObj [(CLASSID, JStr "nodot")]]), ValueError. split; [eapply within_list; [right; left; reflexivity|constructor]|]. split; [discriminate|reflexivity]. Qed.

(* What is loaded gave its class nothing but arguments it knows, and all that it needs: a misspelt or missing entry is an error. *)
Theorem C154_arguments : forall fresh runs other d cls sig v, NoDup (map fst d) -> get d "python_class" = Some (JStr cls) -> get signatures cls = Some sig ->
  load (construct fresh runs other) (JObj d) = Ok v ->
  (forall k, In k (map fst d) -> k = "python_class"%string \/ In k (map fst sig)) /\ (forall k, In (k, true) sig -> In k (map fst d)).
Proof.
  intros fresh runs other d cls sig v N G SG L. assert (ND : cls <> DATETIME_CLASS) by (intros ->; discriminate).
  destruct (load_class _ d cls v N G ND L) as (_ & args & K & S). destruct (make_binds _ _ _ _ _ _ _ SG K) as (ps & env & SS & B). destruct (signature_given _ _ _ _ SS B) as [A R]. split.
  - intros k I. destruct (string_dec k "python_class") as [->|NK]; [now left|]. right. apply A, S. split; [exact I|exact NK].
  - intros k I. apply R, S in I. tauto.
Qed.
Print Assumptions C154_arguments.
Example C154_arguments_nonvacuous : forall fresh runs other, exists d sig v, NoDup (map fst d) /\ get d "python_class" = Some (JStr INPUT) /\ get signatures INPUT = Some sig /\
  load (construct fresh runs other) (JObj d) = Ok v.
Proof.
  intros. exists [("datasetname", JStr "d"); ("python_class", JStr INPUT)]%string. eexists. eexists. split; [repeat constructor; cbn; intuition discriminate|]. split; [reflexivity|]. split; reflexivity.
Qed.

(* A class is named with its module, or nothing is loaded. *)
Theorem C154_class_name : forall make d cls v, NoDup (map fst d) -> get d "python_class" = Some (JStr cls) -> load make (JObj d) = Ok v -> exists module name, cls = (module ++ "." ++ name)%string.
Proof.
  intros make d cls v N G L. destruct (string_dec cls DATETIME_CLASS) as [->|ND]; [exists "datetime"%string, "datetime"%string; reflexivity|].
  destruct (load_class _ d cls v N G ND L) as (D & _). clear -D. unfold has_dot in D. induction cls as [|c cls IH]; [discriminate|]. cbn [list_ascii_of_string existsb] in D. apply orb_prop in D. destruct D as [D|D].
  - exists ""%string, cls. apply Ascii.eqb_eq in D. now subst.
  - destruct (IH D) as (a & b & ->). exists (String c a), b. reflexivity.
Qed.
Print Assumptions C154_class_name.
Example C154_class_name_nonvacuous : exists v, load plain_make (JObj [("python_class"%string, JStr "a.B")]) = Ok v.
Proof. eexists. reflexivity. Qed.

(* An operation that is loaded has a module that can be run. *)
Theorem C154_operations : forall fresh runs other d v, NoDup (map fst d) -> get d "python_class" = Some (JStr OPERATION) -> load (construct fresh runs other) (JObj d) = Ok v ->
  exists a m, v = PObj OPERATION a /\ get a "runmodule" = Some m /\ runnable runs m.
Proof.
  intros fresh runs other d v N G L. destruct (load_class _ d OPERATION v N G ltac:(discriminate) L) as (_ & args & K & _). change (construct fresh runs other OPERATION) with (construct_operation runs) in K. unfold construct_operation in K.
  destruct (bind_arguments _ _) as [env|]; [|discriminate]. cbn [bind] in K. destruct (get env "runmodule") as [m|] eqn:M; [|discriminate].
  destruct (match m with PDict d0 => _ | PObj c _ => _ | _ => _ end) eqn:R; [|discriminate]. destruct (fields_of _ _) as [fs|] eqn:F; [|discriminate]. cbn [bind] in K. injection K as <-. exists fs, m. split; [reflexivity|]. split.
  - unfold fields_of, same_fields in F. cbn [map mapM field_value fst snd] in F. rewrite M in F. cbn [bind] in F. repeat match type of F with bind ?x _ = _ => destruct x; [|discriminate]; cbn [bind] in F end. injection F as <-. reflexivity.
  - unfold runnable. destruct m; try discriminate; [|exact R]. unfold FUNCTIONID in R. destruct (get d0 "python_function") as [f|]; [eauto|discriminate].
Qed.
Print Assumptions C154_operations.
Example C154_operations_nonvacuous : forall fresh runs other, exists d v, NoDup (map fst d) /\ get d "python_class" = Some (JStr OPERATION) /\ load (construct fresh runs other) (JObj d) = Ok v.
Proof.
  intros. exists [("python_class", JStr OPERATION); ("runmodule", JObj [("python_function", JStr "a.b")]); ("step", JObj [("python_class", JStr STEP_ONCE)])]%string. eexists.
  split; [repeat constructor; cbn; intuition discriminate|]. split; reflexivity.
Qed.

(* The days of an operation may be given as strings: they are the times that these strings denote. *)
Theorem C154_days : forall fresh runs other a b, valid_datetime a = true -> valid_datetime b = true ->
  load (construct fresh runs other) (JObj [("python_class", JStr STEP_DAILY); ("start", JStr (build a)); ("end", JStr (build b))]%string) = Ok (of_step (Daily (to_the_second a) (to_the_second b))).
Proof.
  intros fresh runs other a b A B. rewrite load_dict. cbn [mapM]. unfold load_entry. cbn [fst snd load bind]. rewrite dict_of_nodup by (cbn; repeat constructor; cbn; intuition discriminate). rewrite load_object_dict.
  match goal with |- match get ?d CLASSID with _ => _ end = _ => change (get d CLASSID) with (Some (PUni STEP_DAILY)) end. cbv iota. change (negb (has_dot STEP_DAILY)) with false. change (String.eqb STEP_DAILY DATETIME_CLASS) with false. cbv iota.
  cbn [mapM]. unfold settle_entry. cbn [fst snd load_object]. unfold to_str. rewrite !build_ascii. change (is_ascii STEP_DAILY) with true. cbv iota. cbn [bind].
  change (construct fresh runs other STEP_DAILY) with construct_step_daily. generalize (parse_build a A) (parse_build b B). generalize (build a) (build b). intros s t PA PB.
  unfold construct_step_daily. cbn [remove_key String.eqb Ascii.eqb Bool.eqb CLASSID bind_arguments forallb existsb required fst snd orb andb mapM get find bind step_time]. rewrite PA, PB. reflexivity.
Qed.
Print Assumptions C154_days.
Example C154_days_nonvacuous : valid_datetime midnight = true /\ build midnight = "20170330000000"%string.
Proof. split; vc. Qed.
