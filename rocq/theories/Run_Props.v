(* C168: runs of the ocean model; C169: inputs of the optimisation *)
From Coq Require Import QArith Qcanon String Ascii Permutation.
From Verif Require Import Base Time_Model Time_Proofs Batch_Model Obs_Model NcObj_Model Stn_Model Land_Model Land_Spec Land_Proofs Tools_Model Run_Model Run_Spec Run_Proofs.
Local Open Scope Z_scope.
Local Open Scope list_scope.

(* Several days together give what the days give one after the other, with the model, institution and catalogue of the first. *)
Theorem C168_together : forall (A : arithmetic) cells file_time (idl : ocean_model -> Z * Z * Z -> string -> result (dataset A)) temporary first rest,
  (forall j k, temporary j = temporary k -> j = k) -> (forall x, In x (first :: rest) -> computes file_time idl first x) ->
  ocean_run_multiple_days A cells file_time idl temporary (first :: rest) =
  in_order (map (fun x => ocean_run_day A cells file_time idl temporary (with_ocean_settings_of first x)) (first :: rest)).
Proof. intros A cells file_time idl temporary first rest D H. now apply together. Qed.
Print Assumptions C168_together.
(* With the same settings on all days these are the days as they are given. *)
Theorem C168_same_settings : forall (A : arithmetic) cells file_time (idl : ocean_model -> Z * Z * Z -> string -> result (dataset A)) temporary first rest,
  (forall j k, temporary j = temporary k -> j = k) -> (forall x, In x (first :: rest) -> same_ocean_settings first x /\ computes file_time idl x x) ->
  ocean_run_multiple_days A cells file_time idl temporary (first :: rest) = in_order (map (ocean_run_day A cells file_time idl temporary) (first :: rest)).
Proof.
  intros A cells file_time idl temporary first rest D H. rewrite C168_together; [|exact D|].
  - f_equal. apply map_ext_in. intros x I. destruct (H x I) as [(E1 & E2 & E3 & E4 & E5) _]. f_equal. unfold with_ocean_settings_of. destruct x. cbn in *. congruence.
  - intros x I. destruct (H x I) as [(E1 & E2 & E3 & E4 & E5) (t & d & T & X)]. exists t, d. split; [exact T|]. replace (ocean_model_of first) with (ocean_model_of x); [exact X|]. unfold ocean_model_of. congruence.
Qed.
Print Assumptions C168_same_settings.
(* If the program fails for one of them, or the time of its file cannot be read, no file is written for any day. *)
Theorem C168_nothing_written : forall (A : arithmetic) cells file_time (idl : ocean_model -> Z * Z * Z -> string -> result (dataset A)) temporary first rest x,
  (forall j k, temporary j = temporary k -> j = k) -> In x (first :: rest) -> ~ computes file_time idl first x ->
  exists e, ocean_run_multiple_days A cells file_time idl temporary (first :: rest) = ([], Err e).
Proof. intros A cells file_time idl temporary first rest x D I N. eapply together_fails; eassumption. Qed.
Print Assumptions C168_nothing_written.
Theorem C168_no_days : forall (A : arithmetic) cells file_time (idl : ocean_model -> Z * Z * Z -> string -> result (dataset A)) temporary,
  ocean_run_multiple_days A cells file_time idl temporary [] = ([], Err IndexError).
Proof. reflexivity. Qed.
Print Assumptions C168_no_days.
(* A day: the program is run for the date of the input file, and the temperature and its total error are written to one file, the
   parts of the error to the other, both with the day and the institution and catalogue of that day. *)
Theorem C168_day : forall (A : arithmetic) cells file_time (idl : ocean_model -> Z * Z * Z -> string -> result (dataset A)) temporary x y m k offset d r n,
  calendar_date y m k -> 0 <= offset < DAY -> file_time (o_satellite x) = Ok (midnight y m k + offset) ->
  idl {| om_parameters := o_model_parameters x; om_uncertainty := o_model_uncertainty x; om_stdev := o_model_stdev x |} (y, m, k) (o_satellite x) = Ok d -> read_fields A cells ocean_mapping d = Ok r -> lookup DAYNUMBER r = Some (V_day A n) ->
  (forall v w, In v (PRIMARY_VARIABLES ++ ANCILLARY_VARIABLES_OCEAN) -> lookup v r = Some w -> exists f, w = V_field A f) ->
  exists main ancillary, ocean_run_day A cells file_time idl temporary x = ([main; ancillary], Ok tt) /\
    f_name A main = o_output_main x /\ f_name A ancillary = o_output_ancillary x /\ f_day A main = n /\ f_day A ancillary = n /\
    (forall f, In f [main; ancillary] -> a_institution (f_attributes A f) = o_institution x /\ a_catalogue_id (f_attributes A f) = o_catalogue_id x) /\
    (forall v f, In (v, f) (f_fields A main) <-> In v PRIMARY_VARIABLES /\ lookup v r = Some (V_field A f)) /\
    (forall v f, In (v, f) (f_fields A ancillary) <-> In v ANCILLARY_VARIABLES_OCEAN /\ lookup v r = Some (V_field A f)).
Proof.
  intros A cells file_time idl temporary x y m k offset d r n C O T D R N H.
  assert (E : computed A file_time idl (ocean_model_of x) (o_satellite x) = Ok d).
  { unfold computed. rewrite T. cbn [bind]. unfold date_of, dt_year, dt_month, dt_day, midnight. rewrite (Z.add_comm _ offset), Z.div_add by (unfold DAY; lia). rewrite (Z.div_small offset DAY O). cbn [Z.add].
    destruct C as (Y & M & K). rewrite (ord2ymd_ymd2ord y m k M K). exact D. }
  rewrite (day_computed A cells file_time idl temporary x d E). unfold ocean_finish. cbn [lookup]. rewrite String.eqb_refl. cbn [bind]. rewrite R. unfold write_element, get. rewrite N. cbn [bind].
  destruct (present_spec A r PRIMARY_VARIABLES) as (p & P & PK); [intros v w I; apply H; apply in_app_iff; now left|].
  destruct (present_spec A r ANCILLARY_VARIABLES_OCEAN) as (q & Q & QK); [intros v w I; apply H; apply in_app_iff; now right|]. rewrite P, Q. cbn [bind].
  eexists. eexists. split; [reflexivity|]. cbn [f_name f_day f_attributes f_fields]. split; [reflexivity|]. split; [reflexivity|]. split; [reflexivity|]. split; [reflexivity|].
  split; [intros f [<-|[<-|[]]]; split; reflexivity|]. split; [exact PK|exact QK].
Qed.
Print Assumptions C168_day.
(* a program that counts: the temperature is the length of the name of the parameters, plus the day *)
Definition demo_field (v : Z) : field integers := {| data := [v] : list (num integers); mask := Some [false]; fill := -32768 : num integers |}.
Definition demo_ocean (m : ocean_model) (date : Z * Z * Z) (i : string) : result (dataset integers) :=
  Ok {| d_time := Some (start_of date); d_variables := map (fun name => (name, demo_field (Z.of_nat (String.length (om_parameters m)) + snd date))) ("tas" :: OLD_OCEAN_ANCILLARY_NAMES)%string |}.
Definition demo_time (i : string) : result Z := if String.eqb i "bad" then Err IOErrorE else Ok (midnight 2010 5 (Z.of_nat (String.length i))).
Fixpoint demo_name (n : nat) : string := match n with O => "t" | S n => String "t" (demo_name n) end.
Definition demo_inputs (parameters satellite main : string) : ocean_inputs :=
  {| o_catalogue_id := "c"; o_institution := "i"; o_output_main := main; o_output_ancillary := main ++ "_ancillary"; o_model_parameters := parameters; o_model_uncertainty := "u"; o_model_stdev := "s"; o_satellite := satellite |}.
Lemma demo_distinct : forall j k, demo_name j = demo_name k -> j = k.
Proof. assert (L : forall n, String.length (demo_name n) = S n) by (induction n as [|n IH]; [reflexivity|]; cbn; now rewrite IH). intros j k E. apply (f_equal String.length) in E. rewrite !L in E. lia. Qed.
(* Finding: the settings of the later days are ignored. *)
Theorem C168_settings_refuted : exists x y files alone,
  ocean_run_multiple_days integers 1 demo_time demo_ocean demo_name [x; y] = (files, Ok tt) /\ ocean_run_day integers 1 demo_time demo_ocean demo_name y = (alone, Ok tt) /\
  map (f_name integers) alone = map (f_name integers) (skipn 2 files) /\ map (f_fields integers) alone <> map (f_fields integers) (skipn 2 files).
Proof.
  set (x := demo_inputs "p" "aaa" "one"). set (y := demo_inputs "other" "bbbb" "two").
  exists x, y, (fst (ocean_run_multiple_days integers 1 demo_time demo_ocean demo_name [x; y])), (fst (ocean_run_day integers 1 demo_time demo_ocean demo_name y)).
  assert (P : forall r : run integers, snd r = Ok tt -> r = (fst r, Ok tt)) by (intros [f o] E; cbn in *; congruence).
  split; [apply P; vm_compute; reflexivity|]. split; [apply P; vm_compute; reflexivity|]. split; [vm_compute; reflexivity|].
  intros E. apply (f_equal (fun l => map (fun fs => map (fun vf => data integers (snd vf)) fs) l)) in E. vm_compute in E. discriminate E.
Qed.
Print Assumptions C168_settings_refuted.
Example C168_nonvacuous :
  (forall x, In x [demo_inputs "p" "aaa" "one"; demo_inputs "p" "bbbb" "two"] -> same_ocean_settings (demo_inputs "p" "aaa" "one") x /\ computes demo_time demo_ocean x x) /\
  (forall first, ~ computes demo_time demo_ocean first (demo_inputs "p" "bad" "three")) /\
  exists files, ocean_run_multiple_days integers 1 demo_time demo_ocean demo_name [demo_inputs "p" "aaa" "one"; demo_inputs "p" "bbbb" "two"] = (files, Ok tt) /\
    map (f_name integers) files = ["one"; "one_ancillary"; "two"; "two_ancillary"]%string.
Proof.
  split; [intros x [<-|[<-|[]]]; (split; [repeat split|eexists; eexists; split; reflexivity])|]. split.
  - intros first (t & d & T & _). discriminate T.
  - assert (P : forall r : run integers, snd r = Ok tt -> r = (fst r, Ok tt)) by (intros [f o] E; cbn in *; congruence). eexists. split; [apply P; vm_compute; reflexivity|vm_compute; reflexivity].
Qed.

(* ---- C169 *)
(* The summaries of the days, written in any order and merged, give each day its own sources; the days that the optimisation asks for
   are then processed in the order asked for, each with its sources and its number of days since 1850. *)
Theorem C169_sources : forall S St (update : list (Z * S) -> Z -> St -> St * result unit) (steps written : list (step S)) disk output asked state,
  Permutation steps written -> NoDup (map summary_file steps) -> NoDup (map day steps) -> (forall s, In s steps -> exists_day (day s)) -> (forall s, In s asked -> In s steps) ->
  exists disk' descriptor, merge_input_summaries (map summary_file steps) output (summaries written disk) = Ok disk' /\ generate_input_descriptor disk' output = Ok descriptor /\
    descriptor = map (fun s => (iso_time (start_of (day s)), sources s)) steps /\
    process_inputs update descriptor (map (fun s => iso_time (start_of (day s))) asked) state = updates update asked state.
Proof.
  intros S St update steps written disk output asked state P F D C A. unfold merge_input_summaries.
  set (entry := fun s : step S => (iso_time (start_of (day s)), sources s)).
  assert (E : mapM (load_summary (summaries written disk)) (map summary_file steps) = Ok (map entry steps)).
  { assert (G : forall l, incl l steps -> mapM (load_summary (summaries written disk)) (map summary_file l) = Ok (map entry l)).
    { induction l as [|s l IH]; intros I; [reflexivity|]. cbn [map mapM]. unfold load_summary at 1. rewrite (summaries_hold written disk s).
      - cbn [bind]. rewrite IH by (intros x X; apply I; now right). reflexivity.
      - eapply Permutation_NoDup; [apply Permutation_map; exact P|exact F].
      - eapply Permutation_in; [exact P|]. apply I. now left. }
    apply G. intros x X. exact X. }
  rewrite E. cbn [bind]. exists (put output (Merged (map entry steps)) (summaries written disk)), (map entry steps). split; [reflexivity|].
  assert (N : NoDup (map fst (map entry steps))).
  { rewrite map_map. cbn [entry fst]. clear - D C. induction steps as [|s l IH]; [constructor|]. cbn [map] in *. inversion D as [|? ? X D']. subst. constructor; [|apply IH; [exact D'|intros x I; apply C; now right]].
    intros I. apply X. apply in_map_iff in I. destruct I as (s' & E & I). apply in_map_iff. exists s'. split; [|exact I]. apply iso_distinct; [apply C; now right|apply C; now left|exact E]. }
  split; [|split; [reflexivity|]].
  - unfold generate_input_descriptor. rewrite lookup_put_same. f_equal. now rewrite ordered_new by exact N.
  - apply processed. intros s I. split; [apply C, A, I|]. apply lookup_first; [exact N|]. apply in_map_iff. exists s. split; [reflexivity|]. now apply A.
Qed.
Print Assumptions C169_sources.
(* A day that was not summarised is an error, after the days before it have been processed. *)
Theorem C169_unknown_day : forall S St (update : list (Z * S) -> Z -> St -> St * result unit) (steps asked : list (step S)) state state' later other,
  (forall s, In s steps -> exists_day (day s)) -> NoDup (map day steps) -> (forall s, In s asked -> In s steps) -> exists_day other -> ~ In other (map day steps) ->
  updates update asked state = (state', Ok tt) ->
  process_inputs update (map (fun s => (iso_time (start_of (day s)), sources s)) steps) (map (fun s => iso_time (start_of (day s))) asked ++ iso_time (start_of other) :: later) state = (state', Err KeyError).
Proof.
  intros S St update steps asked state state' later other C D A O N U.
  set (descriptor := map (fun s => (iso_time (start_of (day s)), sources s)) steps).
  assert (L : forall s, In s steps -> lookup (iso_time (start_of (day s))) descriptor = Some (sources s)).
  { intros s I. apply lookup_first; [|apply in_map_iff; now exists s]. unfold descriptor. rewrite map_map. cbn [fst]. clear - D C. induction steps as [|s l IH]; [constructor|]. cbn [map] in *. inversion D as [|? ? X D']. subst. constructor; [|apply IH; [intros x I; apply C; now right|exact D']].
    intros I. apply X. apply in_map_iff in I. destruct I as (s' & E & I). apply in_map_iff. exists s'. split; [|exact I]. apply iso_distinct; [apply C; now right|apply C; now left|exact E]. }
  revert state U. induction asked as [|s asked IH]; intros state U.
  - cbn [map app process_inputs]. destruct (parse_day other O) as [P _]. rewrite P. cbn [updates] in U.
    assert (lookup (iso_time (start_of other)) descriptor = None) as ->.
    { destruct (lookup (iso_time (start_of other)) descriptor) as [v|] eqn:X; [|reflexivity]. exfalso. apply N. assert (Y : In (iso_time (start_of other)) (map fst descriptor)).
      { clear - X. induction descriptor as [|[k w] l IH]; [discriminate|]. cbn [lookup] in X. destruct (String.eqb_spec k (iso_time (start_of other))) as [<-|]; [now left|]. right. now apply IH. }
      unfold descriptor in Y. rewrite map_map in Y. cbn [fst] in Y. apply in_map_iff in Y. destruct Y as (s & E & I). apply in_map_iff. exists s. split; [|exact I]. apply iso_distinct; [now apply C|exact O|exact E]. }
    congruence.
  - cbn [map app process_inputs updates] in *. assert (I : In s steps) by (apply A; now left). destruct (parse_day (day s) (C s I)) as [P Q]. rewrite P, Q, (L s I).
    destruct (update _ _ state) as [st [u|e]]; [|congruence]. apply IH; [intros x X; apply A; now right|exact U].
Qed.
Print Assumptions C169_unknown_day.
(* A missing summary fails the merging. *)
Theorem C169_missing_summary : forall S (disk : disk_of S) files output file, In file files -> lookup file disk = None -> exists e, merge_input_summaries files output disk = Err e.
Proof.
  intros S disk files output file I N. unfold merge_input_summaries. assert (exists e, mapM (load_summary disk) files = Err e) as [e E]; [|rewrite E; cbn; eauto].
  induction files as [|f files IH]; [destruct I|]. cbn [mapM]. destruct I as [->|I].
  - unfold load_summary at 1. rewrite N. cbn. eauto.
  - destruct (load_summary disk f) as [x|e]; [|cbn; eauto]. cbn [bind]. destruct (IH I) as [e E]. rewrite E. cbn. eauto.
Qed.
Print Assumptions C169_missing_summary.
(* Two summaries of one day: the sources are those of the later one in the list. *)
Theorem C169_repeated : forall S (disk : disk_of S) output before between after time first second,
  lookup output disk = Some (Merged (before ++ (time, first) :: between ++ (time, second) :: after)) -> ~ In time (map fst after) ->
  exists descriptor, generate_input_descriptor disk output = Ok descriptor /\ lookup time descriptor = Some second.
Proof.
  intros S disk output before between after time first second H N. unfold generate_input_descriptor. rewrite H. eexists. split; [reflexivity|].
  rewrite fold_left_app. cbn [fold_left fst snd]. rewrite fold_left_app. cbn [fold_left fst snd]. match goal with |- context [set_key time second ?d] => generalize (set_key_get time second d time); generalize (set_key time second d) end. rewrite String.eqb_refl.
  revert N. clear. induction after as [|[k v] l IH]; intros N d E; [exact E|]. cbn [fold_left fst snd]. apply IH; [intros X; apply N; now right|]. rewrite set_key_get. destruct (String.eqb_spec k time) as [->|]; [exfalso; apply N; now left|exact E].
Qed.
Print Assumptions C169_repeated.
Definition demo_steps : list (step string) :=
  [{| day := (2003, 1, 1); summary_file := "a.json"; sources := ["ships"; "stations"] |}; {| day := (2003, 2, 1); summary_file := "b.json"; sources := ["stations"] |}]%string.
Definition demo_update (loaders : list (Z * string)) (t : Z) (log : list (Z * list string)) : list (Z * list string) * result unit := (log ++ [(t, map snd loaders)], Ok tt).
Example C169_nonvacuous : Permutation demo_steps (rev demo_steps) /\ NoDup (map summary_file demo_steps) /\ NoDup (map day demo_steps) /\ (forall s, In s demo_steps -> exists_day (day s)) /\
  updates demo_update (rev demo_steps) [] = ([(55913, ["stations"]); (55882, ["ships"; "stations"])]%string, Ok tt) /\ map (fun s => iso_time (start_of (day s))) demo_steps = ["2003-01-01T00:00:00"; "2003-02-01T00:00:00"]%string.
Proof.
  split; [apply Permutation_rev|]. split; [repeat constructor; cbn; intuition discriminate|]. split; [repeat constructor; cbn; intuition discriminate|].
  split; [intros s [<-|[<-|[]]]; vm_compute; repeat split; discriminate|]. split; vm_compute; reflexivity.
Qed.
