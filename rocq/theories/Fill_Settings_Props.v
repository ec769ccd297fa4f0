(* Settings of the operations of generated descriptors: C103. *)
From Coq Require Import String Ascii ZifyBool.
From Verif Require Import Base Fill_Model Fill_Spec Fill_Proofs Fill_Chain Fill_Total Fill_Files Fill_Templates Fill_Settings Fill_Details Fill_Props.
Open Scope string_scope.
Open Scope list_scope.
Open Scope Z_scope.

Notation processing := ["eustace.analysis.advanced_standard.examples.moving_climatology.process_inputs";
                        "eustace.analysis.advanced_standard.examples.moving_climatology.process_inputs_batch"].
(* The template for each function that runs at the steps of the analysis. *)
Definition template_for (f : filler) (function : string) (t : json) : Prop :=
  In (function, t) [("eustace.analysis.advanced_standard.examples.moving_climatology.process_inputs", f_operation f);
                    ("eustace.analysis.advanced_standard.examples.moving_climatology.process_inputs_batch", f_batch_operation f);
                    ("eustace.analysis.advanced_standard.examples.moving_climatology.output_grid", f_output_grid f);
                    ("eustace.analysis.advanced_standard.examples.moving_climatology.output_grid_batch", f_batch_operation f)].

Lemma ok_of f d op : ready f -> filled f d -> In op (operations d) -> exists a b c, load_templates f = Ok (a, b, c) /\ op_ok f (template a b c) op.
Proof. intros R F I. destruct (filled_ok f d R F) as (a & b & c & L & A). exists a, b, c. split; [exact L|]. rewrite Forall_forall in A. now apply A. Qed.
Lemma calls_fn op fs fn : calls op fs -> fn_of op = Some fn -> In fn fs.
Proof. intros (g & G & I) H. unfold fn_of in H. rewrite G in H. now injection H as <-. Qed.
Lemma template_kept f a b c fn t : load_templates f = Ok (a, b, c) -> template_for f fn t ->
  (exists t', template a b c fn = t' /\ restrict_inputs t = Ok t').
Proof.
  intros H I. unfold load_templates in H. apply bind_ok in H. destruct H as (a0 & Ha & H). apply bind_ok in H. destruct H as (b0 & Hb & H). apply bind_ok in H. destruct H as (c0 & Hc & [= <- <- <-]).
  repeat (destruct I as [[= <- <-]|I]; [eexists; split; [reflexivity|assumption]|]). destruct I.
Qed.

(* ------------------------------------------------------------------ C103 *)

(* Operations that solve run once; they have no sources of observations and no times. *)
Theorem C103_once f d op c : ready f -> filled f d -> In op (operations d) -> solves op c ->
  get [K "step"] op = Ok (JDict [("python_class", JStr "eumopps.catalogue.step.StepOnce")]) /\
  forall k, In k ["inputsources"; "time_index"; "time_indices"] -> get [K "runmodule"; K k] op = Err KeyError.
Proof.
  intros R F I (C & _). destruct (ok_of f d op R F I) as (a & b & e & _ & t & fn & once & kept & sampled & prior & size & -> & T & Hf & H1 & _).
  destruct (calls_fn _ _ _ C Hf) as [<-|[]]. specialize (H1 eq_refl). subst once. exact (t_once _ _ _ _ _ _ _ _ T eq_refl).
Qed.

(* All others run for the dates of the analysis, with the kind of steps of their template. *)
Theorem C103_stepped f d op function t : ready f -> filled f d -> In op (operations d) -> text_at [K "runmodule"; K "python_function"] op = Some function ->
  template_for f function t ->
  get [K "step"; K "start"] op = Ok (JStr (f_start_date f ++ "000000")) /\ get [K "step"; K "end"] op = Ok (JStr (f_end_date f ++ "000000")) /\
  get [K "step"; K "python_class"] op = get [K "step"; K "python_class"] t.
Proof.
  intros R F I C Ht. destruct (ok_of f d op R F I) as (a & b & e & L & t0 & fn & once & kept & sampled & prior & size & -> & T & Hf & _ & H2 & _).
  unfold fn_of in Hf. rewrite C in Hf. injection Hf as <-. destruct once. { rewrite (H2 eq_refl) in Ht. repeat (destruct Ht as [[= ]|Ht]). destruct Ht. }
  destruct (template_kept f a b e function t L Ht) as (t' & E & Hr). destruct (t_daily _ _ _ _ _ _ _ _ T eq_refl) as (S1 & S2 & S3). split; [exact S1|]. split; [exact S2|]. rewrite S3, E.
  apply (proj1 (restrict_effect _ _ Hr)). reflexivity.
Qed.

(* Every operation of a descriptor is of one of these kinds. *)
Theorem C103_kinds f d op : ready f -> filled f d -> In op (operations d) ->
  calls op ["eustace.analysis.advanced_standard.examples.moving_climatology.solve"] \/
  exists function t, text_at [K "runmodule"; K "python_function"] op = Some function /\ template_for f function t.
Proof.
  intros R F I. destruct (ok_of f d op R F I) as (a & b & e & L & t0 & fn & once & kept & sampled & prior & size & -> & T & Hf & X). repeat (destruct X as [_ X]).
  unfold template_for. destruct X as [<-|[<-|[<-|[<-|[<-|[]]]]]]; [right|right|left; eexists; split; [exact Hf|now left]|right|right]; eexists _, _; (split; [exact Hf|]); [now left|right; now left|right; right; now left|right; right; right; now left].
Qed.

(* Observations come from the sources of the template that are of the five known names. *)
Theorem C103_sources f d op function t l : ready f -> filled f d -> In op (operations d) -> text_at [K "runmodule"; K "python_function"] op = Some function -> In function processing ->
  template_for f function t -> get [K "runmodule"; K "inputsources"] t = Ok (JList l) -> get [K "runmodule"; K "inputsources"] op = Ok (JList (filter listed l)).
Proof.
  intros R F I C P Ht G. destruct (ok_of f d op R F I) as (a & b & e & L & t0 & fn & once & kept & sampled & prior & size & -> & T & Hf & _ & _ & H3 & _).
  unfold fn_of in Hf. rewrite C in Hf. injection Hf as <-. specialize (H3 P). subst kept. destruct (template_kept f a b e function t L Ht) as (t' & E & Hr).
  rewrite (t_sources _ _ _ _ _ _ _ _ T eq_refl), E. now apply restrict_sources with (1 := Hr).
Qed.

(* Samples and prior samples are computed exactly where they are written, as many as asked for; nothing else is sampled but the grids. *)
Theorem C103_samples f d op : ready f -> filled f d -> In op (operations d) ->
  (exists s p, get [K "runmodule"; K "compute_sample"] op = Ok (JNum s) /\ get [K "runmodule"; K "compute_prior_sample"] op = Ok (JNum p) /\
    (s = 0 \/ s = 1) /\ (p = 0 \/ p = 1) /\
    (s = 1 <-> exists k, 0 <= k < 3 /\ target k Sample op <> None) /\ (p = 1 <-> exists k, 0 <= k < 3 /\ target k PriorSample op <> None) /\
    (grids op \/ get [K "runmodule"; K "sample_size"] op = Ok (JNum (if (s =? 1) || (p =? 1) then f_state_sample_size f else 0)))).
Proof.
  intros R F I. destruct (ok_of f d op R F I) as (a & b & e & L & t0 & fn & once & kept & sampled & prior & size & -> & T & Hf & _ & _ & _ & S1 & S0 & P1 & P0 & Z & _).
  exists (if sampled then 1 else 0), (if prior then 1 else 0). split; [exact (t_sample _ _ _ _ _ _ _ _ T)|]. split; [exact (t_prior _ _ _ _ _ _ _ _ T)|].
  split; [destruct sampled; lia|]. split; [destruct prior; lia|].
  assert (RG : forall k, 0 <= k < 3 <-> component k) by (intros k; unfold component; lia). repeat match goal with |- _ /\ _ => split end.
  - destruct sampled; split; intros X; [destruct (S1 eq_refl) as (k & Ck & N); exists k; rewrite RG; tauto|reflexivity|discriminate X|]. destruct X as (k & Ck & N). apply RG in Ck. now rewrite (S0 eq_refl k Ck) in N.
  - destruct prior; split; intros X; [destruct (P1 eq_refl) as (k & Ck & N); exists k; rewrite RG; tauto|reflexivity|discriminate X|]. destruct X as (k & Ck & N). apply RG in Ck. now rewrite (P0 eq_refl k Ck) in N.
  - destruct Z as [Z|Z]; [left; exists fn; split; [exact Hf|exact Z]|]. right. rewrite (t_size _ _ _ _ _ _ _ _ T), Z. now destruct sampled, prior.
Qed.

(* The biases switched on are those of the settings; uncertainties are left out and the method is always the exact one. *)
Theorem C103_biases f d op : ready f -> filled f d -> In op (operations d) ->
  get [K "runmodule"; K "insitu_biases"] op = Ok (f_land_biases f) /\ get [K "runmodule"; K "global_biases"] op = Ok (f_global_biases f) /\
  get [K "runmodule"; K "compute_uncertainties"] op = Ok (JNum 0) /\ get [K "runmodule"; K "method"] op = Ok (JStr "EXACT").
Proof.
  intros R F I. destruct (ok_of f d op R F I) as (a & b & e & L & t0 & fn & once & kept & sampled & prior & size & -> & T & _).
  split; [exact (t_land _ _ _ _ _ _ _ _ T)|]. split; [exact (t_global _ _ _ _ _ _ _ _ T)|]. split; [exact (t_uncertainties _ _ _ _ _ _ _ _ T)|exact (t_method _ _ _ _ _ _ _ _ T)].
Qed.

(* Files written by operations that run once have names without a date; those of all others have the year in the directory and the
   month or the day in the name. *)
Theorem C103_patterns f d op function name p : ready f -> filled f d -> In op (operations d) -> In (Some name, p) (declared_patterns op) ->
  text_at [K "runmodule"; K "python_function"] op = Some function ->
  if String.eqb function "eustace.analysis.advanced_standard.examples.moving_climatology.solve"
  then p = JList [JStr (name ++ "/"); JStr (name ++ ".pickle")]
  else exists format, p = JList [JStr (name ++ "/%Y/");
         JStr (name ++ (if String.eqb function "eustace.analysis.advanced_standard.examples.moving_climatology.process_inputs_batch" then "_%Y%m." else "_%Y%m%d.") ++ format)].
Proof.
  intros R F I Ip C. destruct (ok_of f d op R F I) as (a & b & e & L & t0 & fn & once & kept & sampled & prior & size & -> & T & Hf & H1 & H2 & _ & _ & _ & _ & _ & _ & U & D & _).
  unfold fn_of in Hf. rewrite C in Hf. injection Hf as <-. fold SOLVE PROCESS_INPUTS_BATCH. destruct (String.eqb_spec function SOLVE) as [E|N].
  - specialize (U (H1 E)). rewrite Forall_forall in U. destruct (U _ Ip) as (n & [= -> ->]). reflexivity.
  - assert (O : once = false) by (destruct once; [now elim N; apply H2|reflexivity]). specialize (D O). rewrite Forall_forall in D. destruct (D _ Ip) as (n & fmt & [= -> ->]). now exists fmt.
Qed.

(* No two operations of a descriptor have the same name, if the commands are named apart. *)
Definition distinct_commands (f : filler) : Prop :=
  let all := [f_measurement_climatology_command f; f_solution_climatology_command f; (f_solution_climatology_command f ++ "_prior_sample")%string;
              f_measurement_large_scale_command f; f_solution_large_scale_command f; (f_solution_large_scale_command f ++ "_prior_sample")%string; f_local_scale_command f] in
  NoDup all /\ (forall c i, In c all -> 0 <= i -> f_output_grid_command f <> numbered c i) /\ ~ In (f_output_grid_command f) all.
Lemma commands_In f b c : In c (commands f b) -> In c (commands f true).
Proof. destruct b; [auto|]. unfold commands. cbn [app In]. tauto. Qed.
Lemma commands_NoDup f b : NoDup (commands f true) -> NoDup (commands f b).
Proof.
  destruct b; [auto|]. unfold commands. cbn [app]. intros H. inversion_clear H as [|? ? N1 H1]. inversion_clear H1 as [|? ? N2 H2]. inversion_clear H2 as [|? ? N3 H3]. inversion_clear H3 as [|? ? N4 H4].
  inversion_clear H4 as [|? ? N5 H5]. inversion_clear H5 as [|? ? N6 H6]. cbn [In] in *. repeat (apply NoDup_cons; [cbn [In]; tauto|]). apply NoDup_nil.
Qed.
Theorem C103_names f d : ready f -> filled f d -> distinct_commands f ->
  NoDup (map (text_at [K "name"]) (operations d)) /\ ~ In None (map (text_at [K "name"]) (operations d)).
Proof.
  intros R F (N & G & G'). destruct (filled_finer f d R F) as (_ & n & priors & last & Hn & T & HL).
  assert (E : map (text_at [K "name"]) (operations d) = map Some (all_commands f n priors last)).
  { clear - T. induction T as [|op c ops cs Hc T IH]; [reflexivity|]. cbn [map]. rewrite IH. unfold text_at at 1. now rewrite Hc. }
  rewrite E. split; [|rewrite in_map_iff; intros (x & [= ] & _)].
  assert (I : forall x, In x (flat_map (fun i => map (fun c => numbered c i) (commands f (priors && (i =? n - 1)))) (zrange 0 n)) -> exists c i, In c (commands f true) /\ 0 <= i /\ x = numbered c i).
  { intros x Ix. apply in_flat_map in Ix. destruct Ix as (i & Ii & Ix). apply zrange_In in Ii. apply in_map_iff in Ix. destruct Ix as (c & <- & Ic). exists c, i. split; [now apply commands_In in Ic|]. split; [lia|reflexivity]. }
  apply FinFun.Injective_map_NoDup; [intros x y; congruence|]. unfold all_commands. apply NoDup_join.
  - apply NoDup_flat; [apply zrange_NoDup| |].
    + intros i Ii. apply zrange_In in Ii. assert (X : NoDup (commands f (priors && (i =? n - 1)))) by now apply commands_NoDup.
      induction X as [|c cs Nc X IH]; cbn [map]; [constructor|]. constructor; [|exact IH]. intros Ic. apply in_map_iff in Ic. destruct Ic as (c' & E' & Ic'). apply numbered_inj in E'; [|lia|lia]. destruct E' as [-> _]. contradiction.
    + intros i i' b Ii Ii' Ib Ib'. apply zrange_In in Ii, Ii'. apply in_map_iff in Ib, Ib'. destruct Ib as (c & <- & _). destruct Ib' as (c' & E' & _). apply numbered_inj in E'; lia.
  - destruct HL as [->|[->| ->]]; repeat (apply NoDup_cons; [intros []|]); apply NoDup_nil.
  - intros x Ix. destruct (I x Ix) as (c & i & Ic & Hi & ->). destruct HL as [->|[->| ->]]; [intros []| |].
    + intros [X|[]]. exact (G c i Ic Hi X).
    + intros [X|[]]. destruct (Z.leb_spec 1 n) as [Hn1|Hn1].
      * apply numbered_inj in X; [|lia|lia]. destruct X as [<- _]. exact (G' Ic).
      * assert (n = 0) by lia. subst n. destruct Ix.
Qed.

(* Every entry for files of a component has the placeholder class of its kind. *)
Theorem C103_classes f d op k key cls s : ready f -> filled f d -> In op (operations d) -> 0 <= k < 3 ->
  In (key, cls) [("statefilename_read", "eumopps.catalogue.placeholder.InputFile"); ("sample_filename_read", "eumopps.catalogue.placeholder.InputFile");
                 ("prior_sample_filename_read", "eumopps.catalogue.placeholder.InputFile");
                 ("statefilelist_read", "eustace.analysis.advanced_standard.examples.placeholder.AnnualBatchDays");
                 ("sample_filelist_read", "eustace.analysis.advanced_standard.examples.placeholder.AnnualBatchDays");
                 ("prior_sample_filelist_read", "eustace.analysis.advanced_standard.examples.placeholder.AnnualBatchDays");
                 ("measurementfilelist_read", "eumopps.catalogue.placeholder.InputFileList");
                 ("statefilename_write", "eumopps.catalogue.placeholder.OutputFile"); ("sample_filename_write", "eumopps.catalogue.placeholder.OutputFile");
                 ("prior_sample_filename_write", "eumopps.catalogue.placeholder.OutputFile"); ("measurementfilename_write", "eumopps.catalogue.placeholder.OutputFile")] ->
  text_at [K "runmodule"; K (storage_of k); K key; K "datasetname"] op = Some s ->
  text_at [K "runmodule"; K (storage_of k); K key; K "python_class"] op = Some cls.
Proof.
  intros R F I Hk Ik H. destruct (filled_finer f d R F) as (A & _). rewrite Forall_forall in A. destruct (A op I) as (command & fn & D & _).
  refine (d_classed _ _ D k key cls s _ Ik H). unfold component. lia.
Qed.

(* Times: operations on single days are told the index of the day for the local component and for what they measure; operations on
   batches that use local states, and the gridding in batches, are told the indices of all days. *)
Theorem C103_times f d op function : ready f -> filled f d -> In op (operations d) -> text_at [K "runmodule"; K "python_function"] op = Some function ->
  let day := JDict [("python_class", JStr "eustace.analysis.advanced_standard.examples.placeholder.AnalysisStepIndex")] in
  let days := JDict [("python_class", JStr "eustace.analysis.advanced_standard.examples.placeholder.AnalysisAnnualBatchDayIndices")] in
  (function = "eustace.analysis.advanced_standard.examples.moving_climatology.process_inputs" ->
     get [K "runmodule"; K "storage_local"; K "time_index"] op = Ok day /\
     forall k, 0 <= k < 3 -> target k Measurement op <> None -> get [K "runmodule"; K (storage_of k); K "measurement_time_index_write"] op = Ok day) /\
  (In function ["eustace.analysis.advanced_standard.examples.moving_climatology.process_inputs_batch"; "eustace.analysis.advanced_standard.examples.moving_climatology.output_grid_batch"] ->
     source 2 State op <> None -> get [K "runmodule"; K "storage_local"; K "time_list"] op = Ok days) /\
  (function = "eustace.analysis.advanced_standard.examples.moving_climatology.output_grid_batch" ->
     get [K "runmodule"; K "time_indices"] op = Ok days /\ forall key, In key ["inputsources"; "time_index"] -> get [K "runmodule"; K key] op = Err KeyError).
Proof.
  intros R F I C. destruct (filled_finer f d R F) as (A & _). rewrite Forall_forall in A. destruct (A op I) as (command & fn & D & Hf & H1 & H2 & _ & H4). unfold fn_of in Hf. rewrite C in Hf. injection Hf as <-.
  cbv zeta. split; [|split; [exact H2|]].
  - intros E. destruct (H1 E) as (X & Y). split; [exact X|]. intros k Hk. apply Y. unfold component. lia.
  - intros E. destruct (H4 E) as (X & Y & _). now split.
Qed.

(* The four outputs of a gridding operation, each under its own entry. *)
Theorem C103_outputs f d op : ready f -> filled f d -> In op (operations d) -> grids op ->
  exists out cls keys, declared op = map out (outputs f) /\ (forall s, out s = s \/ exists i, 0 <= i /\ out s = numbered s i) /\ In cls OUTPUTS /\
    In keys [["outputfile"; "climatologyfile"; "largescalefile"; "localfile"]; ["outputfiles"; "climatologyfiles"; "largescalefiles"; "localfiles"]] /\
    Forall2 (fun key s => get [K "runmodule"; K key] op = Ok (JDict [("python_class", JStr cls); ("datasetname", JStr (out s))])) keys (outputs f).
Proof.
  intros R F I C. destruct (filled_finer f d R F) as (A & _). rewrite Forall_forall in A. destruct (A op I) as (command & fn & D & Hf & _ & _ & H3 & H4).
  destruct (calls_fn _ _ _ C Hf) as [<-|[<-|[]]].
  - destruct (H3 eq_refl) as (Hd & O). exists (fun s => s), OUTPUT_FILE, OUT_KEYS. rewrite map_id. split; [exact Hd|split; [now left|split; [now left|split; [now left|]]]].
    repeat (apply Forall2_cons; [apply O; cbn [In combine OUT_KEYS outputs]; auto 10|]). apply Forall2_nil.
  - destruct (H4 eq_refl) as (_ & _ & out & Hout & Hd & O). exists out, BATCH_DAYS_OUTPUT, BATCH_OUT_KEYS. split; [exact Hd|]. split; [|split; [right; now left|split; [right; now left|]]].
    + intros s. destruct Hout as [->|(i & Hi & ->)]; [now left|right; now exists i].
    + repeat (apply Forall2_cons; [apply O; cbn [In combine BATCH_OUT_KEYS outputs]; auto 10|]). apply Forall2_nil.
Qed.

Print Assumptions C103_once.
Print Assumptions C103_stepped.
Print Assumptions C103_kinds.
Print Assumptions C103_sources.
Print Assumptions C103_samples.
Print Assumptions C103_biases.
Print Assumptions C103_patterns.
Print Assumptions C103_outputs.
Print Assumptions C103_times.
Print Assumptions C103_classes.
Print Assumptions C103_names.
Lemma ex_commands : distinct_commands ex_filler.
Proof.
  split; [|split].
  - cbn. repeat (apply NoDup_cons; [cbn; intros H; repeat (destruct H as [H|H]; [discriminate H|]); exact H|]). apply NoDup_nil.
  - intros c i I _ E. unfold numbered in E. cbn in I. repeat (destruct I as [<-|I]; [discriminate E|]). destruct I.
  - cbn. intros H. repeat (destruct H as [H|H]; [discriminate H|]). exact H.
Qed.
(* the shipped templates, in batches: the operations of two iterations run monthly or once, and are gridded at the end *)
Example C103_nonvacuous : exists d, ready ex_filler /\ filled ex_filler d /\ distinct_commands ex_filler /\
  map (fun op => text_at [K "step"; K "python_class"] op) (operations d) =
    (let m := Some "eustace.analysis.advanced_standard.examples.step.StepMonthly" in
    let o := Some "eumopps.catalogue.step.StepOnce" in
    let y := Some "eumopps.catalogue.step.StepDaily" in
    [m; o; m; o; y; m; o; o; m; o; o; y; m]) /\
  map (fun op => get [K "runmodule"; K "compute_sample"] op) (operations d) = map (fun b : Z => Ok (JNum b)) [0; 0; 0; 0; 0; 0; 1; 0; 0; 1; 0; 1; 0] /\
  map (fun op => get [K "runmodule"; K "compute_prior_sample"] op) (operations d) = map (fun b : Z => Ok (JNum b)) [0; 0; 0; 0; 0; 0; 0; 1; 0; 0; 1; 1; 0].
Proof.
  destruct (fill_batch_descriptor ex_filler 2) as [d|e] eqn:E; [|exfalso; revert E; vm_compute; discriminate].
  exists d. split; [apply shipped_ready|]. split; [apply (by_batches _ 2); [apply ex_apart|lia|exact E]|]. split; [exact ex_commands|]. revert E. vm_compute. intros [= <-]. split; [reflexivity|]. split; reflexivity.
Qed.
