(* Properties of the command lines that make descriptors, and of the shipped scripts: C181. *)
From Coq Require Import String Ascii ZifyBool.
From Verif Require Import Base Grid_Model NcObj_Model Fill_Model Fill_Spec Fill_Proofs Fill_Chain Fill_Total Fill_Files Fill_Templates Fill_Props Fill_Settings_Props.
From Verif Require Import Diagop_Model Diagop_Spec Diagop_Proofs Diagop_Props Gen_Model Gen_Spec.
Open Scope string_scope.
Open Scope list_scope.
Open Scope Z_scope.

(* ------------------------------------------------------------------ C181 *)

(* Options: the last text given counts, and the default if none is given. *)
Lemma given_snoc name o nv : given_option name (o ++ [nv]) = if String.eqb (fst nv) name then Some (snd nv) else given_option name o.
Proof. unfold given_option. now rewrite fold_left_app. Qed.
Lemma given_after name o after : (forall w, ~ In (name, w) after) -> given_option name (o ++ after) = given_option name o.
Proof.
  induction after as [|[n v] r IH] using rev_ind; intros H; [now rewrite app_nil_r|]. rewrite app_assoc, given_snoc. cbn [fst snd].
  destruct (String.eqb_spec n name) as [->|_]; [exfalso; apply (H v); apply in_app_iff; right; now left|].
  apply IH. intros w I. apply (H w). apply in_app_iff. now left.
Qed.
Lemma given_last name o v : last_given name o v -> given_option name o = Some v.
Proof.
  intros (before & after & -> & H). change ((name, v) :: after) with ([(name, v)] ++ after). rewrite app_assoc, given_after by exact H.
  rewrite given_snoc. cbn [fst snd]. now rewrite String.eqb_refl.
Qed.
Lemma given_none name o : not_given name o -> given_option name o = None.
Proof. intros H. exact (given_after name [] o H). Qed.
Theorem C181_names : forall t start finish o, let f := filler_of t start finish o in
  forall option default name, In (option, default, name) [
    ("measurement_climatology_command", "climatology_input", f_measurement_climatology_command f); ("measurement_climatology_name", "measurement_climatology", f_measurement_climatology f);
    ("solution_climatology_command", "climatology_solve", f_solution_climatology_command f); ("solution_climatology_name", "solution_climatology", f_solution_climatology f);
    ("measurement_large_scale_command", "large_scale_input", f_measurement_large_scale_command f); ("measurement_large_scale_name", "measurement_large_scale", f_measurement_large_scale f);
    ("solution_large_scale_command", "large_scale_solve", f_solution_large_scale_command f); ("solution_large_scale_name", "solution_large_scale", f_solution_large_scale f);
    ("local_scale_command", "local_input_and_solve", f_local_scale_command f); ("solution_local_scale_name", "solution_local", f_solution_local_scale f);
    ("output_grid_command", "output_grid", f_output_grid_command f); ("output_grid_name", "eustace_infilled", f_output_grid_name f);
    ("output_climatology_name", "eustace_infilled", f_output_climatology f); ("output_large_scale_name", "eustace_infilled", f_output_large_scale f);
    ("output_local_name", "eustace_infilled", f_output_local f)] ->
  (forall v, last_given option o v -> name = v) /\ (not_given option o -> name = default).
Proof.
  intros t start finish o f option default name I.
  assert (name = text_option option default o) as -> by (cbn in I; repeat (destruct I as [I|I]; [congruence|]); destruct I).
  unfold text_option. split; [intros v H; now rewrite (given_last _ _ _ H) | intros H; now rewrite (given_none _ _ H)].
Qed.
Print Assumptions C181_names.
Example C181_names_nonvacuous : last_given "output_grid_name" (SCRIPT_OPTIONS ++ [("output_grid_name", "second")]) "second" /\ not_given "output_grid_name" [("land_biases", "0")].
Proof.
  split; [exists SCRIPT_OPTIONS, []; split; [reflexivity | intros w []]|]. intros w [E|[]]. discriminate E.
Qed.

(* What the two programs leave, in terms of the descriptors made. *)
Lemma generated t first last grid start finish o before :
  (forall d, fill_batch_descriptor_range (filler_of t start finish o) first last (negb (grid =? 0)) = Ok d -> generate_json_descriptors t first last grid start finish o before = (Some d, Ok tt)) /\
  (forall d, generate_json_descriptors t first last grid start finish o before = (Some d, Ok tt) -> fill_batch_descriptor_range (filler_of t start finish o) first last (negb (grid =? 0)) = Ok d).
Proof.
  unfold generate_json_descriptors, create_from. destruct (fill_batch_descriptor_range _ _ _ _) as [x|e]; split; intros d E; try discriminate E; congruence.
Qed.
Lemma diagnosed t n start finish o before :
  (forall d, fill_diagnostic_descriptor (filler_of t start finish o) n = Ok d -> generate_diagnostic_descriptors t n start finish o before = (Some d, Ok tt)) /\
  (forall d, generate_diagnostic_descriptors t n start finish o before = (Some d, Ok tt) -> fill_diagnostic_descriptor (filler_of t start finish o) n = Ok d).
Proof.
  unfold generate_diagnostic_descriptors, create_diagnostic_descriptor, create_from. destruct (fill_diagnostic_descriptor _ _) as [x|e]; split; intros d E; try discriminate E; congruence.
Qed.

(* A switch is passed on to every operation of the analysis and of the diagnostics as the text that is given. *)
Theorem C181_switch : forall t last grid n start finish o before before' d e op v, let f := filler_of t start finish o in
  ready f -> local_apart f -> f_solution_climatology f <> f_solution_large_scale f -> 0 <= last ->
  generate_json_descriptors t 0 last grid start finish o before = (Some d, Ok tt) ->
  generate_diagnostic_descriptors t n start finish o before' = (Some e, Ok tt) -> In op (operations d ++ operations e) ->
  (last_given "land_biases" o v -> get [K "runmodule"; K "insitu_biases"] op = Ok (JStr v)) /\
  (last_given "global_biases" o v -> get [K "runmodule"; K "global_biases"] op = Ok (JStr v)) /\
  (not_given "land_biases" o -> get [K "runmodule"; K "insitu_biases"] op = Ok (JNum 1)) /\
  (not_given "global_biases" o -> get [K "runmodule"; K "global_biases"] op = Ok (JNum 1)).
Proof.
  intros t last grid n start finish o before before' d e op v f R L A0 Hl Hd H I.
  apply (proj2 (generated _ _ _ _ _ _ _ _)) in Hd. apply (proj2 (diagnosed _ _ _ _ _ _)) in H. fold f in Hd, H.
  assert (A2 : f_solution_local_scale f <> f_solution_large_scale f) by (destruct L as [_ L]; intros X; apply L; now symmetry).
  assert (S : get [K "runmodule"; K "insitu_biases"] op = Ok (f_land_biases f) /\ get [K "runmodule"; K "global_biases"] op = Ok (f_global_biases f)).
  { apply in_app_iff in I. destruct I as [I|I].
    - destruct (C103_biases f d op R (by_range f last _ d L Hl Hd) I) as (P & G & _). now split.
    - destruct (C177_settings f n e op R A0 A2 H I) as (P & G & _). now split. }
  destruct S as [P G]. rewrite P, G. unfold f, filler_of, bias_option. cbn [f_land_biases f_global_biases].
  split; [|split; [|split]]; intros X; [rewrite (given_last _ _ _ X) | rewrite (given_last _ _ _ X) | rewrite (given_none _ _ X) | rewrite (given_none _ _ X)]; reflexivity.
Qed.
Print Assumptions C181_switch.

(* The dates given reach the operations, and an operation is stepped as in the template of its kind. *)
Theorem C181_dates : forall t last grid n start finish o before before' d e op, let f := filler_of t start finish o in
  ready f -> local_apart f -> f_solution_climatology f <> f_solution_large_scale f -> 0 <= last ->
  generate_json_descriptors t 0 last grid start finish o before = (Some d, Ok tt) ->
  generate_diagnostic_descriptors t n start finish o before' = (Some e, Ok tt) ->
  (forall function template, In op (operations d) -> text_at [K "runmodule"; K "python_function"] op = Some function ->
    In (function, template) [("eustace.analysis.advanced_standard.examples.moving_climatology.process_inputs", t_operation t);
                             ("eustace.analysis.advanced_standard.examples.moving_climatology.process_inputs_batch", t_batch_operation t);
                             ("eustace.analysis.advanced_standard.examples.moving_climatology.output_grid", t_output_grid t);
                             ("eustace.analysis.advanced_standard.examples.moving_climatology.output_grid_batch", t_batch_operation t)] ->
    get [K "step"; K "start"] op = Ok (JStr (start ++ "000000")) /\ get [K "step"; K "end"] op = Ok (JStr (finish ++ "000000")) /\
    get [K "step"; K "python_class"] op = get [K "step"; K "python_class"] template) /\
  (In op (operations e) -> String.length start = 8%nat -> String.length finish = 8%nat ->
    text_at [K "runmodule"; K "first_year"] op = Some (substring 0 4 start) /\ text_at [K "runmodule"; K "last_year"] op = Some (substring 0 4 finish)).
Proof.
  intros t last grid n start finish o before before' d e op f R L A0 Hl Hd H.
  apply (proj2 (generated _ _ _ _ _ _ _ _)) in Hd. apply (proj2 (diagnosed _ _ _ _ _ _)) in H. fold f in Hd, H.
  assert (A2 : f_solution_local_scale f <> f_solution_large_scale f) by (destruct L as [_ L]; intros X; apply L; now symmetry).
  split.
  - intros function template I C T. exact (C103_stepped f d op function template R (by_range f last _ d L Hl Hd) I C T).
  - intros I L1 L2. destruct (C177_settings f n e op R A0 A2 H I) as (_ & _ & F & G & _). split; [exact (F L1) | exact (G L2)].
Qed.
Print Assumptions C181_dates.

(* An analysis of iterations 0 to [last] with its final grids, followed by diagnostics of last + 1 iterations: every operation finds what it reads. *)
Lemma range_makes f last d i s : ready f -> local_apart f -> 0 <= last -> fill_batch_descriptor_range f 0 last true = Ok d -> 0 <= i <= last ->
  In s (large_scale_sets f (last + 1) i) -> In s (flat_map declared (operations d)).
Proof.
  intros R L Hl H Hi I. rewrite (drawn_all_declared _ _ _ (range_drawn f 0 last true d R L ltac:(lia) H)). rewrite flat_map_app. apply in_app_iff. left.
  rewrite (run_names f) by apply batch_iterates. apply in_flat_map. exists i. split; [apply zrange_In; lia|].
  unfold large_scale_sets in I. destruct I as [<-|I].
  - apply (in_map (fun n => numbered n i)). exact (solution_listed f _ 1 component_1).
  - destruct (i =? last + 1 - 1) eqn:Q; [|destruct I]. replace ((i =? last) && true) with true by lia.
    destruct I as [<-|[<-|[]]]; [apply (in_map (fun n => numbered n i) _ (sample_of (f_solution_large_scale f)))|apply (in_map (fun n => numbered n i) _ (prior_sample_of (f_solution_large_scale f)))]; cbn; tauto.
Qed.
Theorem C181_together : forall t last grid start finish o before before' d e, let f := filler_of t start finish o in
  ready f -> local_apart f -> f_solution_climatology f <> f_solution_large_scale f -> 0 <= last -> grid <> 0 ->
  generate_json_descriptors t 0 last grid start finish o before = (Some d, Ok tt) ->
  generate_diagnostic_descriptors t (last + 1) start finish o before' = (Some e, Ok tt) ->
  well_ordered (given f) (operations d ++ operations e).
Proof.
  intros t last grid start finish o before before' d e f R L A0 Hl Hg Hd He. apply (proj2 (generated _ _ _ _ _ _ _ _)) in Hd. apply (proj2 (diagnosed _ _ _ _ _ _)) in He.
  replace (negb (grid =? 0)) with true in Hd by lia. fold f in Hd, He.
  assert (A2 : f_solution_local_scale f <> f_solution_large_scale f) by (destruct L as [_ L]; intros X; apply L; now symmetry).
  assert (W : well_ordered (given f) (operations d)).
  { intros b op a s E Rd. destruct (C100_order f 0 last true d R L ltac:(lia) Hd b op a s E Rd) as [[G|[G _]]|G]; [now left | lia | now right]. }
  destruct (C177_operations f (last + 1) e R A0 A2 ltac:(lia) He) as [Z Q].
  intros b op a s E Rd.
  assert (C : (exists a2, operations d = b ++ op :: a2) \/ (exists b2, b = operations d ++ b2 /\ In op (operations e))).
  { clear - E. revert b E. induction (operations d) as [|x l IH]; intros b E.
    - right. exists b. split; [reflexivity|]. cbn in E. rewrite E. apply in_app_iff. right. now left.
    - destruct b as [|y b]; [left; injection E as -> _; now exists l|]. injection E as -> E. destruct (IH b E) as [(a2 & ->)|(b2 & -> & I)]; [left; now exists a2|right; now exists b2]. }
  destruct C as [(a2 & E2)|(b2 & -> & I)]; [exact (W b op a2 s E2 Rd)|].
  destruct (In_nth_error _ _ I) as (k & Hk). assert (k < List.length (operations e))%nat as Lk by (apply nth_error_Some; congruence).
  unfold zlen in Z. destruct (Q (Z.of_nat k) ltac:(lia)) as (op' & Ho & _ & _ & _ & _ & Rs & _). rewrite Nat2Z.id in Ho. assert (op' = op) as -> by congruence.
  destruct (Rs s Rd) as [Il|G]; [|now left]. right. rewrite flat_map_app. apply in_app_iff. left. apply (range_makes f last d (Z.of_nat k) s R L Hl Hd); [lia | exact Il].
Qed.
Print Assumptions C181_together.

(* With any other number of iterations the last diagnostic operation reads samples that nothing makes. *)
Lemma apart_large f : distinct_names f -> f_solution_climatology f <> f_solution_large_scale f.
Proof.
  intros (N & _ & _) X. unfold bases, solutions in N. cbn [app map] in N.
  repeat match goal with X : NoDup (_ :: _) |- _ => inversion_clear X end. cbn [In] in *. intuition congruence.
Qed.
Lemma bases_sample f b : distinct_names f -> In b (iteration_names f false) -> b <> sample_of (f_solution_large_scale f).
Proof.
  intros (N & _ & _) I E. unfold bases, solutions in N. cbn [app map] in N. subst b. unfold sample_of in I.
  repeat match goal with X : NoDup (_ :: _) |- _ => inversion_clear X end.
  cbn in I. cbn [In] in *. intuition congruence.
Qed.
Lemma diagnostics_declared f n e : ready f -> large_apart f -> fill_diagnostic_descriptor f n = Ok e -> flat_map declared (operations e) = map biases_set (zrange 0 n).
Proof.
  intros R A He. destruct (diagnostic_extracts f n e R A He) as (t & Kt & F). clear - F.
  induction F as [|i op l m X F IH]; [reflexivity|]. cbn [flat_map map]. rewrite IH, (announces_declared _ _ (o_announces _ _ _ _ _ _ _ _ _ (x_outline _ _ _ _ _ _ _ _ X))). reflexivity.
Qed.
Theorem C181_samples_lost : forall t last n grid start finish o before before' d e, let f := filler_of t start finish o in
  ready f -> local_apart f -> distinct_names f -> ~ In "station_biases" (bases f) -> 0 <= last -> 1 <= n -> n <> last + 1 ->
  generate_json_descriptors t 0 last grid start finish o before = (Some d, Ok tt) ->
  generate_diagnostic_descriptors t n start finish o before' = (Some e, Ok tt) ->
  exists op, nth_error (operations e) (Z.to_nat (n - 1)) = Some op /\
  let s := numbered (f_solution_large_scale f ++ "_sample")%string (n - 1) in reads op s /\ ~ In s (flat_map declared (operations d ++ operations e)).
Proof.
  intros t last n grid start finish o before before' d e f R L N NB Hl Hn Hne Hd He. apply (proj2 (generated _ _ _ _ _ _ _ _)) in Hd. apply (proj2 (diagnosed _ _ _ _ _ _)) in He. fold f in Hd, He.
  assert (A2 : f_solution_local_scale f <> f_solution_large_scale f) by (destruct L as [_ L]; intros X; apply L; now symmetry).
  assert (A0 : f_solution_climatology f <> f_solution_large_scale f) by exact (apart_large f N).
  destruct (C177_operations f n e R A0 A2 ltac:(lia) He) as [Z Q]. destruct (Q (n - 1) ltac:(lia)) as (op & Ho & _ & _ & _ & Rd & _).
  exists op. split; [exact Ho|]. intros s. split; [apply Rd; unfold large_scale_sets; rewrite Z.eqb_refl; right; now left|].
  rewrite flat_map_app. intros I. apply in_app_iff in I. destruct I as [I|I].
  - rewrite (drawn_all_declared _ _ _ (range_drawn f 0 last _ d R L ltac:(lia) Hd)) in I. rewrite flat_map_app in I. apply in_app_iff in I. destruct I as [I|I].
    + rewrite (run_names f) in I by apply batch_iterates. apply in_flat_map in I. destruct I as (i & Ii & I). apply zrange_In in Ii. apply in_map_iff in I. destruct I as (b & E & I).
      apply numbered_inj in E; [|lia|lia]. destruct E as [-> ->]. replace (n - 1 =? last) with false in I by lia. cbn [andb] in I. exact (bases_sample f _ N I eq_refl).
    + destruct (negb (grid =? 0)); [|destruct I]. cbn [flat_map app] in I. rewrite app_nil_r in I.
      assert (J : In s (map (fun s => numbered s last) (outputs f))) by exact I.
      apply in_map_iff in J. destruct J as (b & E & _). apply numbered_inj in E; [|lia|lia]. lia.
  - rewrite (diagnostics_declared f n e R (conj A0 A2) He) in I. apply in_map_iff in I. destruct I as (k & J & Ik). apply zrange_In in Ik.
    unfold biases_set in J. apply numbered_inj in J; [|lia|lia]. destruct J as [J _]. apply NB. rewrite J. unfold bases, solutions. cbn [map app In]. tauto.
Qed.
Print Assumptions C181_samples_lost.

(* ---- the shipped scripts *)
Definition script_filler : filler := filler_of SHIPPED "18800101" "20151231" SCRIPT_OPTIONS.
Lemma shipped_templates_ready start finish o : ready (filler_of SHIPPED start finish o).
Proof.
  pose proof (shipped_ready (start, finish) "a" "b" "c" "d") as (_ & _ & B1 & B2 & B3 & G).
  assert (forall name, plain (bias_option name o)) as P by (intros name; unfold bias_option; destruct (given_option name o); exact I).
  split; [apply P|]. split; [apply P|]. split; [exact B1|]. split; [exact B2|]. split; [exact B3 | exact G].
Qed.
Lemma shipped_templates_complete start finish o : complete (filler_of SHIPPED start finish o).
Proof. exact (shipped_complete (start, finish) "a" "b" "c" "d"). Qed.
Lemma script_apart : local_apart script_filler.
Proof. split; vm_compute; discriminate. Qed.
Lemma script_distinct : distinct_names script_filler.
Proof.
  assert (B : bases script_filler = ["climatology_increment"; "large_scale_increment"; "climatology_solution"; "large_scale_solution"; "local_solution"; "climatology_solution_sample"; "large_scale_solution_sample"; "local_solution_sample";
    "climatology_solution_prior_sample"; "large_scale_solution_prior_sample"; "local_solution_prior_sample"]) by (vm_compute; reflexivity).
  assert (O : outputs script_filler = ["eustace_analysis"; "eustace_climatology_component"; "eustace_large_scale_component"; "eustace_local_component"]) by (vm_compute; reflexivity).
  unfold distinct_names. rewrite B, O. split; [|split].
  - repeat (apply NoDup_cons; [cbn; intros H; repeat (destruct H as [H|H]; [discriminate H|]); exact H|]). apply NoDup_nil.
  - repeat (apply NoDup_cons; [cbn; intros H; repeat (destruct H as [H|H]; [discriminate H|]); exact H|]). apply NoDup_nil.
  - intros o b i Io Ib _ E. unfold numbered in E. cbn in Io, Ib. repeat (destruct Io as [<-|Io]; [repeat (destruct Ib as [<-|Ib]; [discriminate E|]); destruct Ib|]). destruct Io.
Qed.
Lemma script_biases : ~ In "station_biases" (bases script_filler).
Proof. intros H. vm_compute in H. repeat (destruct H as [H|H]; [discriminate H|]). exact H. Qed.

(* The script makes the descriptor of six iterations; its operations are well ordered and declare every data set once, the four outputs
   of the final iteration among them. *)
Theorem C181_script : forall before, exists d, build_descriptors true before = (Some d, Ok tt) /\
  well_ordered (given script_filler) (operations d) /\ NoDup (flat_map declared (operations d)) /\
  (forall k, 0 <= k < 3 -> latest k State (operations d) = Some (numbered (nth (Z.to_nat k) ["climatology_solution"; "large_scale_solution"; "local_solution"] "") 5)) /\
  (forall o, In o ["eustace_analysis"; "eustace_climatology_component"; "eustace_large_scale_component"; "eustace_local_component"] -> In (numbered o 5) (flat_map declared (operations d))).
Proof.
  intros before. pose proof (shipped_templates_ready "18800101" "20151231" SCRIPT_OPTIONS : ready script_filler) as R.
  destruct (C100_total script_filler 0 5 true R (shipped_templates_complete _ _ _) ltac:(lia)) as (d & Hd).
  exists d. split; [|split; [|split; [|split]]].
  - exact (proj1 (generated SHIPPED 0 5 1 "18800101" "20151231" SCRIPT_OPTIONS before) d Hd).
  - exact (C58_order script_filler d R (by_range script_filler 5 true d script_apart ltac:(lia) Hd)).
  - rewrite (drawn_all_declared _ _ _ (range_drawn script_filler 0 5 true d R script_apart ltac:(lia) Hd)). rewrite flat_map_app. apply NoDup_join.
    + apply (run_NoDup script_filler); [apply batch_iterates | exact (proj1 script_distinct) | lia].
    + change (NoDup (flat_map names [gridding OUTPUT_GRID_BATCH script_filler 5 (fun s => numbered s 5)])) with (NoDup (map (fun s => numbered s 5) (outputs script_filler))).
      apply FinFun.Injective_map_NoDup; [|exact (proj1 (proj2 script_distinct))]. intros x y E. apply numbered_inj in E; [tauto|lia|lia].
    + intros s I J. apply (run_names_In script_filler) in I; [|apply batch_iterates|lia]. destruct I as (b & i & Ib & Ii & ->).
      assert (J' : In (numbered b i) (map (fun s => numbered s 5) (outputs script_filler))) by exact J.
      apply in_map_iff in J'. destruct J' as (o & E & Io). apply numbered_inj in E; [|lia|lia]. destruct E as [-> _].
      vm_compute in Ib, Io. repeat (destruct Io as [<-|Io]; [repeat (destruct Ib as [Ib|Ib]; [discriminate Ib|]); destruct Ib|]). destruct Io.
  - intros k Hk. apply component_range in Hk as Ck.
    rewrite (latest_after _ _ _ k State Ck (range_drawn script_filler 0 5 true d R script_apart ltac:(lia) Hd)). rewrite after_app.
    change (after start (run (batch_sketches script_filler) (fun i => (i =? 5) && true) 0 (5 + 1)) k State = Some (numbered (nth (Z.to_nat k) ["climatology_solution"; "large_scale_solution"; "local_solution"] "") 5)).
    destruct (run_routed script_filler (batch_sketches script_filler) (fun i => (i =? 5) && true) start 0 (batch_iterates script_filler) ltac:(lia) ltac:(intros x Cx; reflexivity) (5 + 1) ltac:(lia)) as [_ V].
    rewrite (V k Ck). destruct Ck as [-> | [-> | ->]]; vm_compute; reflexivity.
  - intros o Io. rewrite (drawn_all_declared _ _ _ (range_drawn script_filler 0 5 true d R script_apart ltac:(lia) Hd)). rewrite flat_map_app. apply in_app_iff. right.
    change (In (numbered o 5) (map (fun s => numbered s 5) (outputs script_filler))). apply (in_map (fun s => numbered s 5)).
    replace (outputs script_filler) with ["eustace_analysis"; "eustace_climatology_component"; "eustace_large_scale_component"; "eustace_local_component"] by (vm_compute; reflexivity).
    exact Io.
Qed.
Print Assumptions C181_script.
(* Without a directory for its output a script does nothing. *)
Theorem C181_directory : forall before, build_descriptors false before = (before, Err ValueError) /\ build_diagnostic_descriptors false before = (before, Err ValueError).
Proof. intros before. split; reflexivity. Qed.
Print Assumptions C181_directory.

Lemma script_not_given : forall s, In s ["large_scale_solution_sample_4"; "large_scale_solution_5"] -> ~ given script_filler s.
Proof.
  intros s Is G. assert (W : orb (String.eqb "large_scale_solution_sample_4" s) (String.eqb "large_scale_solution_5" s) = true) by (destruct Is as [<-|[<-|[]]]; reflexivity).
    destruct G as [G|[G|G]]; revert G; apply (no_refs_sound (fun x => orb (String.eqb "large_scale_solution_sample_4" x) (String.eqb "large_scale_solution_5" x))); (exact W || (vm_compute; reflexivity)).
Qed.
Lemma script_final_unread e : fill_diagnostic_descriptor script_filler 5 = Ok e -> forall op, In op (operations e) -> ~ reads op "large_scale_solution_5".
Proof.
  intros He. pose proof (shipped_templates_ready "18800101" "20151231" SCRIPT_OPTIONS : ready script_filler) as R. pose proof script_not_given as G4.
  intros op' I X. destruct (C177_operations script_filler 5 e R ltac:(vm_compute; discriminate) ltac:(vm_compute; discriminate) ltac:(lia) He) as [Z Q].
    destruct (In_nth_error _ _ I) as (k & Hk). assert (k < List.length (operations e))%nat as Lk by (apply nth_error_Some; congruence).
    unfold zlen in Z. destruct (Q (Z.of_nat k) ltac:(lia)) as (op2 & Ho2 & _ & _ & _ & _ & Rs & _). rewrite Nat2Z.id in Ho2. assert (op2 = op') as -> by congruence.
    destruct (Rs _ X) as [Y|Y]; [|revert Y; apply G4; right; now left].
    assert (k = 0 \/ k = 1 \/ k = 2 \/ k = 3 \/ k = 4)%nat as Ck by lia. destruct Ck as [-> | [-> | [-> | [-> | ->]]]]; vm_compute in Y; repeat (destruct Y as [Y|Y]; [discriminate Y|]); destruct Y.
Qed.
Lemma script_lost before before' d e : generate_json_descriptors SHIPPED 0 5 1 "18800101" "20151231" SCRIPT_OPTIONS before = (Some d, Ok tt) ->
  generate_diagnostic_descriptors SHIPPED 5 "18800101" "20151231" SCRIPT_OPTIONS before' = (Some e, Ok tt) ->
  exists op, nth_error (operations e) (Z.to_nat (5 - 1)) = Some op /\ reads op "large_scale_solution_sample_4" /\ ~ In "large_scale_solution_sample_4" (flat_map declared (operations d ++ operations e)).
Proof.
  intros Gd Ge.
  destruct (C181_samples_lost SHIPPED 5 5 1 "18800101" "20151231" SCRIPT_OPTIONS before before' d e (shipped_templates_ready _ _ _) script_apart script_distinct script_biases ltac:(lia) ltac:(lia) ltac:(lia) Gd Ge) as (op & Ho & Rd & Nd).
  exists op. split; [exact Ho|]. split; [exact Rd | exact Nd].
Qed.
Lemma script_built before : build_descriptors true before = generate_json_descriptors SHIPPED 0 5 1 "18800101" "20151231" SCRIPT_OPTIONS before.
Proof. unfold build_descriptors. cbn [negb]. reflexivity. Qed.
Lemma script_diagnosed before : build_diagnostic_descriptors true before = generate_diagnostic_descriptors SHIPPED 5 "18800101" "20151231" SCRIPT_OPTIONS before.
Proof. unfold build_diagnostic_descriptors. cbn [negb]. reflexivity. Qed.
Lemma script_unordered d e op : nth_error (operations e) (Z.to_nat (5 - 1)) = Some op -> reads op "large_scale_solution_sample_4" -> ~ In "large_scale_solution_sample_4" (flat_map declared (operations d ++ operations e)) ->
  ~ well_ordered (given script_filler) (operations d ++ operations e).
Proof.
  intros Ho Rd Nd W. destruct (in_split _ _ (nth_error_In _ _ Ho)) as (b & a & E). destruct (W (operations d ++ b) op a "large_scale_solution_sample_4") as [G|G]; [rewrite E, <- app_assoc; reflexivity | exact Rd | |].
  - revert G. apply script_not_given. now left.
  - apply Nd. rewrite E. rewrite flat_map_app in *. rewrite flat_map_app. rewrite !in_app_iff in *. tauto.
Qed.
(* The two scripts do not fit: the diagnostics are those of five iterations while the analysis has six. The biases of the final state are
   not extracted, and the last diagnostic operation reads samples that nothing makes. *)
Theorem C181_scripts_refuted : forall before before', exists d e op, build_descriptors true before = (Some d, Ok tt) /\ build_diagnostic_descriptors true before' = (Some e, Ok tt) /\
  ~ well_ordered (given script_filler) (operations d ++ operations e) /\
  In op (operations e) /\ reads op "large_scale_solution_sample_4" /\ ~ In "large_scale_solution_sample_4" (flat_map declared (operations d ++ operations e)) /\
  (forall op, In op (operations e) -> ~ reads op "large_scale_solution_5").
Proof.
  intros before before'. destruct (C181_script before) as (d & Hd & _). pose proof Hd as Gd. rewrite script_built in Gd.
  destruct (proj1 (C177_total script_filler 5 (shipped_templates_ready _ _ _) (shipped_templates_complete _ _ _) ltac:(vm_compute; discriminate) ltac:(vm_compute; discriminate)) ltac:(lia)) as (e & He).
  pose proof (proj1 (diagnosed SHIPPED 5 "18800101" "20151231" SCRIPT_OPTIONS before') e He) as Ge. pose proof Ge as He'. rewrite <- script_diagnosed in He'.
  destruct (script_lost before before' d e Gd Ge) as (op & Ho & Rd & Nd).
  exists d, e, op. split; [exact Hd|]. split; [exact He'|]. split; [exact (script_unordered d e op Ho Rd Nd)|]. split; [exact (nth_error_In _ _ Ho)|].
  split; [exact Rd|]. split; [exact Nd | exact (script_final_unread e He)].
Qed.
Print Assumptions C181_scripts_refuted.

(* Giving 0 for a switch does not switch the biases off: the text 0 is true. *)
Theorem C181_switch_refuted : exists o e op j, last_given "land_biases" o "0" /\ generate_diagnostic_descriptors SHIPPED 1 "18800101" "20151231" o None = (Some e, Ok tt) /\
  In op (operations e) /\ get [K "runmodule"; K "insitu_biases"] op = Ok j /\ truth j = true.
Proof.
  pose (o := [("land_biases", "0")]). pose proof (shipped_templates_ready "18800101" "20151231" o) as R.
  destruct (proj1 (C177_total _ 1 R (shipped_templates_complete _ _ _) ltac:(vm_compute; discriminate) ltac:(vm_compute; discriminate)) ltac:(lia)) as (e & He).
  destruct (proj2 (C177_operations _ 1 e R ltac:(vm_compute; discriminate) ltac:(vm_compute; discriminate) ltac:(lia) He) 0 ltac:(lia)) as (op & Ho & _).
  exists o, e, op, (JStr "0"). split; [exists [], []; split; [reflexivity | intros w []]|].
  split; [exact (proj1 (diagnosed SHIPPED 1 "18800101" "20151231" o None) e He)|]. split; [exact (nth_error_In _ _ Ho)|]. split; [|reflexivity].
  exact (proj1 (C177_settings _ 1 e op R ltac:(vm_compute; discriminate) ltac:(vm_compute; discriminate) He (nth_error_In _ _ Ho))).
Qed.
Print Assumptions C181_switch_refuted.

(* The shipped templates and the names of the scripts meet the hypotheses: an analysis of two iterations with its diagnostics. *)
Example C181_nonvacuous : ready script_filler /\ local_apart script_filler /\ distinct_names script_filler /\ ~ In "station_biases" (bases script_filler) /\
  exists d e, generate_json_descriptors SHIPPED 0 1 1 "18800101" "20151231" SCRIPT_OPTIONS None = (Some d, Ok tt) /\ generate_diagnostic_descriptors SHIPPED 2 "18800101" "20151231" SCRIPT_OPTIONS None = (Some e, Ok tt).
Proof.
  pose proof (shipped_templates_ready "18800101" "20151231" SCRIPT_OPTIONS : ready script_filler) as R.
  split; [exact R|]. split; [exact script_apart|]. split; [exact script_distinct|]. split; [exact script_biases|].
  destruct (C100_total script_filler 0 1 true R (shipped_templates_complete _ _ _) ltac:(lia)) as (d & Hd).
  destruct (proj1 (C177_total script_filler 2 R (shipped_templates_complete _ _ _) ltac:(vm_compute; discriminate) ltac:(vm_compute; discriminate)) ltac:(lia)) as (e & He).
  exists d, e. split; [exact (proj1 (generated SHIPPED 0 1 1 _ _ _ None) d Hd) | exact (proj1 (diagnosed SHIPPED 2 _ _ _ None) e He)].
Qed.
