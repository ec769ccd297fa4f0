(* Theorems about work distribution: C01 - C07. *)
From Coq Require Import String.
From Verif Require Import Base Work_Model Work_Spec Work_Proofs.
Local Open Scope Z_scope.
Local Open Scope list_scope.

(* ---- C01: whatever the interleaving of the checksum threads, every entry is processed exactly once and
   the final list is the one obtained by checksumming each entry. *)
Theorem C01_checksum_any_schedule :
  forall (digest : string -> option (Z * Z)) (matches : list file_entry) (numthreads : Z),
  0 < numthreads ->
  exists ranges,
    compute_checksum_thread_indices (zlen matches) numthreads = Ok ranges /\
    concat (map thread_run_indices ranges) = zrange 0 (zlen matches) /\
    forall schedule, interleaving (map thread_run_indices ranges) schedule ->
      Permutation schedule (zrange 0 (zlen matches)) /\
      Forall2 (checksummed digest) matches (run_schedule digest matches schedule).
Proof.
  intros digest matches t Ht.
  destruct (thread_indices_total (zlen matches) t (zlen_nonneg _) Ht) as [ranges E].
  exists ranges. split; [exact E|]. pose proof (thread_ranges_concat _ _ _ (zlen_nonneg _) Ht E) as C.
  split; [exact C|]. intros s I. apply interleaving_permutation in I. rewrite C in I.
  split; [exact I|]. rewrite run_schedule_all by exact I. apply map_checksummed.
Qed.
Print Assumptions C01_checksum_any_schedule.

Definition three_entries : list file_entry :=
  [ {| fe_name := "a"; fe_checksum := None; fe_size := None |};
    {| fe_name := "b"; fe_checksum := None; fe_size := None |};
    {| fe_name := "c"; fe_checksum := Some 1; fe_size := Some 9 |} ].
Example C01_nonvacuous :
  compute_checksum_thread_indices 3 2 = Ok [(0, 1); (1, 2); (2, 3)] /\
  interleaving (map thread_run_indices [(0, 1); (1, 3)]) [1; 0; 2] /\
  run_schedule (fun s => if String.eqb s "b" then None else Some (7, 8)) three_entries [1; 0; 2] =
  [ {| fe_name := "a"; fe_checksum := Some 7; fe_size := Some 8 |};
    {| fe_name := "b"; fe_checksum := None; fe_size := None |};
    {| fe_name := "c"; fe_checksum := Some 7; fe_size := Some 8 |} ].
Proof.
  split; [reflexivity|]. split; [|reflexivity].
  apply (il_step [[0]] 1 [2] []). apply (il_step [] 0 [] [[2]]). apply (il_step [[]] 2 [] []).
  apply il_done. repeat constructor.
Qed.

(* ---- C02: number of threads. *)
Theorem C02_thread_count :
  forall total numthreads ranges,
  0 <= total -> 0 < numthreads ->
  compute_checksum_thread_indices total numthreads = Ok ranges ->
  zlen ranges <= total /\ zlen ranges < 2 * numthreads /\
  (total < 2 * numthreads -> zlen ranges = total) /\
  Forall (fun r => fst r < snd r) ranges.
Proof. exact thread_count. Qed.
Print Assumptions C02_thread_count.

(* The requested number of threads itself is not a bound: 127 files give 127 threads, not 64. *)
Theorem C02_at_most_requested_refuted :
  exists total ranges,
    0 < total /\ compute_checksum_thread_indices total CHECKSUM_NUM_THREADS = Ok ranges /\
    CHECKSUM_NUM_THREADS < zlen ranges.
Proof.
  exists 127. destruct (compute_checksum_thread_indices 127 CHECKSUM_NUM_THREADS) as [r|] eqn:E;
    [|vm_compute in E; discriminate].
  exists r. split; [lia|]. split; [reflexivity|].
  assert (Ok (zlen r) = Ok 127) as H.
  { transitivity (do r <- compute_checksum_thread_indices 127 CHECKSUM_NUM_THREADS; Ok (zlen r)); [now rewrite E|].
    vm_compute. reflexivity. }
  injection H as ->. reflexivity.
Qed.
Print Assumptions C02_at_most_requested_refuted.

(* ---- C03: the number of batches is the least that covers all operations, and the command lines of the
   batches address the operation numbers in order without gap or repetition. *)
Theorem C03_batches_cover :
  forall n batchsize,
  0 <= n -> 0 < batchsize ->
  let batches := batch_count n batchsize in
  n <= batches * batchsize /\
  (forall m, 0 <= m -> n <= m * batchsize -> batches <= m) /\
  map (addressed batchsize) (cylc_command_lines n batchsize) = zrange 0 (batches * batchsize).
Proof.
  intros n b Hn Hb m. subst m. split; [|split].
  - destruct (batch_count_spec n b Hn Hb); nia.
  - intros m Hm Hle. destruct (batch_count_spec n b Hn Hb); nia.
  - now apply cylc_addressed.
Qed.
Print Assumptions C03_batches_cover.

(* Running all command lines of all batches runs exactly operations 0 .. n-1, in order, each once, each with
   its own parameters. *)
Theorem C03_batches_run_everything_once :
  forall tc uf cat timestamp name op batchsize allow values,
  0 < batchsize ->
  runnable tc cat timestamp name op allow values ->
  mentions_operation (op_runmodule op) ->
  operationcount cat name batchsize = Ok (batch_count (op_count op) batchsize) /\
  trace_of tc uf cat timestamp name batchsize allow (cylc_command_lines (op_count op) batchsize) = values.
Proof.
  intros. split; [apply stored_count; [eapply (proj1 H0)|lia]|]. eapply cylc_trace; eauto.
Qed.
Print Assumptions C03_batches_run_everything_once.

Local Open Scope string_scope.
Definition ex_paths (refs : list data_reference) : result (list (option string)) :=
  Ok (map (fun r => if (ref_entry r <? 0)%Z then None else Some "file.nc") refs).
Definition ex_op : operation :=
  {| op_name := Some "job"; op_class := None; op_function := Some "pkg.f"; op_count := 3;
     op_toolchain := ["v1"];
     op_runmodule := PNode [("when", PList [10; 11; 12]); ("input", PFileRef [[0; 0; 1]; [0; 0; -1]; []]);
                            ("id", PCatalogueID); ("opt", PNode [("x", PLit 5)])] |}.
Definition ex_other : operation :=
  {| op_name := Some "other"; op_class := Some "pkg.C"; op_function := None; op_count := 1;
     op_toolchain := ["v1"]; op_runmodule := PNode [("when", PList [1])] |}.
Definition ex_cat : catalogue_file :=
  {| cf_identifier := "uuid"; cf_operations := [ex_other; ex_op]; cf_pathnames := ex_paths |}.
Definition ex_tc (_ : string) : result (list string) := Ok ["v1"].
Definition ex_uf (v : value) : result Z :=
  match v with VNode ((_, VLit z) :: _) => Ok (z * z)%Z | _ => Err ModuleError end.
Definition ex_value (when : Z) (path : option string) : value :=
  VNode [("when", VLit when); ("input", VPath path); ("id", VIdentifier "uuid"); ("opt", VNode [("x", VLit 5)])].
Definition ex_values : list value := [ex_value 10 (Some "file.nc"); ex_value 11 None; ex_value 12 None].
Local Close Scope string_scope.

Lemma ex_stored : stored_under ex_cat "job" ex_op.
Proof.
  exists [ex_other], []. split; [reflexivity|]. split; [left; cbn; repeat split; congruence|].
  repeat constructor; cbn; congruence.
Qed.

Example C03_nonvacuous :
  runnable ex_tc ex_cat "now" "job" ex_op false ex_values /\ mentions_operation (op_runmodule ex_op).
Proof.
  split.
  - split; [exact ex_stored|]. split; [reflexivity|]. split; [left; reflexivity|]. split; [reflexivity|].
    intros k v E. apply resolve_iff.
    destruct k as [|[|[|k]]]; cbn in E; try (injection E as <-; reflexivity). destruct k; discriminate.
  - eapply mo_node; [left; reflexivity|constructor].
Qed.

(* ---- C04: what one command line runs. *)

(* An index inside the range runs exactly that operation, once, with that operation's parameters. *)
Theorem C04_command_runs_requested_operation :
  forall tc uf cat timestamp name op allow values k v,
  runnable tc cat timestamp name op allow values -> nth_error values k = Some v ->
  (commandrun tc uf cat timestamp name (Z.of_nat k) None None false allow =
     {| ran := [v]; ret := do r <- uf v; Ok (Some r) |}) /\
  (forall batchsize batch index, batchsize <> 0 -> batch * batchsize + index = Z.of_nat k ->
     commandrun tc uf cat timestamp name index (Some batchsize) (Some batch) false allow =
     {| ran := [v]; ret := do r <- uf v; Ok (Some r) |}).
Proof.
  intros tc uf cat ts name op allow values k v R E. split.
  - unfold commandrun; cbn [truthy]. eapply runnable_one; eauto.
  - intros b bt i Hb Hk. rewrite commandrun_batch by assumption. rewrite Hk. eapply runnable_one; eauto.
Qed.
Print Assumptions C04_command_runs_requested_operation.

Example C04_nonvacuous : nth_error ex_values 2 = Some (ex_value 12 None) /\ 1 * 2 + 0 = Z.of_nat 2.
Proof. split; reflexivity. Qed.

(* Beyond the end, or below minus the count, nothing is run and the caller gets a ValueError. *)
Theorem C04_out_of_range_rejected :
  forall tc uf cat timestamp name op index justlist allow,
  stored_under cat name op -> is_ok (current_runtime_toolchain tc op) = true ->
  mentions_operation (op_runmodule op) ->
  index < - op_count op \/ op_count op <= index ->
  commandrun tc uf cat timestamp name index None None justlist allow = {| ran := []; ret := Err ValueError |}.
Proof.
  intros. unfold commandrun; cbn [truthy]. eapply commandrun_at_out; eauto. now apply stored_load.
Qed.
Print Assumptions C04_out_of_range_rejected.

Example C04_out_of_range_nonvacuous :
  stored_under ex_cat "job" ex_op /\ is_ok (current_runtime_toolchain ex_tc ex_op) = true /\ op_count ex_op <= 3.
Proof. split; [exact ex_stored|]. split; [reflexivity|cbn; lia]. Qed.

(* Inconsistent batch options are rejected and nothing is run. *)
Theorem C04_batch_options_rejected :
  forall tc uf cat timestamp name index justlist allow batchsize batch,
  (batchsize <> 0 ->
   commandrun tc uf cat timestamp name index (Some batchsize) None justlist allow = {| ran := []; ret := Err ValueError |}) /\
  (batch <> 0 ->
   commandrun tc uf cat timestamp name index None (Some batch) justlist allow = {| ran := []; ret := Err ValueError |}).
Proof.
  intros. split; intros H; unfold commandrun, truthy.
  - destruct (batchsize =? 0) eqn:E; [lia|reflexivity].
  - destruct (batch =? 0) eqn:E; [lia|reflexivity].
Qed.
Print Assumptions C04_batch_options_rejected.

(* Findings: a negative index is not rejected but runs an operation counted from the end ... *)
Theorem C04_negative_index_rejected_refuted :
  exists tc uf cat timestamp name op,
    stored_under cat name op /\ mentions_operation (op_runmodule op) /\
    ran (commandrun tc uf cat timestamp name (-1) None None false false) <> [].
Proof.
  exists ex_tc, ex_uf, ex_cat, "now"%string, "job"%string, ex_op. split; [exact ex_stored|]. split; [apply C03_nonvacuous|].
  vm_compute. discriminate.
Qed.
Print Assumptions C04_negative_index_rejected_refuted.

(* ... a batch of size zero is not rejected but treated as if no batch had been requested ... *)
Theorem C04_zero_batch_size_refuted :
  exists tc uf cat timestamp name op,
    stored_under cat name op /\
    ran (commandrun tc uf cat timestamp name 1 (Some 0) None false false) <> [].
Proof.
  exists ex_tc, ex_uf, ex_cat, "now"%string, "job"%string, ex_op. split; [exact ex_stored|]. vm_compute. discriminate.
Qed.
Print Assumptions C04_zero_batch_size_refuted.

(* ... and an operation without any per-operation parameter is run for every index whatever. *)
Theorem C04_no_parameters_never_rejected :
  forall tc uf cat timestamp name op allow index,
  stored_under cat name op -> op_class op = None ->
  current_runtime_toolchain tc op = Ok (op_toolchain op) ->
  ~ mentions_operation (op_runmodule op) ->
  index < - op_count op \/ op_count op <= index ->
  exists v, ran (commandrun tc uf cat timestamp name index None None false allow) = [v].
Proof.
  intros tc uf cat ts name op allow i S C T M Hi. unfold commandrun; cbn [truthy].
  unfold commandrun_at. rewrite (stored_load _ _ _ S), T.
  destruct (resolve_out cat (op_count op) i ts (op_runmodule op) Hi) as [[Y _]|[_ [v R]]]; [contradiction|].
  rewrite R. exists v. replace (string_list_eqb _ _) with true by (symmetry; now apply string_list_eqb_iff).
  cbn [negb andb]. unfold operation_run. rewrite C. reflexivity.
Qed.
Print Assumptions C04_no_parameters_never_rejected.

Example C04_no_parameters_nonvacuous :
  ~ mentions_operation (PNode [("x"%string, PLit 5)]).
Proof.
  intro H. inversion H as [| | |l k c I M]; subst. destruct I as [E|[]]. injection E as <- <-. inversion M.
Qed.

(* An operation given as a class with a run method is never run: the run itself fails. *)
Theorem C04_class_operations_never_run :
  forall tc uf cat timestamp name op index use_batch_size batch justlist allow,
  stored_under cat name op -> op_class op <> None ->
  ran (commandrun tc uf cat timestamp name index use_batch_size batch justlist allow) = [].
Proof.
  intros tc uf cat ts name op i ub b l allow S C.
  assert (forall j, ran (commandrun_at tc uf cat ts name j l allow) = []) as H.
  { intros j. unfold commandrun_at. rewrite (stored_load _ _ _ S).
    destruct current_runtime_toolchain; [|reflexivity]. destruct resolve_single; [|reflexivity].
    destruct l; [reflexivity|]. destruct (_ && _); [reflexivity|]. unfold operation_run.
    destruct (op_class op); [reflexivity|contradiction]. }
  unfold commandrun. destruct (truthy ub); [destruct b; auto|]. destruct (truthy b); auto.
Qed.
Print Assumptions C04_class_operations_never_run.

Example C04_class_nonvacuous : stored_under ex_cat "other" ex_other /\ op_class ex_other <> None.
Proof.
  split; [|discriminate]. exists [], [ex_op]. split; [reflexivity|].
  split; [left; cbn; repeat split; congruence|]. repeat constructor; cbn; congruence.
Qed.

(* ---- C05: the version gate and the list option. *)
Theorem C05_version_gate :
  forall tc uf cat timestamp name index use_batch_size batch justlist,
  ran (commandrun tc uf cat timestamp name index use_batch_size batch justlist false) <> [] ->
  exists op, load_operation cat name = Ok op /\ current_runtime_toolchain tc op = Ok (op_toolchain op).
Proof. exact commandrun_gate. Qed.
Print Assumptions C05_version_gate.

Example C05_nonvacuous :
  ran (commandrun ex_tc ex_uf ex_cat "now" "job" 1 None None false false) <> [] /\
  ran (commandrun (fun _ => Ok ["v2"%string]) ex_uf ex_cat "now" "job" 1 None None false false) = [] /\
  ran (commandrun (fun _ => Ok ["v2"%string]) ex_uf ex_cat "now" "job" 1 None None false true) <> [].
Proof. vm_compute. repeat split; discriminate. Qed.

Theorem C05_list_never_runs :
  forall tc uf cat timestamp name index use_batch_size batch allow,
  ran (commandrun tc uf cat timestamp name index use_batch_size batch true allow) = [].
Proof. exact commandrun_list. Qed.
Print Assumptions C05_list_never_runs.

(* ---- C06: combined commands. *)
Theorem C06_full_batch_in_order :
  forall tc uf cat timestamp name op allow values batch_size batch rs,
  runnable tc cat timestamp name op allow values ->
  0 < batch_size -> 0 <= batch -> batch * batch_size + batch_size <= op_count op ->
  Forall2 (fun v r => uf v = Ok r) (zslice values (batch * batch_size) (batch * batch_size + batch_size)) rs ->
  multiple_commands_run tc uf cat timestamp name batch_size batch allow false =
  {| ran := zslice values (batch * batch_size) (batch * batch_size + batch_size); ret := Ok (Some (map Some rs)) |}.
Proof.
  intros. unfold multiple_commands_run. destruct (batch_size =? 0) eqn:E; [lia|].
  rewrite (run_inner_values tc uf cat timestamp name op allow values batch_size batch H H0 H1 batch_size rs)
    by (try lia; assumption). reflexivity.
Qed.
Print Assumptions C06_full_batch_in_order.

Example C06_nonvacuous :
  0 <= 0 /\ 0 * 2 + 2 <= op_count ex_op /\
  Forall2 (fun v r => ex_uf v = Ok r) (zslice ex_values (0 * 2) (0 * 2 + 2)) [100; 121].
Proof. repeat split; cbn; try lia. repeat constructor. Qed.

(* Finding: the last, partly filled batch runs all its operations and then fails: the combining function is
   never called for it. *)
Theorem C06_partial_batch_fails_after_running :
  forall tc uf cat timestamp name op allow values batch_size batch rs,
  runnable tc cat timestamp name op allow values -> mentions_operation (op_runmodule op) ->
  0 < batch_size -> 0 <= batch -> batch * batch_size <= op_count op < batch * batch_size + batch_size ->
  Forall2 (fun v r => uf v = Ok r) (zslice values (batch * batch_size) (op_count op)) rs ->
  multiple_commands_run tc uf cat timestamp name batch_size batch allow false =
  {| ran := zslice values (batch * batch_size) (op_count op); ret := Err ValueError |}.
Proof.
  intros. unfold multiple_commands_run. destruct (batch_size =? 0) eqn:E; [lia|].
  rewrite (run_inner_partial tc uf cat timestamp name op allow values batch_size batch rs) by assumption. reflexivity.
Qed.
Print Assumptions C06_partial_batch_fails_after_running.

Example C06_partial_nonvacuous :
  1 * 2 <= op_count ex_op < 1 * 2 + 2 /\
  Forall2 (fun v r => ex_uf v = Ok r) (zslice ex_values (1 * 2) (op_count ex_op)) [144].
Proof. split; [cbn; lia|]. repeat constructor. Qed.

(* Finding: with the list option the inner operations are run all the same. *)
Theorem C06_list_option_runs_operations_refuted :
  exists tc uf cat timestamp name op,
    stored_under cat name op /\
    ran (multiple_commands_run tc uf cat timestamp name 2 0 false true) <> [].
Proof.
  exists ex_tc, ex_uf, ex_cat, "now"%string, "job"%string, ex_op. split; [exact ex_stored|]. vm_compute. discriminate.
Qed.
Print Assumptions C06_list_option_runs_operations_refuted.

(* ---- C07: cluster submission. *)
Theorem C07_submission_addresses_each_once :
  forall n batchsize, 0 < n -> 0 < batchsize ->
  exists arrays, submit_eumopps_jobs n batchsize = Ok arrays /\
    map (addressed batchsize) (lsf_command_lines batchsize arrays) = zrange 0 n.
Proof.
  intros n b Hn Hb. destruct (submit_eumopps_jobs n b) as [arrays|e] eqn:E.
  - exists arrays. split; [reflexivity|]. now apply lsf_addressed.
  - unfold submit_eumopps_jobs in E. rewrite batch_count_1 in E.
    destruct (b =? 0) eqn:E1; [lia|]. destruct (n =? 0) eqn:E2; [lia|discriminate].
Qed.
Print Assumptions C07_submission_addresses_each_once.

Theorem C07_submission_runs_each_once :
  forall tc uf cat timestamp name op batchsize allow values arrays,
  0 < batchsize -> 0 < op_count op ->
  runnable tc cat timestamp name op allow values ->
  submit_eumopps_jobs (op_count op) batchsize = Ok arrays ->
  trace_of tc uf cat timestamp name batchsize allow (lsf_command_lines batchsize arrays) = values.
Proof.
  intros tc uf cat ts name op b allow values arrays Hb Hn R E.
  rewrite trace_of_addressed by lia. rewrite (lsf_addressed _ _ _ Hn Hb E). eapply run_all; eauto.
Qed.
Print Assumptions C07_submission_runs_each_once.

Example C07_nonvacuous :
  submit_eumopps_jobs (op_count ex_op) 2 = Ok [(0, 1, 2); (1, 3, 3)] /\
  submit_eumopps_jobs_grouped 13 3 2 = Ok [(0, 1, 3); (1, 4, 6); (2, 7, 7)].
Proof. split; reflexivity. Qed.

Theorem C07_grouped_submission_runs_each_once :
  forall tc uf cat timestamp name op jobs_per_batch tasks_per_job allow values,
  0 < jobs_per_batch -> 0 < tasks_per_job -> 0 < op_count op ->
  runnable tc cat timestamp name op allow values ->
  exists arrays,
  submit_eumopps_jobs_grouped (op_count op) jobs_per_batch tasks_per_job = Ok arrays /\
  trace_of tc uf cat timestamp name (tasks_per_job * jobs_per_batch) allow
    (lsf_group_command_lines (op_count op) jobs_per_batch tasks_per_job arrays) = values.
Proof.
  intros tc uf cat ts name op nj nt allow values Hj Ht Hn R.
  destruct (submit_eumopps_jobs_grouped (op_count op) nj nt) as [arrays|e] eqn:E.
  - exists arrays. split; [reflexivity|]. rewrite trace_of_addressed by nia.
    rewrite (lsf_group_addressed _ _ _ _ Hn Hj Ht E). eapply run_all; eauto.
  - unfold submit_eumopps_jobs_grouped in E. rewrite batch_count_1 in E.
    destruct ((nt * nj =? 0) || (nt =? 0)) eqn:E1; [nia|]. destruct (op_count op =? 0) eqn:E2; [lia|discriminate].
Qed.
Print Assumptions C07_grouped_submission_runs_each_once.

(* A module that is not in the catalogue (count zero) is refused. *)
Theorem C07_missing_module_refused :
  forall batchsize, batchsize <> 0 -> submit_eumopps_jobs 0 batchsize = Err ValueError.
Proof. intros b Hb. unfold submit_eumopps_jobs. destruct (b =? 0) eqn:E; [lia|reflexivity]. Qed.
Print Assumptions C07_missing_module_refused.
