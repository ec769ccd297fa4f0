(* Properties C104-C106: days, input files and output files of annual batches. *)
From Coq Require Import String Ascii.
From Verif Require Import Base Work_Model Work_Proofs Cat_Model Cat_Spec Cat_Proofs Time_Model Time_Spec Time_Proofs Time_Props
  Batch_Model Batch_Spec Batch_Proofs.
Local Open Scope Z_scope.
Local Open Scope list_scope.

(* ============================================================ C104: days of the operations *)

(* Operation k is given the days of the period that lie in the k-th calendar year. *)
Theorem C104_days_of_each_operation :
  forall start end_, period start end_ ->
  exists n, annual_count start end_ = Ok n /\
  batch_day_indices start end_ = Ok (map (days_of_operation start end_) (zrange 0 n)) /\
  (~ in_last_second end_ -> n = dt_year end_ - dt_year start + 1).
Proof.
  intros start end_ P. exists (operations start end_). split; [now apply annual_count_value|]. split; [now apply batch_day_indices_value|].
  intros N. unfold operations. destruct (last_second_of_year end_) eqn:L; [apply last_second_spec in L; contradiction|lia].
Qed.
Print Assumptions C104_days_of_each_operation.

(* Laid end to end, the batches are the days of the period: every day once and in order. *)
Theorem C104_every_day_once :
  forall start end_ batches, period start end_ -> batch_day_indices start end_ = Ok batches ->
  concat batches = days_of_period start end_.
Proof. intros start end_ batches P E. rewrite batch_day_indices_value in E by assumption. injection E as <-. now apply concat_all. Qed.
Print Assumptions C104_every_day_once.

(* The times given are the midnights of those days. *)
Theorem C104_times_are_the_midnights :
  forall start end_ batches, period start end_ -> batch_day_indices start end_ = Ok batches ->
  batch_day_times start end_ = Ok (map (map midnight) batches).
Proof.
  intros start end_ batches P E. rewrite batch_day_indices_value in E by assumption. injection E as <-. unfold batch_day_times.
  rewrite annual_count_value by assumption. cbn [bind]. rewrite map_map. apply mapM_value. intros k Hk. apply zrange_In in Hk.
  pose proof (operations_range _ _ P). pose proof P as (? & ? & ? & ? & ?). rewrite batch_days_value by (assumption || lia). cbn [bind]. now apply times_of_days.
Qed.
Print Assumptions C104_times_are_the_midnights.

Theorem C104_every_operation_has_a_day :
  forall start end_ batches, period start end_ -> ~ in_last_second end_ -> batch_day_indices start end_ = Ok batches -> ~ In [] batches.
Proof.
  intros start end_ batches P N E I. rewrite batch_day_indices_value in E by assumption. injection E as <-. apply in_map_iff in I.
  destruct I as (k & E & I). apply zrange_In in I. now apply (operation_nonempty start end_ k P N I).
Qed.
Print Assumptions C104_every_operation_has_a_day.

(* A period that ends in the last second of a year gets one more operation, without days. *)
Theorem C104_end_in_the_last_second_refuted :
  forall start end_, period start end_ -> in_last_second end_ ->
  exists batches, batch_day_indices start end_ = Ok (batches ++ [[]]) /\ zlen batches = dt_year end_ - dt_year start + 1.
Proof.
  intros start end_ P L. rewrite batch_day_indices_value by assumption. apply last_second_spec in L. unfold operations. rewrite L.
  pose proof P as (_ & _ & Le & _). pose proof (year_mono _ _ Le). rewrite zrange_snoc by lia. rewrite map_app. eexists. split.
  - do 2 f_equal. cbn [map]. f_equal. rewrite days_of_operation_range. pose proof (in_year_days end_).
    replace (dt_year start + (dt_year end_ - dt_year start + 1)) with (dt_year end_ + 1) by lia. apply zrange_empty. lia.
  - rewrite zlen_map, zlen_zrange by lia. lia.
Qed.
Print Assumptions C104_end_in_the_last_second_refuted.

(* The day numbers of daily operations: from 1850 on, the days of the period. *)
Theorem C104_step_index :
  forall start end_, period start end_ -> EPOCH <= start -> analysis_step_index start end_ = days_of_period start end_.
Proof.
  intros start end_ (Ws & We & L & _) H. unfold analysis_step_index, days_of_period. rewrite !days_since_whole by assumption. unfold int_days, day_of.
  rewrite !Z.quot_div_nonneg by (unfold DAY; lia). f_equal. unfold DAY. lia.
Qed.
Print Assumptions C104_step_index.

(* Before 1850 numbers are rounded towards zero, so a first day that does not begin at midnight is left out. *)
Theorem C104_step_index_before_1850_refuted :
  exists start end_, period start end_ /\ days_of_period start end_ = [-2; -1; 0; 1] /\ analysis_step_index start end_ = [-1; 0; 1].
Proof.
  exists (EPOCH - DAY - 43200 * SECOND), (EPOCH + DAY). split; [|split; vm_compute; reflexivity].
  split; [exists (-86400 - 43200); reflexivity|]. split; [exists 86400; reflexivity|]. repeat split; vm_compute; discriminate.
Qed.
Print Assumptions C104_step_index_before_1850_refuted.

Example C104_nonvacuous :
  exists start end_, parse "20011230060000" = Ok start /\ parse "20020102000000" = Ok end_ /\ period start end_ /\ ~ in_last_second end_ /\
  batch_day_indices start end_ = Ok [[55515; 55516]; [55517; 55518]].
Proof.
  do 2 eexists. split; [vm_compute; reflexivity|]. split; [vm_compute; reflexivity|]. split.
  - split; [exists (55515 * 86400 + 21600); vm_compute; reflexivity|]. split; [exists (55518 * 86400); vm_compute; reflexivity|]. repeat split; vm_compute; discriminate.
  - split; [vm_compute; discriminate|]. vm_compute. reflexivity.
Qed.

(* ============================================================ C105: input files day by day *)

(* Missing files allowed: every day of every operation gets the (last) file of that day, or the marker -1. *)
Theorem C105_a_file_or_a_marker_for_every_day :
  forall datasets start end_ inp skip i d ss patterns times n, period start end_ -> annual_count start end_ = Ok n ->
  subset_of datasets (in_dataset inp) (in_subset inp) i d ss -> ss_patterns ss = Some patterns -> annual_unique patterns = true ->
  Forall2 dated (ss_matches ss) times -> in_missing inp = Allowed ->
  exists entries, batch_find_references datasets start end_ inp skip = Ok (map (as_trios i (in_subset inp)) entries, skip) /\
  Forall2 (fun k es => Forall2 (file_of_day (ss_matches ss)) (days_of_operation start end_ k) es) (zrange 0 n) entries.
Proof.
  intros datasets start end_ inp skip i d ss patterns times n P En Hsub Hp Hu D Em. rewrite annual_count_value in En by assumption. injection En as <-.
  rewrite (find_by_time _ _ _ _ _ _ _ _ _ _ P Hsub Hp Hu D). unfold by_policy. rewrite Em. cbv zeta. eexists. split; [reflexivity|].
  induction (zrange 0 (operations start end_)) as [|k l IH]; cbn [map]; constructor; [|exact IH]. cbn [entries_of policy_eqb]. now apply entries_by_time_files.
Qed.
Print Assumptions C105_a_file_or_a_marker_for_every_day.

Lemma required_entries start end_ files times k : Forall2 dated files times ->
  (year_has_file files (dt_year start + k) /\ Forall2 (file_of_day files) (days_of_operation start end_ k) (entries_of start end_ files times false k)) \/
  (~ year_has_file files (dt_year start + k) /\ entries_of start end_ files times false k = []).
Proof.
  intros D. unfold entries_of. destruct (year_files start k times) eqn:E.
  - right. split; [now apply (year_files_nil start files times D)|reflexivity].
  - left. split; [|now apply entries_by_time_files]. destruct (year_files_nil start files times D k) as (_ & H).
    assert (~ ~ year_has_file files (dt_year start + k)) as NN by (intros C; specialize (H C); congruence).
    assert (In p (year_files start k times)) as I by (rewrite E; now left). unfold year_files in I. apply in_map_iff in I.
    destruct I as ((j & t) & _ & I). apply filter_In in I. destruct I as (I & Y). cbn [snd] in Y. apply In_enumerate in I. destruct I as (_ & I).
    apply (files_time files times D) in I. destruct I as (f & Ef & Et). exists f, t. split; [eapply nth_error_In; exact Ef|]. split; [exact Et|lia].
Qed.

(* Missing files not allowed: accepted exactly if every operation has a day and some file in its calendar year; then
   days without a file are marked with -1 as before. *)
Theorem C105_not_allowed :
  forall datasets start end_ inp skip i d ss patterns times n, period start end_ -> annual_count start end_ = Ok n -> ~ in_last_second end_ ->
  subset_of datasets (in_dataset inp) (in_subset inp) i d ss -> ss_patterns ss = Some patterns -> annual_unique patterns = true ->
  Forall2 dated (ss_matches ss) times -> in_missing inp = NotAllowed ->
  ((forall k, 0 <= k < n -> year_has_file (ss_matches ss) (dt_year start + k)) ->
   exists entries, batch_find_references datasets start end_ inp skip = Ok (map (as_trios i (in_subset inp)) entries, skip) /\
   Forall2 (fun k es => Forall2 (file_of_day (ss_matches ss)) (days_of_operation start end_ k) es) (zrange 0 n) entries) /\
  ((exists k, 0 <= k < n /\ ~ year_has_file (ss_matches ss) (dt_year start + k)) -> is_ok (batch_find_references datasets start end_ inp skip) = false).
Proof.
  intros datasets start end_ inp skip i d ss patterns times n P En N Hsub Hp Hu D Em. rewrite annual_count_value in En by assumption. injection En as <-.
  rewrite (find_by_time _ _ _ _ _ _ _ _ _ _ P Hsub Hp Hu D). rewrite Em. cbn [policy_eqb]. destruct (by_policy_not_allowed i inp (map (entries_of start end_ (ss_matches ss) times false) (zrange 0 (operations start end_))) skip Em) as (A & B). split.
  - intros Y. assert (forall k, In k (zrange 0 (operations start end_)) -> Forall2 (file_of_day (ss_matches ss)) (days_of_operation start end_ k) (entries_of start end_ (ss_matches ss) times false k)) as F.
    { intros k I. apply zrange_In in I. destruct (required_entries start end_ _ _ k D) as [(_ & F)|(C & _)]; [exact F|]. exfalso. apply C. now apply Y. }
    rewrite A.
    + eexists. split; [reflexivity|]. revert F. generalize (zrange 0 (operations start end_)). induction l as [|k l IH]; intros F; cbn [map]; constructor; [apply F; now left|apply IH; intros; apply F; now right].
    + intros C. apply in_map_iff in C. destruct C as (k & C & I). specialize (F k I). rewrite C in F. inversion F as [E|]. apply zrange_In in I.
      apply (operation_nonempty start end_ k P N I). symmetry. assumption.
  - intros (k & Hk & C). rewrite B; [reflexivity|]. apply in_map_iff. exists k. split; [|now apply zrange_In].
    destruct (required_entries start end_ _ _ k D) as [(Y & _)|(_ & E)]; [contradiction|exact E].
Qed.
Print Assumptions C105_not_allowed.

(* Skipping: an operation is skipped exactly if it has no file in its calendar year (or had been asked to be skipped). *)
Theorem C105_operations_skipped :
  forall datasets start end_ inp skip i d ss patterns times n, period start end_ -> annual_count start end_ = Ok n -> ~ in_last_second end_ ->
  subset_of datasets (in_dataset inp) (in_subset inp) i d ss -> ss_patterns ss = Some patterns -> annual_unique patterns = true ->
  Forall2 dated (ss_matches ss) times -> in_missing inp = SkipMissing -> zlen skip = n ->
  exists entries skip', batch_find_references datasets start end_ inp skip = Ok (map (as_trios i (in_subset inp)) entries, skip') /\ zlen skip' = n /\
  (forall k, 0 <= k < n ->
     (nth_error skip' (Z.to_nat k) = Some true <-> nth_error skip (Z.to_nat k) = Some true \/ ~ year_has_file (ss_matches ss) (dt_year start + k)) /\
     (year_has_file (ss_matches ss) (dt_year start + k) ->
      exists es, nth_error entries (Z.to_nat k) = Some es /\ Forall2 (file_of_day (ss_matches ss)) (days_of_operation start end_ k) es)).
Proof.
  intros datasets start end_ inp skip i d ss patterns times n P En N Hsub Hp Hu D Em Hs. rewrite annual_count_value in En by assumption. injection En as <-.
  rewrite (find_by_time _ _ _ _ _ _ _ _ _ _ P Hsub Hp Hu D). rewrite Em. cbn [policy_eqb].
  set (entries := map (entries_of start end_ (ss_matches ss) times false) (zrange 0 (operations start end_))).
  assert (length skip = length entries) as L. { unfold entries. rewrite map_length, zrange_length. unfold zlen in Hs. lia. }
  destruct (by_policy_skip i inp entries skip Em L) as (skip' & E & L' & H). exists entries, skip'. split; [exact E|]. split; [unfold zlen in *; lia|].
  intros k Hk. assert (nth_error entries (Z.to_nat k) = Some (entries_of start end_ (ss_matches ss) times false k)) as Ek.
  { unfold entries. rewrite nth_error_map, zrange_nth by lia. cbn [option_map]. do 2 f_equal. lia. }
  specialize (H (Z.to_nat k) ltac:(unfold zlen in Hs; lia)). rewrite Ek in H.
  destruct (required_entries start end_ _ _ k D) as [(Y & F)|(Y & F)]; split.
  - rewrite H. split; (intros [X|X]; [now left|]); [|contradiction]. exfalso. assert (entries_of start end_ (ss_matches ss) times false k = []) as X' by congruence. rewrite X' in F. inversion F as [Q|]. apply (operation_nonempty start end_ k P N Hk). symmetry. assumption.
  - intros _. eauto.
  - rewrite H, F. split; (intros [X|X]; [now left|]); right; [exact Y|reflexivity].
  - intros C. contradiction.
Qed.
Print Assumptions C105_operations_skipped.

Local Open Scope string_scope.

Definition day_file (y m d h mi s : Z) (name : string) : entry := {| en_name := name; en_time := Some (ymd2ord y m d * DAY + (h * 3600 + mi * 60 + s) * SECOND) |}.
Definition one_dataset (patterns : list string) (files : list entry) : list dataset :=
  [{| ds_name := "tas"; ds_path := Some "/data"; ds_subsets := [{| ss_patterns := Some patterns; ss_matches := files |}] |}].
Definition tas (policy : missing_policy) : input_file := {| in_dataset := "tas"; in_subset := 0; in_missing := policy |}.
Definition midnight_of (y m d : Z) : Z := ymd2ord y m d * DAY.

(* "Missing files not allowed" does not mean that every day has its file: it is enough that some file of the calendar
   year is there, even one outside the period. *)
Theorem C105_missing_days_accepted_refuted :
  exists start end_ file, period start end_ /\ (forall d, In d (days_of_period start end_) -> ~ is_file_of_day [file] d 0) /\
  batch_find_references (one_dataset ["%Y"; "tas_%Y%m%d.nc"] [file]) start end_ (tas NotAllowed) [false] = Ok ([[0; 0; -1; 0; 0; -1]], [false]).
Proof.
  exists (midnight_of 2002 3 1), (midnight_of 2002 3 2), (day_file 2002 1 5 0 0 0 "2002/tas_20020105.nc"). split.
  - split; [exists (ymd2ord 2002 3 1 * 86400 - E0 * 86400); vm_compute; reflexivity|]. split; [exists (ymd2ord 2002 3 2 * 86400 - E0 * 86400); vm_compute; reflexivity|]. repeat split; vm_compute; discriminate.
  - split; [|vm_compute; reflexivity]. assert (days_of_period (midnight_of 2002 3 1) (midnight_of 2002 3 2) = [55576; 55577]%Z) as -> by (vm_compute; reflexivity).
    intros d I (_ & f & t & Ef & Et & Ed). cbn in Ef. injection Ef as <-. cbn in Et. injection Et as <-.
    assert (day_of (ymd2ord 2002 1 5 * DAY + (0 * 3600 + 0 * 60 + 0) * SECOND) = 55521) as X by (vm_compute; reflexivity).
    destruct I as [<-|[<-|[]]]; vm_compute in Ed; discriminate.
Qed.
Print Assumptions C105_missing_days_accepted_refuted.

(* A file of the last second of a year is filed under the following year and takes the place of its first day. *)
Theorem C105_file_of_the_last_second_refuted :
  exists start end_ files, period start end_ /\ is_file_of_day files (day_of end_) 0 /\ is_file_of_day files (day_of end_ - 1) 1 /\
  batch_find_references (one_dataset ["%Y"; "%m%d%H%M%S.nc"] files) start end_ (tas Allowed) [false; false] = Ok ([[0; 0; -1]; [0; 0; 1]], [false; false]).
Proof.
  exists (midnight_of 2001 12 31), (midnight_of 2002 1 1), [day_file 2002 1 1 0 0 0 "2002/0101000000.nc"; day_file 2001 12 31 23 59 59 "2001/1231235959.nc"]. split.
  - split; [exists (ymd2ord 2001 12 31 * 86400 - E0 * 86400); vm_compute; reflexivity|]. split; [exists (ymd2ord 2002 1 1 * 86400 - E0 * 86400); vm_compute; reflexivity|]. repeat split; vm_compute; discriminate.
  - split; [|split; [|vm_compute; reflexivity]]; (split; [lia|]); do 2 eexists; (split; [reflexivity|]); (split; [reflexivity|]); vm_compute; reflexivity.
Qed.
Print Assumptions C105_file_of_the_last_second_refuted.

Local Close Scope string_scope.

(* A file whose name does not tell the year is given for every day. *)
Theorem C105_file_without_year :
  forall datasets start end_ inp skip i d ss patterns n, period start end_ -> ~ in_last_second end_ -> start mod DAY = 0 -> annual_count start end_ = Ok n ->
  subset_of datasets (in_dataset inp) (in_subset inp) i d ss -> ss_patterns ss = Some patterns -> patterns <> [] -> ~ occurs "%Y" (String.concat "" patterns) ->
  exists name, (forall t, (dt_month t, dt_day t) = (1, 1) -> t mod DAY = 0 -> filename_from_patterns patterns t = Ok name) /\
  forall e, last_named (ss_matches ss) name e ->
  batch_find_references datasets start end_ inp skip =
  Ok (map (fun k => as_trios i (in_subset inp) (map (fun _ => e) (days_of_operation start end_ k))) (zrange 0 n), skip).
Proof.
  intros datasets start end_ inp skip i d ss patterns n P N M En Hsub Hp Np Hu. rewrite annual_count_value in En by assumption. injection En as <-.
  assert (annual_unique patterns = false) as U. { destruct (annual_unique patterns) eqn:U; [|reflexivity]. apply contains2_occurs in U. contradiction. }
  destruct (filename_ok patterns (ymd2ord 1850 1 1 * DAY) Np) as (name & En). exists name.
  assert (forall t, (dt_month t, dt_day t, dt_hour t, dt_minute t, dt_second t) = (1, 1, 0, 0, 0) -> filename_from_patterns patterns t = Ok name) as H.
  { intros t E. rewrite <- En. apply name_without_year; [exact U|]. rewrite E. symmetry. apply first_of_year_fields. }
  split.
  - intros t E Mt. apply H. unfold dt_hour, dt_minute, dt_second. rewrite Mt. assert (forall a b a' b' : Z, (a, b) = (a', b') -> a = a' /\ b = b') as Q by (intros; split; congruence).
    apply Q in E. destruct E as (-> & ->). reflexivity.
  - intros e He. eapply find_by_name; eauto.
Qed.
Print Assumptions C105_file_without_year.

(* Here the limits of the period are not rounded to days: if it begins after midnight the first operation gets one file
   less than it has days, so files and days no longer agree position by position. *)
Theorem C105_start_after_midnight_refuted :
  exists start end_ refs, period start end_ /\ batch_day_indices start end_ = Ok [[55515; 55516]; [55517]] /\
  batch_find_references (one_dataset ["fixed.nc"%string] [{| en_name := "fixed.nc"; en_time := None |}]) start end_ (tas NotAllowed) [false; false] = Ok (refs, [false; false]) /\
  refs = [[0; 0; 0]; [0; 0; 0]].
Proof.
  exists (midnight_of 2001 12 30 + 21600 * SECOND), (midnight_of 2002 1 1). eexists. split.
  - split; [exists (ymd2ord 2001 12 30 * 86400 + 21600 - E0 * 86400); vm_compute; reflexivity|]. split; [exists (ymd2ord 2002 1 1 * 86400 - E0 * 86400); vm_compute; reflexivity|]. repeat split; vm_compute; discriminate.
  - split; [vm_compute; reflexivity|]. split; [vm_compute; reflexivity|reflexivity].
Qed.
Print Assumptions C105_start_after_midnight_refuted.

Example C105_nonvacuous :
  let files := [day_file 2002 1 2 0 0 0 "2002/tas_20020102.nc"; day_file 2001 12 30 0 0 0 "2001/tas_20011230.nc"; day_file 2002 1 2 12 0 0 "2002/tas_b.nc"] in
  let start := midnight_of 2001 12 30 in let end_ := midnight_of 2002 1 2 in
  period start end_ /\ ~ in_last_second end_ /\ Forall2 dated files [midnight_of 2002 1 2; midnight_of 2001 12 30; midnight_of 2002 1 2 + 43200 * SECOND] /\
  annual_unique ["%Y"%string; "tas_%Y%m%d.nc"%string] = true /\ annual_count start end_ = Ok 2 /\
  (forall k, 0 <= k < 2 -> year_has_file files (dt_year start + k)) /\
  batch_find_references (one_dataset ["%Y"%string; "tas_%Y%m%d.nc"%string] files) start end_ (tas Allowed) [false; false] =
  Ok ([[0; 0; 1; 0; 0; -1]; [0; 0; -1; 0; 0; 2]], [false; false]).
Proof.
  cbv zeta. split.
  { split; [exists (ymd2ord 2001 12 30 * 86400 - E0 * 86400); vm_compute; reflexivity|]. split; [exists (ymd2ord 2002 1 2 * 86400 - E0 * 86400); vm_compute; reflexivity|]. repeat split; vm_compute; discriminate. }
  split; [vm_compute; discriminate|]. split.
  { repeat (apply Forall2_cons; [split; [vm_compute; reflexivity|split; [|split; [split; vm_compute; discriminate|vm_compute; discriminate]]]|]); [| | |apply Forall2_nil].
    - exists (ymd2ord 2002 1 2 * 86400 - E0 * 86400). vm_compute. reflexivity.
    - exists (ymd2ord 2001 12 30 * 86400 - E0 * 86400). vm_compute. reflexivity.
    - exists (ymd2ord 2002 1 2 * 86400 + 43200 - E0 * 86400). vm_compute. reflexivity. }
  split; [reflexivity|]. split; [vm_compute; reflexivity|]. split; [|vm_compute; reflexivity].
  intros k Hk. assert (k = 0 \/ k = 1) as [-> | ->] by lia.
  - do 2 eexists. split; [right; left; reflexivity|]. split; [reflexivity|vm_compute; reflexivity].
  - do 2 eexists. split; [left; reflexivity|]. split; [reflexivity|vm_compute; reflexivity].
Qed.

(* ============================================================ C106: output files day by day *)

(* Every day of every operation that runs gets an entry named after it; nothing else is added, and everything else in the
   catalogue stays. *)
Theorem C106_an_output_for_every_day :
  forall datasets start end_ out indices i d ss patterns n, period start end_ -> annual_count start end_ = Ok n ->
  Forall (fun k => 0 <= k < n) indices ->
  subset_of datasets (out_dataset out) (out_subset out) i d ss -> ss_matches ss = [] -> ss_patterns ss = Some patterns -> daily_unique patterns = true ->
  exists entries datasets' d' ss',
  batch_output_resolve datasets start end_ out indices = Ok (map (as_trios i (out_subset out)) entries, datasets') /\
  subset_of datasets' (out_dataset out) (out_subset out) i d' ss' /\ datasets_kept datasets datasets' /\
  Forall2 (fun k es => Forall2 (output_of_day patterns (ss_matches ss')) (days_of_operation start end_ k) es) indices entries /\
  NoDup (map en_name (ss_matches ss')) /\
  (forall f, In f (ss_matches ss') -> exists k day, In k indices /\ In day (days_of_operation start end_ k) /\
     en_time f = Some (midnight day) /\ filename_from_patterns patterns (midnight day) = Ok (en_name f)).
Proof.
  intros datasets start end_ out indices i d ss patterns n P En Fk Hsub Hm Hp U. rewrite annual_count_value in En by assumption. injection En as <-.
  destruct (batch_output_value datasets start end_ out indices i d ss patterns P Fk Hsub Hm Hp U) as (entries & files' & ds' & E & (d' & ss' & Hs' & _ & <-) & K & ND & F & A).
  exists entries, ds', d', ss'. split; [exact E|]. split; [exact Hs'|]. split; [exact K|]. split; [exact F|]. split; [exact ND|].
  intros f I. destruct (A f I) as (k & day & Ik & Id & Ht & Hn). exists k, day. auto.
Qed.
Print Assumptions C106_an_output_for_every_day.

(* If the patterns show the whole date, different days, of the same or of different operations, have different outputs. *)
Theorem C106_days_never_share_an_output :
  forall start end_ patterns files day day' k k' e, period start end_ -> patterns_show_date patterns ->
  In day (days_of_operation start end_ k) -> In day' (days_of_operation start end_ k') ->
  output_of_day patterns files day e -> output_of_day patterns files day' e -> day = day'.
Proof.
  intros start end_ patterns files day day' k k' e P S I I' (_ & f & Ef & En) (_ & f' & Ef' & En'). rewrite Ef in Ef'. injection Ef' as <-.
  destruct (show_date_checks _ S) as (A & B & C & D).
  assert (date_of (midnight day) = date_of (midnight day')) as E.
  { eapply same_name_same_date; eauto; apply valid_year; [pose proof (day_years _ _ _ _ P I)|pose proof (day_years _ _ _ _ P I')]; lia. }
  rewrite <- (day_of_midnight day), <- (day_of_midnight day'), !day_of_ord. f_equal. rewrite <- !ord_of_fields.
  unfold date_of in E. assert (forall a b c a' b' c' : Z, (a, b, c) = (a', b', c') -> a = a' /\ b = b' /\ c = c') as Q by (intros; repeat split; congruence).
  apply Q in E. destruct E as (-> & -> & ->). reflexivity.
Qed.
Print Assumptions C106_days_never_share_an_output.

(* Patterns without %Y, %m or %d are rejected. *)
Theorem C106_patterns_checked :
  forall datasets start end_ out k indices i d ss patterns, subset_of datasets (out_dataset out) (out_subset out) i d ss ->
  ss_matches ss = [] -> ss_patterns ss = Some patterns ->
  (exists x, In x ["%Y"%string; "%m"%string; "%d"%string] /\ ~ occurs x (String.concat "" patterns)) ->
  is_ok (batch_output_resolve datasets start end_ out (k :: indices)) = false.
Proof.
  intros datasets start end_ out k indices i d ss patterns Hsub Hm Hp (x & I & N). unfold batch_output_resolve.
  assert (datasubset datasets (out_dataset out) (out_subset out) = Some ss) as -> by (apply datasubset_spec; eauto).
  assert (datasetindex datasets (out_dataset out) = Some i) as -> by (apply datasetindex_spec; exists d; apply Hsub).
  rewrite Hm. cbn [zlen length Z.of_nat Z.ltb Z.compare]. rewrite Hp. cbn [batch_output_loop]. unfold create_output_entries.
  assert (daily_unique patterns = false) as ->; [|reflexivity]. destruct (daily_unique patterns) eqn:U; [|reflexivity]. exfalso. apply N.
  unfold daily_unique in U. cbv zeta in U. rewrite !andb_true_iff, !contains2_occurs in U. destruct U as ((U1 & U2) & U3).
  destruct I as [<-|[<-|[<-|[]]]]; assumption.
Qed.
Print Assumptions C106_patterns_checked.

(* Days, times, inputs and outputs of an operation correspond position by position. *)
Theorem C106_positions_agree :
  forall datasets start end_ inp out skip i d ss patterns times io do_ sso patternso n,
  period start end_ -> annual_count start end_ = Ok n -> in_missing inp = Allowed ->
  subset_of datasets (in_dataset inp) (in_subset inp) i d ss -> ss_patterns ss = Some patterns -> annual_unique patterns = true -> Forall2 dated (ss_matches ss) times ->
  subset_of datasets (out_dataset out) (out_subset out) io do_ sso -> ss_matches sso = [] -> ss_patterns sso = Some patternso -> daily_unique patternso = true ->
  exists days ins outs datasets' d' ss',
  batch_day_indices start end_ = Ok days /\ batch_day_times start end_ = Ok (map (map midnight) days) /\
  batch_find_references datasets start end_ inp skip = Ok (map (as_trios i (in_subset inp)) ins, skip) /\
  batch_output_resolve datasets start end_ out (zrange 0 n) = Ok (map (as_trios io (out_subset out)) outs, datasets') /\
  subset_of datasets' (out_dataset out) (out_subset out) io d' ss' /\
  forall k j days_k ins_k outs_k day, nth_error days k = Some days_k -> nth_error ins k = Some ins_k -> nth_error outs k = Some outs_k ->
  nth_error days_k j = Some day ->
  exists a b, nth_error ins_k j = Some a /\ file_of_day (ss_matches ss) day a /\ nth_error outs_k j = Some b /\ output_of_day patternso (ss_matches ss') day b.
Proof.
  intros datasets start end_ inp out skip i d ss patterns times io do_ sso patternso n P En Em Hsub Hp Hu D Hsubo Hmo Hpo Huo.
  destruct (C105_a_file_or_a_marker_for_every_day datasets start end_ inp skip i d ss patterns times n P En Hsub Hp Hu D Em) as (ins & Ei & Fi).
  assert (Forall (fun k => 0 <= k < n) (zrange 0 n)) as Fk by (apply Forall_forall; intros k I; now apply zrange_In in I).
  destruct (C106_an_output_for_every_day datasets start end_ out (zrange 0 n) io do_ sso patternso n P En Fk Hsubo Hmo Hpo Huo) as (outs & ds' & d' & ss' & Eo & Hs' & _ & Fo & _).
  rewrite annual_count_value in En by assumption. injection En as <-.
  exists (map (days_of_operation start end_) (zrange 0 (operations start end_))), ins, outs, ds', d', ss'.
  split; [now apply batch_day_indices_value|]. split; [apply C104_times_are_the_midnights; [exact P|now apply batch_day_indices_value]|].
  split; [exact Ei|]. split; [exact Eo|]. split; [exact Hs'|].
  intros k j days_k ins_k outs_k day E1 E2 E3 E4. rewrite nth_error_map in E1. destruct (nth_error (zrange 0 (operations start end_)) k) as [kz|] eqn:Ek; [|discriminate].
  cbn [option_map] in E1. injection E1 as <-.
  destruct (Forall2_nth_l _ _ _ _ _ Fi Ek) as (ins' & E2' & F2). rewrite E2 in E2'. injection E2' as <-.
  destruct (Forall2_nth_l _ _ _ _ _ Fo Ek) as (outs' & E3' & F3). rewrite E3 in E3'. injection E3' as <-.
  destruct (Forall2_nth_l _ _ _ _ _ F2 E4) as (a & Ea & Ha). destruct (Forall2_nth_l _ _ _ _ _ F3 E4) as (b & Eb & Hb). exists a, b. auto.
Qed.
Print Assumptions C106_positions_agree.

Example C106_nonvacuous :
  let datasets := one_dataset ["%Y/"%string; "out_%Y%m%d.nc"%string] [] in
  let start := midnight_of 2001 12 31 in let end_ := midnight_of 2002 1 2 in
  let out := {| out_dataset := "tas"; out_subset := 0 |} in
  patterns_show_date ["%Y/"%string; "out_%Y%m%d.nc"%string] /\ daily_unique ["%Y/"%string; "out_%Y%m%d.nc"%string] = true /\
  exists ds', batch_output_resolve datasets start end_ out [0; 1] = Ok ([[0; 0; 0]; [0; 0; 1; 0; 0; 2]], ds') /\
  ds' = one_dataset ["%Y/"%string; "out_%Y%m%d.nc"%string]
    [day_file 2001 12 31 0 0 0 "2001/out_20011231.nc"; day_file 2002 1 1 0 0 0 "2002/out_20020101.nc"; day_file 2002 1 2 0 0 0 "2002/out_20020102.nc"].
Proof.
  cbv zeta. split.
  { repeat split.
    - exists "%Y/"%string. split; [now left|]. exists ""%string, "/"%string. reflexivity.
    - exists "out_%Y%m%d.nc"%string. split; [right; now left|]. exists "out_%Y"%string, "%d.nc"%string. reflexivity.
    - exists "out_%Y%m%d.nc"%string. split; [right; now left|]. exists "out_%Y%m"%string, ".nc"%string. reflexivity.
    - intros first rest p E I q C. injection E as <- <-. destruct I as [<-|[]]. discriminate. }
  split; [reflexivity|]. eexists. split; vm_compute; reflexivity.
Qed.
