(* Properties C48-C50, C54 and C85-C88: the quality flags, the checks that set them, and the mask made from them. *)
From Coq Require Import String Permutation Sorted.
From Coq Require Import QArith Qcanon.
From Verif Require Import Base Time_Model Time_Proofs Grid_Model Flag_Model Flag_Spec Flag_Proofs.
Local Open Scope Z_scope.
Local Open Scope list_scope.

(* C48.  A value is masked exactly when some specification in force has all its required flags set and none of the flags it forbids.  (A flag
   that is both required and forbidden counts as required.) *)
Theorem C48_mask : forall specs q, compute_mask specs q = true <->
  exists req forb, In (req, forb) specs /\ all_set req q /\ forall b, flag forb b -> ~ flag req b -> ~ flag q b.
Proof. exact mask_iff. Qed.
Print Assumptions C48_mask.
Example C48_mask_nonvacuous : compute_mask [(bit 15, bit 12); (Z.lor (bit 1) (bit 2), 0)] (Z.lor (bit 15) (bit 3)) = true /\
  compute_mask [(bit 15, bit 12); (Z.lor (bit 1) (bit 2), 0)] (Z.lor (Z.lor (bit 15) (bit 12)) (bit 1)) = false.
Proof. split; reflexivity. Qed.
(* With the production list, over both flag files of the day: the uncertainty, areal, extreme and location flags mask, too few calendar days mask on
   land, and everything at sea is masked after 2012.  What is sea is taken from the coastal map, not from the stored flag. *)
Theorem C48_production : forall V (d : day_data V) date h w, flags_of_size d (h * w) -> shape (d_coast V d) h w -> (1 <= h)%nat -> (3 <= w)%nat ->
  exists mask, combined_mask V (flags_to_mask (dt_year date)) d = Ok mask /\ length mask = (h * w)%nat /\ forall i j, (i < h)%nat -> (j < w)%nat ->
    nth (i * w + j) mask false = true <->
    (exists b, In b [5; 6; 7; 8; 9; 10; 13; 14] /\ raised d (i * w + j) b) \/
    (raised d (i * w + j) 15 /\ ~ marine (d_coast V d) i j) \/ (2012 < dt_year date /\ marine (d_coast V d) i j).
Proof. intros V d date h w FS S H W. apply combined_mask_spec; assumption. Qed.
Print Assumptions C48_production.
(* Persistent outliers (flag 11) and lack of constraint in the day, the window or the calendar (flags 0 to 4) alone never mask. *)
Theorem C48_persistent_not_masked : forall year q, (forall b, flag q b -> In b [0; 1; 2; 3; 4; 11]) -> compute_mask (flags_to_mask year) q = false.
Proof.
  intros year q H. destruct (compute_mask (flags_to_mask year) q) eqn:E; [|reflexivity]. exfalso. apply production_mask in E.
  destruct E as [(b & I & F)|[[F _]|[_ F]]]; apply H in F; cbn in *; lia.
Qed.
Print Assumptions C48_persistent_not_masked.
Definition example_coast : list (list Qc) := map (map qz) [[0; 0; 0; 0]; [0; 100; 0; 96]; [100; 100; 100; 100]].
Definition example_day : day_data Z :=
  {| d_flags := Some [32; 0; 32768; 0;  32768; 0; 32768; 0;  0; 0; 128; 0]; d_flags2 := Some (Some [0; 2048; 0; 32768; 0; 0; 0; 4096; 32768; 0; 0; 0]);
     d_coast := example_coast;
     d_analysis := Some ((zrange 0 12, zrange 12 24, zrange 24 36), [(Some 2, zrange 200 212); (Some 10, zrange 1000 1012); (Some 1, zrange 100 112); (Some 0, zrange 0 12)]);
     d_climatology := Some (zrange 0 12, zrange 0 12, zrange 0 12); d_large_scale := Some (zrange 0 12, zrange 0 12, zrange 0 12); d_local := None |}.
Example C48_production_nonvacuous : flags_of_size example_day 12 /\ shape (d_coast Z example_day) 3 4 /\
  combined_mask Z (flags_to_mask 2010) example_day = Ok [true; false; true; true; false; false; true; false; false; false; true; false] /\
  combined_mask Z (flags_to_mask 2013) example_day = Ok [true; false; true; true; true; true; true; false; true; true; true; true].
Proof.
  split; [split; [eexists; split; reflexivity|right; eexists; split; reflexivity]|]. split; [split; [reflexivity|intros row [<-|[<-|[<-|[]]]]; reflexivity]|]. split; vm_compute; reflexivity.
Qed.

(* C49.  Merging keeps every flag of the first file and adds those of the second other than flag 7; merging the same file again changes nothing. *)
Theorem C49_first_kept : forall a b out, merged_flags a b = Ok out -> length out = length a /\ length out = length b /\
  forall k x, (k < length out)%nat -> flag (nth k a 0) x -> flag (nth k out 0) x.
Proof.
  intros a b out E. unfold merged_flags in E. destruct (zlen a =? zlen b) eqn:L; [|discriminate]. injection E as <-. unfold zlen in L.
  rewrite map_length, combine_length. split; [lia|]. split; [lia|]. intros k x K F.
  rewrite (nth_indep _ 0 (merge_cell (fst (0, 0)) (snd (0, 0)))) by (rewrite map_length, combine_length; exact K). rewrite (map_nth (fun p => merge_cell (fst p) (snd p))), combine_nth by lia. apply merge_spec. left. exact F.
Qed.
Print Assumptions C49_first_kept.
Theorem C49_second : forall a b x, flag (merge_cell a b) x <-> flag a x \/ (x <> 7 /\ flag b x) \/ (x = 12 /\ flag b 7).
Proof. exact merge_spec. Qed.
Print Assumptions C49_second.
Theorem C49_idempotent : forall a b out, merged_flags a b = Ok out -> merged_flags out b = Ok out.
Proof.
  intros a b out E. unfold merged_flags in *. destruct (zlen a =? zlen b) eqn:L; [|discriminate]. injection E as <-. unfold zlen in *. rewrite map_length, combine_length.
  replace (Z.of_nat (Init.Nat.min (length a) (length b)) =? Z.of_nat (length b)) with true by lia. f_equal.
  assert (LL : length a = length b) by lia. clear L. revert b LL. induction a as [|x a IH]; intros [|y b] LL; cbn in LL; try lia; [reflexivity|]. cbn [combine map fst snd]. f_equal; [|apply IH; lia].
  apply Z.bits_inj'. intros n _. apply Bool.eq_iff_eq_true. fold (flag (merge_cell (merge_cell x y) y) n) (flag (merge_cell x y) n). rewrite !merge_spec. tauto.
Qed.
Print Assumptions C49_idempotent.
(* The areal-low flag of the second file is lost: it becomes the marine flag.  A file merged with itself differs from itself, and a value that the
   second file masks is not masked after merging. *)
Theorem C49_areal_low_lost_refuted : exists a b, word a /\ word b /\ flag b 7 /\ ~ flag (merge_cell a b) 7 /\ ~ flag b 12 /\ flag (merge_cell a b) 12 /\
  merge_cell b b <> b /\ compute_mask (flags_to_mask 2000) b = true /\ compute_mask (flags_to_mask 2000) (merge_cell a b) = false.
Proof. exists 0, 128. unfold word, flag. repeat split; try lia; try reflexivity; discriminate. Qed.
Print Assumptions C49_areal_low_lost_refuted.
Example C49_nonvacuous : merged_flags [1; 32; 256] [128; 384; 0] = Ok [4097; 4384; 256].
Proof. reflexivity. Qed.

(* C50.  The window check: bit 1 (2) is added where fewer than the threshold of the days before (after) within the window are constrained; days that
   cannot be read count as not constrained; nothing else changes.  (With threshold 0 or less this needs another day of the window to be readable.) *)
Theorem C50_flags : forall w thr target load ref n f, 0 <= w -> same_shape load n -> window_dates ref w -> load (ref / DAY) = Some f ->
  (1 <= thr \/ exists d, ref / DAY - w <= d <= ref / DAY + w /\ d <> ref / DAY /\ load d <> None) ->
  exists out, local_window_constraint_checks w thr target load ref = Ok out /\ length out = n /\ forall k b, (k < n)%nat ->
    flag (nth k out 0) b <-> flag (nth k f 0) b \/
      (b = 1 /\ fewer_than thr (fun d => ref / DAY - w <= d < ref / DAY /\ constrained load target k d)) \/
      (b = 2 /\ fewer_than thr (fun d => ref / DAY < d <= ref / DAY + w /\ constrained load target k d)).
Proof.
  intros w thr target load ref n f W U D L O. rewrite (window_check_eq load ref target n w thr U W D), L. eexists. split; [reflexivity|]. split; [apply cells_length|].
  intros k b K. rewrite cells_nth by exact K. unfold window_cell, PRIOR_WINDOW_FLAG, POST_WINDOW_FLAG. rewrite !orif_flag, !bit_flag by lia.
  assert (G : forall c P, ((c <? thr) = true <-> fewer_than thr P) -> (other_readable load (ref / DAY) w = false -> forall d, ~ P d) ->
    (if other_readable load (ref / DAY) w then c <? thr else true) = true <-> fewer_than thr P).
  { intros c P E N. destruct (other_readable load (ref / DAY) w) eqn:R; [exact E|]. split; [intros _|reflexivity]. destruct O as [T|(d & I & ND & R')].
    - exists []. cbn. split; [lia|]. intros d PD. destruct (N eq_refl d PD).
    - exfalso. assert (R2 : other_readable load (ref / DAY) w = true); [|congruence]. apply existsb_exists. exists (d - ref / DAY). split; [apply in_zrange; lia|].
      unfold readable. replace (ref / DAY + (d - ref / DAY)) with d by lia. destruct (load d); [|congruence]. rewrite andb_true_r. apply negb_true_iff. lia. }
  assert (NR : other_readable load (ref / DAY) w = false -> forall d, ref / DAY - w <= d <= ref / DAY + w -> d <> ref / DAY -> load d = None).
  { intros R d I ND. destruct (load d) eqn:LD; [|reflexivity]. exfalso. assert (R2 : other_readable load (ref / DAY) w = true); [|congruence]. apply existsb_exists. exists (d - ref / DAY).
    split; [apply in_zrange; lia|]. unfold readable. replace (ref / DAY + (d - ref / DAY)) with d by lia. rewrite LD, andb_true_r. apply negb_true_iff. lia. }
  rewrite (G _ _ (days_before_spec load target (ref / DAY) w k thr)) by (intros R d (I & g & LD & _); rewrite (NR R d) in LD by lia; discriminate).
  rewrite (G _ _ (days_after_spec load target (ref / DAY) w k thr)) by (intros R d (I & g & LD & _); rewrite (NR R d) in LD by lia; discriminate).
  tauto.
Qed.
Print Assumptions C50_flags.
(* If the file of the day itself cannot be read, the check fails whatever the other days hold (the variable flag_values is never assigned). *)
Theorem C50_unreadable_day : forall w thr target load ref n, 0 <= w -> same_shape load n -> window_dates ref w -> load (ref / DAY) = None ->
  local_window_constraint_checks w thr target load ref = Err NameError.
Proof. intros w thr target load ref n W U D L. rewrite (window_check_eq load ref target n w thr U W D), L. reflexivity. Qed.
Print Assumptions C50_unreadable_day.
(* With a threshold of 0 no count is below it, yet both flags are set everywhere when no other day can be read. *)
Theorem C50_zero_threshold_refuted : exists w target load ref n f out, 0 <= w /\ same_shape load n /\ window_dates ref w /\ load (ref / DAY) = Some f /\
  local_window_constraint_checks w 0 target load ref = Ok out /\ flag (nth 0 out 0) 1 /\ ~ fewer_than 0 (fun d => ref / DAY - w <= d < ref / DAY /\ constrained load target 0 d).
Proof.
  exists 1, 1, (fun d => if d =? 730120 then Some [0] else None), (730120 * DAY), 1%nat, [0], [6]. split; [lia|]. split; [intros d g E; destruct (d =? 730120); [injection E as <-; reflexivity|discriminate]|].
  split; [intros d D; assert (d = -1 \/ d = 0 \/ d = 1) as [->|[->| ->]] by lia; vm_compute; reflexivity|]. split; [vm_compute; reflexivity|]. split; [vm_compute; reflexivity|]. split; [reflexivity|].
  intros (l & L & _). lia.
Qed.
Print Assumptions C50_zero_threshold_refuted.
Definition example_store : store := fun d => nth_error [[0; 1; 1]; [1; 1; 1]; [8; 8; 1]; [0; 1; 1]; [0; 0; 1]; [1; 0; 9]] (Z.to_nat (d - 730120)).
Definition example_ref : Z := 730122 * DAY + 43200 * 1000000.
Example C50_nonvacuous : same_shape (fun d => if d <? 730120 then None else example_store d) 3 /\ window_dates example_ref 3 /\
  local_window_constraint_checks 3 2 1 (fun d => if d <? 730120 then None else example_store d) example_ref = Ok [10; 10; 7].
Proof.
  split; [|split].
  - intros d f E. unfold example_store in E. destruct (d <? 730120); [discriminate|]. apply nth_error_In in E. cbn in E. repeat destruct E as [<-|E]; try reflexivity. destruct E.
  - intros d D. assert (A : forallb (fun d => valid_datetime (example_ref + d * DAY)) (zrange (-3) 4) = true) by (vm_compute; reflexivity). rewrite forallb_forall in A. apply A, in_zrange. lia.
  - vm_compute. reflexivity.
Qed.

(* C54.  For bits 0 to 10 the mask and the meaning written in the same position belong together. *)
Theorem C54_first_eleven : forall n, 0 <= n <= 10 -> exists name, In (n, name) flag_names /\
  nth_error flag_masks (Z.to_nat n) = Some (bit n) /\ nth_error flag_meanings (Z.to_nat n) = Some name.
Proof.
  intros n N. assert (I : In n (zrange 0 11)) by (apply in_zrange; lia). cbn in I.
  repeat destruct I as [<-|I]; try (eexists; split; [|split; reflexivity]; cbn [flag_names In]; tauto). destruct I.
Qed.
Print Assumptions C54_first_eleven.
(* Beyond that they do not: fewer masks than meanings are written, the mask of persistent outliers stands beside the name of the marine flag, the mask of
   the marine flag beside that of location outliers, and three flags that are set have no mask. *)
Theorem C54_later_bits_refuted : length flag_masks = 13%nat /\ length flag_meanings = 15%nat /\
  (nth_error flag_masks 11 = Some (bit 11) /\ In (11, "persistent_outlier_qc"%string) flag_names /\ nth_error flag_meanings 11 = Some "marine_location_flag"%string) /\
  (nth_error flag_masks 12 = Some (bit 12) /\ In (12, "marine_location_flag"%string) flag_names /\ nth_error flag_meanings 12 = Some "location_low_value_qc"%string) /\
  ~ In "persistent_outlier_qc"%string flag_meanings /\ (forall b, In b [13; 14; 15] -> ~ In (bit b) flag_masks).
Proof.
  split; [reflexivity|]. split; [reflexivity|]. split; [split; [reflexivity|split; [cbn; tauto|reflexivity]]|]. split; [split; [reflexivity|split; [cbn; tauto|reflexivity]]|]. split.
  - cbn. intuition discriminate.
  - intros b [<-|[<-|[<-|[]]]]; vm_compute; intros H; repeat (destruct H as [H|H]; [discriminate|]); exact H.
Qed.
Print Assumptions C54_later_bits_refuted.

(* C85.  The calendar check: with one day per year taken from [start] to [end_], bit 3 (4) is added where no earlier (later) year is constrained on this
   day of the year and bit 15 where fewer than three years, this one included, are; nothing else changes. *)
Theorem C85_flags : forall start end_ target load ref n f, same_shape load n -> start <= dt_year ref <= end_ -> 1 <= start -> end_ <= 9999 -> load (ref / DAY) = Some f ->
  exists out, calendar_constraint_checks start end_ target load ref = Ok out /\ length out = n /\ forall k b, (k < n)%nat ->
    flag (nth k out 0) b <-> flag (nth k f 0) b \/
      (b = 3 /\ fewer_than 1 (fun y => start <= y < dt_year ref /\ constrained load target k (day_in_year ref y))) \/
      (b = 4 /\ fewer_than 1 (fun y => dt_year ref < y <= end_ /\ constrained load target k (day_in_year ref y))) \/
      (b = 15 /\ fewer_than 3 (fun y => start <= y <= end_ /\ constrained load target k (day_in_year ref y))).
Proof.
  intros start end_ target load ref n f U Y S E L. rewrite (calendar_check_eq load ref target n start end_ U Y S E), L. eexists. split; [reflexivity|]. split; [apply cells_length|].
  intros k b K. rewrite cells_nth by exact K. unfold calendar_cell, PRIOR_CALENDAR_FLAG, POST_CALENDAR_FLAG, MISSING_FLAG_FLAG. rewrite !orif_flag, !bit_flag by lia. rewrite years_before_spec, years_after_spec, years_all_spec by lia. tauto.
Qed.
Print Assumptions C85_flags.
Theorem C85_unreadable_day : forall start end_ target load ref n, same_shape load n -> start <= dt_year ref <= end_ -> 1 <= start -> end_ <= 9999 -> load (ref / DAY) = None ->
  calendar_constraint_checks start end_ target load ref = Err NameError.
Proof. intros start end_ target load ref n U Y S E L. rewrite (calendar_check_eq load ref target n start end_ U Y S E), L. reflexivity. Qed.
Print Assumptions C85_unreadable_day.
(* 29 February is compared with 28 February in years that have no 29th. *)
Definition leap_store : store := fun d => if d =? ymd2ord 2003 2 28 then Some [0; 1] else if d =? ymd2ord 2004 2 29 then Some [1; 0] else if d =? ymd2ord 2005 2 28 then Some [0; 0] else if d =? ymd2ord 2006 2 28 then Some [0; 1] else None.
Example C85_nonvacuous : same_shape leap_store 2 /\ dt_year (ymd2ord 2004 2 29 * DAY) = 2004 /\
  calendar_constraint_checks 2000 2007 1 leap_store (ymd2ord 2004 2 29 * DAY) = Ok [1; 32776].
Proof.
  split; [|split; vm_compute; reflexivity]. intros d f E. unfold leap_store in E. repeat (destruct (_ =? _) in E; [injection E as <-; reflexivity|]). discriminate.
Qed.

(* C86.  Persistent outliers: bit 11 is added where at least the threshold of the days of the window, the day itself included, carry one of the flags 7 to 10. *)
Theorem C86_flags : forall w thr load ref n f, 0 <= w -> same_shape load n -> window_dates ref w -> load (ref / DAY) = Some f ->
  exists out, persistant_outlier_check w thr load ref = Ok out /\ length out = n /\ forall k b, (k < n)%nat ->
    flag (nth k out 0) b <-> flag (nth k f 0) b \/
      (b = 11 /\ at_least thr (fun d => ref / DAY - w <= d <= ref / DAY + w /\ flagged load [7; 8; 9; 10] k d)).
Proof.
  intros w thr load ref n f W U D L. rewrite (outlier_check_eq load ref n w thr U W D), L. eexists. split; [reflexivity|]. split; [apply cells_length|].
  intros k b K. rewrite cells_nth by exact K. unfold outlier_cell, PERSISTANT_OUTLIER_FLAG. rewrite orif_flag, bit_flag by lia. rewrite bad_days_spec. tauto.
Qed.
Print Assumptions C86_flags.
Theorem C86_unreadable_day : forall w thr load ref n, 0 <= w -> same_shape load n -> window_dates ref w -> load (ref / DAY) = None -> persistant_outlier_check w thr load ref = Err NameError.
Proof. intros w thr load ref n W U D L. rewrite (outlier_check_eq load ref n w thr U W D), L. reflexivity. Qed.
Print Assumptions C86_unreadable_day.
Definition outlier_store : store := fun d => nth_error [[128; 256; 0]; [0; 512; 0]; [1; 1024; 4096]; [0; 0; 0]; [0; 32; 128]] (Z.to_nat (d - 730120)).
Example C86_nonvacuous : same_shape (fun d => if d <? 730120 then None else outlier_store d) 3 /\ window_dates example_ref 2 /\
  persistant_outlier_check 2 3 (fun d => if d <? 730120 then None else outlier_store d) example_ref = Ok [1; 3072; 4096].
Proof.
  split; [|split].
  - intros d f E. unfold outlier_store in E. destruct (d <? 730120); [discriminate|]. apply nth_error_In in E. cbn in E. repeat destruct E as [<-|E]; try reflexivity. destruct E.
  - intros d D. assert (A : forallb (fun d => valid_datetime (example_ref + d * DAY)) (zrange (-2) 3) = true) by (vm_compute; reflexivity). rewrite forallb_forall in A. apply A, in_zrange. lia.
  - vm_compute. reflexivity.
Qed.

(* C87.  Checking a list of dates where the output directory is the input directory: each file becomes what the check makes of the original
   files, whatever the order of the dates and however often a date is repeated, and other files stay. *)
Theorem C87_window : forall n w thr target s dates, same_shape s n -> 0 <= w -> ~ flag target 1 -> ~ flag target 2 ->
  (forall t, In t dates -> window_dates t w /\ s (t / DAY) <> None) ->
  exists s', flag_in_place (local_window_constraint_checks w thr target) s dates = (s', None) /\
    (forall t, In t dates -> exists f, local_window_constraint_checks w thr target s t = Ok f /\ s' (t / DAY) = Some f) /\
    (forall d, ~ In d (map (fun t => t / DAY) dates) -> s' d = s d).
Proof. exact window_in_place. Qed.
Print Assumptions C87_window.
Theorem C87_calendar : forall n start end_ target s dates, same_shape s n -> 1 <= start -> end_ <= 9999 -> ~ flag target 3 -> ~ flag target 4 -> ~ flag target 15 ->
  (forall t, In t dates -> start <= dt_year t <= end_ /\ s (t / DAY) <> None) ->
  exists s', flag_in_place (calendar_constraint_checks start end_ target) s dates = (s', None) /\
    (forall t, In t dates -> exists f, calendar_constraint_checks start end_ target s t = Ok f /\ s' (t / DAY) = Some f) /\
    (forall d, ~ In d (map (fun t => t / DAY) dates) -> s' d = s d).
Proof. exact calendar_in_place. Qed.
Print Assumptions C87_calendar.
Theorem C87_outlier : forall n w thr s dates, same_shape s n -> 0 <= w ->
  (forall t, In t dates -> window_dates t w /\ s (t / DAY) <> None) ->
  exists s', flag_in_place (persistant_outlier_check w thr) s dates = (s', None) /\
    (forall t, In t dates -> exists f, persistant_outlier_check w thr s t = Ok f /\ s' (t / DAY) = Some f) /\
    (forall d, ~ In d (map (fun t => t / DAY) dates) -> s' d = s d).
Proof. exact outlier_in_place. Qed.
Print Assumptions C87_outlier.
(* The condition on the target cannot be dropped: with a target that holds a flag the check itself sets, the result depends on the order of the dates. *)
Theorem C87_target_order_refuted : exists w thr target s t1 t2 s12 s21, same_shape s 1 /\
  flag_in_place (local_window_constraint_checks w thr target) s [t1; t2] = (s12, None) /\
  flag_in_place (local_window_constraint_checks w thr target) s [t2; t1] = (s21, None) /\ s12 (t1 / DAY) <> s21 (t1 / DAY).
Proof.
  exists 1, 1, PRIOR_WINDOW_FLAG, (fun d => if d =? 730120 then Some [2] else if d =? 730121 then Some [0] else None), (730120 * DAY), (730121 * DAY).
  eexists. eexists. split; [intros d f E; repeat (destruct (_ =? _) in E; [injection E as <-; reflexivity|]); discriminate|]. split; [vm_compute; reflexivity|]. split; [vm_compute; reflexivity|].
  vm_compute. discriminate.
Qed.
Print Assumptions C87_target_order_refuted.
Example C87_nonvacuous :
  let r := flag_in_place (local_window_constraint_checks 2 1 1) (fun d => if d <? 730120 then None else example_store d) [730122 * DAY; 730121 * DAY; 730122 * DAY] in
  snd r = None /\ fst r 730121 = Some [1; 3; 7] /\ fst r 730122 = Some [8; 10; 7] /\ fst r 730123 = Some [0; 1; 1].
Proof. intros r. split; [vm_compute; reflexivity|]. split; [vm_compute; reflexivity|]. split; vm_compute; reflexivity. Qed.

(* C88.  Masking a day: every variable of every file written hides the values of the field it was read from exactly where the one mask of the day is set. *)
Theorem C88_same_mask : forall V iteration date (d : day_data V) files status, mask_date V iteration date d = (files, status) -> files <> [] ->
  exists mask, combined_mask V (flags_to_mask (dt_year date)) d = Ok mask /\
    forall name vars v out, In (name, vars) files -> In (v, out) vars -> exists orig, source d name v orig /\ hides mask orig out.
Proof.
  intros V iteration date d files status E NE. unfold mask_date, apply_mask in E. destruct (combined_mask V _ d) as [mask|e]; [|injection E as <- <-; congruence]. exists mask. split; [reflexivity|].
  intros name vars v out IF IV. destruct (files_prefix _ _ _ E) as (m & P & _ & _).
  assert (I : In (Ok (name, vars)) [product_file V iteration mask d; component_file V Climatology TAS mask (d_climatology V d); component_file V LargeScale TASPERTURBATION mask (d_large_scale V d);
      component_file V Local TASPERTURBATION mask (d_local V d)]).
  { assert (I : In (Ok (name, vars)) (map Ok files)) by (apply in_map; exact IF). rewrite P in I. rewrite <- (firstn_skipn m). apply in_or_app. left. exact I. }
  destruct I as [I|[I|[I|[I|[]]]]].
  - apply (product_spec _ _ _ _ _ I v out IV).
  - destruct (component_spec _ _ _ _ d _ _ (or_introl eq_refl) I) as (-> & c & C & H). destruct (H v out IV) as (orig & O & HD). exists orig. split; [|exact HD]. exists c. split; [exact C|]. destruct v; auto.
  - destruct (component_spec _ _ _ _ d _ _ (or_intror eq_refl) I) as (-> & c & C & H). destruct (H v out IV) as (orig & O & HD). exists orig. split; [|exact HD]. exists c. split; [exact C|]. destruct v; auto.
  - destruct (component_spec _ _ _ _ d _ _ (or_intror eq_refl) I) as (-> & c & C & H). destruct (H v out IV) as (orig & O & HD). exists orig. split; [|exact HD]. exists c. split; [exact C|]. destruct v; auto.
Qed.
Print Assumptions C88_same_mask.
(* If nothing fails there are four files, each with its variables; the ensemble variables are numbered from 0 and number [i] holds member [i]. *)
Theorem C88_files : forall V iteration date (d : day_data V) files, mask_date V iteration date d = (files, None) ->
  exists c members ver run, d_analysis V d = Some (c, members) /\ (forall m, In m members -> fst m <> None) /\
  map (fun f => (fst f, map fst (snd f))) files =
    [ (Global ver run, [TAS; TASUNCERTAINTY; TAS_OBSERVATION_INFLUENCE] ++ map TASENSEMBLE (zrange 0 (zlen members)));
      (Climatology, [TAS; TASUNCERTAINTY; TAS_OBSERVATION_INFLUENCE]); (LargeScale, [TASPERTURBATION; TASUNCERTAINTY; TAS_OBSERVATION_INFLUENCE]);
      (Local, [TASPERTURBATION; TASUNCERTAINTY; TAS_OBSERVATION_INFLUENCE]) ].
Proof.
  intros V iteration date d files E. unfold mask_date, apply_mask in E. destruct (combined_mask V _ d) as [mask|e]; [|discriminate].
  destruct (files_prefix _ _ _ E) as (m & P & F & _). rewrite (F eq_refl), firstn_all in P. clear E F m. destruct files as [|f1 [|f2 [|f3 [|f4 [|f5 files]]]]]; cbn [map] in P; try discriminate. injection P as P1 P2 P3 P4.
  assert (T : forall first mask c vars, three V first mask c = Ok vars -> map fst vars = [first; TASUNCERTAINTY; TAS_OBSERVATION_INFLUENCE]).
  { intros first mk [[a u] i] vars. unfold three. destruct (masked_where V mk a); [|discriminate]. destruct (masked_where V mk u); [|discriminate]. destruct (masked_where V mk i); [|discriminate]. cbn [bind]. intros E. injection E as <-. reflexivity. }
  assert (CF : forall name first oc f, Ok f = component_file V name first mask oc -> fst f = name /\ map fst (snd f) = [first; TASUNCERTAINTY; TAS_OBSERVATION_INFLUENCE]).
  { intros name first oc f E. unfold component_file in E. destruct oc as [c|]; [|discriminate]. cbn [read bind] in E. destruct (three V first mask c) as [vars|] eqn:EC; [|discriminate]. cbn [bind] in E. injection E as ->. cbn. split; [reflexivity|eapply T, EC]. }
  apply CF in P2, P3, P4. destruct P2 as [N2 V2], P3 as [N3 V3], P4 as [N4 V4].
  unfold product_file in P1. destruct (d_analysis V d) as [[c members]|]; [|discriminate]. cbn [read bind fst snd] in P1. destruct (version iteration) as [[ver run]|]; [|discriminate]. cbn [bind fst snd] in P1.
  destruct (three V TAS mask c) as [vs|] eqn:TE; [|discriminate]. cbn [bind] in P1. destruct (mapM (member_number V) members) as [l|] eqn:ML; [|discriminate]. cbn [bind] in P1.
  destruct (mapM _ (combine _ _)) as [ens|] eqn:EE; [|discriminate]. cbn [bind] in P1. injection P1 as ->. exists c, members, ver, run. split; [reflexivity|].
  assert (ME := members_ok _ _ ML). split.
  - intros m I. rewrite ME in I. apply in_map_iff in I. destruct I as (x & <- & _). discriminate.
  - cbn [map fst snd]. rewrite N2, N3, N4, V2, V3, V4, map_app, (T _ _ _ _ TE). do 3 f_equal. assert (LL : zlen members = zlen l) by (rewrite ME; unfold zlen; rewrite map_length; reflexivity). rewrite LL.
    assert (K : zrange 0 (zlen l) = map fst (combine (zrange 0 (zlen l)) (sort_members V l))).
    { assert (SL : length (sort_members V l) = length l) by apply Permutation_length, sort_perm. assert (RL : length (zrange 0 (zlen l)) = length l) by (unfold zrange, zlen; rewrite map_length, seq_length; lia).
      clear - SL RL. revert RL. rewrite <- SL. generalize (zrange 0 (zlen l)) as a. generalize (sort_members V l) as b. induction b as [|y b IH]; intros [|x a] H; cbn in H; try lia; [reflexivity|]. cbn. f_equal. apply IH. lia. }
    rewrite K at 1. rewrite map_map. apply mapM_ok_Forall2 in EE. clear - EE. induction EE as [|x y xs ys H EE IH]; [reflexivity|]. cbn. destruct (masked_where V mask (snd (snd x))); [|discriminate]. cbn in H. injection H as <-. cbn. f_equal. exact IH.
Qed.
Print Assumptions C88_files.
Theorem C88_ensemble : forall V iteration mask (d : day_data V) name vars c members, product_file V iteration mask d = Ok (name, vars) -> d_analysis V d = Some (c, members) ->
  Permutation (map fst members) (map Some (zrange 0 (zlen members))) ->
  forall i out, In (TASENSEMBLE i, out) vars -> exists data, In (Some i, data) members /\ hides mask data out.
Proof.
  intros V iteration mask d name vars c members P A PM i out I. unfold product_file in P. rewrite A in P. cbn [read bind fst snd] in P. destruct (version iteration) as [[ver run]|]; [|discriminate]. cbn [bind fst snd] in P.
  destruct (three V TAS mask c) as [vs|] eqn:T; [|discriminate]. cbn [bind] in P. destruct (mapM (member_number V) members) as [l|] eqn:ML; [|discriminate]. cbn [bind] in P.
  destruct (mapM _ (combine _ _)) as [ens|] eqn:EE; [|discriminate]. cbn [bind] in P. injection P as <- <-. assert (ME := members_ok _ _ ML). apply in_app_or in I. destruct I as [I|I].
  { destruct (three_spec _ _ _ _ T _ _ I) as [[E _]|[[E _]|[E _]]]; discriminate. }
  assert (LL : zlen members = zlen l) by (rewrite ME; unfold zlen; rewrite map_length; reflexivity).
  assert (K : map fst (sort_members V l) = zrange 0 (zlen l)).
  { apply sorted_unique; [apply sort_sorted|apply zrange_sorted_le|]. rewrite (sort_perm l). rewrite LL, ME, map_map in PM. cbn [fst] in PM. rewrite <- (map_map fst Some) in PM.
    apply (Permutation_map (fun o => match o with Some z => z | None => 0 end)) in PM. rewrite !map_map, !map_id in PM. exact PM. }
  assert (G : exists im, In im (combine (zrange 0 (zlen l)) (sort_members V l)) /\ (do m <- masked_where V mask (snd (snd im)); Ok (TASENSEMBLE (fst im), m)) = Ok (TASENSEMBLE i, out)).
  { apply mapM_ok_Forall2 in EE. clear - EE I. induction EE as [|x y xs ys H E IH]; [destruct I|]. destruct I as [->|I]; [exists x; split; [left; reflexivity|exact H]|]. destruct (IH I) as (im & J & KK). exists im. split; [right; exact J|exact KK]. }
  destruct G as ([i' [nb data]] & J & H). cbn [fst snd] in H. destruct (masked_where V mask data) as [mk|] eqn:MW; [|discriminate]. cbn in H. injection H as -> ->.
  exists data. split; [|apply masked_where_hides, MW]. assert (i = nb).
  { rewrite <- K in J. clear - J. induction (sort_members V l) as [|x s IH]; [destruct J|]. cbn in J. destruct J as [J|J]; [injection J as J1 J2; subst x; symmetry; exact J1|apply IH, J]. }
  subst nb. rewrite ME. apply in_map_iff. exists (i, data). split; [reflexivity|]. apply in_combine_r in J. apply (Permutation_in _ (sort_perm l)), J.
Qed.
Print Assumptions C88_ensemble.
(* A failure leaves the files before it: the files written are always the first ones of the four.  For iterations other than 4 and 9 nothing is written. *)
Theorem C88_prefix : forall V iteration date (d : day_data V) files status, mask_date V iteration date d = (files, status) ->
  (exists m, map (fun f => match fst f with Global _ _ => 0 | Climatology => 1 | LargeScale => 2 | Local => 3 end) files = zrange 0 m) /\
  (status = None <-> length files = 4%nat) /\ (iteration <> 4 -> iteration <> 9 -> files = []).
Proof.
  intros V iteration date d files status E. unfold mask_date, apply_mask in E. destruct (combined_mask V _ d) as [mask|e].
  2:{ injection E as <- <-. split; [exists 0; reflexivity|]. split; [split; discriminate|reflexivity]. }
  assert (P0 : forall f, product_file V iteration mask d = Ok f -> exists v r, fst f = Global v r).
  { intros f. unfold product_file. destruct (read (d_analysis V d)); [|discriminate]. cbn [bind]. destruct (version iteration) as [[v r]|]; [|discriminate]. cbn [bind]. destruct (three V TAS mask _); [|discriminate]. cbn [bind].
    destruct (mapM (member_number V) _); [|discriminate]. cbn [bind]. destruct (mapM _ (combine _ _)); [|discriminate]. cbn [bind fst snd]. intros H. injection H as <-. exists v, r. reflexivity. }
  assert (PI : iteration <> 4 -> iteration <> 9 -> exists e, product_file V iteration mask d = Err e).
  { intros N4 N9. unfold product_file. destruct (read (d_analysis V d)) as [a|e]; [|exists e; reflexivity]. cbn [bind]. unfold version. replace (iteration =? 4) with false by lia. replace (iteration =? 9) with false by lia. exists NameError. reflexivity. }
  assert (CF : forall name first oc f, component_file V name first mask oc = Ok f -> fst f = name).
  { intros name first oc f. unfold component_file. destruct (read oc); [|discriminate]. cbn [bind]. destruct (three V first mask _); [|discriminate]. cbn [bind]. intros H. injection H as <-. reflexivity. }
  cbn [fold_left snd fst] in E.
  destruct (product_file V iteration mask d) as [f0|e0] eqn:F0; cbn [fold_left snd fst app] in E.
  2:{ injection E as <- <-. split; [exists 0; reflexivity|]. split; [split; discriminate|reflexivity]. }
  destruct (P0 f0 eq_refl) as (v & r & N0). split; [|split]; [| |intros N4 N9; destruct (PI N4 N9); discriminate].
  - destruct (component_file V Climatology TAS mask _) as [f1|] eqn:F1; cbn [fold_left snd fst app] in E.
    2:{ injection E as <- <-. exists 1. cbn. rewrite N0. reflexivity. } apply CF in F1.
    destruct (component_file V LargeScale TASPERTURBATION mask _) as [f2|] eqn:F2; cbn [fold_left snd fst app] in E.
    2:{ injection E as <- <-. exists 2. cbn. rewrite N0, F1. reflexivity. } apply CF in F2.
    destruct (component_file V Local TASPERTURBATION mask _) as [f3|] eqn:F3; cbn [fold_left snd fst app] in E; injection E as <- <-; [|exists 3; cbn; rewrite N0, F1, F2; reflexivity]. apply CF in F3.
    exists 4. cbn. rewrite N0, F1, F2, F3. reflexivity.
  - destruct (component_file V Climatology TAS mask _) as [f1|]; cbn [fold_left snd fst app] in E; [|injection E as <- <-; split; discriminate].
    destruct (component_file V LargeScale TASPERTURBATION mask _) as [f2|]; cbn [fold_left snd fst app] in E; [|injection E as <- <-; split; discriminate].
    destruct (component_file V Local TASPERTURBATION mask _) as [f3|]; cbn [fold_left snd fst app] in E; injection E as <- <-; split; (reflexivity || discriminate).
Qed.
Print Assumptions C88_prefix.
Example C88_nonvacuous : exists f0 f1 f2, mask_date Z 9 (ymd2ord 2010 5 1 * DAY) example_day = ([f0; f1; f2], Some IOErrorE) /\ fst f0 = Global "R001413" "20190405" /\
  nth_error (snd f0) 4 = Some (TASENSEMBLE 1, [None; Some 101; None; None; Some 104; Some 105; None; Some 107; Some 108; Some 109; None; Some 111]) /\
  option_map fst (nth_error (snd f0) 6) = Some (TASENSEMBLE 3) /\ fst f2 = LargeScale /\ mask_date Z 5 (ymd2ord 2010 5 1 * DAY) example_day = ([], Some NameError).
Proof. eexists. eexists. eexists. split; [vm_compute; reflexivity|]. vm_compute. auto 10. Qed.
