(* Properties of time handling: C08, C09, C19, C20, C21, C51, C61-C64. *)
From Coq Require Import String Ascii.
From Verif Require Import Base Work_Model Cat_Model Cat_Spec Cat_Props Time_Model Time_Spec Time_Proofs.
Local Open Scope Z_scope.
Local Open Scope list_scope.

(* ============================================================ the calendar of the model *)

(* Day 1 is 1 January of the year 1, and each day is followed by the next day of the Gregorian calendar. *)
Theorem C21_calendar_is_gregorian :
  ord2ymd 1 = (1, 1, 1) /\ (forall n, ord2ymd (n + 1) = next_day (ord2ymd n)) /\
  (forall y m, (In m [1; 3; 5; 7; 8; 10; 12] -> days_in_month y m = 31) /\ (In m [4; 6; 9; 11] -> days_in_month y m = 30) /\
               (m = 2 -> leap y -> days_in_month y m = 29) /\ (m = 2 -> ~ leap y -> days_in_month y m = 28)).
Proof.
  split; [reflexivity|]. split; [exact ord2ymd_next|]. intros y m. rewrite <- is_leap_iff. repeat split.
  - cbn [In]. intros H. repeat (destruct H as [<-|H]; [reflexivity|]). destruct H.
  - cbn [In]. intros H. repeat (destruct H as [<-|H]; [reflexivity|]). destruct H.
  - intros -> H. unfold days_in_month. now rewrite H.
  - intros -> H. unfold days_in_month. apply not_true_is_false in H. now rewrite H.
Qed.
Print Assumptions C21_calendar_is_gregorian.

(* ============================================================ C08 *)

(* One step for every whole day from start to end. *)
Theorem C08_one_step_per_day :
  forall start end_, whole_seconds_from start end_ -> start <= end_ ->
  forall i, 0 <= i -> (i < st_count (step_daily start end_) <-> start + i * DAY <= end_).
Proof.
  intros start end_ [s ->] Hle i Hi. cbn [st_count step_daily]. unfold daily_count, int_days.
  rewrite days_number_whole, Z.quot_div_nonneg by (unfold SECOND, DAY in *; lia). unfold SECOND, DAY in *. lia.
Qed.
Print Assumptions C08_one_step_per_day.

(* Times of steps are a day apart, so strictly increasing; they exist within the years 1 to 9999. *)
Theorem C08_times_increase :
  forall start end_ i t j, st_time_at_index (step_daily start end_) i = Ok t ->
  (valid_datetime (t + (j - i) * DAY) = true -> st_time_at_index (step_daily start end_) j = Ok (t + (j - i) * DAY)) /\
  (forall t', st_time_at_index (step_daily start end_) j = Ok t' -> (i < j <-> t < t')).
Proof.
  intros start end_ i t j. cbn [st_time_at_index step_daily]. unfold daily_time_at_index, days_number_to_datetime, dt_add. cbv zeta.
  destruct (valid_datetime (start + i * DAY)) eqn:V; [|discriminate]. intros E. injection E as <-. split.
  - replace (start + i * DAY + (j - i) * DAY) with (start + j * DAY) by lia. intros ->. reflexivity.
  - intros t'. destruct (valid_datetime (start + j * DAY)); [|discriminate]. intros E. injection E as <-. unfold DAY. lia.
Qed.
Print Assumptions C08_times_increase.

Theorem C08_first_step_is_the_start :
  forall start end_, valid_datetime start = true -> st_time_at_index (step_daily start end_) 0 = Ok start.
Proof.
  intros start end_ V. cbn. unfold daily_time_at_index, days_number_to_datetime, dt_add. cbv zeta.
  replace (start + 0 * DAY) with start by lia. now rewrite V.
Qed.
Print Assumptions C08_first_step_is_the_start.

(* The index of a step's time is the step. *)
Theorem C08_index_of_step_time :
  forall start end_ i t, st_time_at_index (step_daily start end_) i = Ok t ->
  st_index_at_time (step_daily start end_) (Some t) = Ok i.
Proof.
  intros start end_ i t. cbn. unfold daily_time_at_index, days_number_to_datetime, dt_add, daily_index_at_time, int_days. cbv zeta.
  destruct (valid_datetime _); [|discriminate]. intros E. injection E as <-. f_equal.
  replace (start + i * DAY) with (start + (i * 86400) * SECOND) by (unfold DAY, SECOND; lia).
  rewrite days_number_whole. replace (i * 86400 * SECOND) with (i * DAY) by (unfold DAY, SECOND; lia).
  apply Z.quot_mul. unfold DAY. lia.
Qed.
Print Assumptions C08_index_of_step_time.

(* A time from the start on belongs to step i exactly if it lies in the 24 hours of that step. *)
Theorem C08_day_of_a_time :
  forall start end_ t i, whole_seconds_from start t -> start <= t ->
  (st_index_at_time (step_daily start end_) (Some t) = Ok i <-> in_day start i t).
Proof.
  intros start end_ t i [s ->] H. cbn. unfold daily_index_at_time, int_days, in_day.
  rewrite days_number_whole, Z.quot_div_nonneg by (unfold SECOND, DAY in *; lia).
  split; [intros E; injection E as <-|intros E; f_equal]; unfold SECOND, DAY in *; lia.
Qed.
Print Assumptions C08_day_of_a_time.

(* Start and end given as strings. *)
Theorem C08_from_strings :
  forall a b, valid_datetime a = true -> valid_datetime b = true ->
  new_step_daily (TimeString (build a)) (TimeString (build b)) = Ok (step_daily (to_the_second a) (to_the_second b)).
Proof. intros a b Ha Hb. unfold new_step_daily, parsetime. rewrite !parse_build by assumption. reflexivity. Qed.
Print Assumptions C08_from_strings.

Example C08_nonvacuous :
  exists start end_ t, parse "20160227060000" = Ok start /\ parse "20160301050000" = Ok end_ /\ parse "20160229055959" = Ok t /\
  whole_seconds_from start end_ /\ start <= end_ /\ whole_seconds_from start t /\
  st_count (step_daily start end_) = 3 /\ st_index_at_time (step_daily start end_) (Some t) = Ok 1 /\
  st_time_at_index (step_daily start end_) 2 = parse "20160229060000".
Proof.
  do 3 eexists. split; [vm_compute; reflexivity|]. split; [vm_compute; reflexivity|]. split; [vm_compute; reflexivity|].
  split; [exists 255600; vm_compute; reflexivity|]. split; [vm_compute; discriminate|]. split; [exists 172799; vm_compute; reflexivity|].
  repeat split; vm_compute; reflexivity.
Qed.

(* ============================================================ C09 *)

(* Full claim: times before the start are attributed to no step, i.e. never to an index in 0..count-1. It is false for
   every start: everything in the open 24 hours before belongs to step 0. *)
Theorem C09_before_start_refuted :
  forall start end_ t, whole_seconds_from start t -> start - DAY < t < start ->
  st_index_at_time (step_daily start end_) (Some t) = Ok 0.
Proof.
  intros start end_ t [s ->] H. cbn. unfold daily_index_at_time, int_days. rewrite days_number_whole. f_equal.
  replace (s * SECOND) with (- (- s * SECOND)) by lia. rewrite Z.quot_opp_l by (unfold DAY; lia).
  rewrite Z.quot_small; [reflexivity|]. unfold SECOND, DAY in *. lia.
Qed.
Print Assumptions C09_before_start_refuted.

(* What does hold: at least one day before, the index is negative. *)
Theorem C09_a_day_before_start_partial :
  forall start end_ t, whole_seconds_from start t -> t <= start - DAY ->
  exists i, st_index_at_time (step_daily start end_) (Some t) = Ok i /\ i < 0.
Proof.
  intros start end_ t [s ->] H. cbn. unfold daily_index_at_time, int_days. rewrite days_number_whole. eexists. split; [reflexivity|].
  replace (s * SECOND) with (- (- s * SECOND)) by lia. rewrite Z.quot_opp_l by (unfold DAY; lia).
  rewrite Z.quot_div_nonneg by (unfold DAY, SECOND in *; lia). unfold SECOND, DAY in *. lia.
Qed.
Print Assumptions C09_a_day_before_start_partial.

(* The consequence for a catalogue: a file dated up to a day before the start is given to the first operation. *)
Theorem C09_file_before_start_given_to_first_step :
  forall start end_ patterns files e f t,
  daily_unique patterns = true -> nth_error files e = Some f -> en_time f = Some t ->
  whole_seconds_from start t -> start - DAY < t < start -> belongs (step_daily start end_) patterns files 0 e.
Proof.
  intros start end_ patterns files e f t U Hf Ht Hw Hr. exists f. split; [exact Hf|].
  change (st_unique (step_daily start end_) patterns) with (daily_unique patterns).
  rewrite U, Ht. now apply C09_before_start_refuted.
Qed.
Print Assumptions C09_file_before_start_given_to_first_step.

(* Likewise an end less than a day before the start still makes one step. *)
Theorem C09_end_before_start_makes_a_step :
  forall start end_, whole_seconds_from start end_ -> start - DAY < end_ < start -> st_count (step_daily start end_) = 1.
Proof.
  intros start end_ Hw Hr. pose proof (C09_before_start_refuted start end_ end_ Hw Hr) as H. cbn in H. injection H as H.
  cbn. unfold daily_count. unfold daily_index_at_time in H. lia.
Qed.
Print Assumptions C09_end_before_start_makes_a_step.

Example C09_nonvacuous :
  exists start end_ t, parse "20100101000000" = Ok start /\ parse "20100105000000" = Ok end_ /\ parse "20091231120000" = Ok t /\
  whole_seconds_from start t /\ start - DAY < t < start /\ daily_unique ["%Y/"%string; "a%m%d.nc"%string] = true.
Proof.
  do 3 eexists. split; [vm_compute; reflexivity|]. split; [vm_compute; reflexivity|]. split; [vm_compute; reflexivity|].
  split; [exists (-43200); vm_compute; reflexivity|]. split; [vm_compute; split; reflexivity|]. reflexivity.
Qed.

(* ============================================================ C19 *)

Theorem C19_round_trip_to_the_second :
  forall epoch t, valid_datetime epoch = true -> valid_datetime t = true -> epoch mod SECOND = 0 ->
  seconds_number_to_datetime epoch (seconds_datetime_to_number epoch t) = Ok (to_the_second t).
Proof.
  intros epoch t Ve V H. rewrite seconds_number_value. unfold seconds_number_to_datetime, dt_add, to_the_second. cbv zeta.
  assert (epoch + (t - epoch) / SECOND * SECOND = t / SECOND * SECOND) as -> by (unfold SECOND in *; lia).
  assert (valid_datetime (t / SECOND * SECOND) = true) as ->; [|reflexivity].
  rewrite valid_datetime_iff in *. unfold SECOND, DAY in *. lia.
Qed.
Print Assumptions C19_round_trip_to_the_second.

Theorem C19_numbers_round_trip :
  forall epoch n t, seconds_number_to_datetime epoch n = Ok t -> seconds_datetime_to_number epoch t = n.
Proof.
  intros epoch n t. unfold seconds_number_to_datetime, dt_add. cbv zeta. destruct (valid_datetime _); [|discriminate].
  intros E. injection E as <-. rewrite seconds_number_value. unfold SECOND. lia.
Qed.
Print Assumptions C19_numbers_round_trip.

Theorem C19_order_preserved :
  forall epoch t t', epoch mod SECOND = 0 ->
  (t <= t' -> seconds_datetime_to_number epoch t <= seconds_datetime_to_number epoch t') /\
  (to_the_second t < to_the_second t' <-> seconds_datetime_to_number epoch t < seconds_datetime_to_number epoch t').
Proof. intros epoch t t' H. rewrite !seconds_number_value. unfold to_the_second, SECOND in *. lia. Qed.
Print Assumptions C19_order_preserved.

(* The numbers fit in 64-bit integers. *)
Theorem C19_fits_in_64_bits :
  forall epoch t, valid_datetime epoch = true -> valid_datetime t = true -> - 2 ^ 63 <= seconds_datetime_to_number epoch t < 2 ^ 63.
Proof. intros epoch t H H'. rewrite valid_datetime_iff in *. rewrite seconds_number_value. unfold SECOND, DAY in *. lia. Qed.
Print Assumptions C19_fits_in_64_bits.

Example C19_nonvacuous :
  exists t, parse "20160229235959" = Ok t /\ valid_datetime (t + 999999) = true /\ valid_datetime EPOCH = true /\ EPOCH mod SECOND = 0 /\
  seconds_datetime_to_number EPOCH (t + 999999) = 5243615999 /\ to_the_second (t + 999999) = t.
Proof. eexists. repeat split; vm_compute; reflexivity. Qed.

(* ============================================================ C20 *)

(* Full claim: forall epoch t t', t < t' -> number t < number t'; and number_to_datetime (number t) = t. *)
Theorem C20_order_refuted :
  exists epoch t t', valid_datetime epoch = true /\ valid_datetime t = true /\ valid_datetime t' = true /\
  t < t' /\ days_datetime_to_number epoch t' < days_datetime_to_number epoch t.
Proof. exists EPOCH, (EPOCH + 900000), (EPOCH + SECOND). repeat split; vm_compute; reflexivity. Qed.
Print Assumptions C20_order_refuted.

(* Read back, a time with a fraction of a second is wrong by up to almost a day: every microsecond counts 86400 times. *)
Theorem C20_fractions_of_a_second_refuted :
  forall epoch t t', days_number_to_datetime epoch (days_datetime_to_number epoch t) = Ok t' ->
  t' = t + (t - epoch) mod SECOND * 86399.
Proof.
  intros epoch t t'. unfold days_number_to_datetime, dt_add. cbv zeta. destruct (valid_datetime _); [|discriminate].
  intros E. injection E as <-. rewrite days_number_value. lia.
Qed.
Print Assumptions C20_fractions_of_a_second_refuted.

(* Without fractions of a second order is preserved, strictly, and times round trip. *)
Theorem C20_whole_seconds_partial :
  forall epoch t t', whole_seconds_from epoch t -> whole_seconds_from epoch t' -> valid_datetime t = true ->
  (t < t' <-> days_datetime_to_number epoch t < days_datetime_to_number epoch t') /\
  days_number_to_datetime epoch (days_datetime_to_number epoch t) = Ok t.
Proof.
  intros epoch t t' [s ->] [s' ->] V. rewrite !days_number_whole. split; [lia|].
  unfold days_number_to_datetime, dt_add. cbv zeta. now rewrite V.
Qed.
Print Assumptions C20_whole_seconds_partial.

(* Whole days: n days after the epoch is n (times DAY units) for every n, before and after the epoch. *)
Theorem C20_whole_days_round_trip :
  forall epoch n t, days_number_to_datetime epoch (n * DAY) = Ok t -> days_datetime_to_number epoch t = n * DAY /\ t = epoch + n * DAY.
Proof.
  intros epoch n t. unfold days_number_to_datetime, dt_add. cbv zeta. destruct (valid_datetime _); [|discriminate].
  intros E. injection E as <-. split; [|reflexivity].
  replace (epoch + n * DAY) with (epoch + (n * 86400) * SECOND) by (unfold DAY, SECOND; lia). rewrite days_number_whole. unfold DAY, SECOND. lia.
Qed.
Print Assumptions C20_whole_days_round_trip.

Example C20_nonvacuous :
  exists t t', parse "18491231235959" = Ok t /\ parse "20160101000000" = Ok t' /\ whole_seconds_from EPOCH t /\ whole_seconds_from EPOCH t' /\
  valid_datetime t = true /\ days_number_to_datetime EPOCH (60630 * DAY) = Ok t'.
Proof.
  do 2 eexists. split; [vm_compute; reflexivity|]. split; [vm_compute; reflexivity|].
  split; [exists (-1); vm_compute; reflexivity|]. split; [exists 5238432000; vm_compute; reflexivity|]. split; vm_compute; reflexivity.
Qed.

(* ============================================================ C21 *)

Theorem C21_always_14_numerals : forall t, numerals 14 (build t).
Proof. exact build_numerals. Qed.
Print Assumptions C21_always_14_numerals.

Theorem C21_digits_denote_the_fields :
  forall t, valid_datetime t = true ->
  denotes (build t) = dt_year t * 10000000000 + dt_month t * 100000000 + dt_day t * 1000000 + dt_hour t * 10000 + dt_minute t * 100 + dt_second t.
Proof.
  intros t V. apply valid_year in V. pose proof (fields_range t) as F. rewrite build_eq. unfold pad4, pad2. cbn [append].
  unfold denotes. cbn [denotes_from]. rewrite !nat_of_digit by lia. lia.
Qed.
Print Assumptions C21_digits_denote_the_fields.

Theorem C21_round_trip : forall t, valid_datetime t = true -> parse (build t) = Ok (to_the_second t).
Proof. exact parse_build. Qed.
Print Assumptions C21_round_trip.

Theorem C21_reverse_round_trip :
  forall s t, numerals 14 s -> parse s = Ok t -> build t = s /\ valid_datetime t = true /\ to_the_second t = t.
Proof.
  intros s t N H. destruct (build_parse s t N H) as (B & V & S). repeat split; auto. unfold to_the_second. unfold SECOND in *. lia.
Qed.
Print Assumptions C21_reverse_round_trip.

Theorem C21_string_order_is_time_order :
  forall t t', valid_datetime t = true -> valid_datetime t' = true ->
  (String.compare (build t) (build t') = Lt <-> to_the_second t < to_the_second t').
Proof. exact build_compare. Qed.
Print Assumptions C21_string_order_is_time_order.

(* Parsing accepts strings that formatting never makes: fields of one numeral. *)
Theorem C21_short_strings_refuted :
  exists s t, parse s = Ok t /\ String.length s = 10%nat /\ build t <> s.
Proof. exists "2010111111"%string. eexists. split; [vm_compute; reflexivity|]. split; [reflexivity|]. vm_compute. discriminate. Qed.
Print Assumptions C21_short_strings_refuted.

Example C21_nonvacuous :
  exists t, parse "00010101000000" = Ok min_datetime /\ parse "20160229235959" = Ok t /\ date_of t = (2016, 2, 29) /\
  build (t + 123456) = "20160229235959"%string /\ parse "20150229000000" = Err ValueError /\ parse "99991231235959" = Ok (to_the_second max_datetime).
Proof. eexists. repeat split; vm_compute; reflexivity. Qed.

(* ============================================================ C51 *)

(* Operations 0..n-1 counted from a reference on the first of a month: operation i processes exactly the days of the
   i-th month, and together they process consecutive days, in order, from the reference on. *)
Theorem C51_operations_partition_the_days :
  forall reference n, valid_datetime reference = true -> dt_day reference = 1 -> 0 <= n -> month_number reference + n <= 119999 ->
  exists days total, mapM (operation_dates reference) (zrange 0 n) = Ok days /\
  concat days = map (fun k => reference + k * DAY) (zrange 0 total) /\
  (forall t, reference <= t -> t mod DAY = reference mod DAY -> (In t (concat days) <-> month_number t < month_number reference + n)) /\
  (forall i l, 0 <= i -> nth_error days (Z.to_nat i) = Some l ->
     forall t, In t l <-> t mod DAY = reference mod DAY /\ month_number t = month_number reference + i).
Proof.
  intros ref n V H1 Hn Hmax. pose proof (month_number_range ref V) as Hr. pose proof (first_of_month ref H1) as Er.
  pose proof (Z.mod_pos_bound ref DAY eq_refl) as Ht. set (tod := ref mod DAY) in *. set (n0 := month_number ref) in *.
  exists (map (fun i => map (fun k => month_start (n0 + i) * DAY + tod + k * DAY) (zrange 0 (month_length (n0 + i)))) (zrange 0 n)),
         (month_start (n0 + n) - month_start n0).
  assert (mapM (operation_dates ref) (zrange 0 n) = Ok (map (fun i => map (fun k => month_start (n0 + i) * DAY + tod + k * DAY) (zrange 0 (month_length (n0 + i)))) (zrange 0 n))) as M.
  { apply mapM_ok_map. intros i Hi. apply zrange_In in Hi. apply operation_dates_fields; lia. }
  split; [exact M|]. rewrite months_concat by assumption. split; [rewrite <- Er; reflexivity|]. split.
  - intros t Hle Hmod. rewrite in_map_iff. pose proof (month_ge (n0 + n) t) as G. split.
    + intros (k & E & Hk). apply zrange_In in Hk. subst t. unfold DAY in *. lia.
    + intros Hlt. exists (t / DAY - month_start n0). split; [unfold DAY in *; lia|]. apply zrange_In. unfold DAY in *. lia.
  - intros i l Hi E t. rewrite nth_error_map in E. destruct (nth_error (zrange 0 n) (Z.to_nat i)) as [i'|] eqn:Ei; [|discriminate].
    cbn [option_map] in E. assert (forall A (a b : A), Some a = Some b -> a = b) as SI by congruence. apply SI in E. subst l. assert (i' = i) as ->.
    { apply Cat_Proofs.zrange_nth_inv in Ei. lia. }
    rewrite in_map_iff, month_iff. fold n0. rewrite month_start_next. split.
    + intros (k & E & Hk). apply zrange_In in Hk. subst t. unfold DAY in *. lia.
    + intros [Hmod Hl]. exists (t / DAY - month_start (n0 + i)). split; [unfold DAY in *; lia|]. apply zrange_In. lia.
Qed.
Print Assumptions C51_operations_partition_the_days.

(* The number of operations for a range of years: twelve per year. *)
Theorem C51_operation_count :
  forall start_year end_year, 1 <= start_year <= 9999 -> 1 <= end_year <= 9998 ->
  operation_count start_year end_year = Ok (12 * (end_year - start_year + 1)).
Proof. exact operation_count_value. Qed.
Print Assumptions C51_operation_count.

(* Counting and dates together: all days of the years, each once. *)
Theorem C51_years_covered :
  forall start_year end_year, 1 <= start_year <= end_year -> end_year <= 9998 ->
  exists reference n days, mk_datetime start_year 1 1 0 0 0 = Ok reference /\ operation_count start_year end_year = Ok n /\
  mapM (operation_dates reference) (zrange 0 n) = Ok days /\
  forall t, t mod DAY = 0 -> (count_occ Z.eq_dec (concat days) t = 1%nat <-> start_year <= dt_year t <= end_year) /\
                             (count_occ Z.eq_dec (concat days) t = 0%nat <-> ~ start_year <= dt_year t <= end_year).
Proof.
  intros s e Hs He. assert (mk_datetime s 1 1 0 0 0 = Ok (month_start (12 * s) * DAY + 0)) as R.
  { rewrite mk_date_midnight; [now rewrite year_start_ord, Z.add_0_r|lia|lia|]. assert (days_in_month s 1 = 31) as -> by reflexivity. lia. }
  assert (0 <= 0 < DAY) as H0 by (unfold DAY; lia).
  assert (exists reference, reference = month_start (12 * s) * DAY + 0) as [reference Er] by eauto. rewrite <- Er in R.
  assert (month_number reference = 12 * s) as Mn by (rewrite Er; apply month_number_start; assumption).
  destruct (C51_operations_partition_the_days reference (12 * (e - s + 1))) as (days & total & M & C & Cov & _).
  - rewrite Er. apply month_start_year; [assumption|lia].
  - pose proof (month_start_date (12 * s) 0 H0) as D. unfold date_of in D. rewrite <- Er in D.
    assert (forall a b c a' b' c' : Z, (a, b, c) = (a', b', c') -> c = c') as P by congruence. now apply P in D.
  - lia.
  - lia.
  - exists reference, (12 * (e - s + 1)), days. split; [exact R|]. split; [apply operation_count_value; lia|]. split; [exact M|].
    assert (reference mod DAY = 0) as Z0 by (rewrite Er; unfold DAY; lia).
    intros t Ht.
    assert (In t (concat days) <-> s <= dt_year t <= e) as I.
    { destruct (date_fields t) as (Hm & _). split.
      - intros Hin. assert (reference <= t) as Hle.
        { rewrite C in Hin. apply in_map_iff in Hin. destruct Hin as (k & <- & Hk). apply zrange_In in Hk. unfold DAY. lia. }
        apply Cov in Hin; [|assumption|congruence]. rewrite Mn in Hin.
        assert (12 * s <= month_number t) as G. { apply month_ge. unfold DAY in *. lia. }
        unfold month_number in *. lia.
      - intros Hy. assert (12 * s <= month_number t) as G by (unfold month_number; lia).
        apply month_ge in G. apply Cov; [unfold DAY in *; lia|congruence|]. rewrite Mn. unfold month_number. lia. }
    assert (NoDup (concat days)) as ND.
    { rewrite C. apply FinFun.Injective_map_NoDup; [|apply zrange_NoDup]. intros x y. unfold DAY. lia. }
    rewrite (NoDup_count_occ Z.eq_dec) in ND. specialize (ND t).
    rewrite (count_occ_In Z.eq_dec) in I. lia.
Qed.
Print Assumptions C51_years_covered.

(* Full claim "for every reference date" is false: with a reference on the 31st, days are lost. *)
Theorem C51_late_reference_refuted :
  exists reference missing days, valid_datetime reference = true /\ dt_day reference = 31 /\
  mapM (operation_dates reference) (zrange 0 12) = Ok days /\
  Forall (fun t => reference <= t < reference + 365 * DAY /\ ~ In t (concat days)) missing /\ zlen missing = 7.
Proof.
  exists (ymd2ord 2011 1 31 * DAY), (map (fun d : Z * Z => ymd2ord 2011 (fst d) (snd d) * DAY) [(3, 28); (3, 29); (3, 30); (5, 30); (7, 30); (10, 30); (12, 30)]).
  eexists. split; [reflexivity|]. split; [reflexivity|]. split; [vm_compute; reflexivity|]. split; [|reflexivity].
  apply Forall_forall. intros t Ht.
  match goal with |- _ /\ ~ In t (concat ?l) => assert (forallb (fun u => (ymd2ord 2011 1 31 * DAY <=? u) && (u <? ymd2ord 2011 1 31 * DAY + 365 * DAY)
     && negb (existsb (Z.eqb u) (concat l))) (map (fun d : Z * Z => ymd2ord 2011 (fst d) (snd d) * DAY) [(3, 28); (3, 29); (3, 30); (5, 30); (7, 30); (10, 30); (12, 30)]) = true) as A by (vm_compute; reflexivity) end.
  rewrite forallb_forall in A. specialize (A t Ht). rewrite !andb_true_iff, negb_true_iff in A. destruct A as [[A1 A2] A3].
  apply Z.leb_le in A1. apply Z.ltb_lt in A2. split; [split; assumption|]. intros I.
  assert (existsb (Z.eqb t) _ = true) as X by (apply existsb_exists; exists t; split; [exact I|apply Z.eqb_refl]). congruence.
Qed.
Print Assumptions C51_late_reference_refuted.

Example C51_nonvacuous :
  exists reference days, mk_datetime 2015 11 1 0 0 0 = Ok reference /\ valid_datetime reference = true /\ dt_day reference = 1 /\
  month_number reference + 4 <= 119999 /\ mapM (operation_dates reference) (zrange 0 4) = Ok days /\ map zlen days = [30; 31; 31; 29] /\
  operation_count 1850 2015 = Ok 1992.
Proof.
  do 2 eexists. split; [vm_compute; reflexivity|]. split; [reflexivity|]. split; [reflexivity|]. split; [vm_compute; discriminate|].
  split; [vm_compute; reflexivity|]. split; vm_compute; reflexivity.
Qed.

(* ============================================================ C61: names of daily outputs *)

(* The patterns show the whole date: %Y, %m and %d each occur within one component, and only the first component may
   be an absolute path. *)
Definition patterns_show_date (patterns : list string) : Prop :=
  (exists p, In p patterns /\ occurs "%Y" p) /\ (exists p, In p patterns /\ occurs "%m" p) /\ (exists p, In p patterns /\ occurs "%d" p) /\
  (forall first rest p, patterns = first :: rest -> In p rest -> forall q, p <> ("/" ++ q)%string).

Lemma show_date_checks patterns : patterns_show_date patterns ->
  (forall p, In p (tl patterns) -> starts_with_slash p = false) /\
  (exists p, In p patterns /\ contains2 "%" "Y" p = true) /\ (exists p, In p patterns /\ contains2 "%" "m" p = true) /\
  (exists p, In p patterns /\ contains2 "%" "d" p = true).
Proof.
  intros ((pY & IY & HY) & (pm & Im & Hm) & (pd & Id & Hd) & A). repeat split.
  - intros p Hp. destruct patterns as [|f r]; [destruct Hp|]. cbn [tl] in Hp. specialize (A f r p eq_refl Hp).
    destruct p as [|c p]; [reflexivity|]. cbn. destruct (Ascii.eqb_spec c "/") as [->|]; [|reflexivity]. destruct (A p eq_refl).
  - exists pY. split; [exact IY|now apply contains2_occurs].
  - exists pm. split; [exact Im|now apply contains2_occurs].
  - exists pd. split; [exact Id|now apply contains2_occurs].
Qed.

Theorem C61_distinct_days_have_distinct_names :
  forall start end_ patterns i j e e', patterns_show_date patterns ->
  st_output_entry (step_daily start end_) patterns i = Ok e -> st_output_entry (step_daily start end_) patterns j = Ok e' ->
  (en_name e = en_name e' <-> i = j) /\
  (exists t, en_time e = Some t /\ st_time_at_index (step_daily start end_) i = Ok t).
Proof.
  intros start end_ patterns i j e e' P. destruct (show_date_checks _ P) as (A & B & C & D). cbn [st_output_entry step_daily st_time_at_index].
  unfold timed_output_entry, daily_time_at_index, days_number_to_datetime, dt_add. cbv zeta.
  destruct (valid_datetime (start + i * DAY)) eqn:Vi; [|discriminate]. destruct (valid_datetime (start + j * DAY)) eqn:Vj; [|discriminate].
  cbn [bind]. destruct (filename_from_patterns patterns (start + i * DAY)) as [n|] eqn:Ei; [|discriminate].
  destruct (filename_from_patterns patterns (start + j * DAY)) as [n'|] eqn:Ej; [|discriminate]. cbn [bind].
  intros H H'. injection H as <-. injection H' as <-. cbn [en_name en_time]. split; [|eauto]. split.
  - intros ->. pose proof (same_name_same_date patterns _ _ _ A B C D Vi Vj Ei Ej) as E.
    pose proof (to_the_second_parts (start + i * DAY)) as T1. pose proof (to_the_second_parts (start + j * DAY)) as T2.
    destruct (date_fields (start + i * DAY)) as (_ & _ & O1). destruct (date_fields (start + j * DAY)) as (_ & _ & O2).
    unfold date_of in E. assert (forall a b c a' b' c' : Z, (a, b, c) = (a', b', c') -> a = a' /\ b = b' /\ c = c') as Q by (intros; repeat split; congruence).
    apply Q in E. destruct E as (E1 & E2 & E3). rewrite E1, E2, E3, O2 in O1. unfold DAY in O1. lia.
  - intros ->. congruence.
Qed.
Print Assumptions C61_distinct_days_have_distinct_names.

(* So no two operations of a daily run write the same file. *)
Theorem C61_daily_operations_never_share_an_output :
  forall start end_ datasets out indices refs datasets',
  (forall i d ss patterns, subset_of datasets' (out_dataset out) (out_subset out) i d ss -> ss_patterns ss = Some patterns -> patterns_show_date patterns) ->
  NoDup indices ->
  operation_output_resolve datasets (step_daily start end_) out indices = Ok (refs, datasets') -> NoDup refs.
Proof.
  intros start end_ datasets out indices refs datasets' P ND E. apply C13_output_references in E.
  destruct E as (i & d & ss & patterns & es & Hsub & Hp & -> & F & Hname & _). specialize (P _ _ _ _ Hsub Hp).
  apply NoDup_nth_error. intros a b Ha Eab. rewrite map_length in Ha. rewrite !nth_error_map in Eab.
  destruct (nth_error es a) as [ea|] eqn:Ea; [|apply nth_error_None in Ea; lia].
  destruct (nth_error es b) as [eb|] eqn:Eb; [|discriminate]. cbn in Eab. injection Eab as Eab. apply Nat2Z.inj in Eab. subst eb.
  assert (length indices = length es) as L by (eapply Cat_Proofs.Forall2_len; exact F).
  destruct (nth_error indices a) as [sa|] eqn:Sa; [|apply nth_error_None in Sa; lia].
  destruct (nth_error indices b) as [sb|] eqn:Sb; [|apply nth_error_None in Sb; assert (b < length es)%nat by (apply nth_error_Some; congruence); lia].
  destruct (Cat_Proofs.Forall2_nth_l _ _ _ _ _ F Sa) as (? & ? & oa & fa & Oa & _).
  destruct (Cat_Proofs.Forall2_nth_l _ _ _ _ _ F Sb) as (? & ? & ob & fb & Ob & _).
  assert (sa = sb) as ->.
  { apply (C61_distinct_days_have_distinct_names start end_ patterns sa sb oa ob P Oa Ob). now apply (Hname a b sa sb ea ea oa ob Sa Sb Ea Eb Oa Ob). }
  apply (proj1 (NoDup_nth_error indices) ND); [lia|congruence].
Qed.
Print Assumptions C61_daily_operations_never_share_an_output.

(* For a single component the check of the code is enough. *)
Theorem C61_check_is_enough_for_one_component :
  forall start end_ p i j e e', st_unique (step_daily start end_) [p] = true ->
  st_output_entry (step_daily start end_) [p] i = Ok e -> st_output_entry (step_daily start end_) [p] j = Ok e' ->
  en_name e = en_name e' -> i = j.
Proof.
  intros start end_ p i j e e' U E E' N. eapply C61_distinct_days_have_distinct_names; eauto.
  cbn [st_unique step_daily] in U. unfold daily_unique in U. cbn [String.concat] in U. apply andb_true_iff in U as [U U3]. apply andb_true_iff in U as [U1 U2].
  apply contains2_occurs in U1, U2, U3.
  split; [exists p; split; [now left|exact U1]|]. split; [exists p; split; [now left|exact U2]|]. split; [exists p; split; [now left|exact U3]|].
  intros first rest q X I. injection X as <- <-. destruct I.
Qed.
Print Assumptions C61_check_is_enough_for_one_component.

(* The check is about the concatenated components. *)
Theorem C61_what_is_checked :
  forall start end_ patterns, st_unique (step_daily start end_) patterns = true <->
  forall x, In x ["%Y"%string; "%m"%string; "%d"%string] -> occurs x (String.concat "" patterns).
Proof.
  intros start end_ patterns. cbn [st_unique step_daily]. unfold daily_unique. cbv zeta. rewrite !andb_true_iff, !contains2_occurs. split.
  - intros [[U1 U2] U3] x [<-|[<-|[<-|[]]]]; assumption.
  - intros H. repeat split; apply H; cbn; auto.
Qed.
Print Assumptions C61_what_is_checked.

(* is_uniquely_defined_by looks at the concatenated components only: a directive that straddles two components, or
   components discarded by a later absolute path, pass the check and yet different days share a name. *)
Theorem C61_uniqueness_check_refuted :
  exists start patterns e e', daily_unique patterns = true /\
  st_output_entry (step_daily start start) patterns 0 = Ok e /\ st_output_entry (step_daily start start) patterns 365 = Ok e' /\
  en_name e = en_name e' /\ en_time e <> en_time e'.
Proof.
  exists (ymd2ord 2010 1 1 * DAY), ["out%"%string; "Y%m%d.nc"%string]. do 2 eexists. split; [reflexivity|].
  split; [vm_compute; reflexivity|]. split; [vm_compute; reflexivity|]. split; [reflexivity|discriminate].
Qed.
Print Assumptions C61_uniqueness_check_refuted.

Theorem C61_absolute_component_refuted :
  exists start patterns e e', daily_unique patterns = true /\
  st_output_entry (step_daily start start) patterns 0 = Ok e /\ st_output_entry (step_daily start start) patterns 1 = Ok e' /\
  en_name e = en_name e' /\ en_time e <> en_time e'.
Proof.
  exists (ymd2ord 2010 1 1 * DAY), ["%Y%m%d"%string; "/out.nc"%string]. do 2 eexists. split; [reflexivity|].
  split; [vm_compute; reflexivity|]. split; [vm_compute; reflexivity|]. split; [reflexivity|discriminate].
Qed.
Print Assumptions C61_absolute_component_refuted.

Example C61_nonvacuous :
  exists start e e', patterns_show_date ["%Y/"%string; "tas_%Y%m%d.nc"%string] /\ parse "20100101000000" = Ok start /\
  st_output_entry (step_daily start start) ["%Y/"%string; "tas_%Y%m%d.nc"%string] 0 = Ok e /\ en_name e = "2010/tas_20100101.nc"%string /\
  st_output_entry (step_daily start start) ["%Y/"%string; "tas_%Y%m%d.nc"%string] 31 = Ok e' /\ en_name e' = "2010/tas_20100201.nc"%string.
Proof.
  do 3 eexists. split.
  { split; [|split; [|split]].
    - exists "%Y/"%string. split; [cbn; auto|]. exists ""%string, "/"%string. reflexivity.
    - exists "tas_%Y%m%d.nc"%string. split; [cbn; auto|]. exists "tas_%Y"%string, "%d.nc"%string. reflexivity.
    - exists "tas_%Y%m%d.nc"%string. split; [cbn; auto|]. exists "tas_%Y%m"%string, ".nc"%string. reflexivity.
    - intros f r p E Hp q. injection E as <- <-. destruct Hp as [<-|[]]. discriminate. }
  split; [vm_compute; reflexivity|]. repeat split; vm_compute; reflexivity.
Qed.

(* ============================================================ C62: daily steps counted from the epoch *)

(* Full claim: the index of every time from start to end is one of the steps 0..count-1. It is false as soon as start
   is a period length after the epoch: then no time of the period has a step, and no step is a time of the period. *)
Theorem C62_epoch_steps_refuted :
  forall start end_ t, EPOCH <= start -> start <= t <= end_ ->
  whole_seconds_from EPOCH start -> whole_seconds_from EPOCH end_ -> whole_seconds_from EPOCH t ->
  end_ - start + DAY < start - EPOCH ->
  (exists i, st_index_at_time (step_daily_epoch start end_) (Some t) = Ok i /\ st_count (step_daily_epoch start end_) <= i) /\
  (forall i u, 0 <= i < st_count (step_daily_epoch start end_) -> st_time_at_index (step_daily_epoch start end_) i = Ok u -> u < start).
Proof.
  intros start end_ t H1 H2 [s ->] [e ->] [u ->] H3. cbn. unfold daily_index_at_time, int_days. rewrite !days_number_whole.
  split.
  - eexists. split; [reflexivity|]. rewrite !Z.quot_div_nonneg by (unfold SECOND, DAY in *; lia). unfold SECOND, DAY in *. lia.
  - intros i v Hi. unfold daily_time_at_index, days_number_to_datetime, dt_add. cbv zeta. destruct (valid_datetime _); [|discriminate].
    intros E. assert (v = EPOCH + i * DAY) as -> by congruence. rewrite Z.quot_div_nonneg in Hi by (unfold SECOND, DAY in *; lia). unfold SECOND, DAY in *. lia.
Qed.
Print Assumptions C62_epoch_steps_refuted.

(* It holds when the period starts at the epoch: then these are the daily steps. *)
Theorem C62_epoch_steps_partial :
  forall end_, whole_seconds_from EPOCH end_ -> step_daily_epoch EPOCH end_ = step_daily EPOCH end_.
Proof.
  intros end_ [e ->]. unfold step_daily_epoch, step_daily. f_equal. unfold daily_count. f_equal.
  replace (days_datetime_to_number EPOCH EPOCH) with 0 by reflexivity. now rewrite Z.sub_0_r.
Qed.
Print Assumptions C62_epoch_steps_partial.

Example C62_nonvacuous :
  exists start end_, parse "20060101000000" = Ok start /\ parse "20061231000000" = Ok end_ /\ EPOCH <= start /\ start <= end_ /\
  whole_seconds_from EPOCH start /\ whole_seconds_from EPOCH end_ /\ end_ - start + DAY < start - EPOCH /\
  st_count (step_daily_epoch start end_) = 365 /\ st_index_at_time (step_daily_epoch start end_) (Some start) = Ok 56978.
Proof.
  do 2 eexists. split; [vm_compute; reflexivity|]. split; [vm_compute; reflexivity|]. split; [vm_compute; discriminate|]. split; [vm_compute; discriminate|].
  split; [exists (56978 * 86400); vm_compute; reflexivity|]. split; [exists ((56978 + 364) * 86400); vm_compute; reflexivity|].
  repeat split; vm_compute; reflexivity.
Qed.

(* ============================================================ C63: monthly and annual steps *)

Theorem C63_monthly_index_is_the_calendar_month :
  forall start t, valid_datetime t = true -> month_number t < 119999 ->
  monthly_index_at_time start t = Ok (month_number t - month_number start).
Proof.
  intros start t V H. unfold monthly_index_at_time. rewrite monthly_floor_value by assumption. rewrite monthly_base_start.
  assert (0 <= 0 < DAY) as H0 by (unfold DAY; lia). rewrite <- (Z.add_0_r (_ * DAY)), month_number_start by assumption. reflexivity.
Qed.
Print Assumptions C63_monthly_index_is_the_calendar_month.

Theorem C63_monthly_times :
  forall start i t, valid_datetime start = true -> monthly_time_at_index start i = Ok t ->
  month_number t = month_number start + i /\ dt_day t = 1 /\ t mod DAY = 0.
Proof.
  intros start i t V. pose proof (month_number_range start V) as R. unfold monthly_time_at_index, monthly_number_to_datetime.
  rewrite monthly_base_start. assert (0 <= 0 < DAY) as H0 by (unfold DAY; lia).
  replace (month_start (month_number start) * DAY) with (month_start (month_number start) * DAY + 0) by lia.
  unfold add_months at 1. pose proof (month_start_date (month_number start) 0 H0) as D. unfold date_of in D.
  assert (forall a b c a' b' c' : Z, (a, b, c) = (a', b', c') -> a = a' /\ b = b' /\ c = c') as Q by (intros; repeat split; congruence).
  apply Q in D. destruct D as (D1 & D2 & D3). rewrite D1, D2, D3. cbv zeta.
  set (n := month_number start) in *. replace (12 * (n / 12) + (n mod 12 + 1 - 1) + i) with (n + i) by lia.
  destruct ((1 <=? (n + i) / 12) && ((n + i) / 12 <=? 9999)) eqn:E; [|discriminate]. cbn [bind].
  pose proof (days_in_month_range ((n + i) / 12) ((n + i) mod 12 + 1)). rewrite Z.min_l by lia.
  assert (forall k, ymd2ord (k / 12) (k mod 12 + 1) 1 = month_start k) as MS by reflexivity. rewrite MS.
  assert ((month_start n * DAY + 0) mod DAY = 0) as -> by (unfold DAY; lia).
  destruct (add_months (month_start (n + i) * DAY + 0) 1); [|discriminate]. cbn [bind]. intros X.
  assert (forall A (a b : A), Ok a = Ok b -> a = b) as OI by congruence. apply OI in X. subst t.
  split; [now apply month_number_start|]. pose proof (month_start_date (n + i) 0 H0) as D. unfold date_of in D. apply Q in D.
  split; [tauto|]. unfold DAY; lia.
Qed.
Print Assumptions C63_monthly_times.

(* Full claim for annual steps: the index is the number of years since the start's year. It holds except in the last
   second of a year (times are compared after rounding to 24 bits), which counts as the following year. *)
Theorem C63_annual_index_partial :
  forall start t, valid_datetime t = true -> dt_year t <= 9998 ->
  (dt_month t, dt_day t, dt_hour t, dt_minute t, dt_second t) <> (12, 31, 23, 59, 59) ->
  annual_index_at_time start t = Ok (dt_year t - dt_year start).
Proof.
  intros start t V H N. apply valid_year in V. unfold annual_index_at_time. rewrite annual_floor_value by lia. rewrite annual_base_year.
  assert (last_second_of_year t = false) as ->; [|f_equal; lia].
  destruct (last_second_of_year t) eqn:L; [|reflexivity]. exfalso. apply N. unfold last_second_of_year in L.
  rewrite !andb_true_iff, !Z.eqb_eq in L. destruct L as ((((-> & ->) & ->) & ->) & ->). reflexivity.
Qed.
Print Assumptions C63_annual_index_partial.

Theorem C63_last_second_of_the_year_refuted :
  forall start t, valid_datetime t = true -> dt_year t <= 9998 ->
  (dt_month t, dt_day t, dt_hour t, dt_minute t, dt_second t) = (12, 31, 23, 59, 59) ->
  annual_index_at_time start t = Ok (dt_year t - dt_year start + 1) /\
  annual_count start t = Ok (dt_year t - dt_year start + 2).
Proof.
  intros start t V H E. apply valid_year in V. unfold annual_index_at_time, annual_count. rewrite annual_floor_value by lia. rewrite annual_base_year.
  assert (forall a b c d e a' b' c' d' e' : Z, (a, b, c, d, e) = (a', b', c', d', e') -> a = a' /\ b = b' /\ c = c' /\ d = d' /\ e = e') as Q by (intros; repeat split; congruence).
  apply Q in E. destruct E as (E1 & E2 & E3 & E4 & E5). unfold last_second_of_year. rewrite E1, E2, E3, E4, E5. cbn [andb bind]. 
  split; [reflexivity|]. cbn. f_equal. lia.
Qed.
Print Assumptions C63_last_second_of_the_year_refuted.

Theorem C63_annual_times :
  forall start i t, annual_time_at_index start i = Ok t -> date_of t = (dt_year start + i, 1, 1) /\ t mod DAY = 0 /\
  annual_index_at_time start t = Ok i.
Proof.
  intros start i t. unfold annual_time_at_index, annual_number_to_datetime. rewrite annual_base_year.
  destruct (mk_datetime (dt_year start + i) 1 1 0 0 0) as [u|] eqn:E1; [|discriminate]. cbn [bind].
  destruct (mk_datetime (dt_year start + i + 1) 1 1 0 0 0) as [u'|] eqn:E2; [|discriminate]. cbn [bind]. intros E. injection E as ->.
  apply mk_datetime_ok in E1. destruct E1 as (V & Dt & Hh & Hm & Hs & _ & Et).
  apply mk_datetime_ok in E2. destruct E2 as (V2 & Dt2 & _). unfold date_of in Dt2.
  assert (forall a b c a' b' c' : Z, (a, b, c) = (a', b', c') -> a = a' /\ b = b' /\ c = c') as Q by (intros; repeat split; congruence).
  apply Q in Dt2. destruct Dt2 as (Y2 & _). split; [exact Dt|]. split; [rewrite Et; unfold DAY, SECOND; lia|].
  unfold date_of in Dt. apply Q in Dt. destruct Dt as (Y & M & D). apply valid_year in V2.
  rewrite C63_annual_index_partial; [f_equal; lia|exact V|lia|]. rewrite M. intros X. discriminate.
Qed.
Print Assumptions C63_annual_times.

Example C63_nonvacuous :
  exists start t t', parse "20050115000000" = Ok start /\ parse "20101231235958" = Ok t /\ parse "20101231235959" = Ok t' /\
  annual_index_at_time start t = Ok 5 /\ annual_index_at_time start t' = Ok 6 /\ monthly_index_at_time start t' = Ok 71 /\
  annual_time_at_index start 5 = parse "20100101000000" /\ monthly_time_at_index start 71 = parse "20101201000000".
Proof.
  do 3 eexists. split; [vm_compute; reflexivity|]. split; [vm_compute; reflexivity|]. split; [vm_compute; reflexivity|].
  repeat split; vm_compute; reflexivity.
Qed.

(* ============================================================ C64: mid-month steps *)

(* The time of a step lies in the step's month, counted from January of the epoch's year, halfway. *)
Theorem C64_times_are_mid_month :
  forall epoch i, 12 <= 12 * dt_year epoch + i < 119999 ->
  exists t first next, midmonth_time_at_index epoch i = Ok t /\ 2 * t = first + next /\
    month_number first = 12 * dt_year epoch + i /\ month_number next = 12 * dt_year epoch + i + 1 /\
    month_number t = 12 * dt_year epoch + i /\ dt_day first = 1 /\ dt_day next = 1 /\ first mod DAY = 0 /\ next mod DAY = 0.
Proof.
  intros epoch i H. set (n := 12 * dt_year epoch + i) in *. pose proof (midmonth_value epoch i H) as E. cbv zeta in E. fold n in E.
  assert (0 <= 0 < DAY) as H0 by (unfold DAY; lia).
  assert (forall a b c a' b' c' : Z, (a, b, c) = (a', b', c') -> a = a' /\ b = b' /\ c = c') as Q by (intros; repeat split; congruence).
  eexists. exists (month_start n * DAY + 0), (month_start (n + 1) * DAY + 0). split; [exact E|]. rewrite !month_number_start by assumption.
  pose proof (month_length_range n) as L.
  split; [rewrite month_start_next; unfold DAY; lia|]. split; [reflexivity|]. split; [reflexivity|].
  split. { apply month_iff. rewrite month_start_next. unfold DAY; lia. }
  pose proof (month_start_date n 0 H0) as D1. pose proof (month_start_date (n + 1) 0 H0) as D2. unfold date_of in D1, D2. apply Q in D1. apply Q in D2.
  repeat split; try tauto; unfold DAY; lia.
Qed.
Print Assumptions C64_times_are_mid_month.

(* A file dated at a step's time is found again for the step exactly if the epoch is in January; for any other epoch
   every file is attributed to an earlier step. *)
Theorem C64_round_trip_partial :
  forall epoch count i t, midmonth_time_at_index epoch i = Ok t -> 12 <= 12 * dt_year epoch + i < 119999 ->
  midmonth_indices_for_entry epoch count (Some t) = [i + 1 - dt_month epoch] /\
  (midmonth_indices_for_entry epoch count (Some t) = [i] <-> dt_month epoch = 1).
Proof.
  intros epoch count i t E H. destruct (C64_times_are_mid_month epoch i H) as (t' & f & nx & E' & _ & _ & _ & M & _).
  rewrite E in E'. injection E' as <-. cbn [midmonth_indices_for_entry].
  assert (12 * (dt_year t - dt_year epoch) + (dt_month t - dt_month epoch) = i + 1 - dt_month epoch) as X by (unfold month_number in M; lia).
  rewrite X. split; [reflexivity|]. split; [intros Y; injection Y; lia|intros ->; f_equal; lia].
Qed.
Print Assumptions C64_round_trip_partial.

Theorem C64_epoch_month_refuted :
  exists epoch i t, valid_datetime epoch = true /\ midmonth_time_at_index epoch i = Ok t /\ midmonth_indices_for_entry epoch 12 (Some t) <> [i].
Proof. exists (ymd2ord 1850 7 1 * DAY), 3. eexists. split; [reflexivity|]. split; [vm_compute; reflexivity|]. vm_compute. discriminate. Qed.
Print Assumptions C64_epoch_month_refuted.

Example C64_nonvacuous :
  exists epoch t, parse "18500115000000" = Ok epoch /\ midmonth_time_at_index epoch 13 = Ok t /\ build t = "18510215000000"%string /\
  midmonth_indices_for_entry epoch 12 (Some t) = [13].
Proof. do 2 eexists. split; [vm_compute; reflexivity|]. repeat split; vm_compute; reflexivity. Qed.
