(* Lemmas about times. *)
From Coq Require Import String Ascii.
From Verif Require Import Base Work_Model Work_Proofs Cat_Model Cat_Proofs Time_Model Time_Spec.
Local Open Scope Z_scope.
Local Open Scope list_scope.

(* ------------------------------------------------------------------ the calendar *)

Lemma days_before_year_next y : days_before_year (y + 1) = days_before_year y + (if is_leap y then 366 else 365).
Proof.
  unfold days_before_year, is_leap. cbv zeta. replace (y + 1 - 1) with y by lia.
  destruct (y mod 4 =? 0) eqn:E4; destruct (y mod 100 =? 0) eqn:E100; destruct (y mod 400 =? 0) eqn:E400; cbn [andb orb negb]; lia.
Qed.

Lemma month_cases m : 1 <= m <= 12 ->
  m = 1 \/ m = 2 \/ m = 3 \/ m = 4 \/ m = 5 \/ m = 6 \/ m = 7 \/ m = 8 \/ m = 9 \/ m = 10 \/ m = 11 \/ m = 12.
Proof. lia. Qed.

Ltac split_month H := destruct (month_cases _ H) as [->|[->|[->|[->|[->|[->|[->|[->|[->|[->|[->| ->]]]]]]]]]]].

Lemma days_before_month_next y m : 1 <= m <= 11 ->
  days_before_month y (m + 1) = days_before_month y m + days_in_month y m.
Proof.
  intros H. assert (1 <= m <= 12) as H' by lia. unfold days_before_month, days_in_month, days_before_month_table.
  split_month H'; cbn; try lia; destruct (is_leap y); reflexivity.
Qed.

Lemma days_before_month_1 y : days_before_month y 1 = 0.
Proof. reflexivity. Qed.

Lemma days_before_month_12 y : days_before_month y 12 + 31 = if is_leap y then 366 else 365.
Proof. unfold days_before_month, days_before_month_table; cbn; destruct (is_leap y); reflexivity. Qed.

Lemma days_in_month_range y m : 28 <= days_in_month y m <= 31.
Proof. unfold days_in_month. repeat destruct (_ =? _); cbn; try destruct (is_leap y); lia. Qed.

Lemma days_before_month_mono y m m' : 1 <= m -> m < m' -> m' <= 12 ->
  days_before_month y m + days_in_month y m <= days_before_month y m'.
Proof.
  intros H1 H2 H3. replace m' with (m + 1 + (m' - m - 1)) by lia.
  assert (0 <= m' - m - 1 <= 11 - m) as Hk by lia. revert Hk. generalize (m' - m - 1). intros k [Hk Hk'].
  revert Hk'. pattern k. apply natlike_ind; [| |exact Hk].
  - intros _. rewrite Z.add_0_r, days_before_month_next by lia. lia.
  - intros j Hj IH Hj'. replace (m + 1 + Z.succ j) with (m + 1 + j + 1) by lia. rewrite days_before_month_next by lia.
    pose proof (days_in_month_range y (m + 1 + j)). lia.
Qed.

Lemma days_before_year_mono y y' : y < y' ->
  days_before_year y + (if is_leap y then 366 else 365) <= days_before_year y'.
Proof.
  intros H. replace y' with (y + 1 + (y' - y - 1)) by lia. assert (0 <= y' - y - 1) as Hk by lia. revert Hk.
  generalize (y' - y - 1). intros k Hk. pattern k. apply natlike_ind; [| |exact Hk].
  - rewrite Z.add_0_r, days_before_year_next. lia.
  - intros j Hj IH. replace (y + 1 + Z.succ j) with (y + 1 + j + 1) by lia. rewrite days_before_year_next. destruct (is_leap (y + 1 + j)); lia.
Qed.

Definition valid_date (date : Z * Z * Z) : Prop :=
  let '(y, m, d) := date in 1 <= m <= 12 /\ 1 <= d <= days_in_month y m.
Definition ord_of (date : Z * Z * Z) : Z := let '(y, m, d) := date in ymd2ord y m d.

Definition date_lt (a b : Z * Z * Z) : Prop :=
  let '(y, m, d) := a in let '(y', m', d') := b in
  y < y' \/ (y = y' /\ (m < m' \/ (m = m' /\ d < d'))).

Lemma month_end y m : 1 <= m <= 12 -> days_before_month y m + days_in_month y m <= if is_leap y then 366 else 365.
Proof.
  intros H. rewrite <- days_before_month_12. destruct (Z.eq_dec m 12) as [->|N].
  - unfold days_in_month; cbn. lia.
  - pose proof (days_before_month_mono y m 12). lia.
Qed.

Lemma days_before_month_nonneg y m : 1 <= m <= 12 -> 0 <= days_before_month y m.
Proof.
  intros H. destruct (Z.eq_dec m 1) as [->|N]; [rewrite days_before_month_1; lia|].
  pose proof (days_before_month_mono y 1 m). pose proof (days_in_month_range y 1). rewrite days_before_month_1 in H0. lia.
Qed.

Lemma ord_lt a b : valid_date a -> valid_date b -> date_lt a b -> ord_of a < ord_of b.
Proof.
  destruct a as [[y m] d], b as [[y' m'] d']. cbn [valid_date ord_of date_lt]. unfold ymd2ord.
  intros [Hm Hd] [Hm' Hd'] [H|[-> [H|[-> H]]]].
  - pose proof (days_before_year_mono y y' H). pose proof (month_end y m Hm). pose proof (days_before_month_nonneg y' m' Hm'). lia.
  - pose proof (days_before_month_mono y' m m'). lia.
  - lia.
Qed.

Lemma date_trichotomy a b : date_lt a b \/ a = b \/ date_lt b a.
Proof.
  destruct a as [[y m] d], b as [[y' m'] d']. cbn.
  destruct (Z.lt_trichotomy y y') as [|[->|]]; [lia| |lia].
  destruct (Z.lt_trichotomy m m') as [|[->|]]; [lia| |lia].
  destruct (Z.lt_trichotomy d d') as [|[->|]]; [lia| |lia]. auto.
Qed.

Lemma ord_inj a b : valid_date a -> valid_date b -> ord_of a = ord_of b -> a = b.
Proof.
  intros Ha Hb E. destruct (date_trichotomy a b) as [H|[H|H]]; [|exact H|];
    pose proof (ord_lt _ _ Ha Hb) as L1; pose proof (ord_lt _ _ Hb Ha) as L2; intuition lia.
Qed.

Lemma ord_lt_iff a b : valid_date a -> valid_date b -> (ord_of a < ord_of b <-> date_lt a b).
Proof.
  intros Ha Hb. split; [|now apply ord_lt]. intros H. destruct (date_trichotomy a b) as [L|[E|L]]; [exact L| |].
  - subst. lia.
  - pose proof (ord_lt _ _ Hb Ha L). lia.
Qed.

(* The year part of ord2ymd. *)
Lemma year_parts a b c e : 0 <= b <= 3 -> 0 <= c <= 24 -> 0 <= e <= 3 ->
  let year := a * 400 + 1 + b * 100 + c * 4 + e in
  days_before_year year = a * 146097 + b * 36524 + c * 1461 + e * 365 /\
  is_leap year = ((e =? 3) && (negb (c =? 24) || (b =? 3))).
Proof.
  intros Hb Hc He year. unfold year, days_before_year, is_leap. cbv zeta. split.
  - replace ((a * 400 + 1 + b * 100 + c * 4 + e - 1) / 4) with (a * 100 + b * 25 + c) by lia.
    replace ((a * 400 + 1 + b * 100 + c * 4 + e - 1) / 100) with (a * 4 + b) by lia.
    replace ((a * 400 + 1 + b * 100 + c * 4 + e - 1) / 400) with a by lia. lia.
  - apply eq_true_iff_eq. rewrite !andb_true_iff, !orb_true_iff, !negb_true_iff, !Z.eqb_eq, !Z.eqb_neq.
    split; intros H; split; lia.
Qed.

Definition finish_date (year n : Z) (leapyear : bool) : Z * Z * Z :=
  let month := (n + 50) / 32 in
  let preceding := days_before_month_table month + (if (2 <? month) && leapyear then 1 else 0) in
  if n <? preceding then
    let month' := month - 1 in
    let preceding' := preceding - (days_in_month (if leapyear then 4 else 1) month') in
    (year, month', n - preceding' + 1)
  else (year, month, n - preceding + 1).

Lemma finish_date_spec year n : 0 <= n < (if is_leap year then 366 else 365) ->
  valid_date (finish_date year n (is_leap year)) /\ ord_of (finish_date year n (is_leap year)) = days_before_year year + n + 1.
Proof.
  intros Hn. unfold finish_date. cbv zeta.
  assert (1 <= (n + 50) / 32 <= 12) as Hm by (destruct (is_leap year); lia).
  remember ((n + 50) / 32) as m eqn:Em.
  assert (32 * m - 50 <= n < 32 * m - 18) as Hr by lia. clear Em.
  split_month Hm; unfold days_before_month_table, days_in_month;
  match goal with |- context [Z.to_nat ?k] => let k' := eval vm_compute in (Z.to_nat k) in change (Z.to_nat k) with k' end;
  cbn [nth]; cbn [Z.eqb Z.ltb Z.compare Pos.compare Pos.compare_cont Pos.eqb orb andb Z.sub Z.add Z.opp Z.pos_sub Pos.pred_double];
  destruct (is_leap year) eqn:L;
  match goal with |- context [if ?b then _ else _] => destruct b eqn:E end;
  cbn [valid_date ord_of]; unfold ymd2ord, days_before_month, days_in_month, days_before_month_table; rewrite L; cbn;
  repeat match goal with |- context [Pos.to_nat ?k] => let k' := eval vm_compute in (Pos.to_nat k) in change (Pos.to_nat k) with k' end; cbn;
  (split; [split|]); lia.
Qed.

Lemma ord2ymd_spec n : valid_date (ord2ymd n) /\ ord_of (ord2ymd n) = n.
Proof.
  unfold ord2ymd. cbv zeta.
  remember ((n - 1) / 146097) as a eqn:Ea. remember ((n - 1) mod 146097) as r1 eqn:E1.
  assert (n = a * 146097 + r1 + 1 /\ 0 <= r1 < 146097) as [Hn H1] by lia. clear Ea E1.
  remember (r1 / 36524) as b eqn:Eb. remember (r1 mod 36524) as r2 eqn:E2.
  assert (r1 = b * 36524 + r2 /\ 0 <= r2 < 36524 /\ 0 <= b <= 4) as (Hr1 & H2 & Hb) by lia. clear Eb E2.
  remember (r2 / 1461) as c eqn:Ec. remember (r2 mod 1461) as r3 eqn:E3.
  assert (r2 = c * 1461 + r3 /\ 0 <= r3 < 1461 /\ 0 <= c <= 24) as (Hr2 & H3 & Hc) by lia. clear Ec E3.
  remember (r3 / 365) as e eqn:Ee. remember (r3 mod 365) as r4 eqn:E4.
  assert (r3 = e * 365 + r4 /\ 0 <= r4 < 365 /\ 0 <= e <= 4) as (Hr3 & H4 & He) by lia. clear Ee E4.
  change (if (e =? 4) || (b =? 4) then ?x else ?y) with (if (e =? 4) || (b =? 4) then x else y).
  destruct ((e =? 4) || (b =? 4)) eqn:X.
  - (* 31 December of a leap year *)
    assert (exists b' c' , 0 <= b' <= 3 /\ 0 <= c' <= 24 /\ a * 400 + 1 + b * 100 + c * 4 + e - 1 = a * 400 + 1 + b' * 100 + c' * 4 + 3
              /\ (c' = 24 -> b' = 3) /\ n = a * 146097 + b' * 36524 + c' * 1461 + 3 * 365 + 366) as (b' & c' & Hb' & Hc' & Ey & HL & Hn').
    { destruct (b =? 4) eqn:Xb.
      - exists 3, 24. lia.
      - exists b, c. lia. }
    rewrite Ey. destruct (year_parts a b' c' 3 Hb' Hc' ltac:(lia)) as [D L]. cbn [valid_date ord_of]. unfold ymd2ord.
    rewrite D. assert (is_leap (a * 400 + 1 + b' * 100 + c' * 4 + 3) = true) as L'.
    { rewrite L. cbn. lia. }
    split; [unfold days_in_month; cbn; lia|]. pose proof (days_before_month_12 (a * 400 + 1 + b' * 100 + c' * 4 + 3)) as M. rewrite L' in M. lia.
  - assert (0 <= b <= 3 /\ 0 <= e <= 3) as [Hb' He'] by lia.
    destruct (year_parts a b c e Hb' Hc He') as [D L]. rewrite <- L.
    set (year := a * 400 + 1 + b * 100 + c * 4 + e) in *.
    change (valid_date (finish_date year r4 (is_leap year)) /\ ord_of (finish_date year r4 (is_leap year)) = n).
    destruct (finish_date_spec year r4) as [V O].
    { destruct (is_leap year); lia. }
    split; [exact V|]. rewrite O, D. lia.
Qed.

#[local] Opaque ord2ymd.

Lemma ord2ymd_ymd2ord y m d : 1 <= m <= 12 -> 1 <= d <= days_in_month y m -> ord2ymd (ymd2ord y m d) = (y, m, d).
Proof.
  intros Hm Hd. destruct (ord2ymd_spec (ymd2ord y m d)) as [V O].
  apply ord_inj; [exact V|cbn; auto|]. rewrite O. reflexivity.
Qed.

Lemma next_day_valid date : valid_date date -> valid_date (next_day date) /\ ord_of (next_day date) = ord_of date + 1.
Proof.
  destruct date as [[y m] d]. intros [Hm Hd]. unfold next_day. destruct (d <? days_in_month y m) eqn:E; [|destruct (m <? 12) eqn:E2].
  - cbn. unfold ymd2ord. lia.
  - pose proof (days_in_month_range y (m + 1)). cbn [valid_date ord_of]. unfold ymd2ord. rewrite days_before_month_next by lia. lia.
  - assert (m = 12) as -> by lia. pose proof (days_in_month_range (y + 1) 1). cbn [valid_date ord_of]. unfold ymd2ord.
    rewrite days_before_year_next, days_before_month_1. pose proof (days_before_month_12 y).
    assert (days_in_month y 12 = 31) as E3 by reflexivity. rewrite E3 in *. lia.
Qed.

(* The model's calendar is the Gregorian one: day 1 is 1 January of year 1 and days follow one another. *)
Lemma ord2ymd_next n : ord2ymd (n + 1) = next_day (ord2ymd n).
Proof.
  destruct (ord2ymd_spec n) as [V O]. destruct (ord2ymd_spec (n + 1)) as [V' O'].
  destruct (next_day_valid _ V) as [V2 O2]. apply ord_inj; auto. lia.
Qed.

Lemma is_leap_iff y : is_leap y = true <-> leap y.
Proof.
  unfold is_leap, leap. rewrite andb_true_iff, orb_true_iff, negb_true_iff, !Z.eqb_eq, Z.eqb_neq.
  rewrite <- !Z.mod_divide by lia. tauto.
Qed.

(* ------------------------------------------------------------------ datetimes *)

Lemma valid_datetime_iff t : valid_datetime t = true <-> 1 <= t / DAY <= 3652059.
Proof. unfold valid_datetime, min_datetime, max_datetime, DAY. lia. Qed.

Lemma date_of_ord t : date_of t = ord2ymd (t / DAY).
Proof. unfold date_of, dt_year, dt_month, dt_day. now destruct (ord2ymd (t / DAY)) as [[? ?] ?]. Qed.

Lemma date_fields t : 1 <= dt_month t <= 12 /\ 1 <= dt_day t <= days_in_month (dt_year t) (dt_month t) /\
  ymd2ord (dt_year t) (dt_month t) (dt_day t) = t / DAY.
Proof.
  unfold dt_year, dt_month, dt_day. pose proof (ord2ymd_spec (t / DAY)) as H. destruct (ord2ymd (t / DAY)) as [[y m] d].
  cbn [fst snd]. destruct H as [[H1 H2] H3]. auto.
Qed.

Lemma ord_of_fields t : ymd2ord (dt_year t) (dt_month t) (dt_day t) = t / DAY.
Proof. now destruct (date_fields t) as (_ & _ & H). Qed.

Lemma year_range y m d : 1 <= m <= 12 -> 1 <= d <= days_in_month y m ->
  (1 <= ymd2ord y m d <= 3652059 <-> 1 <= y <= 9999).
Proof.
  intros Hm Hd. assert (valid_date (y, m, d)) as V by (split; assumption).
  assert (valid_date (1, 1, 1)) as V1 by (cbn; unfold days_in_month; cbn; lia).
  assert (valid_date (9999, 12, 31)) as V2 by (cbn; unfold days_in_month; cbn; lia).
  pose proof (ord_lt_iff _ _ V V1) as A. pose proof (ord_lt_iff _ _ V2 V) as B. cbn [ord_of date_lt] in A, B.
  change (ymd2ord 1 1 1) with 1 in A. change (ymd2ord 9999 12 31) with 3652059 in B.
  pose proof (days_in_month_range y m). 
  assert (m = 12 -> days_in_month y m = 31) as H12 by (intros ->; reflexivity). lia.
Qed.

Lemma valid_year t : valid_datetime t = true <-> 1 <= dt_year t <= 9999.
Proof. rewrite valid_datetime_iff. destruct (date_fields t) as (H1 & H2 & <-). now apply year_range. Qed.

Lemma fields_range t : 1 <= dt_month t <= 12 /\ 1 <= dt_day t <= days_in_month (dt_year t) (dt_month t) /\ 1 <= dt_day t <= 31 /\
  0 <= dt_hour t <= 23 /\ 0 <= dt_minute t <= 59 /\ 0 <= dt_second t <= 59.
Proof.
  destruct (date_fields t) as (V1 & V2 & _).
  pose proof (days_in_month_range (dt_year t) (dt_month t)).
  unfold dt_hour, dt_minute, dt_second, DAY, SECOND. repeat split; try lia.
Qed.

Lemma time_of_day_parts t : (dt_hour t * 3600 + dt_minute t * 60 + dt_second t) * SECOND = (t mod DAY) / SECOND * SECOND.
Proof. unfold dt_hour, dt_minute, dt_second. f_equal. unfold SECOND, DAY. lia. Qed.

Lemma mk_datetime_fields t : valid_datetime t = true ->
  mk_datetime (dt_year t) (dt_month t) (dt_day t) (dt_hour t) (dt_minute t) (dt_second t) = Ok (to_the_second t).
Proof.
  intros V. apply valid_year in V. pose proof (fields_range t) as F. unfold mk_datetime.
  rewrite ord_of_fields, time_of_day_parts.
  match goal with |- (if ?b then _ else _) = _ => assert (b = true) as -> by lia end.
  f_equal. unfold to_the_second, DAY, SECOND. lia.
Qed.

Lemma mk_datetime_ok y m d h mi s t : mk_datetime y m d h mi s = Ok t ->
  valid_datetime t = true /\ date_of t = (y, m, d) /\ dt_hour t = h /\ dt_minute t = mi /\ dt_second t = s /\ t mod SECOND = 0 /\
  t = ymd2ord y m d * DAY + (h * 3600 + mi * 60 + s) * SECOND.
Proof.
  unfold mk_datetime. match goal with |- (if ?b then _ else _) = _ -> _ => destruct b eqn:E end; [|discriminate].
  intros H. injection H as H. symmetry in H.
  assert (1 <= m <= 12 /\ 1 <= d <= days_in_month y m /\ 1 <= y <= 9999 /\ 0 <= h <= 23 /\ 0 <= mi <= 59 /\ 0 <= s <= 59) as (Hm & Hd & Hy & Hh & Hmi & Hs) by lia.
  assert (t / DAY = ymd2ord y m d) as Ed by (unfold DAY, SECOND in *; lia).
  assert (t mod DAY / SECOND = h * 3600 + mi * 60 + s) as Es by (unfold DAY, SECOND in *; lia).
  split. { apply valid_datetime_iff. rewrite Ed. apply year_range; assumption. }
  split. { rewrite date_of_ord, Ed. now apply ord2ymd_ymd2ord. }
  unfold dt_hour, dt_minute, dt_second. rewrite Es. unfold SECOND, DAY in *. repeat split; lia.
Qed.

(* ------------------------------------------------------------------ time bases and steps *)

Lemma days_number_whole epoch s : days_datetime_to_number epoch (epoch + s * SECOND) = s * SECOND.
Proof. unfold days_datetime_to_number, td_days, td_seconds, td_microseconds, DAY, SECOND. lia. Qed.

Lemma days_number_value epoch t : days_datetime_to_number epoch t = (t - epoch) + (t - epoch) mod SECOND * 86399.
Proof. unfold days_datetime_to_number, td_days, td_seconds, td_microseconds, DAY, SECOND. lia. Qed.

Lemma seconds_number_value epoch t : seconds_datetime_to_number epoch t = (t - epoch) / SECOND.
Proof. unfold seconds_datetime_to_number, td_days, td_seconds, DAY, SECOND. lia. Qed.

(* ------------------------------------------------------------------ strings of numerals *)

Lemma digit_value_digit d : 0 <= d <= 9 -> digit_value (digit d) = Some d.
Proof.
  intros H. assert (d = 0 \/ d = 1 \/ d = 2 \/ d = 3 \/ d = 4 \/ d = 5 \/ d = 6 \/ d = 7 \/ d = 8 \/ d = 9) as C by lia.
  destruct C as [->|[->|[->|[->|[->|[->|[->|[->|[->| ->]]]]]]]]]; reflexivity.
Qed.

Lemma nat_of_digit d : 0 <= d <= 9 -> Z.of_nat (nat_of_ascii (digit d)) = 48 + d.
Proof.
  intros H. assert (d = 0 \/ d = 1 \/ d = 2 \/ d = 3 \/ d = 4 \/ d = 5 \/ d = 6 \/ d = 7 \/ d = 8 \/ d = 9) as C by lia.
  destruct C as [->|[->|[->|[->|[->|[->|[->|[->|[->| ->]]]]]]]]]; reflexivity.
Qed.

Lemma digit_of_value c v : digit_value c = Some v -> c = digit v /\ 0 <= v <= 9.
Proof.
  unfold digit_value. cbv zeta. destruct ((48 <=? Z.of_nat (nat_of_ascii c)) && (Z.of_nat (nat_of_ascii c) <=? 57)) eqn:E; [|discriminate].
  intros H. injection H as <-. split; [|lia]. unfold digit.
  rewrite <- (ascii_nat_embedding c) at 1. f_equal. lia.
Qed.

Lemma iso_slices (a b c d e f g h i j k l m n : ascii) tail :
  let iso := (String a (String b (String c (String d (String "-" (String e (String f (String "-" (String g (String h (String " "
     (String i (String j (String ":" (String k (String l (String ":" (String m (String n tail)))))))))))))))))))%string in
  str_slice iso 0 4 = String a (String b (String c (String d ""))) /\
  str_slice iso 5 7 = String e (String f "") /\ str_slice iso 8 10 = String g (String h "") /\
  str_slice iso 11 13 = String i (String j "") /\ str_slice iso 14 16 = String k (String l "") /\
  str_slice iso 17 19 = String m (String n "").
Proof. cbv zeta. unfold str_slice. cbn. repeat split; destruct tail; reflexivity. Qed.

Lemma slices t : str_slice (isoformat t) 0 4 = pad4 (dt_year t) /\ str_slice (isoformat t) 5 7 = pad2 (dt_month t) /\
  str_slice (isoformat t) 8 10 = pad2 (dt_day t) /\ str_slice (isoformat t) 11 13 = pad2 (dt_hour t) /\
  str_slice (isoformat t) 14 16 = pad2 (dt_minute t) /\ str_slice (isoformat t) 17 19 = pad2 (dt_second t).
Proof.
  unfold isoformat.
  generalize (dt_year t) (dt_month t) (dt_day t) (dt_hour t) (dt_minute t) (dt_second t)
    (if (dt_microsecond t =? 0)%Z then "" else "." ++ pad6 (dt_microsecond t))%string.
  intros y m d h mi s tail. unfold pad4, pad2. cbn [append]. apply iso_slices.
Qed.

Lemma build_eq t : build t = (pad4 (dt_year t) ++ pad2 (dt_month t) ++ pad2 (dt_day t) ++ pad2 (dt_hour t) ++ pad2 (dt_minute t) ++ pad2 (dt_second t))%string.
Proof. unfold build. cbv zeta. destruct (slices t) as (-> & -> & -> & -> & -> & ->). reflexivity. Qed.

Lemma build_from_pattern_eq p t : build_from_pattern p t =
  replace2 "%" "S" (pad2 (dt_second t)) (replace2 "%" "M" (pad2 (dt_minute t)) (replace2 "%" "H" (pad2 (dt_hour t))
   (replace2 "%" "d" (pad2 (dt_day t)) (replace2 "%" "m" (pad2 (dt_month t)) (replace2 "%" "Y" (pad4 (dt_year t)) p))))).
Proof. unfold build_from_pattern. cbv zeta. destruct (slices t) as (-> & -> & -> & -> & -> & ->). reflexivity. Qed.

Lemma alt2_pad2 ok v s : 0 <= v <= 99 -> alt2 ok (pad2 v ++ s)%string = if ok (v / 10) (v mod 10) then [(v, s)] else [].
Proof.
  intros H. unfold pad2. cbn [append alt2].
  rewrite (digit_value_digit (v / 10 mod 10)), (digit_value_digit (v mod 10)) by lia.
  replace (v / 10 mod 10) with (v / 10) by lia. replace (10 * (v / 10) + v mod 10) with v by lia. reflexivity.
Qed.

Lemma field_Y_pad4 y s : 0 <= y <= 9999 -> field_Y (pad4 y ++ s)%string = [(y, s)].
Proof.
  intros H. unfold pad4.
  assert ((pad2 (y / 100) ++ pad2 (y mod 100)) ++ s = pad2 (y / 100) ++ (pad2 (y mod 100) ++ s))%string as -> by reflexivity.
  unfold field_Y. rewrite (alt2_pad2 _ (y / 100)) by lia. cbn [flat_map snd fst app].
  rewrite (alt2_pad2 _ (y mod 100)) by lia. cbn [map fst snd app]. f_equal. f_equal. lia.
Qed.

Definition gives (f : string -> list (Z * string)) (v : Z) : Prop := forall s, exists l, f (pad2 v ++ s)%string = (v, s) :: l.

Lemma alt2_head ok v s rest : 0 <= v <= 99 -> ok (v / 10) (v mod 10) = true -> exists l, alt2 ok (pad2 v ++ s)%string ++ rest = (v, s) :: l.
Proof. intros H E. rewrite alt2_pad2, E by assumption. eexists; reflexivity. Qed.

Lemma alt2_skip ok v s rest : 0 <= v <= 99 -> ok (v / 10) (v mod 10) = false -> alt2 ok (pad2 v ++ s)%string ++ rest = rest.
Proof. intros H E. rewrite alt2_pad2, E by assumption. reflexivity. Qed.

Ltac try_alternative :=
  match goal with |- exists l, alt2 ?ok (pad2 ?v ++ ?s)%string ++ ?rest = _ =>
    destruct (ok (v / 10) (v mod 10)) eqn:?; [apply alt2_head; [lia|assumption]|rewrite (alt2_skip ok) by (lia || assumption)] end.

Lemma field_m_gives v : 1 <= v <= 12 -> gives field_m v.
Proof. intros H s. unfold field_m. do 2 try_alternative. cbv beta in *. exfalso; lia. Qed.
Lemma field_d_gives v : 1 <= v <= 31 -> gives field_d v.
Proof. intros H s. unfold field_d. do 3 try_alternative. cbv beta in *. exfalso; lia. Qed.
Lemma field_H_gives v : 0 <= v <= 23 -> gives field_H v.
Proof. intros H s. unfold field_H. do 2 try_alternative. cbv beta in *. exfalso; lia. Qed.
Lemma field_M_gives v : 0 <= v <= 59 -> gives field_M v.
Proof. intros H s. unfold field_M. do 1 try_alternative. cbv beta in *. exfalso; lia. Qed.
Lemma field_S_gives v : 0 <= v <= 59 -> gives field_S v.
Proof. intros H s. unfold field_S. do 2 try_alternative. cbv beta in *. exfalso; lia. Qed.

Lemma match_fields_cons f fs s v r l vs rest : f s = (v, r) :: l -> match_fields fs r = Some (vs, rest) ->
  match_fields (f :: fs) s = Some (v :: vs, rest).
Proof. intros E M. cbn [match_fields]. rewrite E. cbn [first_match snd fst]. rewrite M. reflexivity. Qed.

Lemma match_build y m d h mi s : 0 <= y <= 9999 -> 1 <= m <= 12 -> 1 <= d <= 31 -> 0 <= h <= 23 -> 0 <= mi <= 59 -> 0 <= s <= 59 ->
  match_fields [field_Y; field_m; field_d; field_H; field_M; field_S] (pad4 y ++ pad2 m ++ pad2 d ++ pad2 h ++ pad2 mi ++ pad2 s)%string
  = Some ([y; m; d; h; mi; s], EmptyString).
Proof.
  intros. eapply match_fields_cons; [now apply field_Y_pad4|].
  destruct (field_m_gives m) with (s := (pad2 d ++ pad2 h ++ pad2 mi ++ pad2 s)%string) as [l1 E1]; [assumption|].
  eapply match_fields_cons; [exact E1|].
  destruct (field_d_gives d) with (s := (pad2 h ++ pad2 mi ++ pad2 s)%string) as [l2 E2]; [assumption|].
  eapply match_fields_cons; [exact E2|].
  destruct (field_H_gives h) with (s := (pad2 mi ++ pad2 s)%string) as [l3 E3]; [assumption|].
  eapply match_fields_cons; [exact E3|].
  destruct (field_M_gives mi) with (s := (pad2 s)%string) as [l4 E4]; [assumption|].
  eapply match_fields_cons; [exact E4|].
  destruct (field_S_gives s) with (s := ""%string) as [l5 E5]; [assumption|].
  eapply match_fields_cons; [exact E5|]. reflexivity.
Qed.

Lemma parse_build t : valid_datetime t = true -> parse (build t) = Ok (to_the_second t).
Proof.
  intros V. pose proof V as V'. apply valid_year in V'. pose proof (fields_range t) as F. unfold parse. rewrite build_eq, match_build by lia.
  now apply mk_datetime_fields.
Qed.

Lemma digit_numeral d : 0 <= d <= 9 -> numeral (digit d).
Proof. intros H. unfold numeral. pose proof (nat_of_digit d H). lia. Qed.

Lemma build_numerals t : numerals 14 (build t).
Proof.
  rewrite build_eq. unfold pad4, pad2. cbn [append numerals]. repeat (split; [apply digit_numeral; lia|]). exact I.
Qed.

(* ------------------------------------------------------------------ order of the strings *)


Lemma compare_digit a b : 0 <= a <= 9 -> 0 <= b <= 9 -> Ascii.compare (digit a) (digit b) = (a ?= b).
Proof.
  intros Ha Hb. unfold Ascii.compare.
  assert (forall d, 0 <= d <= 9 -> N_of_ascii (digit d) = Z.to_N (48 + d)) as D.
  { intros d Hd. pose proof (nat_of_digit d Hd) as H. unfold nat_of_ascii in H. lia. }
  rewrite !D by assumption. transitivity (48 + a ?= 48 + b); [apply Z2N.inj_compare; lia|].
  destruct (Z.compare_spec a b); [apply Z.compare_eq_iff|apply Z.compare_lt_iff|apply Z.compare_gt_iff]; lia.
Qed.

Lemma string_compare_cons a b s s' : 0 <= a <= 9 -> 0 <= b <= 9 ->
  String.compare (String (digit a) s) (String (digit b) s') = match a ?= b with Eq => String.compare s s' | c => c end.
Proof. intros Ha Hb. cbn [String.compare]. now rewrite compare_digit. Qed.

Lemma compare_pad2 a b s s' : 0 <= a <= 99 -> 0 <= b <= 99 ->
  String.compare (pad2 a ++ s) (pad2 b ++ s') = match a ?= b with Eq => String.compare s s' | c => c end.
Proof.
  intros Ha Hb. unfold pad2. cbn [append]. rewrite !string_compare_cons by lia.
  destruct (Z.compare_spec (a / 10 mod 10) (b / 10 mod 10)) as [E|E|E].
  - destruct (Z.compare_spec (a mod 10) (b mod 10)) as [E'|E'|E'].
    + replace b with a by lia. now rewrite Z.compare_refl.
    + replace (a ?= b) with Lt; [reflexivity|]. symmetry. apply Z.compare_lt_iff. lia.
    + replace (a ?= b) with Gt; [reflexivity|]. symmetry. apply Z.compare_gt_iff. lia.
  - replace (a ?= b) with Lt; [reflexivity|]. symmetry. apply Z.compare_lt_iff. lia.
  - replace (a ?= b) with Gt; [reflexivity|]. symmetry. apply Z.compare_gt_iff. lia.
Qed.

Lemma compare_pad4 a b s s' : 0 <= a <= 9999 -> 0 <= b <= 9999 ->
  String.compare (pad4 a ++ s) (pad4 b ++ s') = match a ?= b with Eq => String.compare s s' | c => c end.
Proof.
  intros Ha Hb. unfold pad4.
  assert (forall x y z, (x ++ y) ++ z = x ++ (y ++ z))%string as As.
  { intros x y z. induction x as [|c x IH]; cbn; congruence. }
  rewrite !As, !compare_pad2 by lia.
  destruct (Z.compare_spec (a / 100) (b / 100)) as [E|E|E].
  - destruct (Z.compare_spec (a mod 100) (b mod 100)) as [E'|E'|E'].
    + replace b with a by lia. now rewrite Z.compare_refl.
    + replace (a ?= b) with Lt; [reflexivity|]. symmetry. apply Z.compare_lt_iff. lia.
    + replace (a ?= b) with Gt; [reflexivity|]. symmetry. apply Z.compare_gt_iff. lia.
  - replace (a ?= b) with Lt; [reflexivity|]. symmetry. apply Z.compare_lt_iff. lia.
  - replace (a ?= b) with Gt; [reflexivity|]. symmetry. apply Z.compare_gt_iff. lia.
Qed.

Lemma to_the_second_parts t : to_the_second t =
  ord_of (date_of t) * DAY + (dt_hour t * 3600 + dt_minute t * 60 + dt_second t) * SECOND.
Proof.
  unfold date_of. cbn [ord_of]. rewrite ord_of_fields, time_of_day_parts. unfold to_the_second, DAY, SECOND. lia.
Qed.

Lemma valid_date_of t : valid_date (date_of t).
Proof. destruct (date_fields t) as (H1 & H2 & _). unfold date_of. cbn [valid_date]. auto. Qed.

Lemma seconds_order t1 t2 : to_the_second t1 < to_the_second t2 <->
  date_lt (date_of t1) (date_of t2) \/
  (date_of t1 = date_of t2 /\ (dt_hour t1 < dt_hour t2 \/ (dt_hour t1 = dt_hour t2 /\ (dt_minute t1 < dt_minute t2 \/
     (dt_minute t1 = dt_minute t2 /\ dt_second t1 < dt_second t2))))).
Proof.
  rewrite !to_the_second_parts. pose proof (fields_range t1) as F1. pose proof (fields_range t2) as F2.
  rewrite <- (ord_lt_iff _ _ (valid_date_of t1) (valid_date_of t2)).
  split.
  - intros H. destruct (Z.lt_trichotomy (ord_of (date_of t1)) (ord_of (date_of t2))) as [L|[E|L]]; [auto| |unfold DAY, SECOND in *; lia].
    right. split; [apply ord_inj; auto using valid_date_of|]. rewrite E in H. unfold SECOND in H. lia.
  - intros [L|[E H]]; [unfold DAY, SECOND; lia|]. rewrite E. unfold SECOND. lia.
Qed.

Lemma build_compare t1 t2 : valid_datetime t1 = true -> valid_datetime t2 = true ->
  (String.compare (build t1) (build t2) = Lt <-> to_the_second t1 < to_the_second t2).
Proof.
  intros V1 V2. apply valid_year in V1. apply valid_year in V2. pose proof (fields_range t1) as F1. pose proof (fields_range t2) as F2.
  rewrite seconds_order, !build_eq, compare_pad4 by lia. rewrite !compare_pad2 by lia.
  replace (pad2 (dt_second t1)) with (pad2 (dt_second t1) ++ "")%string by reflexivity.
  replace (pad2 (dt_second t2)) with (pad2 (dt_second t2) ++ "")%string by reflexivity.
  rewrite !compare_pad2 by lia. unfold date_of. cbn [date_lt].
  assert (forall a b c a' b' c' : Z, (a, b, c) = (a', b', c') <-> a = a' /\ b = b' /\ c = c') as P.
  { intros. split; [intros X; injection X; auto|intros (-> & -> & ->); reflexivity]. }
  rewrite P. clear P.
  destruct (Z.compare_spec (dt_year t1) (dt_year t2)); try (split; intros ?; [discriminate || lia|try reflexivity; try lia]).
  destruct (Z.compare_spec (dt_month t1) (dt_month t2)); try (split; intros ?; [discriminate || lia|try reflexivity; try lia]).
  destruct (Z.compare_spec (dt_day t1) (dt_day t2)); try (split; intros ?; [discriminate || lia|try reflexivity; try lia]).
  destruct (Z.compare_spec (dt_hour t1) (dt_hour t2)); try (split; intros ?; [discriminate || lia|try reflexivity; try lia]).
  destruct (Z.compare_spec (dt_minute t1) (dt_minute t2)); try (split; intros ?; [discriminate || lia|try reflexivity; try lia]).
  destruct (Z.compare_spec (dt_second t1) (dt_second t2)); try (split; intros ?; [discriminate || lia|try reflexivity; try lia]).
Qed.

(* ------------------------------------------------------------------ strings that parse accepts *)

Lemma alt2_In ok s v r : In (v, r) (alt2 ok s) -> s = (pad2 v ++ r)%string /\ 0 <= v <= 99.
Proof.
  destruct s as [|a [|b s]]; cbn [alt2]; try (intros []).
  destruct (digit_value a) as [x|] eqn:Ex; [|intros []]. destruct (digit_value b) as [y|] eqn:Ey; [|intros []].
  destruct (ok x y); [|intros []]. intros [H|[]]. assert (10 * x + y = v /\ s = r) as [<- <-] by (split; congruence).
  apply digit_of_value in Ex. apply digit_of_value in Ey. destruct Ex as [-> Hx], Ey as [-> Hy]. split; [|lia].
  unfold pad2. cbn [append]. replace ((10 * x + y) / 10 mod 10) with x by lia. replace ((10 * x + y) mod 10) with y by lia. reflexivity.
Qed.

Lemma alt1_In ok s v r : In (v, r) (alt1 ok s) -> exists c, s = String c r.
Proof.
  destruct s as [|a s]; cbn [alt1]; [intros []|]. destruct (digit_value a); [|intros []]. destruct (ok z); [|intros []].
  intros [H|[]]. injection H as _ <-. eauto.
Qed.

Lemma alt_blank_In s v r : In (v, r) (alt_blank s) -> exists c, s = String " " (String c r).
Proof.
  destruct s as [|a s]; cbn [alt_blank]; [intros []|]. destruct (Ascii.eqb_spec a " ") as [->|]; [|intros []].
  intros H. apply alt1_In in H. destruct H as [c ->]. eauto.
Qed.

Definition two_or_one (s : string) (v : Z) (r : string) : Prop :=
  (s = (pad2 v ++ r)%string /\ 0 <= v <= 99) \/ (exists c, s = String c r) \/ (exists c, s = String " " (String c r)).

Ltac field_cases :=
  repeat (rewrite ?in_app_iff; intros H; match type of H with _ => idtac end);
  repeat match goal with H : In _ (_ ++ _) |- _ => apply in_app_iff in H; destruct H as [H|H] end;
  first [left; eapply alt2_In; eassumption | right; left; eapply alt1_In; eassumption | right; right; eapply alt_blank_In; eassumption].

Lemma field_In f : In f [field_m; field_d; field_H; field_M; field_S] -> forall s v r, In (v, r) (f s) -> two_or_one s v r.
Proof.
  intros Hf s v r H. cbn [In] in Hf. destruct Hf as [<-|[<-|[<-|[<-|[<-|[]]]]]];
  unfold field_m, field_d, field_H, field_M, field_S in H; field_cases.
Qed.

Lemma field_Y_In s v r : In (v, r) (field_Y s) -> s = (pad4 v ++ r)%string /\ 0 <= v <= 9999.
Proof.
  unfold field_Y. rewrite in_flat_map. intros ([x s1] & H1 & H2). cbn [fst snd] in H2. apply in_map_iff in H2.
  destruct H2 as ([y s2] & E & H2). cbn [fst snd] in E.
  assert (100 * x + y = v /\ s2 = r) as [<- <-] by (split; congruence).
  apply alt2_In in H1. apply alt2_In in H2. destruct H1 as [-> Hx], H2 as [-> Hy]. split; [|lia].
  unfold pad4. replace ((100 * x + y) / 100) with x by lia. replace ((100 * x + y) mod 100) with y by lia. reflexivity.
Qed.

Lemma first_match_In {A B} (f : A -> option B) l y : first_match f l = Some y -> exists x, In x l /\ f x = Some y.
Proof.
  induction l as [|x l IH]; cbn; [discriminate|]. destruct (f x) eqn:E.
  - intros H. injection H as <-. eauto.
  - intros H. destruct (IH H) as (x' & ? & ?). eauto.
Qed.

Lemma match_fields_inv f fs s vs rest : match_fields (f :: fs) s = Some (vs, rest) ->
  exists v r vs', In (v, r) (f s) /\ match_fields fs r = Some (vs', rest) /\ vs = v :: vs'.
Proof.
  cbn [match_fields]. intros H. apply first_match_In in H. destruct H as ([v r] & Hin & E). cbn [snd fst] in E.
  destruct (match_fields fs r) as [[vs' r']|] eqn:M; [|discriminate]. injection E as <- <-. exists v, r, vs'. auto.
Qed.

Lemma numerals_length n s : numerals n s -> String.length s = n.
Proof. revert s; induction n as [|n IH]; intros [|c s]; cbn; try tauto. intros [_ H]. f_equal. auto. Qed.

Lemma numerals_cons n c s : numerals n (String c s) -> exists k, n = S k /\ numeral c /\ numerals k s.
Proof. destruct n; cbn; [tauto|]. intros [? ?]. eauto. Qed.

Lemma field_exact f s v r n : In f [field_m; field_d; field_H; field_M; field_S] -> In (v, r) (f s) -> numerals n s ->
  (s = (pad2 v ++ r)%string /\ 0 <= v <= 99 /\ n = S (S (String.length r)) /\ numerals (String.length r) r) \/ (n = S (String.length r) /\ numerals (String.length r) r).
Proof.
  intros Hf Hin Hn. destruct (field_In f Hf s v r Hin) as [[-> Hv]|[[c ->]|[c ->]]].
  - left. unfold pad2 in Hn. cbn [append] in Hn. apply numerals_cons in Hn. destruct Hn as (k & -> & _ & Hn).
    apply numerals_cons in Hn. destruct Hn as (k' & -> & _ & Hn). pose proof (numerals_length _ _ Hn). subst k'. auto.
  - right. apply numerals_cons in Hn. destruct Hn as (k & -> & _ & Hn). pose proof (numerals_length _ _ Hn). subst k. auto.
  - exfalso. apply numerals_cons in Hn. destruct Hn as (k & -> & Hc & _). unfold numeral in Hc. cbn in Hc. lia.
Qed.

Lemma parse_inv s t : parse s = Ok t -> exists y m d h mi sec,
  match_fields [field_Y; field_m; field_d; field_H; field_M; field_S] s = Some ([y; m; d; h; mi; sec], EmptyString) /\
  mk_datetime y m d h mi sec = Ok t.
Proof.
  unfold parse. destruct (match_fields _ s) as [[vs rest]|] eqn:E; [|discriminate].
  do 6 (destruct vs as [|? vs]; [discriminate|]). destruct vs; [|discriminate]. destruct rest; [|discriminate]. intros H.
  do 6 eexists. split; [reflexivity|exact H].
Qed.

Lemma build_parse s t : numerals 14 s -> parse s = Ok t -> build t = s /\ valid_datetime t = true /\ t mod SECOND = 0.
Proof.
  intros Hn H. apply parse_inv in H. destruct H as (y & m & d & h & mi & sec & M & K).
  apply match_fields_inv in M. destruct M as (v0 & r0 & vs0 & I0 & M & E0). injection E0 as <- <-.
  apply match_fields_inv in M. destruct M as (v1 & r1 & vs1 & I1 & M & E1). injection E1 as <- <-.
  apply match_fields_inv in M. destruct M as (v2 & r2 & vs2 & I2 & M & E2). injection E2 as <- <-.
  apply match_fields_inv in M. destruct M as (v3 & r3 & vs3 & I3 & M & E3). injection E3 as <- <-.
  apply match_fields_inv in M. destruct M as (v4 & r4 & vs4 & I4 & M & E4). injection E4 as <- <-.
  apply match_fields_inv in M. destruct M as (v5 & r5 & vs5 & I5 & M & E5). injection E5 as <- <-.
  cbn [match_fields] in M. injection M as ->.
  apply field_Y_In in I0. destruct I0 as [-> Hy].
  assert (numerals 10 r0) as N0.
  { unfold pad4, pad2 in Hn. cbn [append] in Hn. cbn [numerals] in Hn. tauto. }
  apply (field_exact field_m _ _ _ 10) in I1; [|cbn; tauto|assumption].
  assert (numerals (String.length r1) r1) as N1 by tauto.
  apply (field_exact field_d _ _ _ _ ltac:(cbn; tauto)) with (1 := I2) in N1 as I2'.
  assert (numerals (String.length r2) r2) as N2 by tauto.
  apply (field_exact field_H _ _ _ _ ltac:(cbn; tauto)) with (1 := I3) in N2 as I3'.
  assert (numerals (String.length r3) r3) as N3 by tauto.
  apply (field_exact field_M _ _ _ _ ltac:(cbn; tauto)) with (1 := I4) in N3 as I4'.
  assert (numerals (String.length r4) r4) as N4 by tauto.
  apply (field_exact field_S _ _ _ _ ltac:(cbn; tauto)) with (1 := I5) in N4 as I5'.
  cbn [String.length] in I5'.
  destruct I5' as [(E5 & _ & L5 & _)|(L5 & _)]; [|exfalso; lia].
  destruct I4' as [(E4 & _ & L4 & _)|(L4 & _)]; [|exfalso; lia].
  destruct I3' as [(E3 & _ & L3 & _)|(L3 & _)]; [|exfalso; lia].
  destruct I2' as [(E2 & _ & L2 & _)|(L2 & _)]; [|exfalso; lia].
  destruct I1 as [(E1 & _ & L1 & _)|(L1 & _)]; [|exfalso; lia].
  apply mk_datetime_ok in K. destruct K as (V & D & Kh & Km & Ks & Z0 & _). unfold date_of in D. injection D as D1 D2 D3.
  split; [|auto]. rewrite build_eq, D1, D2, D3, Kh, Km, Ks. subst r0 r1 r2 r3 r4. reflexivity.
Qed.

(* ------------------------------------------------------------------ months *)

Definition month_start (n : Z) : Z := ymd2ord (n / 12) (n mod 12 + 1) 1.
Definition month_length (n : Z) : Z := days_in_month (n / 12) (n mod 12 + 1).

Lemma month_start_next n : month_start (n + 1) = month_start n + month_length n.
Proof.
  unfold month_start, month_length, ymd2ord. destruct (Z.eq_dec (n mod 12) 11) as [E|E].
  - replace ((n + 1) / 12) with (n / 12 + 1) by lia. replace ((n + 1) mod 12) with 0 by lia. rewrite E.
    change (11 + 1) with 12. change (0 + 1) with 1. rewrite days_before_year_next, days_before_month_1.
    pose proof (days_before_month_12 (n / 12)) as H. assert (days_in_month (n / 12) 12 = 31) as -> by reflexivity. lia.
  - replace ((n + 1) / 12) with (n / 12) by lia. replace ((n + 1) mod 12 + 1) with (n mod 12 + 1 + 1) by lia.
    rewrite days_before_month_next by lia. lia.
Qed.

Lemma month_length_range n : 28 <= month_length n <= 31.
Proof. apply days_in_month_range. Qed.

Lemma month_start_mono n k : 0 <= k -> month_start n <= month_start (n + k).
Proof.
  intros Hk. pattern k. apply natlike_ind; [rewrite Z.add_0_r; lia| |exact Hk].
  intros j Hj IH. replace (n + Z.succ j) with (n + j + 1) by lia. rewrite month_start_next. pose proof (month_length_range (n + j)). lia.
Qed.

Lemma month_ge n t : month_start n <= t / DAY <-> n <= month_number t.
Proof.
  assert (valid_date (n / 12, n mod 12 + 1, 1)) as V.
  { cbn [valid_date]. pose proof (days_in_month_range (n / 12) (n mod 12 + 1)). lia. }
  pose proof (ord_lt_iff _ _ (valid_date_of t) V) as H. unfold date_of in H. cbn [ord_of date_lt] in H.
  rewrite ord_of_fields in H. unfold month_start, month_number. destruct (date_fields t) as (H1 & H2 & _). lia.
Qed.

Lemma month_iff n t : month_number t = n <-> month_start n <= t / DAY < month_start (n + 1).
Proof. pose proof (month_ge n t). pose proof (month_ge (n + 1) t). lia. Qed.

Lemma month_start_date n tod : 0 <= tod < DAY -> date_of (month_start n * DAY + tod) = (n / 12, n mod 12 + 1, 1).
Proof.
  intros H. rewrite date_of_ord. replace ((month_start n * DAY + tod) / DAY) with (month_start n) by (unfold DAY in *; lia).
  unfold month_start. apply ord2ymd_ymd2ord; [lia|]. pose proof (days_in_month_range (n / 12) (n mod 12 + 1)). lia.
Qed.

Lemma month_start_year n tod : 0 <= tod < DAY -> valid_datetime (month_start n * DAY + tod) = true <-> 1 <= n / 12 <= 9999.
Proof.
  intros H. rewrite valid_year. pose proof (month_start_date n tod H) as D. unfold date_of in D. injection D as D1 _ _. rewrite D1. reflexivity.
Qed.

Lemma first_of_month t : dt_day t = 1 -> t = month_start (month_number t) * DAY + t mod DAY.
Proof.
  intros H. unfold month_start, month_number. destruct (date_fields t) as (H1 & _ & H3).
  replace ((12 * dt_year t + dt_month t - 1) / 12) with (dt_year t) by lia.
  replace ((12 * dt_year t + dt_month t - 1) mod 12 + 1) with (dt_month t) by lia.
  rewrite <- H, H3. unfold DAY. lia.
Qed.

Lemma add_months_first n tod k : 0 <= tod < DAY -> 12 <= n + k < 120000 ->
  add_months (month_start n * DAY + tod) k = Ok (month_start (n + k) * DAY + tod).
Proof.
  intros Ht Hk. unfold add_months. pose proof (month_start_date n tod Ht) as D. unfold date_of in D. injection D as D1 D2 D3.
  rewrite D1, D2, D3. cbv zeta. replace (12 * (n / 12) + (n mod 12 + 1 - 1) + k) with (n + k) by lia.
  destruct ((1 <=? (n + k) / 12) && ((n + k) / 12 <=? 9999)) eqn:E; [|exfalso; lia].
  pose proof (days_in_month_range ((n + k) / 12) ((n + k) mod 12 + 1)). rewrite Z.min_l by lia.
  unfold month_start. f_equal. f_equal. unfold DAY in *. lia.
Qed.

Lemma add_months_overflow n tod k : 0 <= tod < DAY -> 120000 <= n + k ->
  add_months (month_start n * DAY + tod) k = Err ValueError.
Proof.
  intros Ht Hk. unfold add_months. pose proof (month_start_date n tod Ht) as D. unfold date_of in D. injection D as D1 D2 D3.
  rewrite D1, D2, D3. cbv zeta. replace (12 * (n / 12) + (n mod 12 + 1 - 1) + k) with (n + k) by lia.
  destruct ((1 <=? (n + k) / 12) && ((n + k) / 12 <=? 9999)) eqn:E; [exfalso; lia|reflexivity].
Qed.

Lemma mapM_ok_map {A B} (f : A -> result B) g l : (forall x, In x l -> f x = Ok (g x)) -> mapM f l = Ok (map g l).
Proof.
  induction l as [|x l IH]; intros H; cbn; [reflexivity|]. rewrite H by (cbn; auto). cbn. rewrite IH by (intros; apply H; cbn; auto). reflexivity.
Qed.

Lemma operation_dates_first n tod i : 0 <= tod < DAY -> 12 <= n + i -> n + i + 1 < 120000 ->
  operation_dates (month_start n * DAY + tod) i = Ok (map (fun k => month_start (n + i) * DAY + tod + k * DAY) (zrange 0 (month_length (n + i)))).
Proof.
  intros Ht H1 H2. unfold operation_dates. rewrite add_months_first by lia. cbn [bind].
  rewrite add_months_first by lia. cbn [bind]. rewrite month_start_next. pose proof (month_length_range (n + i)) as L.
  assert (forall k, 0 <= k < month_length (n + i) -> dt_add (month_start (n + i) * DAY + tod) (k * DAY) = Ok (month_start (n + i) * DAY + tod + k * DAY)) as A.
  { intros k Hk. unfold dt_add. cbv zeta.
    assert (valid_datetime (month_start (n + i) * DAY + tod + k * DAY) = true) as ->; [|reflexivity].
    pose proof (proj2 (month_start_year (n + i) tod Ht)) as V1. pose proof (proj2 (month_start_year (n + i + 1) tod Ht)) as V2.
    rewrite valid_datetime_iff in *. rewrite month_start_next in V2. unfold DAY in *. lia. }
  unfold dt_add at 1. cbv zeta.
  replace ((month_start (n + i) + month_length (n + i)) * DAY + tod + - DAY) with (month_start (n + i) * DAY + tod + (month_length (n + i) - 1) * DAY) by lia.
  pose proof (A (month_length (n + i) - 1) ltac:(lia)) as V. unfold dt_add in V. cbv zeta in V.
  destruct (valid_datetime _) eqn:E; [|discriminate]. cbn [bind].
  replace (td_days _ + 1) with (month_length (n + i)) by (unfold td_days, DAY; lia).
  apply mapM_ok_map. intros k Hk. apply zrange_In in Hk. apply A. lia.
Qed.

Lemma operation_dates_fields t i : dt_day t = 1 -> 12 <= month_number t + i -> month_number t + i + 1 < 120000 ->
  operation_dates t i = Ok (map (fun k => month_start (month_number t + i) * DAY + t mod DAY + k * DAY) (zrange 0 (month_length (month_number t + i)))).
Proof.
  intros H1 H2 H3. rewrite (first_of_month t H1) at 1. apply operation_dates_first; auto. apply Z.mod_pos_bound. reflexivity.
Qed.

(* Consecutive months make up consecutive days. *)
Lemma months_concat n0 tod m : 0 <= m ->
  concat (map (fun i => map (fun k => month_start (n0 + i) * DAY + tod + k * DAY) (zrange 0 (month_length (n0 + i)))) (zrange 0 m))
  = map (fun k => month_start n0 * DAY + tod + k * DAY) (zrange 0 (month_start (n0 + m) - month_start n0)).
Proof.
  intros Hm. pattern m. apply natlike_ind; [| |exact Hm].
  - rewrite Z.add_0_r, Z.sub_diag. reflexivity.
  - intros j Hj IH. unfold Z.succ. rewrite zrange_snoc by lia. rewrite map_app, concat_app, IH. cbn [map concat]. rewrite app_nil_r.
    replace (n0 + (j + 1)) with (n0 + j + 1) by lia. rewrite month_start_next.
    pose proof (month_start_mono n0 j Hj). pose proof (month_length_range (n0 + j)).
    rewrite <- (zrange_app 0 (month_start (n0 + j) - month_start n0) (month_start (n0 + j) + month_length (n0 + j) - month_start n0)) by lia. rewrite map_app. f_equal.
    replace (month_start (n0 + j) + month_length (n0 + j) - month_start n0) with (0 + (month_start (n0 + j) - month_start n0) + month_length (n0 + j)) by lia.
    unfold zrange. rewrite !map_map.
    match goal with |- map ?f (seq 0 ?a) = map ?g (seq 0 ?b) => replace b with a by lia; apply map_ext end. intros k. lia.
Qed.

Lemma operation_count_value s e : 1 <= s <= 9999 -> 1 <= e <= 9998 -> operation_count s e = Ok (12 * (e - s + 1)).
Proof.
  intros Hs He. unfold operation_count, mk_datetime.
  assert (forall y, days_in_month y 1 = 31) as D1 by reflexivity. assert (forall y, days_in_month y 12 = 31) as D12 by reflexivity.
  rewrite D1, D12.
  match goal with |- context [if ?b then _ else Err ValueError] => assert (b = true) as -> by lia end. cbn [bind].
  match goal with |- context [if ?b then _ else Err ValueError] => assert (b = true) as -> by lia end. cbn [bind].
  assert (forall y, ymd2ord y 1 1 = month_start (12 * y)) as Ms.
  { intros y. unfold month_start. replace (12 * y / 12) with y by lia. replace (12 * y mod 12) with 0 by lia. reflexivity. }
  assert (ymd2ord e 12 31 = month_start (12 * (e + 1)) - 1) as Me.
  { rewrite <- Ms. unfold ymd2ord. rewrite days_before_year_next, days_before_month_1. pose proof (days_before_month_12 e). lia. }
  rewrite Me, Ms. unfold dt_add. cbv zeta.
  replace ((month_start (12 * (e + 1)) - 1) * DAY + (0 * 3600 + 0 * 60 + 0) * SECOND + DAY) with (month_start (12 * (e + 1)) * DAY + 0) by lia.
  assert (0 <= 0 < DAY) as H0 by (unfold DAY; lia).
  rewrite (proj2 (month_start_year (12 * (e + 1)) 0 H0)) by lia. cbn [bind].
  replace (month_start (12 * s) * DAY + (0 * 3600 + 0 * 60 + 0) * SECOND) with (month_start (12 * s) * DAY + 0) by lia.
  unfold months_between. cbv zeta.
  pose proof (month_start_date (12 * s) 0 H0) as A. pose proof (month_start_date (12 * (e + 1)) 0 H0) as B. unfold date_of in A, B.
  assert (forall a b c a' b' c' : Z, (a, b, c) = (a', b', c') -> a = a' /\ b = b') as P by (intros; split; congruence).
  apply P in A. apply P in B. destruct A as [A1 A2], B as [B1 B2]. rewrite A1, A2, B1, B2.
  rewrite add_months_first by lia. cbn [bind].
  replace (12 * s + _) with (12 * (e + 1)) by lia.
  rewrite Z.ltb_irrefl. f_equal. destruct (_ <? _); lia.
Qed.

(* ------------------------------------------------------------------ file names from patterns *)

(* A pattern partly replaced: characters and fields. *)
Inductive fieldname := FY | Fm | Fd | FH | FM | FS.
Inductive item := C (c : ascii) | D (k : fieldname).

Definition letter (k : fieldname) : ascii :=
  match k with FY => "Y" | Fm => "m" | Fd => "d" | FH => "H" | FM => "M" | FS => "S" end%char.
Definition shown (k : fieldname) (t : Z) : string :=
  match k with FY => pad4 (dt_year t) | Fm => pad2 (dt_month t) | Fd => pad2 (dt_day t)
             | FH => pad2 (dt_hour t) | FM => pad2 (dt_minute t) | FS => pad2 (dt_second t) end.

Fixpoint render (t : Z) (is : list item) : string :=
  match is with
  | [] => EmptyString
  | C c :: is' => String c (render t is')
  | D k :: is' => (shown k t ++ render t is')%string
  end.

Fixpoint subst_field (k : fieldname) (is : list item) : list item :=
  match is with
  | [] => []
  | x :: is' =>
      match x, is' with
      | C a, C b :: is'' => if Ascii.eqb a "%" && Ascii.eqb b (letter k) then D k :: subst_field k is'' else x :: subst_field k is'
      | _, _ => x :: subst_field k is'
      end
  end.

Fixpoint chars (p : string) : list item := match p with EmptyString => [] | String c p' => C c :: chars p' end.

Definition items (p : string) : list item :=
  subst_field FS (subst_field FM (subst_field FH (subst_field Fd (subst_field Fm (subst_field FY (chars p)))))).

Lemma string_app_assoc (x y z : string) : ((x ++ y) ++ z = x ++ (y ++ z))%string.
Proof. induction x as [|c x IH]; cbn; congruence. Qed.

Lemma render_chars t p : render t (chars p) = p.
Proof. induction p; cbn; congruence. Qed.

Lemma digit_ne d c : 0 <= d <= 9 -> ~ numeral c -> Ascii.eqb (digit d) c = false.
Proof. intros H N. apply Ascii.eqb_neq. intros <-. apply N. now apply digit_numeral. Qed.

Lemma letter_not_numeral k : ~ numeral (letter k).
Proof. destruct k; unfold numeral; cbn; lia. Qed.

Lemma percent_not_numeral : ~ numeral "%".
Proof. unfold numeral; cbn; lia. Qed.

Lemma replace2_other c1 c2 r a s : Ascii.eqb a c1 = false -> replace2 c1 c2 r (String a s) = String a (replace2 c1 c2 r s).
Proof. intros E. destruct s as [|b s]; cbn [replace2]; [reflexivity|]. rewrite E. reflexivity. Qed.

Lemma replace2_second c1 c2 r a b s : Ascii.eqb b c2 = false -> replace2 c1 c2 r (String a (String b s)) = String a (replace2 c1 c2 r (String b s)).
Proof. intros E. cbn [replace2]. rewrite E, andb_false_r. reflexivity. Qed.

Lemma replace2_pad2 k r n s : replace2 "%" (letter k) r (pad2 n ++ s) = (pad2 n ++ replace2 "%" (letter k) r s)%string.
Proof.
  unfold pad2. cbn [append]. rewrite !replace2_other; [reflexivity| |]; apply digit_ne; try lia; apply percent_not_numeral.
Qed.

Lemma replace2_shown k k' r t s : replace2 "%" (letter k) r (shown k' t ++ s) = (shown k' t ++ replace2 "%" (letter k) r s)%string.
Proof.
  destruct k'; cbn [shown]; try apply replace2_pad2. unfold pad4. rewrite !string_app_assoc, !replace2_pad2. reflexivity.
Qed.

Lemma shown_first k t : exists d s, 0 <= d <= 9 /\ shown k t = String (digit d) s.
Proof.
  assert (forall n, exists d s, 0 <= d <= 9 /\ pad2 n = String (digit d) s) as P.
  { intros n. exists (n / 10 mod 10), (String (digit (n mod 10)) ""). split; [lia|reflexivity]. }
  destruct k; cbn [shown]; try apply P. unfold pad4. destruct (P (dt_year t / 100)) as (d & s & H & ->). cbn [append]. eauto.
Qed.

Lemma subst_field_D k k' is : subst_field k (D k' :: is) = D k' :: subst_field k is.
Proof. reflexivity. Qed.
Lemma subst_field_CD k a k' is : subst_field k (C a :: D k' :: is) = C a :: subst_field k (D k' :: is).
Proof. reflexivity. Qed.
Lemma subst_field_CC k a b is : subst_field k (C a :: C b :: is) =
  if Ascii.eqb a "%" && Ascii.eqb b (letter k) then D k :: subst_field k is else C a :: subst_field k (C b :: is).
Proof. reflexivity. Qed.
Lemma subst_field_C1 k a : subst_field k [C a] = [C a].
Proof. reflexivity. Qed.

Lemma items_ind (P : list item -> Prop) :
  P [] -> (forall a, P [C a]) -> (forall k is, P is -> P (D k :: is)) ->
  (forall a k is, P (D k :: is) -> P (C a :: D k :: is)) ->
  (forall a b is, P is -> P (C b :: is) -> P (C a :: C b :: is)) -> forall is, P is.
Proof.
  intros H0 H1 HD HCD HCC is. enough (P is /\ forall x, P (x :: is)) by tauto.
  induction is as [|x is [IH1 IH2]].
  - split; [exact H0|]. intros [a|k]; auto.
  - split; [apply IH2|]. intros [a|k]; [|auto]. destruct x as [b|k]; auto.
Qed.

Lemma render_subst k t is : render t (subst_field k is) = replace2 "%" (letter k) (shown k t) (render t is).
Proof.
  pattern is. apply items_ind; clear is.
  - reflexivity.
  - intros a. reflexivity.
  - intros k' is IH. rewrite subst_field_D. cbn [render]. rewrite replace2_shown, IH. reflexivity.
  - intros a k' is IH. rewrite subst_field_CD. cbn [render]. cbn [render] in IH.
    destruct (shown_first k' t) as (d & s & Hd & E). rewrite IH, E. cbn [append].
    rewrite replace2_second; [reflexivity|]. apply digit_ne; [assumption|apply letter_not_numeral].
  - intros a b is IH1 IH2. rewrite subst_field_CC. cbn [render]. cbn [replace2].
    destruct (Ascii.eqb a "%" && Ascii.eqb b (letter k)).
    + cbn [render]. rewrite IH1. reflexivity.
    + cbn [render]. cbn [render] in IH2. rewrite IH2. reflexivity.
Qed.

Lemma build_from_pattern_render p t : build_from_pattern p t = render t (items p).
Proof. rewrite build_from_pattern_eq. unfold items. rewrite !render_subst, render_chars. reflexivity. Qed.

(* Which fields are shown. *)
Definition has_directive (k : fieldname) (is : list item) : Prop := exists l r, is = l ++ C "%" :: C (letter k) :: r.

Lemma contains2_chars k p : contains2 "%" (letter k) p = true -> has_directive k (chars p).
Proof.
  induction p as [|a p IH]; cbn [contains2]; [discriminate|]. destruct p as [|b p]; [discriminate|]. intros H. apply orb_true_iff in H.
  destruct H as [H|H].
  - apply andb_true_iff in H. destruct H as [H1 H2]. apply Ascii.eqb_eq in H1. apply Ascii.eqb_eq in H2. subst. exists [], (chars p). reflexivity.
  - destruct (IH H) as (l & r & E). exists (C a :: l), r. cbn [chars app] in *. now rewrite E.
Qed.

Lemma has_directive_tail k x is : has_directive k is -> has_directive k (x :: is).
Proof. intros (l & r & ->). exists (x :: l), r. reflexivity. Qed.

Lemma has_directive_inv k x is : has_directive k (x :: is) -> (x = C "%" /\ exists r, is = C (letter k) :: r) \/ has_directive k is.
Proof. intros ([|y l] & r & E); cbn in E; injection E as -> ->; [left; eauto|right; exists l, r; reflexivity]. Qed.

Lemma subst_keeps k k' is : In (D k') is -> In (D k') (subst_field k is).
Proof.
  pattern is. apply items_ind; clear is.
  - auto.
  - auto.
  - intros k1 is IH. rewrite subst_field_D. cbn. tauto.
  - intros a k1 is IH. rewrite subst_field_CD. intros [H|H]; [discriminate|]. right. auto.
  - intros a b is IH1 IH2 H. rewrite subst_field_CC. destruct H as [H|[H|H]]; [discriminate|discriminate|].
    destruct (_ && _); [right; auto|]. right. apply IH2. now right.
Qed.

Lemma has_directive_nil k : ~ has_directive k [].
Proof. intros ([|? ?] & r & E); discriminate. Qed.
Lemma has_directive_single k x : ~ has_directive k [x].
Proof. intros ([|? [|? ?]] & r & E); discriminate. Qed.

Lemma subst_replaces k is : has_directive k is -> In (D k) (subst_field k is).
Proof.
  pattern is. apply items_ind; clear is.
  - intros H. now apply has_directive_nil in H.
  - intros a H. now apply has_directive_single in H.
  - intros k1 is IH H. apply has_directive_inv in H. destruct H as [[H _]|H]; [discriminate|]. rewrite subst_field_D. right. auto.
  - intros a k1 is IH H. apply has_directive_inv in H. destruct H as [[_ [r H]]|H]; [discriminate|]. rewrite subst_field_CD. right. auto.
  - intros a b is IH1 IH2 H. rewrite subst_field_CC. apply has_directive_inv in H. destruct H as [[H [r H']]|H].
    + injection H as ->. injection H' as -> ->. rewrite !Ascii.eqb_refl. left. reflexivity.
    + destruct (Ascii.eqb a "%" && Ascii.eqb b (letter k)) eqn:E; [left; reflexivity|]. right. auto.
Qed.

Lemma letter_not_percent k : letter k <> "%"%char.
Proof. destruct k; discriminate. Qed.
Lemma letter_inj k k' : letter k = letter k' -> k = k'.
Proof. destruct k, k'; try reflexivity; discriminate. Qed.

Lemma subst_keeps_directive k k' is : k <> k' -> has_directive k' is -> has_directive k' (subst_field k is).
Proof.
  intros N. pattern is. apply items_ind; clear is.
  - auto.
  - auto.
  - intros k1 is IH H. apply has_directive_inv in H. destruct H as [[H _]|H]; [discriminate|]. rewrite subst_field_D. apply has_directive_tail. auto.
  - intros a k1 is IH H. apply has_directive_inv in H. destruct H as [[_ [r H]]|H]; [discriminate|]. rewrite subst_field_CD. apply has_directive_tail. auto.
  - intros a b is IH1 IH2 H. rewrite subst_field_CC. apply has_directive_inv in H. destruct H as [[H [r H']]|H].
    + injection H as ->. injection H' as -> ->. destruct (Ascii.eqb_spec (letter k') (letter k)) as [E|E].
      { apply letter_inj in E. congruence. }
      rewrite Ascii.eqb_refl. cbn [andb]. clear -N.
      destruct r as [|[c|k1] r].
      * exists [], []. reflexivity.
      * rewrite subst_field_CC. destruct (Ascii.eqb_spec (letter k') "%") as [E|E]; [destruct (letter_not_percent _ E)|]. cbn [andb].
        exists []. eexists. reflexivity.
      * exists []. eexists. reflexivity.
    + destruct (Ascii.eqb a "%" && Ascii.eqb b (letter k)) eqn:E; [|apply has_directive_tail; auto].
      apply andb_true_iff in E. destruct E as [_ E]. apply Ascii.eqb_eq in E. subst b.
      apply has_directive_tail. apply has_directive_inv in H. destruct H as [[H _]|H]; [|auto].
      injection H as H. destruct (letter_not_percent _ H).
Qed.

Lemma items_field k p : contains2 "%" (letter k) p = true -> In (D k) (items p).
Proof.
  intros H. apply contains2_chars in H. unfold items. destruct k.
  - do 5 apply subst_keeps. now apply subst_replaces.
  - do 4 apply subst_keeps. apply subst_replaces. do 1 (apply subst_keeps_directive; [discriminate|]). exact H.
  - do 3 apply subst_keeps. apply subst_replaces. do 2 (apply subst_keeps_directive; [discriminate|]). exact H.
  - do 2 apply subst_keeps. apply subst_replaces. do 3 (apply subst_keeps_directive; [discriminate|]). exact H.
  - do 1 apply subst_keeps. apply subst_replaces. do 4 (apply subst_keeps_directive; [discriminate|]). exact H.
  - apply subst_replaces. do 5 (apply subst_keeps_directive; [discriminate|]). exact H.
Qed.

(* Joining path components, on items. *)
Definition starts_slash (is : list item) : bool := match is with C c :: _ => Ascii.eqb c "/" | _ => false end.
Fixpoint ends_slash (is : list item) : bool :=
  match is with [] => false | [C c] => Ascii.eqb c "/" | [D _] => false | _ :: is' => ends_slash is' end.
Definition join_items (is js : list item) : list item :=
  match is with [] => js | _ => if ends_slash is then is ++ js else is ++ C "/" :: js end.

Lemma render_app t is js : render t (is ++ js) = (render t is ++ render t js)%string.
Proof. induction is as [|[c|k] is IH]; cbn [app render append]; [reflexivity|now rewrite IH|now rewrite IH, string_app_assoc]. Qed.

Lemma slash_not_numeral : ~ numeral "/".
Proof. unfold numeral; cbn; lia. Qed.

Lemma starts_render t is : starts_with_slash (render t is) = starts_slash is.
Proof.
  destruct is as [|[c|k] is]; [reflexivity|reflexivity|]. cbn [render starts_slash].
  destruct (shown_first k t) as (d & s & Hd & ->). cbn [append starts_with_slash]. apply digit_ne; [assumption|apply slash_not_numeral].
Qed.

Lemma ends_app s1 s2 : s2 <> EmptyString -> ends_with_slash (s1 ++ s2) = ends_with_slash s2.
Proof.
  intros N. induction s1 as [|c s1 IH]; cbn [append]; [reflexivity|]. destruct (s1 ++ s2)%string eqn:E.
  - destruct s1; [|discriminate]. cbn in E. congruence.
  - cbn [ends_with_slash]. exact IH.
Qed.

Lemma shown_ends k t : exists s d, 0 <= d <= 9 /\ shown k t = (s ++ String (digit d) EmptyString)%string.
Proof.
  assert (forall n, exists s d, 0 <= d <= 9 /\ pad2 n = (s ++ String (digit d) EmptyString)%string) as P.
  { intros n. exists (String (digit (n / 10 mod 10)) ""), (n mod 10). split; [lia|reflexivity]. }
  destruct k; cbn [shown]; try apply P. unfold pad4. destruct (P (dt_year t mod 100)) as (s & d & H & ->).
  exists (pad2 (dt_year t / 100) ++ s)%string, d. split; [assumption|]. now rewrite string_app_assoc.
Qed.

Lemma render_nonempty t is : is <> [] -> render t is <> EmptyString.
Proof.
  destruct is as [|[c|k] is]; [congruence|discriminate|]. intros _. cbn [render].
  destruct (shown_first k t) as (d & s & _ & ->). discriminate.
Qed.

Lemma ends_cons_string c s : s <> EmptyString -> ends_with_slash (String c s) = ends_with_slash s.
Proof. destruct s; [congruence|reflexivity]. Qed.

Lemma ends_slash_cons x is : is <> [] -> ends_slash (x :: is) = ends_slash is.
Proof. destruct is; [congruence|]. destruct x; reflexivity. Qed.

Lemma ends_render t is : ends_with_slash (render t is) = ends_slash is.
Proof.
  induction is as [|x is IH]; [reflexivity|]. destruct is as [|y is].
  - destruct x as [c|k]; [reflexivity|]. cbn [render ends_slash]. destruct (shown_ends k t) as (s & d & Hd & ->).
    rewrite string_app_assoc. cbn [append]. rewrite ends_app by discriminate. cbn. apply digit_ne; [assumption|apply slash_not_numeral].
  - rewrite ends_slash_cons by discriminate. rewrite <- IH.
    assert (render t (y :: is) <> EmptyString) as N by (apply render_nonempty; discriminate).
    destruct x as [c|k]; [apply (ends_cons_string c _ N)|]. 
    change (render t (D k :: y :: is)) with (shown k t ++ render t (y :: is))%string. now apply ends_app.
Qed.

Lemma string_app_nil_r (s : string) : (s ++ "")%string = s.
Proof. induction s; cbn; congruence. Qed.

Lemma render_join t is js : starts_slash js = false -> join_one (render t is) (render t js) = render t (join_items is js).
Proof.
  intros H. unfold join_one. rewrite starts_render, H, ends_render. destruct is as [|x is]; [reflexivity|].
  unfold join_items. destruct (String.eqb_spec (render t (x :: is)) "") as [E|_].
  { exfalso. apply (render_nonempty t (x :: is)); [discriminate|exact E]. }
  cbn [orb]. destruct (ends_slash (x :: is)); rewrite render_app; reflexivity.
Qed.

Lemma join_items_In x is js : In x is \/ In x js -> In x (join_items is js).
Proof.
  unfold join_items. destruct is; [cbn; tauto|]. destruct (ends_slash _); rewrite in_app_iff; cbn; tauto.
Qed.

Lemma subst_starts k is : starts_slash (subst_field k is) = starts_slash is.
Proof.
  destruct is as [|[a|k'] is]; [reflexivity| |reflexivity]. destruct is as [|[b|k'] is]; [reflexivity| |reflexivity].
  rewrite subst_field_CC. destruct (Ascii.eqb_spec a "%") as [->|N]; [|reflexivity].
  destruct (Ascii.eqb b (letter k)); reflexivity.
Qed.

Lemma items_starts p : starts_slash (items p) = starts_with_slash p.
Proof. unfold items. rewrite !subst_starts. destruct p; reflexivity. Qed.

Lemma fold_join t ps is : (forall p, In p ps -> starts_with_slash p = false) ->
  fold_left join_one (map (fun p => build_from_pattern p t) ps) (render t is) = render t (fold_left join_items (map items ps) is).
Proof.
  revert is; induction ps as [|p ps IH]; intros is H; [reflexivity|]. cbn [map fold_left].
  rewrite build_from_pattern_render, render_join by (rewrite items_starts; apply H; cbn; auto). apply IH. intros q Hq. apply H. now right.
Qed.

Lemma fold_join_In x js is : In x is \/ (exists j, In j js /\ In x j) -> In x (fold_left join_items js is).
Proof.
  revert is; induction js as [|j js IH]; intros is H; cbn [fold_left].
  - destruct H as [H|(j & [] & _)]. exact H.
  - apply IH. destruct H as [H|(j' & [<-|Hj] & H)]; [left; apply join_items_In; auto|left; apply join_items_In; auto|right; eauto].
Qed.

Definition name_items (patterns : list string) : list item :=
  match patterns with [] => [] | p :: ps => fold_left join_items (map items ps) (items p) end.

Lemma filename_render patterns t : patterns <> [] -> (forall p, In p (tl patterns) -> starts_with_slash p = false) ->
  filename_from_patterns patterns t = Ok (render t (name_items patterns)).
Proof.
  intros N H. destruct patterns as [|p ps]; [congruence|]. unfold filename_from_patterns, os_path_join. cbn [map name_items tl] in *.
  rewrite build_from_pattern_render, fold_join by assumption. reflexivity.
Qed.

Lemma name_field k patterns p : In p patterns -> contains2 "%" (letter k) p = true -> In (D k) (name_items patterns).
Proof.
  intros Hp H. apply items_field in H. destruct patterns as [|q ps]; [destruct Hp|]. cbn [name_items]. apply fold_join_In.
  destruct Hp as [->|Hp]; [auto|]. right. exists (items p). split; [now apply in_map|exact H].
Qed.

Lemma shown_length k t t' : String.length (shown k t) = String.length (shown k t').
Proof. destruct k; reflexivity. Qed.

Lemma string_app_split a b a' b' : String.length a = String.length b -> (a ++ a' = b ++ b')%string -> a = b /\ a' = b'.
Proof.
  revert b; induction a as [|c a IH]; intros [|c' b]; cbn; try discriminate; [auto|].
  intros L E. injection E as -> E. injection L as L. destruct (IH b L E) as [-> ->]. auto.
Qed.

Lemma render_inj t t' is : render t is = render t' is -> forall k, In (D k) is -> shown k t = shown k t'.
Proof.
  induction is as [|[c|k] is IH]; cbn [render In]; intros E k' Hk.
  - destruct Hk.
  - injection E as E. destruct Hk as [Hk|Hk]; [discriminate|auto].
  - apply string_app_split in E; [|apply shown_length]. destruct E as [E1 E2]. destruct Hk as [Hk|Hk]; [congruence|auto].
Qed.

Lemma digit_inj a b : 0 <= a <= 9 -> 0 <= b <= 9 -> digit a = digit b -> a = b.
Proof. intros Ha Hb E. pose proof (nat_of_digit a Ha). pose proof (nat_of_digit b Hb). rewrite E in *. lia. Qed.

Lemma pad2_inj a b : 0 <= a <= 99 -> 0 <= b <= 99 -> pad2 a = pad2 b -> a = b.
Proof. unfold pad2. intros Ha Hb E. injection E as E1 E2. apply digit_inj in E1; [|lia|lia]. apply digit_inj in E2; lia. Qed.

Lemma pad4_inj a b : 0 <= a <= 9999 -> 0 <= b <= 9999 -> pad4 a = pad4 b -> a = b.
Proof.
  unfold pad4. intros Ha Hb E. apply string_app_split in E; [|reflexivity]. destruct E as [E1 E2].
  apply pad2_inj in E1; [|lia|lia]. apply pad2_inj in E2; lia.
Qed.

Lemma same_name_same_date patterns t t' name :
  (forall p, In p (tl patterns) -> starts_with_slash p = false) ->
  (exists p, In p patterns /\ contains2 "%" "Y" p = true) -> (exists p, In p patterns /\ contains2 "%" "m" p = true) ->
  (exists p, In p patterns /\ contains2 "%" "d" p = true) ->
  valid_datetime t = true -> valid_datetime t' = true ->
  filename_from_patterns patterns t = Ok name -> filename_from_patterns patterns t' = Ok name -> date_of t = date_of t'.
Proof.
  intros Hs (pY & IY & HY) (pm & Im & Hm) (pd & Id & Hd) V V' E E'.
  assert (patterns <> []) as N by (intros ->; destruct IY).
  rewrite filename_render in E, E' by assumption. injection E as E. injection E' as E'. rewrite <- E' in E. clear E'.
  apply valid_year in V. apply valid_year in V'. pose proof (fields_range t). pose proof (fields_range t').
  pose proof (render_inj _ _ _ E FY (name_field FY _ _ IY HY)) as SY.
  pose proof (render_inj _ _ _ E Fm (name_field Fm _ _ Im Hm)) as Sm.
  pose proof (render_inj _ _ _ E Fd (name_field Fd _ _ Id Hd)) as Sd. cbn [shown] in SY, Sm, Sd.
  apply pad4_inj in SY; [|lia|lia]. apply pad2_inj in Sm; [|lia|lia]. apply pad2_inj in Sd; [|lia|lia].
  unfold date_of. congruence.
Qed.

Lemma contains2_occurs a b s : contains2 a b s = true <-> occurs (String a (String b EmptyString)) s.
Proof.
  split.
  - induction s as [|c s IH]; cbn [contains2]; [discriminate|]. destruct s as [|c' s]; [discriminate|]. intros H.
    apply orb_true_iff in H. destruct H as [H|H].
    + apply andb_true_iff in H. destruct H as [H1 H2]. apply Ascii.eqb_eq in H1. apply Ascii.eqb_eq in H2. subst. exists ""%string, s. reflexivity.
    + destruct (IH H) as (x & y & E). exists (String c x), y. cbn [append]. now rewrite E.
  - intros (x & y & ->). induction x as [|c x IH].
    + cbn. now rewrite !Ascii.eqb_refl.
    + change (String c x ++ String a (String b "") ++ y)%string with (String c (x ++ String a (String b "") ++ y)).
      destruct (x ++ String a (String b "") ++ y)%string as [|c' s] eqn:E; [destruct x; discriminate|].
      change ((Ascii.eqb c a && Ascii.eqb c' b) || contains2 a b (String c' s) = true). rewrite IH. apply orb_true_r.
Qed.

(* ------------------------------------------------------------------ annual, monthly and mid-month steps *)

Lemma year_start_ord y : ymd2ord y 1 1 = month_start (12 * y).
Proof. unfold month_start. replace (12 * y / 12) with y by lia. replace (12 * y mod 12) with 0 by lia. reflexivity. Qed.

Lemma mk_date_midnight y m d : 1 <= y <= 9999 -> 1 <= m <= 12 -> 1 <= d <= days_in_month y m ->
  mk_datetime y m d 0 0 0 = Ok (ymd2ord y m d * DAY).
Proof.
  intros Hy Hm Hd. unfold mk_datetime. match goal with |- (if ?b then _ else _) = _ => assert (b = true) as -> by lia end. f_equal. lia.
Qed.

Lemma year_days y : ymd2ord (y + 1) 1 1 = ymd2ord y 1 1 + (if is_leap y then 366 else 365).
Proof. unfold ymd2ord. rewrite days_before_year_next, !days_before_month_1. lia. Qed.

Lemma in_year t : ymd2ord (dt_year t) 1 1 <= t / DAY < ymd2ord (dt_year t + 1) 1 1.
Proof.
  rewrite !year_start_ord. destruct (date_fields t) as (H & _). pose proof (month_ge (12 * dt_year t) t).
  pose proof (month_ge (12 * (dt_year t + 1)) t). unfold month_number in *. lia.
Qed.

Definition last_second_of_year (t : Z) : bool := (dt_month t =? 12) && (dt_day t =? 31) && (dt_hour t =? 23) && (dt_minute t =? 59) && (dt_second t =? 59).

Lemma last_second_iff t : last_second_of_year t = true <-> (t - ymd2ord (dt_year t) 1 1 * DAY) / SECOND = (if is_leap (dt_year t) then 366 else 365) * 86400 - 1.
Proof.
  pose proof (in_year t) as Y. rewrite year_days in Y. pose proof (ord_of_fields t) as O. pose proof (fields_range t) as F.
  assert (ymd2ord (dt_year t) 12 31 = ymd2ord (dt_year t) 1 1 + (if is_leap (dt_year t) then 366 else 365) - 1) as D31.
  { unfold ymd2ord. rewrite days_before_month_1. pose proof (days_before_month_12 (dt_year t)). lia. }
  assert ((t - ymd2ord (dt_year t) 1 1 * DAY) / SECOND = (t / DAY - ymd2ord (dt_year t) 1 1) * 86400 + (dt_hour t * 3600 + dt_minute t * 60 + dt_second t)) as ->.
  { pose proof (time_of_day_parts t) as T. unfold SECOND, DAY in *. lia. }
  unfold last_second_of_year. rewrite !andb_true_iff, !Z.eqb_eq. split.
  - intros ((((-> & ->) & ->) & ->) & ->) || intros ((((Hm & Hd) & Hh) & Hmi) & Hs). rewrite Hm, Hd in O. lia.
  - intros E. assert (t / DAY = ymd2ord (dt_year t) 12 31) as E2 by lia.
    assert ((dt_year t, dt_month t, dt_day t) = (dt_year t, 12, 31)) as P.
    { apply ord_inj; [apply valid_date_of| |cbn [ord_of]; lia]. cbn [valid_date]. assert (days_in_month (dt_year t) 12 = 31) as -> by reflexivity. lia. }
    injection P as -> ->. lia.
Qed.

Lemma annual_floor_value epoch t : 1 <= dt_year t <= 9998 ->
  annual_floor_number epoch t = Ok (dt_year t - dt_year epoch + if last_second_of_year t then 1 else 0).
Proof.
  intros Hy. unfold annual_floor_number, year_fraction.
  rewrite !mk_date_midnight by (lia || (assert (forall y, days_in_month y 1 = 31) as -> by reflexivity; lia)). cbn [bind].
  rewrite year_days. pose proof (in_year t) as Y. rewrite year_days in Y. pose proof (last_second_iff t) as L.
  set (a := ymd2ord (dt_year t) 1 1) in *. set (n := (t - a * DAY) / SECOND) in *.
  assert (0 <= n < (if is_leap (dt_year t) then 366 else 365) * 86400) as Hn.
  { subst n. unfold SECOND, DAY in *. lia. }
  replace (((a + (if is_leap (dt_year t) then 366 else 365)) * DAY - a * DAY) / SECOND) with ((if is_leap (dt_year t) then 366 else 365) * 86400)
    by (unfold DAY, SECOND; destruct (is_leap _); lia).
  cbn [fst snd]. do 2 f_equal. clearbody n. clear Y.
  assert (forall total, total = 31536000 \/ total = 31622400 -> 0 <= n < total -> float32_of_int n / float32_of_int total = if n =? total - 1 then 1 else 0) as H.
  { intros total [-> | ->] Hr;
      [change (float32_of_int 31536000) with 31536000|change (float32_of_int 31622400) with 31622400];
      unfold float32_of_int; repeat (match goal with |- context [if ?b then _ else _] => destruct b eqn:? end); lia. }
  rewrite H by (destruct (is_leap _); lia).
  destruct (last_second_of_year t) eqn:EL.
  - rewrite (proj1 L) by reflexivity. rewrite Z.eqb_refl. reflexivity.
  - destruct (n =? _) eqn:E; [|reflexivity]. exfalso. apply Z.eqb_eq in E. apply L in E. discriminate.
Qed.

Lemma annual_base_year start : dt_year (annual_base start) = dt_year start.
Proof.
  unfold annual_base. rewrite year_start_ord. assert (0 <= 0 < DAY) as H0 by (unfold DAY; lia).
  pose proof (month_start_date (12 * dt_year start) 0 H0) as D. rewrite Z.add_0_r in D. unfold date_of in D.
  assert (forall a b c a' b' c' : Z, (a, b, c) = (a', b', c') -> a = a') as P by congruence. apply P in D. lia.
Qed.

Lemma monthly_base_start start : monthly_base start = month_start (month_number start) * DAY.
Proof.
  unfold monthly_base, month_start, month_number. destruct (date_fields start) as (H & _).
  replace ((12 * dt_year start + dt_month start - 1) / 12) with (dt_year start) by lia.
  replace ((12 * dt_year start + dt_month start - 1) mod 12 + 1) with (dt_month start) by lia. reflexivity.
Qed.

Lemma month_number_start n tod : 0 <= tod < DAY -> month_number (month_start n * DAY + tod) = n.
Proof.
  intros H. pose proof (month_start_date n tod H) as D. unfold date_of in D.
  assert (forall a b c a' b' c' : Z, (a, b, c) = (a', b', c') -> a = a' /\ b = b') as P by (intros; split; congruence). apply P in D.
  unfold month_number. destruct D as [-> ->]. lia.
Qed.

Lemma monthly_floor_value epoch t : valid_datetime t = true -> month_number t < 119999 ->
  monthly_floor_number epoch t = Ok (month_number t - month_number epoch).
Proof.
  intros V Hn. apply valid_year in V. destruct (date_fields t) as (Hm & Hd & _). unfold monthly_floor_number, month_fraction.
  pose proof (days_in_month_range (dt_year t) (dt_month t)) as R. rewrite mk_date_midnight by lia. cbn [bind].
  fold (monthly_base t). rewrite monthly_base_start. pose proof (proj1 (month_iff _ t) eq_refl) as I.
  assert (0 <= 0 < DAY) as H0 by (unfold DAY; lia).
  assert (12 <= month_number t) as Hn' by (unfold month_number; lia).
  replace (month_start (month_number t) * DAY) with (month_start (month_number t) * DAY + 0) by lia.
  rewrite add_months_first by lia. cbn [bind]. rewrite month_start_next in *. pose proof (month_length_range (month_number t)) as L.
  cbn [fst snd]. f_equal.
  replace (dt_year t * 12 + dt_month t - (dt_year epoch * 12 + dt_month epoch)) with (month_number t - month_number epoch) by (unfold month_number; lia).
  match goal with |- context [float32_of_int ?a / float32_of_int ?b] => assert (float32_of_int a / float32_of_int b = 0) as -> end.
  { match goal with |- float32_of_int ?a / float32_of_int ?b = 0 => assert (b = month_length (month_number t) * 86400) as -> by (unfold DAY, SECOND; lia);
      assert (0 <= a < month_length (month_number t) * 86400) as Ha by (unfold DAY, SECOND in *; lia); generalize dependent a end.
    intros a Ha. unfold float32_of_int. destruct (a <? 16777216) eqn:E1; [|exfalso; lia].
    destruct (month_length (month_number t) * 86400 <? 16777216) eqn:E2; [|exfalso; lia]. apply Z.div_small. lia. }
  lia.
Qed.

Lemma month_number_range t : valid_datetime t = true -> 12 <= month_number t < 120000.
Proof. intros V. apply valid_year in V. destruct (date_fields t) as (H & _). unfold month_number. lia. Qed.

Lemma midmonth_value epoch i : 12 <= 12 * dt_year epoch + i < 119999 ->
  let n := 12 * dt_year epoch + i in
  midmonth_time_at_index epoch i = Ok (month_start n * DAY + month_length n * DAY / 2).
Proof.
  intros H n. unfold midmonth_time_at_index. cbv zeta. fold n in H |- *.
  pose proof (days_in_month_range (n / 12) (1 + n mod 12)). pose proof (days_in_month_range ((n + 1) / 12) (1 + (n + 1) mod 12)).
  rewrite !mk_date_midnight by lia. cbn [bind]. rewrite !(Z.add_comm 1). fold (month_start n). fold (month_start (n + 1)).
  rewrite month_start_next. f_equal. f_equal. f_equal. lia.
Qed.
