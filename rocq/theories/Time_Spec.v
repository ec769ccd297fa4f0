(* Specification vocabulary for times. A time is a number of microseconds; a date is a year, a month and a day. *)
From Coq Require Import String Ascii.
From Verif Require Import Base Time_Model.
Local Open Scope Z_scope.
Local Open Scope list_scope.

(* The time lies a whole number of seconds from the reference (as do all times with whole seconds, when the reference
   has whole seconds). *)
Definition whole_seconds_from (reference t : Z) : Prop := exists s, t = reference + s * SECOND.

(* Within the 24 hours that begin i days after the start. *)
Definition in_day (start i t : Z) : Prop := start + i * DAY <= t < start + (i + 1) * DAY.

(* The Gregorian calendar: lengths of months, and the day after a date. *)
Definition leap (y : Z) : Prop := (4 | y) /\ (~ (100 | y) \/ (400 | y)).
Definition next_day (date : Z * Z * Z) : Z * Z * Z :=
  let '(y, m, d) := date in
  if d <? days_in_month y m then (y, m, d + 1)
  else if m <? 12 then (y, m + 1, 1)
  else (y + 1, 1, 1).

Definition date_of (t : Z) : Z * Z * Z := (dt_year t, dt_month t, dt_day t).

(* Months are numbered consecutively through the years. *)
Definition month_number (t : Z) : Z := 12 * dt_year t + dt_month t - 1.

(* The string consists of n numerals. *)
Definition numeral (c : ascii) : Prop := (48 <= nat_of_ascii c <= 57)%nat.
Fixpoint numerals (n : nat) (s : string) : Prop :=
  match n, s with
  | O, EmptyString => True
  | S n', String c s' => numeral c /\ numerals n' s'
  | _, _ => False
  end.

(* The number a string of numerals denotes. *)
Fixpoint denotes_from (acc : Z) (s : string) : Z :=
  match s with EmptyString => acc | String c s' => denotes_from (10 * acc + (Z.of_nat (nat_of_ascii c) - 48)) s' end.
Definition denotes (s : string) : Z := denotes_from 0 s.

(* Removing fractions of a second. *)
Definition to_the_second (t : Z) : Z := t / SECOND * SECOND.

(* p occurs in s *)
Definition occurs (p s : string) : Prop := exists a b, s = (a ++ p ++ b)%string.
