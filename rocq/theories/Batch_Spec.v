(* Specification vocabulary for annual batches of days. *)
From Coq Require Import String.
From Verif Require Import Base Cat_Model Time_Model Time_Spec.
Local Open Scope Z_scope.
Local Open Scope list_scope.

(* Days are numbered from 1 January 1850. *)
Definition midnight (d : Z) : Z := EPOCH + d * DAY.
Definition day_of (t : Z) : Z := (t - EPOCH) / DAY.

(* A request for the days from start to end, both given in whole seconds, in years that leave room for the two
   following years in the calendar. *)
Definition period (start end_ : Z) : Prop :=
  whole_seconds_from EPOCH start /\ whole_seconds_from EPOCH end_ /\ start <= end_ /\
  1 <= dt_year start /\ dt_year end_ <= 9996.

(* The days of the period. *)
Definition days_of_period (start end_ : Z) : list Z := zrange (day_of start) (day_of end_ + 1).

(* Operation number k works on the days of the period that fall in calendar year (year of start) + k. *)
Definition days_of_operation (start end_ k : Z) : list Z :=
  filter (fun d => dt_year (midnight d) =? dt_year start + k) (days_of_period start end_).

(* The final second of a calendar year. *)
Definition in_last_second (t : Z) : Prop :=
  (dt_month t, dt_day t, dt_hour t, dt_minute t, dt_second t) = (12, 31, 23, 59, 59).

(* A file whose time is given in whole seconds, but not the last one of a year. *)
Definition dated (f : entry) (t : Z) : Prop :=
  en_time f = Some t /\ whole_seconds_from EPOCH t /\ 1 <= dt_year t <= 9996 /\ ~ in_last_second t.

(* Number e on the list of files is a file of day d. *)
Definition is_file_of_day (files : list entry) (d e : Z) : Prop :=
  0 <= e /\ exists f t, nth_error files (Z.to_nat e) = Some f /\ en_time f = Some t /\ day_of t = d.

(* What an operation is given for day d: the last file of that day, and the marker -1 if there is none. *)
Definition file_of_day (files : list entry) (d e : Z) : Prop :=
  (is_file_of_day files d e /\ forall e', e < e' -> ~ is_file_of_day files d e') \/
  (e = -1 /\ forall e', ~ is_file_of_day files d e').

(* Some file of the list falls in calendar year y. *)
Definition year_has_file (files : list entry) (y : Z) : Prop :=
  exists f t, In f files /\ en_time f = Some t /\ dt_year t = y.

(* References are stored as trios: data set, subset, entry. *)
Definition as_trios (i : nat) (subsetindex : Z) (entries : list Z) : list Z :=
  flat_map (fun e => [Z.of_nat i; subsetindex; e]) entries.

(* Number e on the list of files is called name, and no later one is. *)
Definition last_named (files : list entry) (name : string) (e : Z) : Prop :=
  0 <= e /\ (exists f, nth_error files (Z.to_nat e) = Some f /\ en_name f = name) /\
  forall e' f', e < e' -> nth_error files (Z.to_nat e') = Some f' -> en_name f' <> name.

(* Number e on the list of files is the output of day d. *)
Definition output_of_day (patterns : list string) (files : list entry) (d e : Z) : Prop :=
  0 <= e /\ exists f, nth_error files (Z.to_nat e) = Some f /\
  filename_from_patterns patterns (midnight d) = Ok (en_name f).
