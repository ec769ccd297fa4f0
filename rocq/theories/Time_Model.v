(* Model of time handling: src/eumopps/timeutils/timebase.py, src/eumopps/timeutils/datetime_numeric.py,
   src/eumopps/catalogue/step.py, src/eustace/analysis/advanced_standard/fileio/step.py,
   src/eustace/analysis/advanced_standard/examples/step.py and stepmidmonth.py, src/eustace/postprocess/operation_count.py,
   with the parts of the Python library they call (datetime, strptime, relativedelta, os.path.join, str.replace). *)
From Coq Require Import String Ascii.
From Verif Require Import Base Work_Model Cat_Model.
Local Open Scope Z_scope.
Local Open Scope list_scope.

(* ------------------------------------------------------------------ Python's calendar (datetime.py, _datetimemodule.c) *)

Definition SECOND : Z := 1000000.            (* one second, in microseconds *)
Definition DAY : Z := 86400000000.           (* one day, in microseconds *)

Definition is_leap (y : Z) : bool := (y mod 4 =? 0) && (negb (y mod 100 =? 0) || (y mod 400 =? 0)).

(* _days_in_month *)
Definition days_in_month (y m : Z) : Z :=
  if m =? 2 then (if is_leap y then 29 else 28)
  else if (m =? 4) || (m =? 6) || (m =? 9) || (m =? 11) then 30 else 31.

(* _DAYS_BEFORE_MONTH, for a non-leap year *)
Definition days_before_month_table (m : Z) : Z :=
  nth (Z.to_nat m) [-1; 0; 31; 59; 90; 120; 151; 181; 212; 243; 273; 304; 334] (-1).

(* _days_before_month *)
Definition days_before_month (y m : Z) : Z :=
  days_before_month_table m + (if (2 <? m) && is_leap y then 1 else 0).

(* _days_before_year *)
Definition days_before_year (y : Z) : Z := let p := y - 1 in p * 365 + p / 4 - p / 100 + p / 400.

(* _ymd2ord: 1 January of year 1 is day 1 *)
Definition ymd2ord (y m d : Z) : Z := days_before_year y + days_before_month y m + d.

(* _ord2ymd *)
Definition ord2ymd (n : Z) : Z * Z * Z :=
  let n := n - 1 in
  let n400 := n / 146097 in let n := n mod 146097 in
  let year := n400 * 400 + 1 in
  let n100 := n / 36524 in let n := n mod 36524 in
  let n4 := n / 1461 in let n := n mod 1461 in
  let n1 := n / 365 in let n := n mod 365 in
  let year := year + n100 * 100 + n4 * 4 + n1 in
  if (n1 =? 4) || (n100 =? 4) then (year - 1, 12, 31) else
  let leapyear := (n1 =? 3) && (negb (n4 =? 24) || (n100 =? 3)) in
  let month := (n + 50) / 32 in
  let preceding := days_before_month_table month + (if (2 <? month) && leapyear then 1 else 0) in
  if n <? preceding then
    let month' := month - 1 in
    let preceding' := preceding - (days_in_month (if leapyear then 4 else 1) month') in
    (year, month', n - preceding' + 1)
  else (year, month, n - preceding + 1).

(* A datetime object is the number of microseconds from midnight of day 0; so its date is [t / DAY] and its time of
   day [t mod DAY]. MINYEAR is 1 and MAXYEAR 9999. A timedelta is a number of microseconds: days, seconds and
   microseconds are its quotient and remainders, as Python normalises them. *)
Definition min_datetime : Z := 1 * DAY.
Definition max_datetime : Z := 3652060 * DAY - 1.
Definition valid_datetime (t : Z) : bool := (min_datetime <=? t) && (t <=? max_datetime).

(* datetime + timedelta: OverflowError outside the supported range (OverflowError is an ArithmeticError, given here
   as ValueError). *)
Definition dt_add (t delta : Z) : result Z :=
  let t' := t + delta in if valid_datetime t' then Ok t' else Err ValueError.

(* datetime(y, m, d, H, M, S): ValueError for a date or a time of day that does not exist. *)
Definition mk_datetime (y m d H M S : Z) : result Z :=
  if (1 <=? y) && (y <=? 9999) && (1 <=? m) && (m <=? 12) && (1 <=? d) && (d <=? days_in_month y m)
     && (0 <=? H) && (H <=? 23) && (0 <=? M) && (M <=? 59) && (0 <=? S) && (S <=? 59)
  then Ok (ymd2ord y m d * DAY + (H * 3600 + M * 60 + S) * SECOND)
  else Err ValueError.

Definition td_days (delta : Z) : Z := delta / DAY.
Definition td_seconds (delta : Z) : Z := (delta mod DAY) / SECOND.
Definition td_microseconds (delta : Z) : Z := delta mod SECOND.

Definition dt_year (t : Z) : Z := fst (fst (ord2ymd (t / DAY))).
Definition dt_month (t : Z) : Z := snd (fst (ord2ymd (t / DAY))).
Definition dt_day (t : Z) : Z := snd (ord2ymd (t / DAY)).
Definition dt_hour (t : Z) : Z := (t mod DAY) / SECOND / 3600.
Definition dt_minute (t : Z) : Z := (t mod DAY) / SECOND / 60 mod 60.
Definition dt_second (t : Z) : Z := (t mod DAY) / SECOND mod 60.
Definition dt_microsecond (t : Z) : Z := t mod SECOND.

(* ------------------------------------------------------------------ timebase.py *)

(* Numbers of days are rational; they are held here in units of 1/86400000000 day, so that 1/86400 day is SECOND
   units and 1/1000000 is 86400 units. Simplified: exact arithmetic instead of double precision. *)

(* timebase.py:53-56 TimeBaseDays.datetime_to_number *)
Definition days_datetime_to_number (epoch d : Z) : Z :=
  let td := d - epoch in
  td_days td * DAY + td_seconds td * SECOND + td_microseconds td * 86400.

(* timebase.py:58-60 TimeBaseDays.number_to_datetime: timedelta(days=n) *)
Definition days_number_to_datetime (epoch n : Z) : result Z := dt_add epoch n.

(* Python int() of a number of days: truncation towards zero. *)
Definition int_days (n : Z) : Z := Z.quot n DAY.

(* timebase.py:86-89 TimeBaseSeconds.datetime_to_number. All differences of datetimes fit in 64 bits. *)
Definition seconds_datetime_to_number (epoch d : Z) : Z :=
  let td := d - epoch in td_days td * 86400 + td_seconds td.

(* timebase.py:91-93 TimeBaseSeconds.number_to_datetime *)
Definition seconds_number_to_datetime (epoch n : Z) : result Z := dt_add epoch (n * SECOND).

(* numpy.float32 of a non-negative whole number below 2^25: 24 significant bits, ties to even. *)
Definition float32_of_int (n : Z) : Z :=
  if n <? 16777216 then n
  else if n mod 2 =? 0 then n
  else if (n / 2) mod 2 =? 0 then n - 1 else n + 1.

(* timebase.py:123-139 TimeBaseAnnual.year_fraction, for whole seconds: numerator and denominator, both float32. The
   end of the year 9999 is not a datetime (ValueError). *)
Definition year_fraction (d : Z) : result (Z * Z) :=
  do year_start <- mk_datetime (dt_year d) 1 1 0 0 0;
  do year_end <- mk_datetime (dt_year d + 1) 1 1 0 0 0;
  Ok (float32_of_int ((d - year_start) / SECOND), float32_of_int ((year_end - year_start) / SECOND)).

(* timebase.py:141-151 TimeBaseAnnual.datetime_to_number, its integer part floor(n): the float32 quotient of two
   such numbers a <= b is 1 exactly if a = b, otherwise at most 1 - 2^-24 (b is below 2^24 * 1.9), and the sum with
   the number of years is exact in double precision. *)
Definition annual_floor_number (epoch d : Z) : result Z :=
  do f <- year_fraction d;
  Ok (dt_year d - dt_year epoch + fst f / snd f).

(* timebase.py:153-168 TimeBaseAnnual.number_to_datetime of a whole number n: the fraction is zero. *)
Definition annual_number_to_datetime (epoch n : Z) : result Z :=
  do year_start <- mk_datetime (dt_year epoch + n) 1 1 0 0 0;
  do year_end <- mk_datetime (dt_year epoch + n + 1) 1 1 0 0 0;
  Ok year_start.

(* dateutil.relativedelta: t + relativedelta(months=k): the day is cut to the length of the month; the year must
   exist. *)
Definition add_months (t k : Z) : result Z :=
  let total := 12 * dt_year t + (dt_month t - 1) + k in
  let y := total / 12 in
  let m := total mod 12 + 1 in
  if (1 <=? y) && (y <=? 9999)
  then Ok (ymd2ord y m (Z.min (dt_day t) (days_in_month y m)) * DAY + t mod DAY)
  else Err ValueError.

(* timebase.py:218-234 TimeBaseMonthly.month_fraction *)
Definition month_fraction (d : Z) : result (Z * Z) :=
  do month_start <- mk_datetime (dt_year d) (dt_month d) 1 0 0 0;
  do month_end <- add_months month_start 1;
  Ok (float32_of_int ((d - month_start) / SECOND), float32_of_int ((month_end - month_start) / SECOND)).

(* timebase.py:236-239 TimeBaseMonthly.datetime_to_number, its integer part (as for the annual base) *)
Definition monthly_floor_number (epoch d : Z) : result Z :=
  do f <- month_fraction d;
  Ok ((dt_year d * 12 + dt_month d) - (dt_year epoch * 12 + dt_month epoch) + fst f / snd f).

(* timebase.py:242-254 TimeBaseMonthly.number_to_datetime of a whole number *)
Definition monthly_number_to_datetime (epoch n : Z) : result Z :=
  do month_start <- add_months epoch n;
  do month_end <- add_months month_start 1;
  Ok month_start.

(* ------------------------------------------------------------------ datetime_numeric.py *)

Definition digit (d : Z) : ascii := ascii_of_nat (48 + Z.to_nat d).
Definition pad2 (n : Z) : string := String (digit (n / 10 mod 10)) (String (digit (n mod 10)) EmptyString).
Definition pad4 (n : Z) : string := (pad2 (n / 100) ++ pad2 (n mod 100))%string.
Definition pad6 (n : Z) : string := (pad4 (n / 100) ++ pad2 (n mod 100))%string.

(* datetime.isoformat(' ') *)
Definition isoformat (t : Z) : string :=
  (pad4 (dt_year t) ++ "-" ++ pad2 (dt_month t) ++ "-" ++ pad2 (dt_day t) ++ " " ++
   pad2 (dt_hour t) ++ ":" ++ pad2 (dt_minute t) ++ ":" ++ pad2 (dt_second t) ++
   (if (dt_microsecond t =? 0)%Z then "" else "." ++ pad6 (dt_microsecond t)))%string.

(* Python s[a:b] for 0 <= a <= b *)
Definition str_slice (s : string) (a b : nat) : string := substring a (b - a) s.

(* datetime_numeric.py:11-14 build *)
Definition build (t : Z) : string :=
  let iso := isoformat t in
  (str_slice iso 0 4 ++ str_slice iso 5 7 ++ str_slice iso 8 10 ++ str_slice iso 11 13 ++ str_slice iso 14 16
   ++ str_slice iso 17 19)%string.

(* str.replace(c1 c2, r) for a search string of two characters *)
Fixpoint replace2 (c1 c2 : ascii) (r s : string) : string :=
  match s with
  | EmptyString => EmptyString
  | String a s' =>
      match s' with
      | EmptyString => String a EmptyString
      | String b s'' => if Ascii.eqb a c1 && Ascii.eqb b c2 then (r ++ replace2 c1 c2 r s'')%string
                        else String a (replace2 c1 c2 r s')
      end
  end.

(* datetime_numeric.py:16-28 build_from_pattern *)
Definition build_from_pattern (pattern : string) (t : Z) : string :=
  let iso := isoformat t in
  let r := pattern in
  let r := replace2 "%" "Y" (str_slice iso 0 4) r in
  let r := replace2 "%" "m" (str_slice iso 5 7) r in
  let r := replace2 "%" "d" (str_slice iso 8 10) r in
  let r := replace2 "%" "H" (str_slice iso 11 13) r in
  let r := replace2 "%" "M" (str_slice iso 14 16) r in
  let r := replace2 "%" "S" (str_slice iso 17 19) r in
  r.

(* The numeral that a character stands for. *)
Definition digit_value (c : ascii) : option Z :=
  let n := Z.of_nat (nat_of_ascii c) in
  if (48 <=? n) && (n <=? 57) then Some (n - 48) else None.

(* _strptime.py: one directive is a regular expression with alternatives, tried in order. An alternative of two
   characters: both must be numerals (or a blank, for the day) and their values satisfy a test; of one character
   likewise. *)
Definition alt2 (ok : Z -> Z -> bool) (s : string) : list (Z * string) :=
  match s with
  | String a (String b rest) =>
      match digit_value a, digit_value b with
      | Some x, Some y => if ok x y then [(10 * x + y, rest)] else []
      | _, _ => []
      end
  | _ => []
  end.

Definition alt1 (ok : Z -> bool) (s : string) : list (Z * string) :=
  match s with
  | String a rest => match digit_value a with Some x => if ok x then [(x, rest)] else [] | None => [] end
  | _ => []
  end.

(* ' [1-9]' *)
Definition alt_blank (s : string) : list (Z * string) :=
  match s with String a rest => if Ascii.eqb a " " then alt1 (fun x => 1 <=? x) rest else [] | _ => [] end.

(* %Y: \d\d\d\d *)
Definition field_Y (s : string) : list (Z * string) :=
  flat_map (fun p : Z * string => map (fun q : Z * string => (100 * fst p + fst q, snd q)) (alt2 (fun _ _ => true) (snd p)))
           (alt2 (fun _ _ => true) s).
(* %m: 1[0-2]|0[1-9]|[1-9] *)
Definition field_m (s : string) : list (Z * string) :=
  alt2 (fun x y => (x =? 1) && (y <=? 2)) s ++ alt2 (fun x y => (x =? 0) && (1 <=? y)) s ++ alt1 (fun x => 1 <=? x) s.
(* %d: 3[0-1]|[1-2]\d|0[1-9]|[1-9]| [1-9] *)
Definition field_d (s : string) : list (Z * string) :=
  alt2 (fun x y => (x =? 3) && (y <=? 1)) s ++ alt2 (fun x y => (x =? 1) || (x =? 2)) s
  ++ alt2 (fun x y => (x =? 0) && (1 <=? y)) s ++ alt1 (fun x => 1 <=? x) s ++ alt_blank s.
(* %H: 2[0-3]|[0-1]\d|\d *)
Definition field_H (s : string) : list (Z * string) :=
  alt2 (fun x y => (x =? 2) && (y <=? 3)) s ++ alt2 (fun x y => x <=? 1) s ++ alt1 (fun x => true) s.
(* %M: [0-5]\d|\d *)
Definition field_M (s : string) : list (Z * string) :=
  alt2 (fun x y => x <=? 5) s ++ alt1 (fun x => true) s.
(* %S: 6[0-1]|[0-5]\d|\d *)
Definition field_S (s : string) : list (Z * string) :=
  alt2 (fun x y => (x =? 6) && (y <=? 1)) s ++ alt2 (fun x y => x <=? 5) s ++ alt1 (fun x => true) s.

(* re.match of a sequence of directives: the first way of matching them all, in backtracking order. *)
Fixpoint first_match {A B} (f : A -> option B) (l : list A) : option B :=
  match l with
  | [] => None
  | x :: xs => match f x with Some y => Some y | None => first_match f xs end
  end.

Fixpoint match_fields (fs : list (string -> list (Z * string))) (s : string) : option (list Z * string) :=
  match fs with
  | [] => Some ([], s)
  | f :: fs' =>
      first_match (fun p : Z * string => match match_fields fs' (snd p) with
                                         | Some (vs, rest) => Some (fst p :: vs, rest)
                                         | None => None
                                         end) (f s)
  end.

(* datetime_numeric.py:7-9 parse: datetime.strptime with FORMAT "%Y%m%d%H%M%S". No match, unconverted data and
   dates that do not exist are ValueErrors. *)
Definition parse (s : string) : result Z :=
  match match_fields [field_Y; field_m; field_d; field_H; field_M; field_S] s with
  | Some ([y; m; d; hour; minute; sec], EmptyString) => mk_datetime y m d hour minute sec
  | _ => Err ValueError
  end.

(* ------------------------------------------------------------------ step.py *)

(* posixpath.join *)
Definition starts_with_slash (s : string) : bool :=
  match s with String c _ => Ascii.eqb c "/" | EmptyString => false end.
Fixpoint ends_with_slash (s : string) : bool :=
  match s with
  | EmptyString => false
  | String c EmptyString => Ascii.eqb c "/"
  | String _ s' => ends_with_slash s'
  end.
Definition join_one (path b : string) : string :=
  if starts_with_slash b then b
  else if String.eqb path "" || ends_with_slash path then (path ++ b)%string
  else (path ++ "/" ++ b)%string.
Definition os_path_join (ps : list string) : result string :=
  match ps with
  | [] => Err TypeError
  | p :: rest => Ok (fold_left join_one rest p)
  end.

(* 'c1c2' in s *)
Fixpoint contains2 (c1 c2 : ascii) (s : string) : bool :=
  match s with
  | String a s' => match s' with
                   | String b _ => (Ascii.eqb a c1 && Ascii.eqb b c2) || contains2 c1 c2 s'
                   | EmptyString => false
                   end
  | EmptyString => false
  end.

(* step.py:105-109 filename_from_patterns *)
Definition filename_from_patterns (patterns : list string) (t : Z) : result string :=
  os_path_join (map (fun p => build_from_pattern p t) patterns).

(* step.py:63-80 StepDaily.parsetime of a string; a datetime is taken as it is. *)
Inductive time_param := TimeObject (t : Z) | TimeString (s : string) | TimeOther.
Definition parsetime (p : time_param) : result Z :=
  match p with TimeObject t => Ok t | TimeString s => parse s | TimeOther => Err ValueError end.

(* step.py:88-91 *)
Definition daily_count (start end_ : Z) : Z := int_days (days_datetime_to_number start end_) + 1.
(* step.py:97-99 *)
Definition daily_index_at_time (start t : Z) : Z := int_days (days_datetime_to_number start t).
(* step.py:101-103 *)
Definition daily_time_at_index (start i : Z) : result Z := days_number_to_datetime start (i * DAY).

(* The subtraction t - epoch of a missing time is a TypeError. *)
Definition on_time (f : Z -> result Z) (t : option Z) : result Z :=
  match t with Some t => f t | None => Err TypeError end.

(* step.py:111-118 create_output_entry; a step index may be outside the range of datetimes. *)
Definition timed_output_entry (time_at_index : Z -> result Z) (patterns : list string) (i : Z) : result entry :=
  do t <- time_at_index i;
  do name <- filename_from_patterns patterns t;
  Ok {| en_name := name; en_time := Some t |}.

(* step.py:120-124 *)
Definition daily_unique (patterns : list string) : bool :=
  let p := String.concat "" patterns in contains2 "%" "Y" p && contains2 "%" "m" p && contains2 "%" "d" p.

(* step.py:63-124 StepDaily *)
Definition step_daily (start end_ : Z) : step :=
  {| st_count := daily_count start end_;
     st_index_at_time := on_time (fun t => Ok (daily_index_at_time start t));
     st_time_at_index := daily_time_at_index start;
     st_output_entry := timed_output_entry (daily_time_at_index start);
     st_unique := daily_unique |}.

(* step.py:82-86 StepDaily.__init__ *)
Definition new_step_daily (start end_ : time_param) : result step :=
  do s <- parsetime start; do e <- parsetime end_; Ok (step_daily s e).

(* step.py:40-61 StepOnce: index 0 whatever the time, NotImplementedError (here AttributeError) for the time. *)
Definition step_once : step :=
  {| st_count := 1;
     st_index_at_time := fun _ => Ok 0;
     st_time_at_index := fun _ => Err AttributeError;
     st_output_entry := fun patterns _ => do name <- os_path_join patterns; Ok {| en_name := name; en_time := None |};
     st_unique := fun _ => true |}.

(* epoch.py:10 EPOCH: 1 January 1850 *)
Definition EPOCH : Z := ymd2ord 1850 1 1 * DAY.

(* fileio/step.py:11-47 StepDailyEpoch: count from start to end (19-22), indices counted from EPOCH (24-25, 43-47);
   is_uniquely_defined_by is inherited. *)
Definition step_daily_epoch (start end_ : Z) : step :=
  {| st_count := int_days (days_datetime_to_number EPOCH end_ - days_datetime_to_number EPOCH start) + 1;
     st_index_at_time := on_time (fun t => Ok (daily_index_at_time EPOCH t));
     st_time_at_index := daily_time_at_index EPOCH;
     st_output_entry := timed_output_entry (daily_time_at_index EPOCH);
     st_unique := daily_unique |}.

(* examples/step.py:11-75 StepAnnual, whole seconds. Exceptions of count are not part of the record [step]: the count
   is then 0. *)
Definition annual_base (start : Z) : Z := ymd2ord (dt_year start) 1 1 * DAY.
Definition annual_index_at_time (start t : Z) : result Z := annual_floor_number (annual_base start) t.
Definition annual_time_at_index (start i : Z) : result Z := annual_number_to_datetime (annual_base start) i.
(* examples/step.py:36-39: int() instead of floor; the same for numbers that are not negative. *)
Definition annual_count (start end_ : Z) : result Z :=
  do n <- annual_floor_number (annual_base start) end_; Ok (n + 1).
Definition annual_unique (patterns : list string) : bool := contains2 "%" "Y" (String.concat "" patterns).

(* examples/step.py:77-145 StepMonthly, whole seconds *)
Definition monthly_base (start : Z) : Z := ymd2ord (dt_year start) (dt_month start) 1 * DAY.
Definition monthly_index_at_time (start t : Z) : result Z := monthly_floor_number (monthly_base start) t.
Definition monthly_time_at_index (start i : Z) : result Z := monthly_number_to_datetime (monthly_base start) i.
Definition monthly_count (start end_ : Z) : result Z :=
  do n <- monthly_floor_number (monthly_base start) end_; Ok (n + 1).

(* examples/stepmidmonth.py:23-32 StepMidMonth.time_at_index (integer division of Python 2; timedelta / 2 floors to
   the microsecond) *)
Definition midmonth_time_at_index (epoch i : Z) : result Z :=
  let total := 12 * dt_year epoch + i in
  do t0 <- mk_datetime (total / 12) (1 + total mod 12) 1 0 0 0;
  do t1 <- mk_datetime ((total + 1) / 12) (1 + (total + 1) mod 12) 1 0 0 0;
  Ok (t0 + (t1 - t0) / 2).

(* examples/stepmidmonth.py:34-45 operation_indices_for_input_entry *)
Definition midmonth_indices_for_entry (epoch count : Z) (time : option Z) : list Z :=
  match time with
  | Some t => [12 * (dt_year t - dt_year epoch) + (dt_month t - dt_month epoch)]
  | None => zrange 0 count
  end.

(* ------------------------------------------------------------------ postprocess/operation_count.py *)

(* operation_count.py:5-13 operation_dates *)
Definition operation_dates (reference_time operation_index : Z) : result (list Z) :=
  do first_day <- add_months reference_time operation_index;
  do next <- add_months first_day 1;
  do last_day <- dt_add next (- DAY);
  mapM (fun dayindex => dt_add first_day (dayindex * DAY)) (zrange 0 (td_days (last_day - first_day) + 1)).

(* dateutil.relativedelta(dt1, dt2) for two midnights: the number of whole months, first by year and month and then
   reduced (or, if dt1 is earlier, increased) while dt2 plus that many months is beyond dt1. One correction is always
   enough, since months are at most 31 days long; years * 12 + months is this number. *)
Definition months_between (dt1 dt2 : Z) : result Z :=
  let n := (dt_year dt1 - dt_year dt2) * 12 + (dt_month dt1 - dt_month dt2) in
  do dtm <- add_months dt2 n;
  Ok (if dt1 <? dt2 then (if dtm <? dt1 then n + 1 else n) else (if dt1 <? dtm then n - 1 else n)).

(* operation_count.py:15-25 operation_count *)
Definition operation_count (start_year end_year : Z) : result Z :=
  do first_day <- mk_datetime start_year 1 1 0 0 0;
  do last_day <- mk_datetime end_year 12 31 0 0 0;
  do after <- dt_add last_day DAY;
  months_between after first_day.
