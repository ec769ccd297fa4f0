(* Model of the quality flags of src/eustace/postprocess: flags.py, window_check.py, calendar_check.py,
   outlier_window_check.py, merge_flag_files.py and apply_mask.py.
   A flag word is an integer (the flags are numpy integers; every operation used on them, |, & and ~, is the one on integers, and all
   words stay between 0 and 2^16, so the width of the numpy type makes no difference). A field of flags is the list of its cells in
   row-major order. What iris does to a word equal to the fill value 65535 (it masks it) is not modelled. *)
From Coq Require Import String.
From Coq Require Import QArith Qcanon.
From Verif Require Import Base Time_Model Grid_Model.
Local Open Scope Z_scope.
Local Open Scope list_scope.

(* ------------------------------------------------------------------ flags.py *)
(* flags.py:15-50 *)
Definition bit (n : Z) : Z := Z.shiftl 1 n.
Definition FLAG_MAX_USED : Z := 13.
Definition NULL_FLAG : Z := 0.
Definition DAY_FLAG : Z := bit 0.
Definition PRIOR_WINDOW_FLAG : Z := bit 1.
Definition POST_WINDOW_FLAG : Z := bit 2.
Definition PRIOR_CALENDAR_FLAG : Z := bit 3.
Definition POST_CALENDAR_FLAG : Z := bit 4.
Definition CLIMATOLOGY_UNC_FLAG : Z := bit 5.
Definition LARGE_SCALE_UNC_FLAG : Z := bit 6.
Definition AREAL_LOW_FLAG : Z := bit 7.
Definition AREAL_HIGH_FLAG : Z := bit 8.
Definition EXTREME_LOW_FLAG : Z := bit 9.
Definition EXTREME_HIGH_FLAG : Z := bit 10.
Definition PERSISTANT_OUTLIER_FLAG : Z := bit 11.
Definition MISSING_MARINE_FLAG : Z := bit 12.
Definition LOCATION_LOW_FLAG : Z := bit 13.
Definition LOCATION_HIGH_FLAG : Z := bit 14.
Definition MISSING_FLAG_FLAG : Z := bit 15.
(* flags.py:53 *)
Definition CALENDAR_DAY_FLAG : Z := Z.lor (Z.lor DAY_FLAG PRIOR_WINDOW_FLAG) POST_WINDOW_FLAG.
(* flags.py:55-70 *)
Definition FLAG_MEANINGS : list string :=
  [ "day_constraint"; "prior_window_constraint"; "post_window_constraint"; "prior_calendar_constraint"; "post_calendar_constraint";
    "climatology_uncertainty_qc"; "large_scale_uncertainty_qc"; "areal_low_value_qc"; "areal_high_value_qc"; "extreme_low_value_qc";
    "extreme_high_value_qc"; "marine_location_flag"; "location_low_value_qc"; "location_high_value_qc"; "unconstrained_calendar_day_qc" ]%string.
(* apply_mask.py:145-146 save_flag_file: the attributes flag_masks and flag_meanings of the variable (the meanings before they are joined with
   blanks) *)
Definition flag_masks : list Z := map bit (zrange 0 FLAG_MAX_USED).
Definition flag_meanings : list string := FLAG_MEANINGS.

(* ------------------------------------------------------------------ fields *)
Definition field := list Z.
(* numpy.bitwise_and(q, flag) == flag *)
Definition has (q flag : Z) : bool := Z.land q flag =? flag.
(* f[mask] = f[mask] | flag: IndexError if the shapes differ *)
Definition set_where (mask : list bool) (flag : Z) (f : field) : result field :=
  if zlen mask =? zlen f then Ok (map (fun p => if fst p : bool then Z.lor (snd p) flag else snd p) (combine mask f)) else Err IndexError.
(* counts[mask] += 1 *)
Definition count_where (mask : list bool) (counts : list Z) : result (list Z) :=
  if zlen mask =? zlen counts then Ok (map (fun p => if fst p : bool then snd p + 1 else snd p) (combine mask counts)) else Err IndexError.
(* counts < threshold, where counts may still be None: in Python 2 None is less than every integer, and indexing with True selects every cell. *)
Definition below (counts : option (list Z)) (threshold : Z) (f : field) : list bool :=
  match counts with None => map (fun _ => true) f | Some c => map (fun n => n <? threshold) c end.
(* zeros of the same shape unless there are counts already *)
Definition or_zeros {A} (counts : option (list Z)) (like : list A) : list Z := match counts with Some c => c | None => map (fun _ => 0) like end.
(* the flag files of a directory by day (proleptic Gregorian ordinal, as in Time_Model); None: the file cannot be read *)
Definition store := Z -> option field.

(* ------------------------------------------------------------------ window_check.py *)
Record window_state := { w_flags : option field; w_prior : option (list Z); w_post : option (list Z) }.
(* window_check.py:76-111, one round of the loop *)
Definition window_day (load : store) (reference_time target : Z) (s : window_state) (dayshift : Z) : result window_state :=
  do day_to_load <- dt_add reference_time (dayshift * DAY);
  match load (day_to_load / DAY) with
  | None => Ok s
  | Some reference_flags =>
      if dayshift =? 0 then Ok {| w_flags := Some reference_flags; w_prior := w_prior s; w_post := w_post s |}
      else
        let isconstrained := map (fun q => negb (has q target)) reference_flags in
        let prior := or_zeros (w_prior s) isconstrained in
        let post := or_zeros (w_post s) isconstrained in
        do prior' <- (if dayshift <? 0 then count_where isconstrained prior else Ok prior);
        do post' <- (if 0 <? dayshift then count_where isconstrained post else Ok post);
        Ok {| w_flags := w_flags s; w_prior := Some prior'; w_post := Some post' |}
  end.
(* window_check.py:66-122 local_window_constraint_checks; an unreadable centre day leaves flag_values undefined *)
Definition local_window_constraint_checks (window_range count_threshold target : Z) (load : store) (reference_time : Z) : result field :=
  do s <- foldM (window_day load reference_time target) {| w_flags := None; w_prior := None; w_post := None |} (zrange (- window_range) (window_range + 1));
  match w_flags s with
  | None => Err NameError
  | Some flag_values =>
      do flag_values' <- set_where (below (w_prior s) count_threshold flag_values) PRIOR_WINDOW_FLAG flag_values;
      set_where (below (w_post s) count_threshold flag_values) POST_WINDOW_FLAG flag_values'
  end.

(* ------------------------------------------------------------------ calendar_check.py *)
Definition COUNT_THRESHOLD : Z := 1.        (* calendar_check.py:62 *)
Definition TOTAL_COUNT_THRESHOLD : Z := 3.  (* calendar_check.py:65 *)
Record calendar_state := { c_flags : option field; c_prior : option (list Z); c_post : option (list Z); c_total : option (list Z) }.
(* calendar_check.py:82-119, one round of the loop; relativedelta(years=k) is relativedelta(months=12*k) *)
Definition calendar_day (load : store) (reference_time target : Z) (s : calendar_state) (yearshift : Z) : result calendar_state :=
  do day_to_load <- add_months reference_time (12 * yearshift);
  match load (day_to_load / DAY) with
  | None => Ok s
  | Some reference_flags =>
      let isconstrained := map (fun q => negb (has q target)) reference_flags in
      do total' <- count_where isconstrained (or_zeros (c_total s) isconstrained);
      if dt_year day_to_load =? dt_year reference_time
      then Ok {| c_flags := Some reference_flags; c_prior := c_prior s; c_post := c_post s; c_total := Some total' |}
      else
        let prior := or_zeros (c_prior s) isconstrained in
        let post := or_zeros (c_post s) isconstrained in
        do prior' <- (if dt_year day_to_load <? dt_year reference_time then count_where isconstrained prior else Ok prior);
        do post' <- (if dt_year reference_time <? dt_year day_to_load then count_where isconstrained post else Ok post);
        Ok {| c_flags := c_flags s; c_prior := Some prior'; c_post := Some post'; c_total := Some total' |}
  end.
(* calendar_check.py:73-132 calendar_constraint_checks *)
Definition calendar_constraint_checks (start_year end_year target : Z) (load : store) (reference_time : Z) : result field :=
  do s <- foldM (calendar_day load reference_time target) {| c_flags := None; c_prior := None; c_post := None; c_total := None |}
            (zrange (start_year - dt_year reference_time) (end_year - dt_year reference_time + 1));
  match c_flags s with
  | None => Err NameError
  | Some flag_values =>
      do f1 <- set_where (below (c_prior s) COUNT_THRESHOLD flag_values) PRIOR_CALENDAR_FLAG flag_values;
      do f2 <- set_where (below (c_post s) COUNT_THRESHOLD flag_values) POST_CALENDAR_FLAG f1;
      set_where (below (c_total s) TOTAL_COUNT_THRESHOLD flag_values) MISSING_FLAG_FLAG f2
  end.

(* ------------------------------------------------------------------ outlier_window_check.py *)
(* outlier_window_check.py:62 *)
Definition OUTLIER_FLAGS : list Z := [AREAL_LOW_FLAG; AREAL_HIGH_FLAG; EXTREME_LOW_FLAG; EXTREME_HIGH_FLAG].
Record outlier_state := { o_flags : option field; o_bad : option (list Z) }.
(* outlier_window_check.py:78-103, one round of the loop *)
Definition outlier_day (load : store) (reference_time : Z) (s : outlier_state) (dayshift : Z) : result outlier_state :=
  do day_to_load <- dt_add reference_time (dayshift * DAY);
  match load (day_to_load / DAY) with
  | None => Ok s
  | Some reference_flags =>
      let flag_values := if dayshift =? 0 then Some reference_flags else o_flags s in
      let flagged_outlier := map (fun q => existsb (has q) OUTLIER_FLAGS) reference_flags in
      do bad <- count_where flagged_outlier (or_zeros (o_bad s) flagged_outlier);
      Ok {| o_flags := flag_values; o_bad := Some bad |}
  end.
(* outlier_window_check.py:70-111 persistant_outlier_check (None >= threshold is false, but then flag_values is undefined as well) *)
Definition persistant_outlier_check (window_range count_threshold : Z) (load : store) (reference_time : Z) : result field :=
  do s <- foldM (outlier_day load reference_time) {| o_flags := None; o_bad := None |} (zrange (- window_range) (window_range + 1));
  match o_flags s with
  | None => Err NameError
  | Some flag_values =>
      let persistantly_flagged := match o_bad s with None => map (fun _ => false) flag_values | Some c => map (fun n => count_threshold <=? n) c end in
      set_where persistantly_flagged PERSISTANT_OUTLIER_FLAG flag_values
  end.

(* ------------------------------------------------------------------ flagging_operation *)
(* window_check.py:147-167, calendar_check.py:153-169, outlier_window_check.py (the same loop): each date is checked against the files of the input
   directory and its file is written to the output directory. Here the two are the same directory, as in the defaults of window_check.py. An
   exception ends the loop; the files written before stay. *)
Definition save_day (s : store) (day : Z) (f : field) : store := fun d => if d =? day then Some f else s d.
Fixpoint flag_in_place (check : store -> Z -> result field) (s : store) (dates : list Z) : store * option err :=
  match dates with
  | [] => (s, None)
  | t :: rest =>
      match check s t with
      | Err e => (s, Some e)
      | Ok f => flag_in_place check (save_day s (t / DAY) f) rest
      end
  end.

(* ------------------------------------------------------------------ merge_flag_files.py *)
(* merge_flag_files.py:39-45 for one cell *)
Definition merge_cell (flags_1 flags_2 : Z) : Z :=
  let incorrect_flag := has flags_2 AREAL_LOW_FLAG in
  let flags_2 := if incorrect_flag then Z.lor flags_2 MISSING_MARINE_FLAG else flags_2 in
  let flags_2 := Z.land flags_2 (Z.lnot AREAL_LOW_FLAG) in
  Z.lor flags_1 flags_2.
(* merge_flag_files.py:28-47 merged_flags: fields of different shapes do not broadcast (ValueError) *)
Definition merged_flags (flags_1 flags_2 : field) : result field :=
  if zlen flags_1 =? zlen flags_2 then Ok (map (fun p => merge_cell (fst p) (snd p)) (combine flags_1 flags_2)) else Err ValueError.

(* ------------------------------------------------------------------ apply_mask.py *)
(* apply_mask.py:70-79 *)
Definition FLAGS_TO_MASK : list (Z * Z) :=
  [ (MISSING_FLAG_FLAG, MISSING_MARINE_FLAG); (LARGE_SCALE_UNC_FLAG, NULL_FLAG); (CLIMATOLOGY_UNC_FLAG, NULL_FLAG); (AREAL_LOW_FLAG, NULL_FLAG);
    (AREAL_HIGH_FLAG, NULL_FLAG); (EXTREME_LOW_FLAG, NULL_FLAG); (EXTREME_HIGH_FLAG, NULL_FLAG); (LOCATION_LOW_FLAG, NULL_FLAG); (LOCATION_HIGH_FLAG, NULL_FLAG) ].
(* apply_mask.py:433-436 *)
Definition flags_to_mask (year : Z) : list (Z * Z) := FLAGS_TO_MASK ++ (if 2012 <? year then [(MISSING_MARINE_FLAG, NULL_FLAG)] else []).
(* apply_mask.py:267-272 compute_mask, for one cell *)
Definition compute_mask (specs : list (Z * Z)) (q : Z) : bool := existsb (fun spec => Z.land q (Z.lor (fst spec) (snd spec)) =? fst spec) specs.

(* apply_mask.py:98-101: rows of the coastal influence. Row 0 becomes land, then the last row sea, then column 0 takes the values of column 1 and the
   last column those of the last but one (IndexError for rows shorter than two cells). *)
Definition LAND_VALUE : Qc := 0%Qc.
Definition SEA_VALUE : Qc := qz 100.
Definition MARINE_CLASSIFICATION_THRESHOLD : Qc := qz 95.
Definition fill_row (v : Qc) (row : list Qc) : list Qc := map (fun _ => v) row.
Definition set_first {A} (f : A -> A) (l : list A) : list A := match l with [] => [] | x :: r => f x :: r end.
Definition set_last {A} (f : A -> A) (l : list A) : list A := match rev l with [] => [] | x :: r => rev (f x :: r) end.
Definition fix_columns (row : list Qc) : result (list Qc) :=
  do second <- py_index row 1;
  let row := set_first (fun _ => second) row in
  do last_but_one <- py_index row (-2);
  Ok (set_last (fun _ => last_but_one) row).
Definition fix_coast (coastal_influence : list (list Qc)) : result (list (list Qc)) :=
  match coastal_influence with
  | [] => Err IndexError
  | _ => mapM fix_columns (set_last (fill_row SEA_VALUE) (set_first (fill_row LAND_VALUE) coastal_influence))
  end.
(* apply_mask.py:84-109 reset_marine_flag *)
Definition reset_marine_flag (coastal_influence : list (list Qc)) (flag_values : field) : result field :=
  let flag_values := map (fun q => Z.land q (Z.lnot MISSING_MARINE_FLAG)) flag_values in
  do fixed <- fix_coast coastal_influence;
  let flat := concat fixed in
  if zlen flat =? zlen flag_values then set_where (map (fun c => Qclt_bool MARINE_CLASSIFICATION_THRESHOLD c) flat) MISSING_MARINE_FLAG flag_values
  else Err ValueError.

Section Mask.
Variable V : Type.  (* values of the output fields *)
(* numpy.ma.masked_where(mask, data): IndexError if the shapes differ; None is a masked cell *)
Definition masked_where (mask : list bool) (data : list V) : result (list (option V)) :=
  if zlen mask =? zlen data then Ok (map (fun p => if fst p : bool then None else Some (snd p)) (combine mask data)) else Err IndexError.

Inductive variable := TAS | TASUNCERTAINTY | TAS_OBSERVATION_INFLUENCE | TASENSEMBLE (index : Z) | TASPERTURBATION.
Inductive outfile := Global (version rundate : string) | Climatology | LargeScale | Local.
Definition component := (list V * list V * list V)%type.   (* analysis, uncertainty, influence *)
(* What load_analysis and the others find for the day; None: the file cannot be read. An ensemble member is the number at the end of its variable name
   (None if it is no number) and its data. *)
Record day_data := {
  d_flags : option field; d_flags2 : option (option field);   (* the second is used only if a second directory is given *)
  d_coast : list (list Qc);
  d_analysis : option (component * list (option Z * list V));
  d_climatology : option component; d_large_scale : option component; d_local : option component }.
Definition read {A} (x : option A) : result A := match x with Some a => Ok a | None => Err IOErrorE end.
(* numpy: qc_flags | other *)
Definition or_fields (a b : field) : result field :=
  if zlen a =? zlen b then Ok (map (fun p => Z.lor (fst p) (snd p)) (combine a b)) else Err ValueError.
(* apply_mask.py:280-288 *)
Definition combined_mask (specs : list (Z * Z)) (d : day_data) : result (list bool) :=
  do qc <- read (d_flags d);
  do qc <- match d_flags2 d with None => Ok qc | Some second => do q2 <- read second; or_fields qc q2 end;
  do qc <- reset_marine_flag (d_coast d) qc;
  Ok (map (compute_mask specs) qc).
(* apply_mask.py:309-316: the version of the output by iteration; version_string stays undefined for others *)
Definition version (iteration : Z) : result (string * string) :=
  if iteration =? 4 then Ok ("R001400", "20190326")%string else if iteration =? 9 then Ok ("R001413", "20190405")%string else Err NameError.
(* apply_mask.py:338 sorted(ensemble_members, key = number at the end of the name): insertion keeps members with equal numbers in order *)
Fixpoint insert_member (x : Z * list V) (l : list (Z * list V)) : list (Z * list V) :=
  match l with [] => [x] | y :: r => if fst x <=? fst y then x :: l else y :: insert_member x r end.
Definition sort_members (l : list (Z * list V)) : list (Z * list V) := fold_right insert_member [] l.
Definition member_number (m : option Z * list V) : result (Z * list V) :=
  match fst m with Some n => Ok (n, snd m) | None => Err ValueError end.
Definition file := (outfile * list (variable * list (option V)))%type.
(* three fields of a file, apply_mask.py:333-335, 365-367, 388-390, 411-413 *)
Definition three (first : variable) (mask : list bool) (c : component) : result (list (variable * list (option V))) :=
  let '(analysis, uncertainty, influence) := c in
  do a <- masked_where mask analysis;
  do u <- masked_where mask uncertainty;
  do i <- masked_where mask influence;
  Ok [(first, a); (TASUNCERTAINTY, u); (TAS_OBSERVATION_INFLUENCE, i)].
(* apply_mask.py:309-345: the output product *)
Definition product_file (iteration : Z) (mask : list bool) (d : day_data) : result file :=
  do analysis <- read (d_analysis d);
  do v <- version iteration;
  do vars <- three TAS mask (fst analysis);
  do members <- mapM member_number (snd analysis);
  do ensemble <- mapM (fun im => do m <- masked_where mask (snd (snd im)); Ok (TASENSEMBLE (fst im), m))
                   (combine (zrange 0 (zlen members)) (sort_members members));
  Ok (Global (fst v) (snd v), vars ++ ensemble).
Definition component_file (name : outfile) (first : variable) (mask : list bool) (c : option component) : result file :=
  do c <- read c; do vars <- three first mask c; Ok (name, vars).
(* apply_mask.py:274-404 apply_mask: the files written, and the exception that ended it, if any. (A file is given here as written only when it is
   complete.) *)
Definition apply_mask (iteration : Z) (specs : list (Z * Z)) (d : day_data) : list file * option err :=
  match combined_mask specs d with
  | Err e => ([], Some e)
  | Ok mask =>
      fold_left (fun acc (r : result file) => match snd acc with Some e => acc | None => match r with Ok f => (fst acc ++ [f], None) | Err e => (fst acc, Some e) end end)
        [ product_file iteration mask d; component_file Climatology TAS mask (d_climatology d);
          component_file LargeScale TASPERTURBATION mask (d_large_scale d); component_file Local TASPERTURBATION mask (d_local d) ] ([], None)
  end.
(* apply_mask.py:425-438: the masking of one date *)
Definition mask_date (iteration date : Z) (d : day_data) : list file * option err := apply_mask iteration (flags_to_mask (dt_year date)) d.
End Mask.
