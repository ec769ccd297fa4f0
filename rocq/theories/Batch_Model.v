(* Model of the placeholders that hand out days in annual batches:
   src/eustace/analysis/advanced_standard/examples/placeholder.py. The annual step itself (examples/step.py:11-75) is in
   Time_Model; the catalogue in Cat_Model. Printed messages are left out. *)
From Coq Require Import String.
From Verif Require Import Base Work_Model Cat_Model Time_Model.
Local Open Scope Z_scope.
Local Open Scope list_scope.

(* epoch.py:16-18 days_since_epoch, in units of 1/86400000000 day (see Time_Model). *)
Definition days_since_epoch (t : Z) : Z := days_datetime_to_number EPOCH t.

(* int(numpy.floor(n)) of a number of days *)
Definition floor_days (n : Z) : Z := n / DAY.

(* placeholder.py:17-22 day_numbers_in_year *)
Definition day_numbers_in_year (start index : Z) : result (list Z) :=
  do t1 <- annual_time_at_index start index;
  do t2 <- annual_time_at_index start (index + 1);
  Ok (zrange (int_days (days_since_epoch t1)) (int_days (days_since_epoch t2))).

(* placeholder.py:44-45, 62-63, 150-151, 366-367: start_day_number and end_day_number *)
Definition day_number (t : Z) : Z := floor_days (days_since_epoch t).

(* [day for day in days if day >= lo and day <= hi] *)
Definition within (lo hi : Z) (days : list Z) : list Z := filter (fun d => (lo <=? d) && (d <=? hi)) days.

(* placeholder.py:48-51, 66-68, 168, 236, 369-370: the days of one operation *)
Definition batch_days (start end_ index : Z) : result (list Z) :=
  do days <- day_numbers_in_year start index;
  Ok (within (day_number start) (day_number end_) days).

(* placeholder.py:39-53 AnalysisAnnualBatchDayIndices.operation_input_resolve *)
Definition batch_day_indices (start end_ : Z) : result (list (list Z)) :=
  do count <- annual_count start end_;
  mapM (batch_days start end_) (zrange 0 count).

(* placeholder.py:55-74 AnalysisAnnualBatchDayTimes.operation_input_resolve; 60: TimeBaseDays(EPOCH) *)
Definition batch_day_times (start end_ : Z) : result (list (list Z)) :=
  do count <- annual_count start end_;
  mapM (fun index => do days <- batch_days start end_ index;
                     mapM (fun d => days_number_to_datetime EPOCH (d * DAY)) days) (zrange 0 count).

(* placeholder.py:24-37 AnalysisStepIndex.operation_input_resolve: numpy.arange(int(days(start)), int(days(end) + 1)). Day
   numbers of datetimes fit in 32 bits. *)
Definition analysis_step_index (start end_ : Z) : list Z :=
  zrange (int_days (days_since_epoch start)) (int_days (days_since_epoch end_ + DAY)).

(* numpy.searchsorted(l, x) for an ascending list: the number of elements below x. *)
Definition searchsorted (l : list Z) (x : Z) : Z := zlen (filter (fun y => y <? x) l).

(* Python l[i] = x for 0 <= i *)
Definition py_set (l : list Z) (i x : Z) : result (list Z) :=
  if (0 <=? i) && (i <? zlen l) then Ok (update_nth (Z.to_nat i) (fun _ => x) l) else Err IndexError.

Fixpoint set_all (l : list Z) (pairs : list (Z * Z)) : result (list Z) :=
  match pairs with
  | [] => Ok l
  | (i, x) :: rest => do l' <- py_set l i x; set_all l' rest
  end.

(* placeholder.py:155-185, one round of the loop: [group] holds the indices of the files of this step in catalogue
   order; the entry of each file on the list of the days of the step. Simplified: the day number of a file, which the
   code carries along in the triples of line 130, is computed here from the file again. *)
Definition files_by_day (start end_ : Z) (times : list Z) (step_index : Z) (group : list Z) : result (list Z) :=
  do pairs <- mapM (fun i => do t <- py_index times i; Ok (i, day_number t)) group;
  let valid := filter (fun p => (day_number start <=? snd p) && (snd p <=? day_number end_)) pairs in
  do available <- batch_days start end_ step_index;
  set_all (map (fun _ => -1) available) (map (fun p => (searchsorted available (snd p), fst p)) valid).

(* The time of a catalogue entry; subtracting the epoch from None is a TypeError. *)
Definition entry_time (e : entry) : result Z := match en_time e with Some t => Ok t | None => Err TypeError end.

(* placeholder.py:108-187: the pattern tells the year *)
Definition batch_groups_by_time (start end_ : Z) (matches : list entry) : result (list (Z * list Z)) :=
  do times <- mapM entry_time matches;
  do match_with_step <- mapM (fun im => do s <- annual_index_at_time start (snd im); Ok (fst im, s)) (enumerate times);
  mapM (fun sg => do l <- files_by_day start end_ times (fst sg) (snd sg); Ok (fst sg, l))
       (groupby_step (sorted_by_step match_with_step)).

(* placeholder.py:218-219, 226: as batch_days, but the limits are not rounded down to whole days. *)
Definition batch_days_unrounded (start end_ index : Z) : result (list Z) :=
  do days <- day_numbers_in_year start index;
  Ok (filter (fun d => (days_since_epoch start <=? d * DAY) && (d * DAY <=? days_since_epoch end_)) days).

(* placeholder.py:189-230: the pattern does not tell the year; the file is looked up by name and given for every day. *)
Definition batch_groups_by_name (start end_ count : Z) (patterns : list string) (matches : list entry)
  : result (list (Z * list Z)) :=
  let matchname_to_index := map (fun im => (en_name (snd im), fst im)) (enumerate matches) in
  do step_to_match <- mapM (fun s => do e <- timed_output_entry (annual_time_at_index start) patterns s;
                                     Ok (dict_get String.eqb matchname_to_index (en_name e)))
                           (zrange 0 count);
  do groups <- mapM (fun sm => match snd sm with
                               | Some m => do days <- batch_days_unrounded start end_ (fst sm);
                                           Ok [(fst sm, map (fun _ => m) days)]
                               | None => Ok []
                               end) (enumerate step_to_match);
  Ok (concat groups).

(* placeholder.py:232-243: the entries of one operation *)
Definition batch_entries (allowed : bool) (days : Z -> result (list Z)) (groups : list (Z * list Z)) (s : Z) : result (list Z) :=
  do default <- (if allowed then do d <- days s; Ok (map (fun _ => -1) d) else Ok []);
  Ok (match dict_get Z.eqb groups s with Some g => g | None => default end).

(* placeholder.py:76-269 AnnualBatchDays.find_references. The name OperationException is not imported there (1-15), so
   its raise statements end in a NameError. *)
Definition batch_find_references (datasets : list dataset) (start end_ : Z) (inp : input_file) (request_skip : list bool)
  : result (list (list Z) * list bool) :=
  do count <- annual_count start end_;
  match datasubset datasets (in_dataset inp) (in_subset inp), datasetindex datasets (in_dataset inp) with
  | Some ss, Some di =>
      match ss_patterns ss with
      | None => Err NameError
      | Some patterns =>
          do groups <- (if annual_unique patterns then batch_groups_by_time start end_ (ss_matches ss)
                        else batch_groups_by_name start end_ count patterns (ss_matches ss));
          let days := if annual_unique patterns then batch_days start end_ else batch_days_unrounded start end_ in
          do entries <- mapM (batch_entries (policy_eqb (in_missing inp) Allowed) days groups) (zrange 0 count);
          let references := map (flat_map (fun e => [Z.of_nat di; in_subset inp; e])) entries in
          let missing := flat_map (fun sr => if zlen (snd sr) =? 0 then [fst sr] else []) (enumerate references) in
          match in_missing inp with
          | NotAllowed => if 0 <? zlen missing then Err NameError else Ok (references, request_skip)
          | SkipMissing => Ok (references, fold_left (fun l i => update_nth (Z.to_nat i) (fun _ => true) l) missing request_skip)
          | _ => Ok (references, request_skip)
          end
      end
  | _, _ => Err NameError
  end.

(* placeholder.py:384-388 substep_is_uniquely_defined_by is daily_unique; 390-394 filename_from_patterns is that of
   Time_Model. 358-382 AnnualBatchDaysOutput.create_output_entries; its RuntimeError is given as ModuleError. *)
Definition create_output_entries (start end_ : Z) (patterns : list string) (operation_index : Z) : result (list entry) :=
  if negb (daily_unique patterns) then Err ModuleError
  else
    do days <- batch_days start end_ operation_index;
    do datetimes <- mapM (fun d => days_number_to_datetime EPOCH (d * DAY)) days;
    do filenames <- mapM (filename_from_patterns patterns) datetimes;
    Ok (map (fun nt => {| en_name := fst nt; en_time := Some (snd nt) |}) (combine filenames datetimes)).

(* placeholder.py:326-339: the inner loop over the entries of one operation *)
Fixpoint add_entries (newentries : list entry) (existing : list (string * Z)) (matches : list entry)
  : list Z * (list (string * Z) * list entry) :=
  match newentries with
  | [] => ([], (existing, matches))
  | newentry :: rest =>
      match dict_get String.eqb existing (en_name newentry) with
      | Some e => let r := add_entries rest existing matches in (e :: fst r, snd r)
      | None =>
          let e := zlen matches in
          let r := add_entries rest (existing ++ [(en_name newentry, e)]) (matches ++ [newentry]) in
          (e :: fst r, snd r)
      end
  end.

(* placeholder.py:320-341: the loop over operations *)
Fixpoint batch_output_loop (start end_ : Z) (patterns : list string) (indices : list Z)
         (existing : list (string * Z)) (matches : list entry) : result (list (list Z) * list entry) :=
  match indices with
  | [] => Ok ([], matches)
  | i :: rest =>
      do newentries <- create_output_entries start end_ patterns i;
      let r1 := add_entries newentries existing matches in
      do r <- batch_output_loop start end_ patterns rest (fst (snd r1)) (snd (snd r1));
      Ok (fst r1 :: fst r, snd r)
  end.

(* placeholder.py:284-344 OutputFileList.operation_output_resolve for AnnualBatchDaysOutput: one list of trios per
   operation, and the changed data sets (as in Cat_Model). *)
Definition batch_output_resolve (datasets : list dataset) (start end_ : Z) (out : output_file) (indices : list Z)
  : result (list (list Z) * list dataset) :=
  match datasubset datasets (out_dataset out) (out_subset out), datasetindex datasets (out_dataset out) with
  | Some ss, Some di =>
      if 0 <? zlen (ss_matches ss) then Err NameError
      else match ss_patterns ss with
      | None => Err NameError
      | Some patterns =>
          do r <- batch_output_loop start end_ patterns indices [] (ss_matches ss);
          let datasets' :=
            update_nth di (fun d => set_subsets d (update_nth (Z.to_nat (out_subset out))
                                                              (fun s => set_matches s (snd r)) (ds_subsets d))) datasets in
          Ok (map (flat_map (fun e => [Z.of_nat di; out_subset out; e])) (fst r), datasets')
      end
  | _, _ => Err NameError
  end.
