(* Gridding jobs of satellite data, daily runs of the ice model and the reader of break point files.
   Sources: bin/eustace_runlsf_satgrid_day.sh, bin/eustace_runlsf_satgrid_night.sh, bin/lsf_satgrid.sh,
   src/eustace/surfaceairmodel/run_ice.py, src/cpp/eustace/analysis/break_points/insitu_land_break_points.{h,cpp}. *)
From Coq Require Import String Ascii QArith Qcanon.
From Verif Require Import Base Grid_Model Time_Model.
Open Scope string_scope.
Open Scope list_scope.
Open Scope Z_scope.

(* ---- eustace_runlsf_satgrid_{day,night}.sh *)
Record satgrid := { sg_start : Z (* STARTDATE, midnight *); sg_days : Z; sg_daynight : string; sg_choice : choice }.
(* lines 22-31 of the two scripts; 20100101 is the date given to date -d *)
Definition satgrid_script (start : Z) (daynight : string) (filter : Z) : satgrid :=
  {| sg_start := start; sg_days := 366; sg_daynight := daynight;
     sg_choice := {| qc_mask_obs := 1; qc_filter_obs := filter; qc_mask_valid := 7; qc_filter_valid := filter |} |}.
Definition start_date : Z := ymd2ord 2010 1 1 * DAY.
Definition satgrid_day : satgrid := satgrid_script start_date "day" 0.
Definition satgrid_night : satgrid := satgrid_script start_date "night" 1.
(* bsub -J "satgrid[1-$DAYS]" *)
Definition job_indices (s : satgrid) : list Z := zrange 1 (sg_days s + 1).

(* lsf_satgrid.sh:42: date -d "$STARTDATE + $LSB_JOBINDEX days - 1 days". Simplified: no change of the clock at midnight. *)
Definition job_date (s : satgrid) (index : Z) : Z := sg_start s + index * DAY - 1 * DAY.
(* date '+%C%y%m%d' *)
Definition timestring (t : Z) : string := pad2 (dt_year t / 100) ++ pad2 (dt_year t mod 100) ++ pad2 (dt_month t) ++ pad2 (dt_day t).
(* lsf_satgrid.sh:45: the output and the date that satgrid is given *)
Definition job_output (s : satgrid) (index : Z) : string := "satgrid." ++ sg_daynight s ++ "." ++ timestring (job_date s index) ++ ".nc".

(* ---- run_ice.py. Files hold results; one that is being written is incomplete. *)
Section Ice.
Context {C : Type}.
Inductive file := Incomplete | Complete (c : C).
Definition files := string -> option file.
Definition set_file (p : string) (x : file) (f : files) : files := fun q => if String.eqb q p then Some x else f q.
(* os.path.isfile. Simplified: there are no directories of these names. *)
Definition isfile (f : files) (p : string) : bool := match f p with Some _ => true | None => false end.

(* run_ice.py:20-40 run_day, with fileio/consistent.py:54-86 write_element, write_primary, write_ancillary. [process] stands for reading the inputs
   and for the model (ModelIce.process_global); it can fail. The result is the file systems after each change, and the outcome. *)
Definition run_day (process : files -> result (C * C)) (output_main output_ancillary : string) (f : files) : list files * result unit :=
  if isfile f output_main then ([], Err ValueError)
  else if isfile f output_ancillary then ([], Err ValueError)
  else
    match process f with
    | Err e => ([], Err e)
    | Ok (primary, ancillary) =>
        let f1 := set_file output_main Incomplete f in                  (* write_primary: the file is made, *)
        let f2 := set_file output_main (Complete primary) f1 in          (* filled and closed *)
        let f3 := set_file output_ancillary Incomplete f2 in             (* write_ancillary *)
        let f4 := set_file output_ancillary (Complete ancillary) f3 in
        ([f1; f2; f3; f4], Ok tt)
    end.
(* A run that is interrupted after some number of changes (not at all, if there are fewer). *)
Definition interrupted (process : files -> result (C * C)) (output_main output_ancillary : string) (after : nat) (f : files) : files :=
  last (firstn after (fst (run_day process output_main output_ancillary f))) f.
(* Attempts one after another, each with its inputs and the moment when it is interrupted. *)
Definition history (output_main output_ancillary : string) (attempts : list ((files -> result (C * C)) * nat)) (f : files) : files :=
  fold_left (fun f a => interrupted (fst a) output_main output_ancillary (snd a) f) attempts f.
End Ice.
Arguments file : clear implicits.
Arguments files : clear implicits.

(* ---- insitu_land_break_points.cpp. A netCDF file is its variables in the order of their numbers, each with its name, the lengths of its
   dimensions and its values. Values are rationals (float in the code; station numbers, days and likelihoods are integers). *)
Record variable := { v_name : string; v_dimensions : list nat; v_values : list Qc }.
Fixpoint varid (name : string) (f : list variable) (n : nat) : option nat :=
  match f with [] => None | v :: r => if String.eqb (v_name v) name then Some n else varid name r (S n) end.
(* 6-27 GetDimensions: an unknown name leaves the number at 1; no such variable has no dimensions *)
Definition GetDimensions (f : list variable) (name : string) : list nat :=
  let id := match varid name f 0 with Some n => n | None => 1%nat end in
  match nth_error f id with Some v => v_dimensions v | None => [] end.
(* 29-41 ReadData into [contents]: an unknown name leaves the number at 0; failures are only printed. More values than there is room for
   are written beyond the array: undefined, here ModuleError. *)
Definition ReadData (f : list variable) (contents : list Qc) (name : string) : result (list Qc) :=
  let id := match varid name f 0 with Some n => n | None => 0%nat end in
  match nth_error f id with
  | None => Ok contents
  | Some v =>
      if (List.length contents <? List.length (v_values v))%nat then Err ModuleError
      else Ok (v_values v ++ skipn (List.length (v_values v)) contents)
  end.
(* 76-78 *)
Definition wrap_longitude (x : Qc) : Qc := if Qle_bool 180 (this x) then Qcminus x (Q2Qc 360) else x.
(* 51-87 ObservationLocationLookup; BreakPointsReaderException is given as ValueError. [memory] is what the reserved memory holds before.
   The second half of the test at 59 repeats the first; a longitude without dimensions is looked up beyond the array at 61 (undefined, ModuleError). *)
Definition ObservationLocationLookup (memory : nat -> list Qc) (f : list variable) : result (list Qc * list Qc) :=
  let latitude_dimension := GetDimensions f "latitude" in
  let longitude_dimension := GetDimensions f "longitude" in
  if negb (List.length latitude_dimension =? 1)%nat || negb (List.length latitude_dimension =? 1)%nat then Err ValueError
  else if (List.length longitude_dimension =? 0)%nat then Err ModuleError
  else if negb (nth 0 latitude_dimension 0 =? nth 0 longitude_dimension 0)%nat then Err ValueError
  else
    let npoints := nth 0 latitude_dimension 0%nat in
    do latitude <- ReadData f (memory npoints) "latitude";
    do longitude <- ReadData f (memory npoints) "longitude";
    Ok (latitude, map wrap_longitude longitude).
(* 89-116 observation *)
Definition observation (f : list variable) : result (list Qc * list Qc * list Qc) :=
  let d := GetDimensions f "merged_break_time" in
  if negb (List.length d =? 1)%nat then Err ValueError
  else
    let npoints := nth 0 d 0%nat in
    do break_time <- ReadData f (repeat (Q2Qc 0) npoints) "merged_break_time";
    do break_station <- ReadData f (repeat (Q2Qc 0) npoints) "merged_break_station";
    do likelihood <- ReadData f (repeat (Q2Qc 0) npoints) "merged_break_likelihood";
    Ok (break_time, break_station, likelihood).
