(* What the theorems on runs, optimisation inputs, periods and jobs speak about *)
From Coq Require Import QArith Qround Qcanon String Ascii.
From Verif Require Import Base Time_Model Obs_Model Land_Model Land_Spec Tools_Model Run_Model.
Local Open Scope Z_scope.
Local Open Scope list_scope.

(* runs one after the other, up to the first that fails *)
Fixpoint in_order {A} (runs : list (run A)) : run A :=
  match runs with
  | [] => ([], Ok tt)
  | (files, Err e) :: _ => (files, Err e)
  | (files, Ok _) :: rest => (files ++ fst (in_order rest), snd (in_order rest))
  end.
(* a day with the model and the names of another *)
Definition with_ocean_settings_of (first x : ocean_inputs) : ocean_inputs :=
  {| o_catalogue_id := o_catalogue_id first; o_institution := o_institution first; o_output_main := o_output_main x; o_output_ancillary := o_output_ancillary x;
     o_model_parameters := o_model_parameters first; o_model_uncertainty := o_model_uncertainty first; o_model_stdev := o_model_stdev first; o_satellite := o_satellite x |}.
Definition same_ocean_settings (x y : ocean_inputs) : Prop :=
  o_catalogue_id x = o_catalogue_id y /\ o_institution x = o_institution y /\ o_model_parameters x = o_model_parameters y /\
  o_model_uncertainty x = o_model_uncertainty y /\ o_model_stdev x = o_model_stdev y.
(* the program computes a result for a day, with the model of the first *)
Definition computes {A} (file_time : string -> result Z) (idl : ocean_model -> Z * Z * Z -> string -> result (dataset A)) (first x : ocean_inputs) : Prop :=
  exists t d, file_time (o_satellite x) = Ok t /\ idl (ocean_model_of first) (dt_year t, dt_month t, dt_day t) (o_satellite x) = Ok d.

(* the sources of a day, and the file of its summary *)
Record step {S : Type} := { day : Z * Z * Z; summary_file : string; sources : list S }.
Arguments step S : clear implicits.
Definition start_of (d : Z * Z * Z) : Z := let '(y, m, k) := d in midnight y m k.
Definition exists_day (d : Z * Z * Z) : Prop := let '(y, m, k) := d in calendar_date y m k.
(* days since 1 January 1850 *)
Definition number_of (d : Z * Z * Z) : Z := let '(y, m, k) := d in ymd2ord y m k - ymd2ord 1850 1 1.
(* the summaries of all steps, written in some order *)
Definition summaries {S} (steps : list (step S)) (disk : disk_of S) : disk_of S :=
  fold_left (fun disk s => input_summary (start_of (day s)) (summary_file s) (sources s) disk) steps disk.
(* updates with the sources of each step on its day, one after the other *)
Fixpoint updates {S St} (update : list (Z * S) -> Z -> St -> St * result unit) (steps : list (step S)) (state : St) : St * result unit :=
  match steps with
  | [] => (state, Ok tt)
  | s :: r => match update (map (fun source => (number_of (day s), source)) (sources s)) (number_of (day s)) state with
              | (state', Err e) => (state', Err e)
              | (state', Ok _) => updates update r state'
              end
  end.
(* a whole multiple *)
Definition multiple_of (quantisation value : Q) : Prop := exists k, (value == inject_Z k * quantisation)%Q.
