(* Model of the runs of the ocean model, of the inputs of the optimisation of local hyperparameters and its jobs, of the suite
   that runs the satellite models, of the periods of models and of the extraction of station biases:
   src/eustace/surfaceairmodel/run_ocean.py, model_ocean.py,
   src/eustace/analysis/advanced_standard/fileio/optimization_inputs.py, optimizationsystem.py, examples/optimise.py,
   examples/submit_optimisation.py, examples/large_scale_scaling.py, examples/station_bias_model.py,
   src/roses/satstace/suite.rc with Jinja2Filters/roundup.py, maximum.py and runcommand.py. *)
From Coq Require Import QArith Qround Qcanon String Ascii.
From Verif Require Fill_Model.
From Verif Require Import Base Time_Model Batch_Model Obs_Model NcObj_Model Stn_Model Land_Model Tools_Model.
Local Open Scope Z_scope.
Local Open Scope list_scope.

(* ---- run_ocean.py: the arguments of run_day (20), and the dictionary that return_daily_inputs makes of them (47-58) *)
Record ocean_inputs := { o_catalogue_id : string; o_institution : string; o_output_main : string; o_output_ancillary : string;
  o_model_parameters : string; o_model_uncertainty : string; o_model_stdev : string; o_satellite : string }.
(* model_ocean.py:16-22 *)
Record ocean_model := { om_parameters : string; om_uncertainty : string; om_stdev : string }.
(* model_ocean.py:50-52: one element of the list 'data' *)
Record ocean_entry := { oe_date : Z * Z * Z; oe_output : string; oe_input : string }.
Definition ocean_model_of (x : ocean_inputs) : ocean_model :=
  {| om_parameters := o_model_parameters x; om_uncertainty := o_model_uncertainty x; om_stdev := o_model_stdev x |}.

Section Ocean.
Variable A : arithmetic.
Variable cells : nat.
(* model_ocean.py:24-30 read_netcdf_time: the first time in a file *)
Variable file_time : string -> result Z.
(* what the IDL program computes from the model, the date and an input file; a non-zero status is an exception *)
Variable idl : ocean_model -> Z * Z * Z -> string -> result (dataset A).
(* the names that tempfile.NamedTemporaryFile makes *)
Variable temporary : nat -> string.

(* model_ocean.py:32-58 build_config_dictionary, the list 'data' *)
Fixpoint ocean_entries (filenames_output filenames_input : list string) : result (list ocean_entry) :=
  match filenames_output, filenames_input with
  | [], _ => Ok []
  | _ :: _, [] => Err IndexError
  | o :: os, i :: is =>
      do time <- file_time i;
      do rest <- ocean_entries os is;
      Ok ({| oe_date := (dt_year time, dt_month time, dt_day time); oe_output := o; oe_input := i |} :: rest)
  end.
(* model_ocean.py:86-110 run_idl: the program writes the file of each entry *)
Fixpoint ocean_run_entries (m : ocean_model) (l : list ocean_entry) (disk : list (string * dataset A)) : result (list (string * dataset A)) :=
  match l with
  | [] => Ok disk
  | e :: r => do d <- idl m (oe_date e) (oe_input e); ocean_run_entries m r (put (oe_output e) d disk)
  end.
Definition ocean_run_idl (m : ocean_model) (filenames_output filenames_input : list string) : result (list (string * dataset A)) :=
  do l <- ocean_entries filenames_output filenames_input; ocean_run_entries m l [].
(* run_ocean.py:39-43 and 95-101: the fields of a temporary file are read and written to both files *)
Definition ocean_finish (disk : list (string * dataset A)) (name : string) (a : attributes) (main ancillary : string) : run A :=
  match (do d <- match lookup name disk with Some d => Ok d | None => Err IOErrorE end; read_fields A cells ocean_mapping d) with
  | Err e => ([], Err e)
  | Ok fields =>
      match write_element A a main fields PRIMARY_VARIABLES with
      | Err e => ([], Err e)
      | Ok f => match write_element A a ancillary fields ANCILLARY_VARIABLES_OCEAN with
                | Err e => ([f], Err e)
                | Ok g => ([f; g], Ok tt)
                end
      end
  end.
Definition ocean_attributes (x : ocean_inputs) : attributes := {| a_catalogue_id := o_catalogue_id x; a_institution := o_institution x; a_comment := None |}.
(* run_ocean.py:20-43 run_day *)
Definition ocean_run_day (x : ocean_inputs) : run A :=
  match ocean_run_idl (ocean_model_of x) [temporary 0] [o_satellite x] with
  | Err e => ([], Err e)
  | Ok disk => ocean_finish disk (temporary 0) (ocean_attributes x) (o_output_main x) (o_output_ancillary x)
  end.
(* run_ocean.py:92-101 *)
Fixpoint ocean_finish_days (disk : list (string * dataset A)) (a : attributes) (index : nat) (outputs : list (string * string)) : run A :=
  match outputs with
  | [] => ([], Ok tt)
  | (main, ancillary) :: rest =>
      match ocean_finish disk (temporary index) a main ancillary with
      | (written, Err e) => (written, Err e)
      | (written, Ok _) => let (later, r) := ocean_finish_days disk a (S index) rest in (written ++ later, r)
      end
  end.
(* run_ocean.py:60-101 run_multiple_days *)
Definition ocean_run_multiple_days (list_of_daily_inputs : list ocean_inputs) : run A :=
  match list_of_daily_inputs with
  | [] => ([], Err IndexError)
  | first :: _ =>
      match ocean_run_idl (ocean_model_of first) (map temporary (seq 0 (List.length list_of_daily_inputs))) (map o_satellite list_of_daily_inputs) with
      | Err e => ([], Err e)
      | Ok disk => ocean_finish_days disk (ocean_attributes first) 0 (map (fun x => (o_output_main x, o_output_ancillary x)) list_of_daily_inputs)
      end
  end.
End Ocean.

(* ---- optimization_inputs.py.  A file holds one summary or a merged list; saving and loading of these values is modelled
   with the catalogues (Json_Model).  [S] is the description of the sources of a day. *)
Inductive content {S : Type} := Summary (time : string) (sources : list S) | Merged (inputs : list (string * list S)).
Arguments content S : clear implicits.
Definition disk_of (S : Type) := list (string * content S).
(* datetime.isoformat() of a time of whole seconds *)
Definition iso_time (t : Z) : string :=
  (pad4 (dt_year t) ++ "-" ++ pad2 (dt_month t) ++ "-" ++ pad2 (dt_day t) ++ "T" ++
   pad2 (dt_hour t) ++ ":" ++ pad2 (dt_minute t) ++ ":" ++ pad2 (dt_second t))%string.
(* 5-18 input_summary *)
Definition input_summary {S} (time : Z) (output : string) (inputsources : list S) (disk : disk_of S) : disk_of S :=
  put output (Summary (iso_time time) inputsources) disk.
(* one summary; a merged list in its place cannot be taken apart *)
Definition load_summary {S} (disk : disk_of S) (filename : string) : result (string * list S) :=
  match lookup filename disk with
  | None => Err IOErrorE
  | Some (Summary time sources) => Ok (time, sources)
  | Some (Merged _) => Err ValueError
  end.
(* 20-33 merge_input_summaries *)
Definition merge_input_summaries {S} (summary_files : list string) (output : string) (disk : disk_of S) : result (disk_of S) :=
  do list_of_inputs <- mapM (load_summary disk) summary_files;
  Ok (put output (Merged list_of_inputs) disk).
(* 35-45 generate_input_descriptor, and optimise.py:26-34 read_inputdescriptor: OrderedDict *)
Definition generate_input_descriptor {S} (disk : disk_of S) (json_file : string) : result (list (string * list S)) :=
  match lookup json_file disk with
  | None => Err IOErrorE
  | Some (Merged inputs) => Ok (fold_left (fun d e => set_key (fst e) (snd e) d) inputs [])
  | Some (Summary _ _) => Err ValueError
  end.

(* ---- optimizationsystem.py.  dateutil.parser.parse, of texts of the form of isoformat only *)
Definition literal (c : ascii) (s : string) : list (Z * string) :=
  match s with String a r => if Ascii.eqb a c then [(0, r)] else [] | EmptyString => [] end.
Definition parse_time (s : string) : result Z :=
  match match_fields [field_Y; literal "-"; field_m; literal "-"; field_d; literal "T"; field_H; literal ":"; field_M; literal ":"; field_S] s with
  | Some ([y; _; m; _; d; _; hour; _; minute; _; sec], EmptyString) => mk_datetime y m d hour minute sec
  | _ => Err ValueError
  end.
(* 25-44 process_inputs; [update loaders time_index] is update_component_time, which may raise after some effect.
   The loaders are the sources with the time index. *)
Fixpoint process_inputs {S St} (update : list (Z * S) -> Z -> St -> St * result unit) (input_descriptor : list (string * list S)) (time_keys : list string) (state : St) : St * result unit :=
  match time_keys with
  | [] => (state, Ok tt)
  | time_key :: r =>
      match parse_time time_key with
      | Err e => (state, Err e)
      | Ok this_time =>
          let time_index := int_days (days_since_epoch this_time) in
          match lookup time_key input_descriptor with
          | None => (state, Err KeyError)
          | Some sources =>
              match update (map (fun source => (time_index, source)) sources) time_index state with
              | (state', Err e) => (state', Err e)
              | (state', Ok _) => process_inputs update input_descriptor r state'
              end
          end
      end
  end.

(* ---- large_scale_scaling.py, arithmetic exact *)
(* 20-21 *)
Definition round_to_quantisation (value quantisation : Q) : Q := (inject_Z (Qfloor ((value + quantisation / 2) / quantisation)) * quantisation)%Q.
(* 23-24 *)
Definition floor_to_quantisation (value quantisation : Q) : Q := (inject_Z (Qfloor (value / quantisation)) * quantisation)%Q.
(* 26-27 *)
Definition ceil_to_quantisation (value quantisation : Q) : Q := (inject_Z (Qceiling (value / quantisation)) * quantisation)%Q.
(* 26-27 for whole numbers, whose quotient is rounded down *)
Definition ceil_to_quantisation_int (value quantisation : Z) : Z := value / quantisation * quantisation.
(* 37-53 and 74-90: the period of the model and its number of nodes, int(round(x)) of x >= 0 *)
Record period := { p_starttime : Q; p_endtime : Q; p_nodes : Z }.
Definition model_period (start_time end_time node_spacing : Q) : period :=
  let starttime := floor_to_quantisation start_time node_spacing in
  let endtime := ceil_to_quantisation end_time node_spacing in
  {| p_starttime := starttime; p_endtime := endtime; p_nodes := Qfloor ((endtime - starttime) / node_spacing + 1 + (1 # 2)) |}.

(* ---- the suite of the satellite models *)
(* Jinja2Filters/roundup.py:9-12 *)
Definition roundup (x : Q) : Z := Qceiling x.
(* suite.rc:6-10: what commandcount prints, as a number; the filter "int" gives 0 where there is none *)
Definition printed_count (output : string) : Z := match py_int output with Ok n => n | Err _ => 0 end.
(* suite.rc:11 MAX_CHUNKS *)
Definition max_chunks (numbers : list Z) (chunksize : Z) : result Z :=
  match list_max numbers with Some m => Ok (roundup (inject_Z m / inject_Z chunksize)) | None => Err ValueError end.
(* suite.rc:19-26: cycle points from 0 to the end of the module, inside those of the suite *)
Definition cycle_points (number chunksize final : Z) : list Z := zrange 0 (Z.min (roundup (inject_Z number / inject_Z chunksize)) final + 1).
(* suite.rc:16, 56-62: the commands that all tasks of a module run *)
Definition suite_commands (number chunksize final : Z) : list Z :=
  flat_map (fun point => filter (fun command => command <? number) (map (fun subtask => point * chunksize + subtask) (zrange 0 chunksize))) (cycle_points number chunksize final).

(* ---- the jobs of the local optimisation *)
(* submit_optimisation.py:8-16 *)
Definition n_operations (subdivision_level : nat) : Z := fold_left (fun n _ => n * 4) (seq 0 subdivision_level) 20.
(* optimise.py:93 and 128 *)
Definition regional_file (divisions neighbourhood_level region_index : Z) : string :=
  ("regional_hyperparameters." ++ Fill_Model.py_str divisions ++ "." ++ Fill_Model.py_str neighbourhood_level ++ "." ++ Fill_Model.py_str region_index ++ ".npy")%string.
(* submit_optimisation.py:18-44: the neighbourhood level and region of each job *)
Definition submitted_jobs : list (Z * Z) := map (fun region => (3, region)) (zrange 0 (n_operations 3)).
(* optimise.py:36-103: the file that a job writes *)
Definition job_file (divisions : Z) (job : Z * Z) : string := regional_file divisions (fst job) (snd job).
(* optimise.py:105-133 merge_hyperparameters: the files that are merged; both arguments are overwritten (114-115) *)
Definition merged_files (divisions : Z) (neighbourhood_level : nat) (regionspec : string) : list string :=
  let neighbourhood_level := 3%nat in
  map (fun region_index => regional_file divisions (Z.of_nat neighbourhood_level) region_index) (zrange 0 (n_operations neighbourhood_level)).

(* ---- station_bias_model.py:32-84 extract_station_biases *)
(* an element of the combination: not a bias, a bias, or a bias of stations with its break points; and its state *)
Inductive bias_kind := Not_bias | Plain_bias | Station_bias (b : breaks).
(* station_locations[:, index], of numbers that may be negative *)
Definition location_at {L} (locations : list L) (index : Z) : result L :=
  let i := if index <? 0 then index + zlen locations else index in
  if (0 <=? i) && (i <? zlen locations) then match nth_error locations (Z.to_nat i) with Some l => Ok l | None => Err IndexError end else Err IndexError.
Record extracted {L : Type} := { x_breaks : breaks; x_locations : list L; x_expanded : list L; x_biases : list Qc; x_matrix : bias_matrix }.
Arguments extracted L : clear implicits.
(* 61-84: the loop; [outdict] is the dictionary once it exists, the file is None until it is saved *)
Fixpoint extract_from {L} (station_locations : list L) (first_year last_year : Z) (elements : list (bias_kind * list Qc)) (outdict : option (breaks * list L * list Qc)) (file : option (extracted L))
  : option (extracted L) * result unit :=
  match elements with
  | [] => (file, Ok tt)
  | (Not_bias, _) :: r => extract_from station_locations first_year last_year r outdict file
  | (kind, state) :: r =>
      match (match kind with
             | Station_bias b => do e <- mapM (fun s => location_at station_locations (s - 1)) (bk_station b); Ok (Some (b, e, state))
             | _ => Ok outdict
             end) with
      | Err e => (file, Err e)
      | Ok None => (file, Err NameError)
      | Ok (Some (b, e, biases)) =>
          match build_bias_matrix b biases first_year last_year with
          | Err e => (file, Err e)
          | Ok m => extract_from station_locations first_year last_year r (Some (b, e, biases))
                      (Some {| x_breaks := b; x_locations := station_locations; x_expanded := e; x_biases := biases; x_matrix := m |})
          end
      end
  end.
Definition extract_station_biases {L} (station_locations : list L) (first_year last_year : Z) (elements : list (bias_kind * list Qc)) : option (extracted L) * result unit :=
  extract_from station_locations first_year last_year elements None None.
