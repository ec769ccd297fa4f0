(* Model of the production of land (and the remapping of ocean) surface-air temperature files:
   src/eustace/surfaceairmodel/fileio/remap.py, fileio/post_processing.py, fileio/land.py:83-129, fileio/ocean.py:63-98,
   fileio/consistent.py:42-94, model_land.py and run_land.py.
   Simplifications: a two-dimensional field is the list of its cells in memory order, and removing dimensions of length
   one (numpy.squeeze, numpy.expand_dims) is the identity; broadcasting is not modelled, arrays of different sizes are
   refused. The variables of an input file read as masked arrays (netCDF4 with its default masking). The IDL program is
   a parameter which computes the intermediate file of one entry of its configuration. *)
From Coq Require Import String Ascii QArith.
From Verif Require Import Base Time_Model Name_Model.
Open Scope Z_scope.
Open Scope string_scope.
Open Scope list_scope.

(* The numbers of a field: floating point in the program, reals or rationals in examples. [below x y] is x < y, [same]
   is ==; [FILL] is numpy's default fill value. *)
Record arithmetic := {
  num : Type; of_Q : Q -> num; add : num -> num -> num; mul : num -> num -> num; root : num -> num;
  below : num -> num -> bool; same : num -> num -> bool; FILL : num }.

(* outputformats/definitions.py:182-272, 361-411 *)
Definition DAYNUMBER := "daynumber".
Definition COUNT := "problematic_pixels_count".
Definition OLD_LAND_ANCILLARY_NAMES : list string :=
  ["unc_rand_tasmin"; "unc_corr_atm_tasmin"; "unc_corr_sfc_tasmin"; "unc_sys_tasmin";
   "unc_rand_tasmax"; "unc_corr_atm_tasmax"; "unc_corr_sfc_tasmax"; "unc_sys_tasmax"].
Definition VARIABLES_ANCILLARY_LAND : list string :=
  ["tasmin_unc_rand"; "tasmin_unc_corr_atm"; "tasmin_unc_corr_sfc"; "tasmin_unc_sys";
   "tasmax_unc_rand"; "tasmax_unc_corr_atm"; "tasmax_unc_corr_sfc"; "tasmax_unc_sys";
   "tasmin_model_number"; "tasmax_model_number"].
Definition OLD_OCEAN_ANCILLARY_NAMES : list string :=
  ["unc_rand_tas"; "unc_corr_tas"; "unc_syst_tas"; "unc_corr2_tas"; "unc_syst2_tas";
   "unc_parameter_0_tas"; "unc_parameter_1_tas"; "unc_parameter_2_tas"; "unc_parameter_3_tas"; "unc_parameter_4_tas"].
Definition ANCILLARY_VARIABLES_OCEAN : list string :=
  ["tas_unc_rand"; "tas_unc_corr_sat"; "tas_unc_sys"; "tas_unc_corr_mod"; "tas_unc_sys_mod";
   "tas_unc_parameter_0"; "tas_unc_parameter_1"; "tas_unc_parameter_2"; "tas_unc_parameter_3"; "tas_unc_parameter_4"].
(* consistent.py:45 *)
Definition PRIMARY_VARIABLES : list string := ["tas"; "tasmin"; "tasmax"; "tasuncertainty"; "tasminuncertainty"; "tasmaxuncertainty"].

(* ------------------------------------------------------------------ dates in file names (model_land.py:24-31) *)
(* the expression '.[0-9]{8}.nc' at the beginning of a string; '.' is any character but a new line *)
Definition dated_here (s : string) : option string :=
  match s with
  | String c s1 =>
      if Ascii.eqb c NEWLINE then None else
      match take_numerals 8 s1 with
      | Some (d, String x (String n (String k _))) =>
          if Ascii.eqb x NEWLINE then None else
          if Ascii.eqb n "n" && Ascii.eqb k "c" then Some (String c (d ++ String x "nc"))%string else None
      | _ => None
      end
  | EmptyString => None
  end.
(* re.search: the leftmost place where it matches *)
Fixpoint search {A} (here : string -> option A) (s : string) : option A :=
  match here s with
  | Some a => Some a
  | None => match s with String _ s' => search here s' | EmptyString => None end
  end.
Definition numerals_here (s : string) : option string := option_map fst (take_numerals 8 s).
(* datetime.strptime(s, '%Y%m%d') *)
Definition strptime_date (s : string) : result Z :=
  match match_fields [field_Y; field_m; field_d] s with
  | Some ([y; m; d], EmptyString) => mk_datetime y m d 0 0 0
  | _ => Err ValueError
  end.
Definition read_input_file_time (filename : string) : result Z :=
  match search dated_here filename with
  | None => Err AttributeError
  | Some pattern => match search numerals_here pattern with
                    | None => Err AttributeError
                    | Some date_string => strptime_date date_string
                    end
  end.

(* ------------------------------------------------------------------ dictionaries *)
Fixpoint lookup {V} (name : string) (d : list (string * V)) : option V :=
  match d with [] => None | (n, v) :: d' => if String.eqb n name then Some v else lookup name d' end.
Fixpoint put {V} (name : string) (v : V) (d : list (string * V)) : list (string * V) :=
  match d with
  | [] => [(name, v)]
  | (n, w) :: d' => if String.eqb n name then (n, v) :: d' else (n, w) :: put name v d'
  end.
Definition get {V} (d : list (string * V)) (name : string) : result V :=
  match lookup name d with Some v => Ok v | None => Err KeyError end.

Fixpoint foldM {S X} (f : S -> X -> result S) (s : S) (l : list X) : result S :=
  match l with [] => Ok s | x :: l' => do s' <- f s x; foldM f s' l' end.

Fixpoint map2 {X Y W} (f : X -> Y -> W) (l : list X) (m : list Y) : list W :=
  match l, m with x :: l', y :: m' => f x y :: map2 f l' m' | _, _ => [] end.

Section Fields.
Variable A : arithmetic.

(* numpy.ma.MaskedArray: [mask] None is numpy.ma.nomask *)
Record field := { data : list (num A); mask : option (list bool); fill : num A }.
Definition size (f : field) : nat := List.length (data f).

(* what a results dictionary holds *)
Inductive value := V_day (n : Z) | V_count (n : Z) | V_field (f : field).
Definition results := list (string * value).
(* an item of a dictionary used as an array: 'int' object has no attribute ... *)
Definition get_field (r : results) (name : string) : result field :=
  do v <- get r name; match v with V_field f => Ok f | _ => Err TypeError end.

(* an intermediate file: the first value of its time variable as a date and time, and its variables *)
Record dataset := { d_time : option Z; d_variables : list (string * field) }.

(* ------------------------------------------------------------------ remap.py *)
(* 22-30, 32-56, 58-89 *)
Inductive specification :=
| DayNumber
| Copy (outputname inputname : string) (offset : option Q)
| TotalUncertainty (outputname : string) (inputcomponents : list string).

(* masked += number: masked cells keep their data *)
Definition add_offset (f : field) (c : Q) : field :=
  {| data := match mask f with
             | None => map (fun x => add A x (of_Q A c)) (data f)
             | Some m => map2 (fun x b => if b : bool then x else add A x (of_Q A c)) (data f) m
             end;
     mask := mask f; fill := fill f |}.

(* numpy.square: the mask goes with it *)
Definition square (f : field) : field := {| data := map (fun x => mul A x x) (data f); mask := mask f; fill := fill f |}.

(* MaskedArray.__iadd__: the masks combine (a sum without mask gets one if any cell of the other is masked); data under
   the combined mask stay as they are *)
Definition iadd (s f : field) : result field :=
  if negb (Nat.eqb (size s) (size f)) then Err ValueError else
  let m := match mask s, mask f with
           | None, None => None
           | None, Some m => if existsb (fun b => b) m then Some m else None
           | Some m, None => Some m
           | Some m1, Some m2 => Some (map2 orb m1 m2)
           end in
  Ok {| data := match m with
                | None => map2 (add A) (data s) (data f)
                | Some m => map2 (fun (b : bool) xy => if b then fst xy else add A (fst xy) (snd xy)) m (combine (data s) (data f))
                end;
        mask := m; fill := fill s |}.

(* numpy.sqrt of a masked array *)
Definition sqrt_field (f : field) : field := {| data := map (root A) (data f); mask := mask f; fill := fill f |}.

(* numpy.ma.zeros(shape=definitions.GLOBAL_FIELD_SHAPE[1:]); [cells] is the number of cells of the global grid *)
Variable cells : nat.
Definition zeros : field := {| data := repeat (of_Q A 0) cells; mask := None; fill := FILL A |}.

Definition operate (d : dataset) (r : results) (s : specification) : result results :=
  match s with
  | DayNumber => match d_time d with
                 | None => Err KeyError
                 | Some t => Ok (put DAYNUMBER (V_day (int_days (days_datetime_to_number EPOCH t))) r)
                 end
  | Copy outputname inputname offset =>
      do f <- get (d_variables d) inputname;
      let f := match offset with Some c => add_offset f c | None => f end in
      Ok (put outputname (V_field f) r)
  | TotalUncertainty outputname inputcomponents =>
      do sum_squares <- foldM (fun s name => do f <- get (d_variables d) name; iadd s (square f)) zeros inputcomponents;
      Ok (put outputname (V_field (sqrt_field sum_squares)) r)
  end.

(* 100-116 *)
Definition read_fields (mapping : list specification) (d : dataset) : result results := foldM (operate d) [] mapping.

(* land.py:105-129: the halves of the list of old names *)
Definition land_mapping : list specification :=
  let half := Nat.div (List.length OLD_LAND_ANCILLARY_NAMES) 2 in
  [DayNumber;
   Copy "tasmin" "tasmin" None;
   TotalUncertainty "tasminuncertainty" (firstn half OLD_LAND_ANCILLARY_NAMES);
   Copy "tasmax" "tasmax" None;
   TotalUncertainty "tasmaxuncertainty" (skipn half OLD_LAND_ANCILLARY_NAMES)]
  ++ map (fun vo => Copy (fst vo) (snd vo) None)
         (combine VARIABLES_ANCILLARY_LAND (OLD_LAND_ANCILLARY_NAMES ++ ["tasmin_model_number"; "tasmax_model_number"])).

(* ocean.py:84-98 *)
Definition ocean_mapping : list specification :=
  [DayNumber;
   Copy "tas" "tas" (Some (27315 # 100));
   TotalUncertainty "tasuncertainty" OLD_OCEAN_ANCILLARY_NAMES]
  ++ map (fun vo => Copy (fst vo) (snd vo) None) (combine ANCILLARY_VARIABLES_OCEAN OLD_OCEAN_ANCILLARY_NAMES).

(* ------------------------------------------------------------------ post_processing.py:7-17 *)
Definition problem (fmin fmax tmin tmax : num A) : bool :=
  negb (same A tmin fmin) && negb (same A tmax fmax) && below A tmax tmin.

(* 12: compares the data, also those under the masks *)
Definition compute_update_mask (tasmin tasmax : field) : result (list bool) :=
  if negb (Nat.eqb (size tasmin) (size tasmax)) then Err ValueError else
  Ok (map2 (problem (fill tasmin) (fill tasmax)) (data tasmin) (data tasmax)).

(* 16-17: results[name][:] is a new view of the array on each evaluation. An array with a mask shares it with its views,
   so that assigning to the mask of a view changes the array; an array without mask gets none in this way, and filled()
   returns its data. *)
Definition mask_variable (update_mask : list bool) (f : field) : result field :=
  if negb (Nat.eqb (size f) (List.length update_mask)) then Err ValueError else
  match mask f with
  | None => Ok f
  | Some m => let m' := map2 orb m update_mask in
              Ok {| data := map2 (fun x b => if b : bool then fill f else x) (data f) m'; mask := Some m'; fill := fill f |}
  end.

Definition count_true (l : list bool) : Z := zlen (filter (fun b => b) l).

Definition apply_land_post_processing (r : results) (surface_dependent_variables : list string) : result results :=
  do tasmindata <- get_field r "tasmin";
  do tasmaxdata <- get_field r "tasmax";
  do update_mask <- compute_update_mask tasmindata tasmaxdata;
  foldM (fun r name => do f <- get_field r name; do f' <- mask_variable update_mask f; Ok (put name (V_field f') r))
        (put COUNT (V_count (count_true update_mask)) r)
        (["tasmin"; "tasminuncertainty"; "tasmax"; "tasmaxuncertainty"] ++ surface_dependent_variables).

(* consistent.py:88-94 *)
Definition post_process (surface_dependent_variables : list string) (r : results) (surface : string) : result results :=
  if String.eqb surface "LAND" then apply_land_post_processing r surface_dependent_variables else Err ValueError.

(* ------------------------------------------------------------------ consistent.py:54-86 *)
(* run_land.py:59 and 143: the text before the number, and the number *)
Inductive comment := Percentage (n : Z) | Number (n : Z).
Record attributes := { a_catalogue_id : string; a_institution : string; a_comment : option comment }.
Record file := { f_name : string; f_day : Z; f_attributes : attributes; f_fields : list (string * field) }.

(* 61-73: the variables that results has *)
Fixpoint present (r : results) (variables : list string) : result (list (string * field)) :=
  match variables with
  | [] => Ok []
  | v :: vs => match lookup v r with
               | None => present r vs
               | Some (V_field f) => do rest <- present r vs; Ok ((v, f) :: rest)
               | Some _ => Err AttributeError
               end
  end.
Definition write_element (a : attributes) (filename : string) (r : results) (variables : list string) : result file :=
  do day <- get r DAYNUMBER;
  match day with
  | V_day n => do fields <- present r variables; Ok {| f_name := filename; f_day := n; f_attributes := a; f_fields := fields |}
  | _ => Err TypeError
  end.

(* ------------------------------------------------------------------ run_land.py *)
(* the arguments of run_day (20-29), and the dictionary that return_daily_inputs makes of them (65-88) *)
Record daily_inputs := {
  catalogue_id : string; institution : string; output_main : string; output_ancillary : string;
  input_model_1 : string; input_model_2 : string; input_model_3 : string;
  input_satellite_land_day : string; input_satellite_land_night : string; input_satellite_land_snow : option string;
  input_satellite_land_mask_north : string; input_satellite_land_mask_south : string;
  input_satellite_land_DEM : string; input_satellite_land_fvc : string;
  frac_sat_obs_threshold : string; sampling_threshold : string }.

(* model_land.py:37-40 and 64-71: the configuration of the IDL program *)
Record model := { m_parameters : list string; m_frac : string; m_sampling : string }.
(* one element of filenames_input *)
Record satellite := { s_fvc : string; s_dem : string; s_mask : list string; s_snow : option string; s_lst : string * string }.
Record entry := { e_date : Z * Z * Z; e_input : satellite; e_output_id : string; e_dir_output : string }.

(* model_land.py:44-73; [filenames_output] and [filenames_input] are indexed together *)
Fixpoint build_entries (filenames_output : list (string * string)) (filenames_input : list satellite) : result (list entry) :=
  match filenames_output, filenames_input with
  | [], _ => Ok []
  | _ :: _, [] => Err IndexError
  | o :: os, i :: is =>
      do time <- read_input_file_time (fst (s_lst i));
      do timecheck <- read_input_file_time (snd (s_lst i));
      if negb (time =? timecheck)%Z then Err ValueError else
      do rest <- build_entries os is;
      Ok ({| e_date := (dt_year time, dt_month time, dt_day time); e_input := i; e_output_id := snd o; e_dir_output := fst o |} :: rest)
  end.

(* what the IDL program computes for one entry, from the model, the date and the input files; it raises (a non-zero exit
   status) if it fails *)
Variable idl : model -> Z * Z * Z -> satellite -> result dataset.
(* the names that tempfile.NamedTemporaryFile makes, and the directory tempfile.gettempdir() *)
Variable tempdir : string.
Variable temporary : nat -> string.

(* model_land.py:102-128 run_idl: the program writes the file of each entry *)
Fixpoint run_entries (m : model) (l : list entry) (disk : list (string * dataset)) : result (list (string * dataset)) :=
  match l with
  | [] => Ok disk
  | e :: l' => do d <- idl m (e_date e) (e_input e); run_entries m l' (put (e_dir_output e ++ e_output_id e)%string d disk)
  end.
Definition run_idl (m : model) (filenames_output : list (string * string)) (filenames_input : list satellite)
  : result (list (string * dataset)) :=
  do l <- build_entries filenames_output filenames_input; run_entries m l [].

(* the files written, and the exception that ended the run if there was one *)
Definition run := (list file * result unit)%type.

(* the part of both functions from read_fields on (run_land.py:55-63, 139-148), for one day *)
Definition finish_day (disk : list (string * dataset)) (name : string) (a : Z -> attributes) (main ancillary : string) : run :=
  match (
    do d <- match lookup name disk with Some d => Ok d | None => Err IOErrorE end;
    do fields <- read_fields land_mapping d;
    do fields <- post_process VARIABLES_ANCILLARY_LAND fields "LAND";
    do count <- get fields COUNT;
    match count with
    | V_count n => Ok (fields, a n)
    | _ => Err TypeError
    end)
  with
  | Err e => ([], Err e)
  | Ok (fields, a) =>
      match write_element a main fields PRIMARY_VARIABLES with
      | Err e => ([], Err e)
      | Ok f => match write_element a ancillary fields VARIABLES_ANCILLARY_LAND with
                | Err e => ([f], Err e)
                | Ok g => ([f; g], Ok tt)
                end
      end
  end.

Definition model_of (x : daily_inputs) : model :=
  {| m_parameters := [input_model_1 x; input_model_2 x; input_model_3 x];
     m_frac := frac_sat_obs_threshold x; m_sampling := sampling_threshold x |}.
Definition temporary_path (k : nat) : string := (tempdir ++ temporary k)%string.

(* 20-63 *)
Definition run_day (x : daily_inputs) : run :=
  match run_idl (model_of x) [(tempdir, temporary 0)]
                [{| s_fvc := input_satellite_land_fvc x; s_dem := input_satellite_land_DEM x;
                    s_mask := [input_satellite_land_mask_north x; input_satellite_land_mask_south x];
                    s_snow := input_satellite_land_snow x;
                    s_lst := (input_satellite_land_day x, input_satellite_land_night x) |}] with
  | Err e => ([], Err e)
  | Ok disk =>
      finish_day disk (temporary_path 0)
        (fun n => {| a_catalogue_id := catalogue_id x; a_institution := institution x; a_comment := Some (Percentage n) |})
        (output_main x) (output_ancillary x)
  end.

(* 136-148: the loop over the days *)
Fixpoint finish_days (disk : list (string * dataset)) (a : Z -> attributes) (index : nat) (outputs : list (string * string)) : run :=
  match outputs with
  | [] => ([], Ok tt)
  | (main, ancillary) :: rest =>
      match finish_day disk (temporary_path index) a main ancillary with
      | (written, Err e) => (written, Err e)
      | (written, Ok _) => let (later, r) := finish_days disk a (S index) rest in (written ++ later, r)
      end
  end.

(* 90-148 *)
Definition run_multiple_days (list_of_daily_inputs : list daily_inputs) : run :=
  match list_of_daily_inputs with
  | [] => ([], Err IndexError)
  | first :: _ =>
      (* 98-106 *)
      let input_fvc := input_satellite_land_fvc first in
      let input_DEM := input_satellite_land_DEM first in
      let input_mask := [input_satellite_land_mask_north first; input_satellite_land_mask_south first] in
      (* 108-115, 123 *)
      let inputs_satellite :=
        map (fun x => {| s_fvc := input_fvc; s_dem := input_DEM; s_mask := input_mask;
                         s_snow := Some (match input_satellite_land_snow x with Some s => s | None => "MISSING" end);
                         s_lst := (input_satellite_land_day x, input_satellite_land_night x) |}) list_of_daily_inputs in
      match run_idl (model_of first) (map (fun k => (tempdir, temporary k)) (seq 0 (List.length list_of_daily_inputs))) inputs_satellite with
      | Err e => ([], Err e)
      | Ok disk =>
          finish_days disk
            (fun n => {| a_catalogue_id := catalogue_id first; a_institution := institution first; a_comment := Some (Number n) |})
            0 (map (fun x => (output_main x, output_ancillary x)) list_of_daily_inputs)
      end
  end.

End Fields.
