(* Model of the builders and the verification of output files
   (src/eustace/outputformats: outputvariable.py, definitions.py, filebuilder.py, globalfield_filebuilder.py, stations.py,
   globalfield.py; verify/: verify.py, specification.py, specification_globalfield.py, specification_stations.py,
   verify_globalfield.py, verify_stations.py).
   Simplifications: a NetCDF file is its attributes, dimensions and variables; data are exact numbers, written without packing or
   masks and whatever their shape; an attribute that is an array of one number is read as that number, others as written; the
   order of dictionaries is that of insertion; an error of the NetCDF library is OperationException; the descriptions of checks
   are structured instead of text, and the table of outcomes is not laid out. *)
From Coq Require Import QArith String Ascii.
From Verif Require Import Base Name_Model Time_Model.
Local Open Scope string_scope.
Local Open Scope list_scope.
Local Open Scope Z_scope.

(* ---- NetCDF files as the python library presents them *)

Inductive value := VStr (s : string) | VNum (q : Q) | VArr (l : list Z).
Inductive dtype := Float32 | Int8 | Int16 | Int32 | UInt8 | Char.
Definition dtype_eqb (a b : dtype) : bool :=
  match a, b with
  | Float32, Float32 | Int8, Int8 | Int16, Int16 | Int32, Int32 | UInt8, UInt8 | Char, Char => true
  | _, _ => false
  end.
Record ncvar := { v_type : dtype; v_dims : list string; v_atts : list (string * value); v_data : list Q }.
(* a dimension without a size is UNLIMITED *)
Record dataset := { d_atts : list (string * value); d_dims : list (string * option Z); d_vars : list (string * ncvar) }.
(* what opening a pathname gives: None if it fails *)
Definition files := string -> option dataset.

Fixpoint lookup {V} (l : list (string * V)) (k : string) : option V :=
  match l with [] => None | (k', v) :: l => if String.eqb k' k then Some v else lookup l k end.
Definition has {V} (l : list (string * V)) (k : string) : bool := match lookup l k with Some _ => true | None => false end.
(* d[k] = v *)
Fixpoint store {V} (l : list (string * V)) (k : string) (v : V) : list (string * V) :=
  match l with
  | [] => [(k, v)]
  | (k', v') :: l => if String.eqb k' k then (k', v) :: l else (k', v') :: store l k v
  end.
Definition drop {V} (l : list (string * V)) (k : string) : list (string * V) := filter (fun kv => negb (String.eqb (fst kv) k)) l.
(* an attribute as it will be read *)
Definition as_read (v : value) : value := match v with VArr [x] => VNum (inject_Z x) | _ => v end.
Definition set_attribute (l : list (string * value)) (kv : string * value) : list (string * value) := store l (fst kv) (as_read (snd kv)).

(* ---- outputvariable.py *)

(* A long name with fields in braces, already parsed. *)
Inductive piece := Text (s : string) | Field (k : string).
(* 26-50: members that are None are absent *)
Record template := { t_type : dtype; t_fill : option value; t_long : option (list piece); t_members : list (string * value) }.
Record variable := { o_name : string; o_type : dtype; o_fill : option value; o_long : option string; o_members : list (string * value) }.
(* 26: the keywords of the constructor, other than dtype, fill_value and template_long_name *)
Definition keywords : list string :=
  ["standard_name"; "units"; "cell_methods"; "cf_role"; "flag_masks"; "flag_values"; "flag_meanings"; "valid_range"; "scale_factor";
   "add_offset"; "calendar"; "bounds"; "ancillary_variables"; "axis"; "length_scale"; "length_scale_units"; "time_scale"; "time_scale_units"].
Definition is_keyword (k : string) : bool := existsb (String.eqb k) keywords.
(* keyword arguments; a keyword given as None leaves the member absent *)
Definition arguments := list (string * option value).
Definition override (m : list (string * value)) (kwargs : arguments) : list (string * value) :=
  fold_left (fun m kv => match snd kv with Some v => store m (fst kv) v | None => drop m (fst kv) end) kwargs m.
(* unexpected keyword arguments are a TypeError *)
Definition checked (kwargs : arguments) : result unit := if forallb (fun kv => is_keyword (fst kv)) kwargs then Ok tt else Err TypeError.

(* 17-24 extend; the data type and fill value stay, a new long name may be given *)
Definition extend (base : template) (long : option (list piece)) (kwargs : arguments) : result template :=
  do _ <- checked kwargs;
  Ok {| t_type := t_type base; t_fill := t_fill base; t_long := match long with Some l => Some l | None => t_long base end;
        t_members := override (t_members base) kwargs |}.
(* 53-65 *)
Definition long_name_keywords (t : template) : list string :=
  match t_long t with Some l => flat_map (fun p => match p with Field k => [k] | Text _ => [] end) l | None => [] end.
(* str.format; only strings are given for the fields of long names *)
Fixpoint format (l : list piece) (kwargs : arguments) : result string :=
  match l with
  | [] => Ok ""
  | Text s :: l => do r <- format l kwargs; Ok (s ++ r)%string
  | Field k :: l => match lookup kwargs k with
                    | None => Err KeyError
                    | Some (Some (VStr s)) => do r <- format l kwargs; Ok (s ++ r)%string
                    | Some _ => Err TypeError
                    end
  end.
Definition upper_char (c : ascii) : ascii :=
  let n := nat_of_ascii c in if ((97 <=? n) && (n <=? 122))%nat then ascii_of_nat (n - 32) else c.
(* 90-91: the first letter in upper case, if there are two characters or more *)
Definition capitalised (s : string) : string :=
  match s with String c (String d r) => String (upper_char c) (String d r) | _ => s end.
(* 76-98 from_template (of a template that is not itself an OutputVariable) *)
Definition from_template (base : template) (name : string) (long : option string) (kwargs : arguments) : result variable :=
  do long <- match long, t_long base with
             | Some s, _ => Ok (Some s)
             | None, None => Ok None
             | None, Some l => do s <- format l kwargs; Ok (Some (capitalised s))
             end;
  let rest := filter (fun kv => negb (existsb (String.eqb (fst kv)) (long_name_keywords base))) kwargs in
  do _ <- checked rest;
  Ok {| o_name := name; o_type := t_type base; o_fill := t_fill base; o_long := long; o_members := override (t_members base) rest |}.
(* 67-70 get_metadata of an OutputVariable *)
Definition get_metadata (v : variable) : list (string * value) :=
  o_members v ++ match o_long v with Some s => [("long_name", VStr s)] | None => [] end.

(* ---- definitions.py *)

Definition plain (name : string) (ty : dtype) (fill : option value) (long : option string) (members : list (string * value)) : variable :=
  {| o_name := name; o_type := ty; o_fill := fill; o_long := long; o_members := members |}.
Definition made (r : result variable) : variable := match r with Ok v => v | Err _ => plain "" Float32 None None [] end.
Definition extended (r : result template) : template :=
  match r with Ok t => t | Err _ => {| t_type := Float32; t_fill := None; t_long := None; t_members := [] |} end.
Definition quantity (s : string) : string * option value := ("quantity", Some (VStr s)).
Definition methods (s : string) : string * option value := ("cell_methods", Some (VStr s)).
Definition TITLE_PREFIX : string := "EUSTACE Surface Air Temperature Estimates ".
Definition days_since : string := "days since 1850-01-01T00:00:00Z". (* 135 *)
(* 76-83 *)
Definition TEMPLATE_TEMPERATURE : template :=
  {| t_type := Int16; t_fill := Some (VNum (-32768)); t_long := Some [Field "quantity"; Text " daily surface air temperature"];
     t_members := [("scale_factor", VNum (5 # 1000)); ("add_offset", VNum (27315 # 100)); ("standard_name", VStr "air_temperature"); ("units", VStr "K")] |}.
(* 85-91 *)
Definition TEMPLATE_TEMPERATURE_UNCERTAINTY : template :=
  {| t_type := Int16; t_fill := Some (VNum (-32768));
     t_long := Some [Text "Total uncertainty in "; Field "quantity"; Text " daily surface air temperature"];
     t_members := [("scale_factor", VNum (1 # 1000)); ("add_offset", VNum 0); ("units", VStr "K")] |}.
(* 93-100 *)
Definition TEMPLATE_PERTURBATION : template :=
  {| t_type := Int16; t_fill := Some (VNum (-32768)); t_long := Some [Field "quantity"; Text " daily surface air temperature"];
     t_members := [("scale_factor", VNum (5 # 1000)); ("add_offset", VNum 0); ("standard_name", VStr "air_temperature"); ("units", VStr "K")] |}.
(* 102-104 *)
Definition TEMPLATE_TEMPERATURE_UNCERTAINTY_TOTAL : template :=
  extended (extend TEMPLATE_TEMPERATURE_UNCERTAINTY (Some [Text "Total uncertainty in "; Field "quantity"; Text " daily surface air temperature"]) []).
(* 130-133 *)
Definition TIME_BOUNDS := plain "timebounds" Float32 None None [].
(* 137-147 *)
Definition TIME := plain "time" Float32 None (Some "Time at zero longitude")
  [("standard_name", VStr "time"); ("units", VStr days_since); ("calendar", VStr "gregorian"); ("bounds", VStr (o_name TIME_BOUNDS));
   ("ancillary_variables", VStr "timeoffset"); ("axis", VStr "T")].
(* 149-154 *)
Definition TIME_OFFSET := plain "timeoffset" Float32 None (Some "Local time offset from UTC (days)") [("units", VStr "days")].
(* 156-172 *)
Definition LATITUDE := plain "latitude" Float32 None (Some "Latitude (deg)") [("standard_name", VStr "latitude"); ("units", VStr "degrees_north"); ("axis", VStr "Y")].
Definition LONGITUDE := plain "longitude" Float32 None (Some "Longitude (deg)") [("standard_name", VStr "longitude"); ("units", VStr "degrees_east"); ("axis", VStr "X")].
(* 174-180 *)
Definition ELEVATION := plain "elevation" Float32 (Some (VNum (-9999 # 10))) (Some "Height above the geoid (m)") [("standard_name", VStr "surface_altitude"); ("units", VStr "m")].
(* 182-184 *)
Definition TAS := made (from_template TEMPLATE_TEMPERATURE "tas" None [quantity "average"; methods "time: mean"]).
Definition TASMIN := made (from_template TEMPLATE_TEMPERATURE "tasmin" None [quantity "minimum"; methods "time: minimum"]).
Definition TASMAX := made (from_template TEMPLATE_TEMPERATURE "tasmax" None [quantity "maximum"; methods "time: maximum"]).
(* 186-188 *)
Definition TASUNCERTAINTY := made (from_template TEMPLATE_TEMPERATURE_UNCERTAINTY_TOTAL "tasuncertainty" None [quantity "average"]).
Definition TASMINUNCERTAINTY := made (from_template TEMPLATE_TEMPERATURE_UNCERTAINTY_TOTAL "tasminuncertainty" None [quantity "mimimum"]).
Definition TASMAXUNCERTAINTY := made (from_template TEMPLATE_TEMPERATURE_UNCERTAINTY_TOTAL "tasmaxuncertainty" None [quantity "maximum"]).
(* 202-204 *)
Definition TASPERTURBATION := made (from_template TEMPLATE_PERTURBATION "tas_perturbation" None [quantity "average"; methods "time: mean"]).
Definition TASMINPERTURBATION := made (from_template TEMPLATE_PERTURBATION "tasmin_perturbation" None [quantity "average"; methods "time: mean"]).
Definition TASMAXPERTURBATION := made (from_template TEMPLATE_PERTURBATION "tasmax_perturbation" None [quantity "average"; methods "time: mean"]).
(* 375-380 *)
Definition STATION_NAME := plain "station_name" Char (Some (VNum 0)) (Some "Station name") [("cf_role", VStr "timeseries_id")].
(* 382-400 *)
Definition quality_control (name : string) : variable :=
  plain name UInt8 (Some (VNum 255)) (Some "Quality control flags")
    [("standard_name", VStr "air_temperature status_flag"); ("valid_range", VArr [0; 0]); ("flag_masks", VArr []); ("flag_meanings", VStr "")].
Definition TASMIN_QC := quality_control "tasmin_qc".
Definition TASMAX_QC := quality_control "tasmax_qc".
(* 402-408; the default fill values of the library are not spelled out *)
Definition DETECTION_TIME := plain "detection_time" Float32 (Some (VNum 0))
  (Some "Start time of period for break detection status report (days)") [("standard_name", VStr "time"); ("units", VStr days_since)].
(* 410-428 *)
Definition detection_quality (name : string) : variable :=
  plain name UInt8 (Some (VNum 255)) (Some "Quality control flags for break detection")
    [("standard_name", VStr "air_temperature status_flag"); ("valid_range", VArr [0; 2]); ("flag_values", VArr [0; 1; 2]);
     ("flag_meanings", VStr "not_possible possible_but_unreliable reliable")].
Definition TASMIN_DETECTION_QC := detection_quality "tasmin_detection_qc".
Definition TASMAX_DETECTION_QC := detection_quality "tasmax_detection_qc".
(* 430-484 *)
Definition break_station (name : string) := plain name Int32 (Some (VNum 0)) (Some "Index of station at which break was detected") [].
Definition TASMIN_BREAK_STATION := break_station "tasmin_break_station".
Definition TASMAX_BREAK_STATION := break_station "tasmax_break_station".
Definition TASMIN_BREAK_AMPLITUDE := plain "tasmin_break_amplitude" Float32 (Some (VNum 0)) (Some "Inhomogeneity in minimum surface air temperature") [("units", VStr "K")].
Definition TASMAX_BREAK_AMPLITUDE := plain "tasmax_break_amplitude" Float32 (Some (VNum 0)) (Some "Inhomogeneity in maximum surface air temperature") [("units", VStr "K")].
Definition break_bounds (name : string) := plain name Float32 (Some (VNum 0)) (Some "Relative time bounds of break evaluation period (days)") [("units", VStr "days")].
Definition TASMIN_BREAK_TIME_BOUNDS := break_bounds "tasmin_break_time_bounds".
Definition TASMAX_BREAK_TIME_BOUNDS := break_bounds "tasmax_break_time_bounds".
Definition break_affected (name : string) := plain name Float32 (Some (VNum 0)) (Some "Relative time bounds of period affected by break (days)") [("units", VStr days_since)].
Definition TASMIN_BREAK_TIME_AFFECTED_BOUNDS := break_affected "tasmin_break_time_affected_bounds".
Definition TASMAX_BREAK_TIME_AFFECTED_BOUNDS := break_affected "tasmax_break_time_affected_bounds".

(* ---- filebuilder.py *)

(* 18-27 create *)
Definition create (title institution comment history source : string) : dataset :=
  {| d_atts := fold_left set_attribute
       [("Conventions", VStr "CF-1.6"); ("title", VStr title); ("institution", VStr institution); ("history", VStr history);
        ("source", VStr source); ("comment", VStr comment)] [];
     d_dims := []; d_vars := [] |}.
(* 29-33 *)
Definition add_dimension (ds : dataset) (name : string) (size : option Z) : result dataset :=
  if has (d_dims ds) name then Err OperationException
  else Ok {| d_atts := d_atts ds; d_dims := d_dims ds ++ [(name, size)]; d_vars := d_vars ds |}.
(* 35-56 *)
Definition add_variable (ds : dataset) (v : variable) (dims : list string) (values : list Q) : result dataset :=
  if forallb (has (d_dims ds)) dims then
    if has (d_vars ds) (o_name v) then Err OperationException
    else let fill := match o_fill v with Some f => [("_FillValue", f)] | None => [] end in
         Ok {| d_atts := d_atts ds; d_dims := d_dims ds;
               d_vars := d_vars ds ++ [(o_name v, {| v_type := o_type v; v_dims := dims;
                                                     v_atts := fold_left set_attribute (get_metadata v) fill; v_data := values |})] |}
  else Err KeyError.
(* 58-66 *)
Definition add_dimension_and_variable (ds : dataset) (name : string) (v : variable) (values : list Q) (unlimited : bool) : result dataset :=
  do ds <- add_dimension ds name (if unlimited then None else Some (zlen values));
  add_variable ds v [name] values.

(* ---- globalfield_filebuilder.py *)

(* numpy.linspace(a, b, num=n) *)
Definition linspace (a b : Q) (n : Z) : list Q :=
  map (fun i => (a + inject_Z i * ((b - a) / inject_Z (n - 1)))%Q) (zrange 0 n).
Definition RESOLUTION : Q := 1 # 4.
Definition file_latitudes : list Q := linspace (- (90) + RESOLUTION / 2) (90 - RESOLUTION / 2) 720.
Definition file_longitudes : list Q := linspace (- (180) + RESOLUTION / 2) (180 - RESOLUTION / 2) 1440.
(* 60-108 the constructor of FileBuilderGlobalField; the file is the value, its directory is not modelled *)
Definition global_field (daynumber : Q) (dataset_name institution comment history source : string) : result dataset :=
  let ds := create (TITLE_PREFIX ++ dataset_name)%string institution comment history source in
  do ds <- add_dimension_and_variable ds "time" TIME [daynumber] true;
  do ds <- add_dimension ds "bounds" (Some 2);
  do ds <- add_variable ds TIME_BOUNDS ["time"; "bounds"] [daynumber; (daynumber + 1)%Q];
  do ds <- add_dimension_and_variable ds "latitude" LATITUDE file_latitudes false;
  do ds <- add_dimension_and_variable ds "longitude" LONGITUDE file_longitudes false;
  add_variable ds TIME_OFFSET ["longitude"] (map (fun x => (x / 360)%Q) file_longitudes).
(* 110-116 *)
Definition add_global_field (ds : dataset) (v : variable) (values : list Q) : result dataset :=
  add_variable ds v ["time"; "latitude"; "longitude"] values.
(* 118-132 *)
Definition uncertainty_parameter (name long_name : string) : variable :=
  plain name Int16 (Some (VNum (-32768))) (Some long_name)
    [("scale_factor", VNum (1 # 1000)); ("add_offset", VNum 0); ("units", VStr "K")].
(* several fields one after another *)
Fixpoint add_global_fields (ds : dataset) (l : list (variable * list Q)) : result dataset :=
  match l with [] => Ok ds | (v, values) :: l => do ds <- add_global_field ds v values; add_global_fields ds l end.

(* globalfield.py:15-22: the axes of cubes of global fields; point i (from 0) of an iris axis made from zeroth, step, count is
   zeroth + step * (i + 1) *)
Definition grid_axis (zeroth step : Q) (count : Z) : list Q :=
  map (fun i => (zeroth + step * inject_Z (i + 1))%Q) (zrange 0 count).
Definition cube_latitudes : list Q := grid_axis (- (90) - (1 # 2) * RESOLUTION) RESOLUTION 720.
Definition cube_longitudes : list Q := grid_axis (- (180) - (1 # 2) * RESOLUTION) RESOLUTION 1440.

(* ---- stations.py *)

Record builder := { b_temperature : dataset; b_status : dataset }.
Definition lower (s : string) : string := (fix go s := match s with EmptyString => EmptyString | String c s => String (lower_char c) (go s) end) s.
(* definitions.py:31-32 and 16-24: the pathnames of the two files *)
Definition station_pathname (directory region version kind : string) : string :=
  join_one directory ("eustace_stations_" ++ lower region ++ "_" ++ version ++ "_" ++ kind ++ ".nc")%string.
(* 26-50 *)
Definition station_builder (institution comment history source : string) : result builder :=
  let t := create (TITLE_PREFIX ++ "at Stations")%string institution comment history source in
  let s := create (TITLE_PREFIX ++ "Station Status")%string institution comment history source in
  let t := {| d_atts := set_attribute (d_atts t) ("featureType", VStr "timeSeries"); d_dims := d_dims t; d_vars := d_vars t |} in
  do s <- add_dimension s "bounds" (Some 2);
  Ok {| b_temperature := t; b_status := s |}.
(* 63-71: the characters of a name as numbers, cut or filled with zeros to 32 *)
Definition name_characters (name : string) : list Z :=
  let cs := map (fun c => Z.of_nat (nat_of_ascii c)) (list_ascii_of_string name) in
  firstn 32 cs ++ repeat 0 (32 - length cs)%nat.
(* 52-90 set_temperature_dimensions; time bounds are one day *)
Definition set_temperature_dimensions (b : builder) (names : list string) (times : list Q) : result builder :=
  let t := b_temperature b in
  do t <- add_dimension t "station" (Some (zlen names));
  do t <- add_dimension t "name_strlen" (Some 32);
  do t <- add_variable t STATION_NAME ["station"; "name_strlen"] (map inject_Z (flat_map name_characters names));
  do t <- add_dimension_and_variable t "time" TIME times true;
  do t <- add_dimension t "bounds" (Some 2);
  do t <- add_variable t TIME_BOUNDS ["time"; "bounds"] (flat_map (fun x => [x; (x + 1)%Q]) times);
  Ok {| b_temperature := t; b_status := b_status b |}.
(* 92-97 *)
Definition add_temperature_variable (b : builder) (v : variable) (values : list Q) : result builder :=
  do t <- add_variable (b_temperature b) v ["time"; "station"] values; Ok {| b_temperature := t; b_status := b_status b |}.
(* 99-102 *)
Definition add_status_dimension (b : builder) (name : string) (size : option Z) : result builder :=
  do s <- add_dimension (b_status b) name size; Ok {| b_temperature := b_temperature b; b_status := s |}.
(* 104-115 *)
Definition add_status_variable (b : builder) (dim : string) (v : variable) (values : list Q) (bounds : bool) : result builder :=
  do s <- add_variable (b_status b) v (dim :: if bounds then ["bounds"] else []) values;
  Ok {| b_temperature := b_temperature b; b_status := s |}.
(* a sequence of calls of the builder *)
Inductive call :=
| SetTemperatureDimensions (names : list string) (times : list Q)
| AddTemperatureVariable (v : variable) (values : list Q)
| AddStatusDimension (name : string) (size : option Z)
| AddStatusVariable (dim : string) (v : variable) (values : list Q) (bounds : bool).
Definition perform (b : builder) (c : call) : result builder :=
  match c with
  | SetTemperatureDimensions names times => set_temperature_dimensions b names times
  | AddTemperatureVariable v values => add_temperature_variable b v values
  | AddStatusDimension name size => add_status_dimension b name size
  | AddStatusVariable dim v values bounds => add_status_variable b dim v values bounds
  end.
Fixpoint perform_all (b : builder) (cs : list call) : result builder :=
  match cs with [] => Ok b | c :: cs => do b <- perform b c; perform_all b cs end.

(* ---- verify *)

(* specification.py: what is asked of an attribute (True, False or a string), of metadata (None, a string or a list) *)
Inductive wanted := Exists | Ignored | Exactly (s : string).
Inductive meta := AnyValue | Is (s : string) | Numbers (l : list Z).
Record varspec := { vs_name : string; vs_type : option dtype; vs_meta : list (string * meta) }.
Record filespec := { fs_atts : list (string * wanted); fs_dims : list (string * option Z); fs_vars : list varspec }.
(* specification.py:35-41 *)
Definition common_attributes : list (string * wanted) :=
  [("title", Exists); ("institution", Exists); ("source", Exists); ("history", Exists); ("Conventions", Exactly "CF-1.6")].
Definition spec (name : string) (ty : dtype) (m : list (string * meta)) : varspec := {| vs_name := name; vs_type := Some ty; vs_meta := m |}.
(* specification_globalfield.py:11-75 *)
Definition spec_temperature (name long methods : string) : varspec :=
  spec name Int16 [("standard_name", Is "air_temperature"); ("long_name", Is long); ("units", Is "K"); ("cell_methods", Is methods)].
Definition SpecificationGlobalField : filespec :=
  {| fs_atts := common_attributes;
     fs_dims := [("latitude", Some 720); ("longitude", Some 1440); ("time", None); ("bounds", Some 2)];
     fs_vars :=
       [spec "time" Float32 [("standard_name", Is "time"); ("long_name", Is "Time at zero longitude"); ("units", Is days_since);
                             ("calendar", Is "gregorian"); ("axis", Is "T"); ("bounds", Is "timebounds"); ("ancillary_variables", Is "timeoffset")];
        spec "timebounds" Float32 [];
        spec "timeoffset" Float32 [("long_name", Is "Local time offset from UTC (days)"); ("units", Is "days")];
        spec "latitude" Float32 [("standard_name", Is "latitude"); ("long_name", Is "Latitude (deg)"); ("units", Is "degrees_north"); ("axis", Is "Y")];
        spec "longitude" Float32 [("standard_name", Is "longitude"); ("long_name", Is "Longitude (deg)"); ("units", Is "degrees_east"); ("axis", Is "X")];
        spec_temperature "tas" "Average daily surface air temperature" "time: mean";
        spec_temperature "tasmin" "Minimum daily surface air temperature" "time: minimum";
        spec_temperature "tasmax" "Maximum daily surface air temperature" "time: maximum"] |}.
(* specification_stations.py:8-80 *)
Definition spec_quality (name : string) : varspec :=
  spec name UInt8 [("long_name", Is "Quality control flags"); ("standard_name", Is "air_temperature status_flag"); ("valid_range", AnyValue);
                   ("flag_masks", AnyValue); ("flag_meanings", AnyValue)].
Definition SpecificationStationTemperature : filespec :=
  {| fs_atts := common_attributes;
     fs_dims := [("time", None)];
     fs_vars :=
       [spec "time" Float32 [("standard_name", Is "time"); ("long_name", Is "Time at zero longitude"); ("units", Is days_since); ("calendar", Is "gregorian")];
        spec "latitude" Float32 [("standard_name", Is "latitude"); ("long_name", Is "Latitude (deg)"); ("units", Is "degrees_north")];
        spec "longitude" Float32 [("standard_name", Is "longitude"); ("long_name", Is "Longitude (deg)"); ("units", Is "degrees_east")];
        spec_temperature "tasmin" "Minimum daily surface air temperature" "time: minimum";
        spec_temperature "tasmax" "Maximum daily surface air temperature" "time: maximum";
        spec "station_name" Char [("long_name", Is "Station name"); ("cf_role", Is "timeseries_id")];
        spec "elevation" Float32 [("long_name", Is "Height above the geoid (m)"); ("standard_name", Is "surface_altitude"); ("units", Is "m")];
        spec_quality "tasmin_qc"; spec_quality "tasmax_qc"] |}.
(* specification_stations.py:82-157 *)
Definition spec_detection (name : string) : varspec :=
  spec name UInt8 [("long_name", Is "Quality control flags for break detection"); ("standard_name", Is "air_temperature status_flag");
                   ("valid_range", Numbers [0; 2]); ("flag_values", Numbers [0; 1; 2]);
                   ("flag_meanings", Is "not_possible possible_but_unreliable reliable")].
Definition SpecificationStationStatus : filespec :=
  {| fs_atts := common_attributes;
     fs_dims := [("detection_time", None); ("tasmin_break", None); ("tasmax_break", None); ("bounds", Some 2)];
     fs_vars :=
       [spec "detection_time" Float32 [("standard_name", Is "time");
             ("long_name", Is "Start time of period for break detection status report (days)"); ("units", Is days_since)];
        spec_detection "tasmin_detection_qc"; spec_detection "tasmax_detection_qc";
        spec "tasmin_break_station" Int32 [("long_name", Is "Index of station at which break was detected")];
        spec "tasmax_break_station" Int32 [("long_name", Is "Index of station at which break was detected")];
        spec "tasmin_break_amplitude" Float32 [("long_name", Is "Inhomogeneity in minimum surface air temperature"); ("units", Is "K")];
        spec "tasmax_break_amplitude" Float32 [("long_name", Is "Inhomogeneity in maximum surface air temperature"); ("units", Is "K")];
        spec "tasmin_break_time_bounds" Float32 [("long_name", Is "Relative time bounds of break evaluation period (days)"); ("units", Is "days")];
        spec "tasmax_break_time_bounds" Float32 [("long_name", Is "Relative time bounds of break evaluation period (days)"); ("units", Is "days")];
        spec "tasmin_break_time_affected_bounds" Float32 [("long_name", Is "Relative time bounds of period affected by break (days)"); ("units", Is days_since)];
        spec "tasmax_break_time_affected_bounds" Float32 [("long_name", Is "Relative time bounds of period affected by break (days)"); ("units", Is days_since)]] |}.

(* verify.py: descriptions of the checks *)
Inductive check :=
| Opens | AttributeExists (k : string) | AttributeValue (k s : string) | SomeVariable (names : list string)
| VariableType (v : string) (ty : dtype) | MetadataExists (v k : string) | MetadataValue (v k : string) (m : meta)
| Dimension (k : string) (size : option Z).
Definition outcome := (check * bool)%type.
(* 62-79 check_attributes *)
Definition check_attribute (ds : dataset) (kw : string * wanted) : list outcome :=
  let (k, w) := kw in
  match w with
  | Ignored => []
  | Exists => [(AttributeExists k, has (d_atts ds) k)]
  | Exactly s =>
      (AttributeExists k, has (d_atts ds) k) ::
      match lookup (d_atts ds) k with
      | Some v => [(AttributeValue k s, match v with VStr s' => String.eqb s' s | _ => false end)]
      | None => []
      end
  end.
(* 98-100: [all(list == value)]: elementwise for arrays (and single numbers) of fitting length, otherwise all(False), a TypeError *)
Definition numbers_equal (l : list Z) (v : value) : result bool :=
  match v with
  | VStr _ => Err TypeError
  | VNum q => Ok (forallb (fun x => Qeq_bool (inject_Z x) q) l)
  | VArr a => if (length a =? length l)%nat then Ok (forallb (fun xy => fst xy =? snd xy) (combine l a))
              else match l with [x] => Ok (forallb (Z.eqb x) a) | _ => Err TypeError end
  end.
(* 92-104 *)
Definition check_metadata (name : string) (var : ncvar) (km : string * meta) : result (list outcome) :=
  let (k, m) := km in
  let found := lookup (v_atts var) k in
  do value <- match m, found with
              | AnyValue, _ => Ok []
              | _, None => Ok [(MetadataValue name k m, false)]
              | Is s, Some v => Ok [(MetadataValue name k m, match v with VStr s' => String.eqb s s' | _ => false end)]
              | Numbers l, Some v => do b <- numbers_equal l v; Ok [(MetadataValue name k m, b)]
              end;
  Ok ((MetadataExists name k, match found with Some _ => true | None => false end) :: value).
Definition check_variable (ds : dataset) (v : varspec) : result (list outcome) :=
  match lookup (d_vars ds) (vs_name v) with
  | None => Ok []
  | Some var =>
      do ms <- mapM (check_metadata (vs_name v) var) (vs_meta v);
      Ok (match vs_type v with Some ty => [(VariableType (vs_name v) ty, dtype_eqb (v_type var) ty)] | None => [] end ++ concat ms)
  end.
(* 81-104 check_variables *)
Definition check_variables (ds : dataset) (vs : list varspec) : result (list outcome) :=
  do l <- mapM (check_variable ds) vs;
  Ok ((SomeVariable (map vs_name vs), existsb (fun v => has (d_vars ds) (vs_name v)) vs) :: concat l).
(* 106-118 check_dimensions *)
Definition check_dimension (ds : dataset) (kd : string * option Z) : outcome :=
  let (k, size) := kd in
  (Dimension k size,
   match size, lookup (d_dims ds) k with
   | None, Some None => true
   | Some n, Some (Some m) => m =? n
   | _, _ => false
   end).
(* 120-127 check_file; None is not a pathname *)
Definition check_file (fs : files) (path : option string) (sp : filespec) : result (list outcome) :=
  match match path with Some p => fs p | None => None end with
  | None => Ok [(Opens, false)]
  | Some ds =>
      do vs <- check_variables ds (fs_vars sp);
      Ok ((Opens, true) :: flat_map (check_attribute ds) (fs_atts sp) ++ vs ++ map (check_dimension ds) (fs_dims sp))
  end.
(* 41-43 *)
Definition has_passed (os : list outcome) : bool := forallb snd os.
(* verify_globalfield.py:12-15 and 129-133 run, as exit status of main: an exception ends with status 1 as well *)
Definition verify_globalfield (fs : files) (path : string) : result (list outcome) := check_file fs (Some path) SpecificationGlobalField.
(* verify_stations.py:13-28 *)
Definition verify_stations (fs : files) (prefix : string) : result (list outcome) :=
  let path kind := match prefix with EmptyString => None | _ => Some (prefix ++ kind)%string end in
  do t <- check_file fs (path "_temperature.nc") SpecificationStationTemperature;
  do s <- check_file fs (path "_status.nc") SpecificationStationStatus;
  Ok (t ++ s).
Definition exit_status (r : result (list outcome)) : Z := match r with Ok os => if has_passed os then 0 else 1 | Err _ => 1 end.
