(* Model of the programs that inspect the daily observation files before the analysis: diagnostic grids
   (src/eustace/analysis/diagnosticgrid.py, diagnosticgrid_aggregate.pyx, diagnostic_combine.py), counts of observations
   (obscount.py, obscountsources.py) and the listing of one day (inspectinput.py).
   Simplifications: numbers are exact rationals (num reads a 64-bit word of a file as a number; infinities and NaN are left
   out); grid numbers do not overflow 32 bits; arrays over the grid are functions of the flat cell number; the text printed
   is left out, and of the saved file only the list of cubes handed to the saver is kept. *)
From Coq Require Import QArith Qcanon String.
From Verif Require Import Base Time_Model Grid_Model Obs_Model Cpp_Model.
Local Open Scope Z_scope.
Local Open Scope list_scope.

(* ---- diagnosticgrid.py *)

(* 8-16 DiagnosticGridInput *)
Record grid_input := { gi_observable : string; gi_day : Z; gi_indices : list Z; gi_observation : list Qc; gi_uncertainty : list Qc }.

(* 21-43 DiagnosticGridObservationConnector.__init__: the cell of every location of the lookup table (a row of latitudes and
   a row of longitudes, here pairs) *)
Definition connect (axes : list field_axis) (table : list (Qc * Qc)) : result (list Z) :=
  match axes with
  | [lat; lon] =>
      do is <- mapM (field_axis_index lat) (map fst table);
      do js <- mapM (field_axis_index lon) (map snd table);
      Ok (map (fun ij => fst ij * fa_count lon + snd ij) (combine is js))
  | [time; lat; lon] =>
      if negb (fa_count time =? 1) then Err ValueError else
      do is <- mapM (field_axis_index lat) (map fst table);
      do js <- mapM (field_axis_index lon) (map snd table);
      Ok (map (fun ij => fst ij * fa_count lon + snd ij) (combine is js))
  | _ => Err ValueError
  end.

(* numpy indexing of an array by an unsigned number *)
Definition at_id {A} (l : list A) (i : Z) : result A := match nth_error l (Z.to_nat i) with Some x => Ok x | None => Err IndexError end.

(* 46-70 get_day *)
Definition get_day (cells : list Z) (o : obset) (observable : string) (daynumber : Z) : result grid_input :=
  let daymask i := negb (trunc (time_at (s_time o) i) =? daynumber) in
  let valid := filter (fun i => negb (daymask i || nth i (s_mask o) true)) (seq 0 (List.length (s_mask o))) in
  do indices <- mapM (at_id cells) (take 0 (s_location o) valid);
  Ok {| gi_observable := observable; gi_day := daynumber; gi_indices := indices;
        gi_observation := take 0%Qc (s_measurement o) valid; gi_uncertainty := take 0%Qc (s_unc o) valid |}.

(* a cube: a masked array over the grid with a name (satgrid_iris/gridbin/gridfieldlist.py:60-110); whole numbers of counts
   are kept as rationals *)
Record cube := { cu_name : string; cu_mask : Z -> bool; cu_data : Z -> Qc }.
(* gridfieldlist.py:75-81 get_field: the first cube of the name *)
Fixpoint get_field (cubes : list cube) (name : string) : option cube :=
  match cubes with [] => None | c :: r => if String.eqb (cu_name c) name then Some c else get_field r name end.
(* gridfieldlist.py:96-115 get_or_create_field with a mask *)
Definition get_or_create (cubes : list cube) (name : string) (initial : Qc) : list cube :=
  match get_field cubes name with
  | Some _ => cubes
  | None => cubes ++ [{| cu_name := name; cu_mask := fun _ => true; cu_data := fun _ => initial |}]
  end.
(* writing through the array of the first cube of the name *)
Fixpoint put_field (cubes : list cube) (name : string) (mask : Z -> bool) (data : Z -> Qc) : list cube :=
  match cubes with
  | [] => []
  | c :: r => if String.eqb (cu_name c) name then {| cu_name := name; cu_mask := mask; cu_data := data |} :: r else c :: put_field r name mask data
  end.

(* 76-85 AGGREGATE_INITIAL_VALUE (the order of a dictionary is not fixed: the model takes the order of the text) *)
Definition BIG : Qc := qz (10 ^ 30).
Inductive diagnostic := DCount | DObsMax | DObsMin | DUncMax | DUncMin | DSum | DPrec.
Definition initial_value (d : diagnostic) : Qc :=
  match d with
  | DCount => 0%Qc
  | DObsMax => (- BIG)%Qc | DObsMin => BIG
  | DUncMax => (- BIG)%Qc | DUncMin => BIG
  | DSum => 0%Qc | DPrec => 0%Qc
  end.
Definition diagnostic_name (d : diagnostic) : string :=
  match d with
  | DCount => "count" | DObsMax => "observation_max" | DObsMin => "observation_min" | DUncMax => "uncertainty_max"
  | DUncMin => "uncertainty_min" | DSum => "observation_weightedsum" | DPrec => "precision_sum"
  end.
Definition diagnostics : list diagnostic := [DCount; DObsMax; DObsMin; DUncMax; DUncMin; DSum; DPrec].
(* 86 FIELDNAMEFORMAT *)
Definition field_name (source observable diag : string) : string := (source ++ "_" ++ observable ++ "_" ++ diag)%string.

(* ---- diagnosticgrid_aggregate.pyx *)
Definition arrays := diagnostic -> Z -> Qc.
Definition diag_eqb (a b : diagnostic) : bool :=
  match a, b with
  | DCount, DCount | DObsMax, DObsMax | DObsMin, DObsMin | DUncMax, DUncMax | DUncMin, DUncMin | DSum, DSum | DPrec, DPrec => true
  | _, _ => false
  end.
Definition set_at (a : arrays) (d : diagnostic) (c : Z) (v : Qc) : arrays := fun d' => if diag_eqb d d' then upd (a d) c v else a d'.
(* 27-41: one observation *)
Definition aggregate_one (a : arrays) (x : Z * (Qc * Qc)) : result arrays :=
  let '(gridindex, (obs, unc)) := x in
  let a := set_at a DCount gridindex (a DCount gridindex + 1)%Qc in
  let a := if Qclt_bool obs (a DObsMin gridindex) then set_at a DObsMin gridindex obs else a in
  let a := if Qclt_bool (a DObsMax gridindex) obs then set_at a DObsMax gridindex obs else a in
  let a := if Qclt_bool obs (a DUncMin gridindex) then set_at a DUncMin gridindex unc else a in
  let a := if Qclt_bool (a DUncMax gridindex) unc then set_at a DUncMax gridindex unc else a in
  if Qc_eq_bool unc 0%Qc then Err ZeroDivisionError else
  let a := set_at a DSum gridindex (a DSum gridindex + obs / unc)%Qc in
  let a := set_at a DPrec gridindex (a DPrec gridindex + 1 / unc)%Qc in
  Ok a.
(* 24-41 *)
Definition aggregate (a : arrays) (l : list (Z * (Qc * Qc))) : result arrays := foldM aggregate_one a l.

(* ---- diagnosticgrid.py *)

(* 109-112: get or create, and unmask where there are observations.  The numbers handed in must be cells of the grid. *)
Definition open_field (source : string) (obs : grid_input) (cubes : list cube) (d : diagnostic) : list cube :=
  let name := field_name source (gi_observable obs) (diagnostic_name d) in
  let cubes := get_or_create cubes name (initial_value d) in
  match get_field cubes name with
  | Some c => put_field cubes name (fun i => if existsb (Z.eqb i) (gi_indices obs) then false else cu_mask c i) (cu_data c)
  | None => cubes
  end.
(* the data parts, by name (114-115) *)
Definition data_of (source observable : string) (cubes : list cube) : arrays :=
  fun d i => match get_field cubes (field_name source observable (diagnostic_name d)) with Some c => cu_data c i | None => 0%Qc end.
(* the loop changes the arrays in place *)
Definition store_data (source observable : string) (a : arrays) (cubes : list cube) (d : diagnostic) : list cube :=
  let name := field_name source observable (diagnostic_name d) in
  match get_field cubes name with Some c => put_field cubes name (cu_mask c) (a d) | None => cubes end.
(* 95-118 create_fields_from_sparse_observations, on a grid of ncells cells *)
Definition create_fields (ncells : Z) (source : string) (cubes : list cube) (obs : grid_input) : result (list cube) :=
  if negb (forallb (fun i => (0 <=? i) && (i <? ncells)) (gi_indices obs)) then Err IndexError else
  let cubes := fold_left (open_field source obs) diagnostics cubes in
  do a <- aggregate (data_of source (gi_observable obs) cubes) (combine (gi_indices obs) (combine (gi_observation obs) (gi_uncertainty obs)));
  Ok (fold_left (store_data source (gi_observable obs) a) diagnostics cubes).

(* 120-128 compute_weighted_mean: division of masked arrays masks the cells where the divisor is zero; the field made is
   appended whether or not there is one of the name *)
Definition compute_weighted_mean (source observable : string) (cubes : list cube) : result (list cube) :=
  match get_field cubes (field_name source observable "observation_weightedsum"), get_field cubes (field_name source observable "precision_sum") with
  | Some s, Some p =>
      Ok (cubes ++ [{| cu_name := field_name source observable "observation_weightedmean";
                       cu_mask := fun i => cu_mask s i || cu_mask p i || Qc_eq_bool (cu_data p i) 0%Qc;
                       cu_data := fun i => (cu_data s i / cu_data p i)%Qc |}])
  | _, _ => Err AttributeError
  end.

(* ---- diagnostic_combine.py *)

(* 15-24 DiagnosticInput; the name of the observation file may be missing *)
Record diag_input := { di_source : string; di_observable : string; di_ranges : string; di_locations : string; di_observations : option string }.

(* reading a whole file *)
Definition fopen (fs : files) (path : string) : result (list byte) := match fs path with Some d => Ok d | None => Err IOErrorE end.

(* numbers of a set read from a file *)
Definition numbers (num : Z -> Qc) (o : observations) : obset :=
  {| s_mask := o_mask o; s_time := o_time o; s_location := o_location o; s_measurement := map num (o_measurement o);
     s_unc := map num (o_unc o); s_cor := map (map num) (o_cor o) |}.
Definition no_observations (daynumber : Z) : obset :=
  {| s_mask := []; s_time := TScalar (qz daynumber); s_location := []; s_measurement := []; s_unc := []; s_cor := [] |}.

(* fileio/observationsource_rawbinary.py:458-488 ObservationSourceSingleDayRawBinary.observations, observationsource_missing.py *)
Definition source_observations (fs : files) (num : Z -> Qc) (uuid : list byte) (filename : option string) (ranges : list Z) (daynumber : Z) : result obset :=
  match filename with
  | Some f => do data <- fopen fs f; do o <- read_day (List.length ranges) data uuid daynumber; Ok (numbers num o)
  | None => Ok (no_observations daynumber)
  end.

(* outputformats/globalfield.py:12-43: the axes *)
Definition quarter : Qc := (1 / qz 4)%Qc.
Definition global_axes (daynumber : Z) : list field_axis :=
  [ {| fa_zeroth := (qz daynumber - 1)%Qc; fa_step := 1%Qc; fa_count := 1; fa_circular := false |};
    {| fa_zeroth := (- qz 90 - (1 / qz 2) * quarter)%Qc; fa_step := quarter; fa_count := 720; fa_circular := true |};
    {| fa_zeroth := (- qz 180 - (1 / qz 2) * quarter)%Qc; fa_step := quarter; fa_count := 1440; fa_circular := true |} ].
Definition global_cells : Z := 1 * 720 * 1440.

(* 42-54 the cache of location files *)
Definition cached_locations (fs : files) (cache : list (string * lookup)) (path : string) : result (list (string * lookup) * lookup) :=
  match cache_find cache path with
  | Some l => Ok (cache, l)
  | None => do data <- fopen fs path; do l <- read_lookup data; Ok ((path, l) :: cache, l)
  end.

(* 37-79: one input.  print_stats (86-91) takes the least and the greatest of the measurements first *)
Definition combine_one (fs : files) (num : Z -> Qc) (daynumber : Z) (st : list (string * lookup) * list cube) (d : diag_input)
  : result (list (string * lookup) * list cube) :=
  let (cache, cubes) := st in
  do cl <- cached_locations fs cache (di_locations d);
  let (cache, locations) := cl in
  do data <- fopen fs (di_ranges d);
  do ranges <- read_ranges data;
  do obs <- source_observations fs num (lk_uuid locations) (di_observations d) ranges daynumber;
  match s_measurement obs with
  | [] => Err ValueError (* min() of an empty sequence *)
  | _ =>
      do cells <- connect (global_axes daynumber) (map (fun ll => (num (fst ll), num (snd ll))) (lk_table locations));
      do day <- get_day cells obs (di_observable d) daynumber;
      do cubes <- create_fields global_cells (di_source d) cubes day;
      do cubes <- compute_weighted_mean (di_source d) (di_observable d) cubes;
      Ok (cache, cubes)
  end.
(* 26-84 run: what is saved under the output name when all went well; otherwise nothing is *)
Definition combine_run (fs : files) (num : Z -> Qc) (inputs : list diag_input) (daynumber : Z) : result (list cube) :=
  do st <- foldM (combine_one fs num daynumber) ([], []) inputs; Ok (snd st).

(* ---- obscount.py *)

(* 13-23 ObsSummaryStatistics *)
Record statistics := { st_days : Z; st_total : Z; st_missing : Z; st_mean : option Qc }.
Definition summary (counts : list (option Z)) : statistics :=
  let number_of_days := zlen counts in
  let total := sumZ (map (fun x => match x with Some n => n | None => 0 end) counts) in
  let missing := sumZ (map (fun x => match x with None => 1 | Some _ => 0 end) counts) in
  let days_not_missing := number_of_days - missing in
  {| st_days := number_of_days; st_total := total; st_missing := missing;
     st_mean := if days_not_missing =? 0 then None else Some (qz total / qz days_not_missing)%Qc |}.

(* 36-51 ObsCounter: days since the epoch, as whole numbers (timeutils/epoch.py:8-12) *)
Definition day_of (t : Z) : Z := int_days (days_datetime_to_number EPOCH t).
(* 54-67 count_single_day *)
Definition count_single_day (fs : files) (base src obs : string) (num_ranges : nat) (daynumber : Z) : result (option Z) :=
  do path <- py_filename_observations base src obs daynumber;
  match fs path with
  | None => Ok None
  | Some data => do n <- read_observation_count num_ranges data; Ok (Some n)
  end.
(* 69-76 read_num_local_correlation_ranges, 78-85 count_all_days *)
Definition count_all_days (fs : files) (base src obs : string) (startday endday : Z) : result (list (option Z)) :=
  do data <- fopen fs (py_filename_ranges base src obs);
  do ranges <- read_ranges data;
  mapM (count_single_day fs base src obs (List.length ranges)) (zrange startday (endday + 1)).
(* 87-94 *)
Definition summary_statistics (fs : files) (base src obs : string) (startdate enddate : Z) : result statistics :=
  do counts <- count_all_days fs base src obs (day_of startdate) (day_of enddate); Ok (summary counts).

(* ---- obscountsources.py *)

Record source_details := { sd_source : string; sd_observables : list string; sd_start : Z; sd_end : Z }.
(* assignment to a dictionary *)
Fixpoint dict_set {A} (d : list (string * A)) (k : string) (v : A) : list (string * A) :=
  match d with [] => [(k, v)] | (k', v') :: r => if String.eqb k k' then (k, v) :: r else (k', v') :: dict_set r k v end.
Fixpoint dict_get {A} (d : list (string * A)) (k : string) : option A :=
  match d with [] => None | (k', v) :: r => if String.eqb k k' then Some v else dict_get r k end.
(* 29-52: the results of one source; a failure is kept as the result of its observable *)
Definition source_results (fs : files) (base : string) (s : source_details) : list (string * result statistics) :=
  fold_left (fun d o => dict_set d o (summary_statistics fs base (sd_source s) o (sd_start s) (sd_end s))) (sd_observables s) [].
(* 21-55 *)
Definition count_sources (fs : files) (base : string) (sources : list source_details) : list (string * list (string * result statistics)) :=
  fold_left (fun d s => dict_set d (sd_source s) (source_results fs base s)) sources [].

(* ---- inspectinput.py *)

(* 16-23 FIXEDLOCATIONLOOKUP *)
Definition inspect_fixed (src : string) : option string :=
  if String.eqb src "surfaceairmodel_land" then Some "locationlookup_satellite.bin"%string
  else if String.eqb src "surfaceairmodel_lake" then Some "locationlookup_satellite.bin"%string
  else if String.eqb src "surfaceairmodel_ice" then Some "locationlookup_satellite.bin"%string
  else if String.eqb src "insitu_land" then Some "locationlookup_insitu_land.bin"%string
  else None.
(* one item of the list printed: measurement, uncertainty, correlated components, latitude, longitude *)
Record item := { it_m : Qc; it_u : Qc; it_c : list Qc; it_lat : Qc; it_lon : Qc }.
Definition inspect_item (num : Z -> Qc) (table : list (Z * Z)) (o : obset) (i : nat) : result item :=
  do ll <- at_id table (nth i (s_location o) 0);
  Ok {| it_m := nth i (s_measurement o) 0%Qc; it_u := nth i (s_unc o) 0%Qc; it_c := map (fun c => nth i c 0%Qc) (s_cor o);
        it_lat := num (fst ll); it_lon := num (snd ll) |}.
(* 25-93 main *)
Definition inspect (fs : files) (num : Z -> Qc) (base src obs : string) (date : Z) : result (list item) :=
  let daynumber := day_of date in
  do data <- fopen fs (py_filename_ranges base src obs);
  do ranges <- read_ranges data;
  do locname <- match inspect_fixed src with
                | Some f => Ok (join_one base f)
                | None => py_filename_mobile_locations base src obs daynumber
                end;
  do data <- fopen fs locname;
  do locations <- read_lookup data;
  do obsname <- py_filename_observations base src obs daynumber;
  do o <- source_observations fs num (lk_uuid locations) (Some obsname) ranges daynumber;
  mapM (inspect_item num (lk_table locations) o) (seq 0 (List.length (s_measurement o))).
