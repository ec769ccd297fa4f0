(* Model of the spatial checks of src/eustace/postprocess: outlier_check.py, threshold_check.py, cell_percentile_threshold.py and
   cell_percentile_calculation.py.
   An array of two dimensions is its shape and a function from indices to values; only values within the shape mean anything.  Numbers are exact
   rationals (doubles in the code).  Broadcasting of arrays of different shape is not modelled: it is an error here. *)
From Coq Require Import QArith Qcanon.
From Verif Require Import Base Time_Model Grid_Model Flag_Model.
Local Open Scope Z_scope.
Local Open Scope list_scope.

Record array (A : Type) := { rows : Z; cols : Z; at_ : Z -> Z -> A }.
Arguments rows {A}. Arguments cols {A}. Arguments at_ {A}.
(* elementwise operations *)
Definition amap {A B} (f : A -> B) (a : array A) : array B := {| rows := rows a; cols := cols a; at_ := fun i j => f (at_ a i j) |}.
Definition same_size {A B} (a : array A) (b : array B) : bool := (rows a =? rows b) && (cols a =? cols b).
Definition azip {A B C} (f : A -> B -> C) (a : array A) (b : array B) : result (array C) :=
  if same_size a b then Ok {| rows := rows a; cols := cols a; at_ := fun i j => f (at_ a i j) (at_ b i j) |} else Err ValueError.
(* numpy.zeros(shape) and numpy.zeros(shape) + nan *)
Definition filled {A} (r c : Z) (v : A) : array A := {| rows := r; cols := c; at_ := fun _ _ => v |}.

(* ------------------------------------------------------------------ numpy.pad *)
(* Mode 'reflect': the values on each side mirror those inside, without repeating the edge, again and again if the padding is longer than the array. *)
Definition reflect (n i : Z) : Z :=
  if n =? 1 then 0 else let m := i mod (2 * (n - 1)) in if m <? n then m else 2 * (n - 1) - m.
Definition pad_latitude {A} (p : Z) (a : array A) : array A :=
  {| rows := rows a + 2 * p; cols := cols a; at_ := fun i j => at_ a (reflect (rows a) (i - p)) j |}.
(* Mode 'wrap' *)
Definition pad_longitude {A} (p : Z) (a : array A) : array A :=
  {| rows := rows a; cols := cols a + 2 * p; at_ := fun i j => at_ a i ((j - p) mod cols a) |}.

(* ------------------------------------------------------------------ outlier_check.py: windows *)
(* outlier_check.py:116-122, 165-171: padding, and the array of windows (each one as the list of its values, row by row) *)
Definition strided {A} (window_latitude window_longitude : Z) (image : array A) : result (array (list A)) :=
  if (window_latitude <? 0) || (window_longitude <? 0) then Err ValueError
  else if (rows image <? 1) || (cols image <? 1) then Err ValueError
  else
    let image := pad_latitude (window_latitude / 2) image in
    let image := pad_longitude (window_longitude / 2) image in
    Ok {| rows := rows image - window_latitude + 1; cols := cols image - window_longitude + 1;
          at_ := fun i j => flat_map (fun a => map (fun b => at_ image (i + a) (j + b)) (zrange 0 window_longitude)) (zrange 0 window_latitude) |}.
(* outlier_check.py:140-149, 185-193: slice(step * size, None) for the last step, slice(step * size, (step + 1) * size) for the others *)
Definition block_slice (size steps step : Z) : Z * option Z :=
  (step * size, if step =? steps - 1 then None else Some ((step + 1) * size)).
(* the range of indices [a, b) a slice stands for in a dimension of n *)
Definition slice_range (n : Z) (s : Z * option Z) : Z * Z :=
  (Z.min (fst s) n, match snd s with None => n | Some b => Z.min b n end).
(* a[r, c] *)
Definition subarray {A} (a : array A) (r c : Z * option Z) : array A :=
  let (r0, r1) := slice_range (rows a) r in let (c0, c1) := slice_range (cols a) c in
  {| rows := Z.max 0 (r1 - r0); cols := Z.max 0 (c1 - c0); at_ := fun i j => at_ a (r0 + i) (c0 + j) |}.
(* a[r, c] = b *)
Definition assign {A} (a : array A) (r c : Z * option Z) (b : array A) : result (array A) :=
  let (r0, r1) := slice_range (rows a) r in let (c0, c1) := slice_range (cols a) c in
  if (rows b =? Z.max 0 (r1 - r0)) && (cols b =? Z.max 0 (c1 - c0))
  then Ok {| rows := rows a; cols := cols a;
             at_ := fun i j => if (r0 <=? i) && (i <? r1) && (c0 <=? j) && (j <? c1) then at_ b (i - r0) (j - c0) else at_ a i j |}
  else Err ValueError.
(* outlier_check.py:138-156, 183-201: the loops over blocks *)
Definition compute_blocks {A B} (stat : list A -> B) (size latitude_steps longitude_steps : Z) (windows : array (list A)) (out : array B) : result (array B) :=
  foldM (fun out latitude_step =>
    foldM (fun out longitude_step =>
      let latitude_slice := block_slice size latitude_steps latitude_step in
      let longitude_slice := block_slice size longitude_steps longitude_step in
      assign out latitude_slice longitude_slice (amap stat (subarray windows latitude_slice longitude_slice)))
    out (zrange 0 longitude_steps))
  out (zrange 0 latitude_steps).
Definition COMPUTATION_BLOCKSIZE : Z := 10.
(* numpy.mean *)
Definition mean (l : list Qc) : Qc := (sumQ l / qz (zlen l))%Qc.
(* outlier_check.py:161-203 compute_window_mean *)
Definition compute_window_mean (image : array Qc) (window_latitude window_longitude : Z) : result (array Qc) :=
  do windows <- strided window_latitude window_longitude image;
  compute_blocks mean 10 (rows image / 10) (cols image / 10) windows (filled (rows image) (cols image) 0%Qc).
(* numpy.percentile with linear interpolation: the value at position q/100 * (n - 1) of the sorted values *)
Fixpoint insertQ (x : Qc) (l : list Qc) : list Qc := match l with [] => [x] | y :: r => if Qclt_bool y x then y :: insertQ x r else x :: l end.
Definition sortQ (l : list Qc) : list Qc := fold_right insertQ [] l.
Definition percentile (q : Z) (l : list Qc) : Qc :=
  let s := sortQ l in
  let position := q * (zlen l - 1) in
  let below := position / 100 in
  let v k := nth (Z.to_nat k) s 0%Qc in
  let above := Z.min (below + 1) (zlen l - 1) in
  let weight := (qz (position mod 100) / qz 100)%Qc in
  (v below * (1 - weight) + v above * weight)%Qc.
Record quartiles := { lower : Qc; median : Qc; upper : Qc }.
Definition percentiles (l : list Qc) : quartiles := {| lower := percentile 25 l; median := percentile 50 l; upper := percentile 75 l |}.
(* outlier_check.py:112-158 compute_window_median_quartiles (the three arrays as one of triples); int(ceil(float(n) / size)) is the quotient rounded up *)
Definition compute_window_median_quartiles (image : array Qc) (window_latitude window_longitude : Z) : result (array quartiles) :=
  do windows <- strided window_latitude window_longitude image;
  let steps n := - (- n / COMPUTATION_BLOCKSIZE) in
  compute_blocks percentiles COMPUTATION_BLOCKSIZE (steps (rows image)) (steps (cols image)) windows
    (filled (rows image) (cols image) {| lower := 0%Qc; median := 0%Qc; upper := 0%Qc |}).
(* outlier_check.py:205-269 block_iqr_by_range.  [latitude_cells] and [longitude_cells block] stand for the numbers of cells computed in lines 231 and
   235 from the search range, the grid resolution and the mean latitude of the block.  len(latitudes) is the number of rows; its quotient by the block
   size is an integer division in Python 2.  None is NaN. *)
Definition block_iqr_by_range (latitude_cells : Z) (longitude_cells : Z -> Z) (max_latitude_cell_range max_longitude_cell_range latitude_block_size : Z)
  (data_array : array Qc) : result (array (option quartiles)) :=
  let n := rows data_array in
  let n_blocks := n / latitude_block_size in
  foldM (fun out block_ind =>
    let lat_ind_0 := block_ind * latitude_block_size in
    let lat_ind_1 := Z.min ((block_ind + 1) * latitude_block_size) n in
    let latitude_range_grid := Z.min latitude_cells max_latitude_cell_range in
    let window_latitude := 2 * latitude_range_grid + 1 in
    let longitude_range_grid := Z.min (longitude_cells block_ind) max_longitude_cell_range in
    let window_longitude := 2 * longitude_range_grid + 1 in
    let extended_lat_ind_0 := Z.max (lat_ind_0 - latitude_range_grid) 0 in
    let extended_lat_ind_1 := Z.min ((block_ind + 1) * latitude_block_size + latitude_range_grid) n in
    let block_data_array := subarray data_array (extended_lat_ind_0, Some extended_lat_ind_1) (0, None) in
    do block <- compute_window_median_quartiles block_data_array window_latitude window_longitude;
    let extract_lat_ind_0 := lat_ind_0 - extended_lat_ind_0 in
    let extract_lat_ind_1 := extract_lat_ind_0 + (lat_ind_1 - lat_ind_0) in
    assign out (lat_ind_0, Some lat_ind_1) (0, None) (amap Some (subarray block (extract_lat_ind_0, Some extract_lat_ind_1) (0, None))))
  (filled n (cols data_array) None) (zrange 0 n_blocks).

(* ------------------------------------------------------------------ outlier_check.py: flags *)
(* definitions.GLOBAL_FIELD_SHAPE[1:] *)
Definition GLOBAL_ROWS : Z := 720.
Definition GLOBAL_COLS : Z := 1440.
Definition no_flags : array Z := filled GLOBAL_ROWS GLOBAL_COLS 0.
(* flag_values[mask] = flag_values[mask] | flag *)
Definition raise_flag (mask : array bool) (flag : Z) (flag_values : array Z) : result (array Z) :=
  if same_size mask flag_values then azip (fun (m : bool) q => if m then Z.lor q flag else q) mask flag_values else Err IndexError.
Definition OUTLIER_MASK_WINDOW : Z := 5.
Definition as_number (b : bool) : Qc := if b then 1%Qc else 0%Qc.
(* outlier_check.py:305-306, 355-356: numpy.int64(1.0 - compute_window_mean(exceedance, ...)) == 0 *)
Definition extend_region (exceedance : array bool) : result (array bool) :=
  do m <- compute_window_mean (amap as_number exceedance) OUTLIER_MASK_WINDOW OUTLIER_MASK_WINDOW;
  Ok (amap (fun v => trunc (1 - v)%Qc =? 0) m).
(* outlier_check.py:286-315 extremes_checks; None: the file of the day cannot be read, and the variable stays undefined *)
Definition extremes_checks (analysis : option (array Qc)) (extreme_lower_limit extreme_upper_limit : Qc) : result (array Z) :=
  match analysis with
  | None => Err NameError
  | Some analysis_field =>
      do low <- extend_region (amap (fun v => Qclt_bool v extreme_lower_limit) analysis_field);
      do high <- extend_region (amap (fun v => Qclt_bool extreme_upper_limit v) analysis_field);
      do flag_values <- raise_flag low EXTREME_LOW_FLAG no_flags;
      raise_flag high EXTREME_HIGH_FLAG flag_values
  end.
Definition LAPSE_RATE : Qc := Q2Qc (-9 # 2).
Definition METRES_TO_KM : Qc := Q2Qc (1 # 1000).
(* outlier_check.py:276-284 altitude_adjustment *)
Definition altitude_adjustment (altitude analysis_field : array Qc) : result (array Qc) :=
  azip (fun a v => (v - LAPSE_RATE * (a * METRES_TO_KM))%Qc) altitude analysis_field.
(* comparisons with NaN are false *)
Definition below_limit (quartile_limit : Qc) (v : Qc) (s : option quartiles) : bool :=
  match s with None => false | Some s => Qclt_bool v (lower s - quartile_limit * (median s - lower s))%Qc end.
Definition above_limit (quartile_limit : Qc) (v : Qc) (s : option quartiles) : bool :=
  match s with None => false | Some s => Qclt_bool (upper s + quartile_limit * (upper s - median s))%Qc v end.
Definition MAX_LATITUDE_SEARCH_RANGE_GRID_CELLS : Z := 50.
Definition MAX_LONGITUDE_SEARCH_RANGE_GRID_CELLS : Z := 50.
Definition LATITUDE_BLOCK_SIZE : Z := 20.
(* outlier_check.py:317-365 areal_checks *)
Definition areal_checks (latitude_cells : Z) (longitude_cells : Z -> Z) (altitude : array Qc) (analysis : option (array Qc)) (quartile_limit : Qc) : result (array Z) :=
  match analysis with
  | None => Err NameError
  | Some analysis_field =>
      do adjusted <- altitude_adjustment altitude analysis_field;
      do stats <- block_iqr_by_range latitude_cells longitude_cells MAX_LATITUDE_SEARCH_RANGE_GRID_CELLS MAX_LONGITUDE_SEARCH_RANGE_GRID_CELLS LATITUDE_BLOCK_SIZE adjusted;
      do low <- azip (below_limit quartile_limit) adjusted stats;
      do high <- azip (above_limit quartile_limit) adjusted stats;
      do low <- extend_region low;
      do high <- extend_region high;
      do flag_values <- raise_flag low AREAL_LOW_FLAG no_flags;
      raise_flag high AREAL_HIGH_FLAG flag_values
  end.
Definition QUARTILE_LIMIT : Qc := qz 4.
Definition EXTREME_LOWER_LIMIT : Qc := Q2Qc (19315 # 100).
Definition EXTREME_UPPER_LIMIT : Qc := Q2Qc (33315 # 100).
(* outlier_check.py:387-391: the flags of one date *)
Definition outlier_flags (latitude_cells : Z) (longitude_cells : Z -> Z) (altitude : array Qc) (analysis : option (array Qc)) : result (array Z) :=
  do areal_flag_values <- areal_checks latitude_cells longitude_cells altitude analysis QUARTILE_LIMIT;
  do extreme_flag_values <- extremes_checks analysis EXTREME_LOWER_LIMIT EXTREME_UPPER_LIMIT;
  azip Z.lor areal_flag_values extreme_flag_values.

(* ------------------------------------------------------------------ threshold_check.py *)
(* threshold_check.py:91-94: the same corrections of the coastal map as in apply_mask.py *)
Definition corrected_coast (coast : array Qc) : array Qc :=
  let c1 := {| rows := rows coast; cols := cols coast; at_ := fun i j => if i =? 0 then 0%Qc else at_ coast i j |} in
  let c2 := {| rows := rows coast; cols := cols coast; at_ := fun i j => if i =? rows coast - 1 then qz 100 else at_ c1 i j |} in
  let c3 := {| rows := rows coast; cols := cols coast; at_ := fun i j => if j =? 0 then at_ c2 i 1 else at_ c2 i j |} in
  {| rows := rows coast; cols := cols coast; at_ := fun i j => if j =? cols coast - 1 then at_ c3 i (cols coast - 2) else at_ c3 i j |}.
(* threshold_check.py:83-101 get_marine_flag *)
Definition get_marine_flag (coast : array Qc) : result (array Z) :=
  if (rows coast <? 1) || (cols coast <? 2) then Err IndexError
  else raise_flag (amap (fun v => if Qc_eq_dec v (qz 100) then true else false) (corrected_coast coast)) MISSING_MARINE_FLAG no_flags.
Definition CLIMATOLOGY_UNC_SMOOTH_WINDOW : Z := 13.
Definition LARGE_SCALE_UNC_SMOOTH_WINDOW : Z := 17.
Definition LOCAL_INFLUENCE_SMOOTH_WINDOW : Z := 5.
(* threshold_check.py:110-135 climatology_uncertainty_checks *)
Definition climatology_uncertainty_checks (uncertainty : option (array Qc)) (uncertainty_threshold : Qc) : result (array Z) :=
  match uncertainty with
  | None => Err NameError
  | Some field =>
      do m <- compute_window_mean field CLIMATOLOGY_UNC_SMOOTH_WINDOW CLIMATOLOGY_UNC_SMOOTH_WINDOW;
      raise_flag (amap (fun v => Qclt_bool uncertainty_threshold v) m) CLIMATOLOGY_UNC_FLAG no_flags
  end.
(* threshold_check.py:137-162 large_scale_uncertainty_checks *)
Definition large_scale_uncertainty_checks (uncertainty : option (array Qc)) (uncertainty_threshold : Qc) : result (array Z) :=
  match uncertainty with
  | None => Err NameError
  | Some field =>
      do m <- compute_window_mean field LARGE_SCALE_UNC_SMOOTH_WINDOW LARGE_SCALE_UNC_SMOOTH_WINDOW;
      raise_flag (amap (fun v => Qclt_bool uncertainty_threshold v) m) LARGE_SCALE_UNC_FLAG no_flags
  end.
(* threshold_check.py:164-189 local_influence_checks *)
Definition local_influence_checks (influence : option (array Qc)) (constraint_threshold : Qc) : result (array Z) :=
  match influence with
  | None => Err NameError
  | Some field =>
      do m <- compute_window_mean field LOCAL_INFLUENCE_SMOOTH_WINDOW LOCAL_INFLUENCE_SMOOTH_WINDOW;
      raise_flag (amap (fun v => Qclt_bool v constraint_threshold) m) DAY_FLAG no_flags
  end.
(* threshold_check.py:218-225: the flags of one date *)
Definition threshold_flags (climatology large_scale influence : option (array Qc)) (coast : array Qc) (climatology_limit largescale_limit constraint_threshold : Qc) : result (array Z) :=
  do climatology_flag_values <- climatology_uncertainty_checks climatology climatology_limit;
  do large_scale_flag_values <- large_scale_uncertainty_checks large_scale largescale_limit;
  do local_influence_flag_values <- local_influence_checks influence constraint_threshold;
  do marine_flag <- get_marine_flag coast;
  do f <- azip Z.lor climatology_flag_values large_scale_flag_values;
  do f <- azip Z.lor f local_influence_flag_values;
  azip Z.lor f marine_flag.

(* ------------------------------------------------------------------ cell_percentile_threshold.py *)
Definition LOCATION_QUARTILE_LIMIT : Qc := qz 8.
(* cell_percentile_threshold.py:84-114 location_threshold_checks; the percentiles are loaded from the file of the month and day *)
Definition location_threshold_checks (analysis : option (array Qc)) (stats : array quartiles) : result (array Z) :=
  match analysis with
  | None => Err NameError
  | Some analysis_field =>
      do low <- azip (fun v s => Qclt_bool v (median s - LOCATION_QUARTILE_LIMIT * (median s - lower s))%Qc) analysis_field stats;
      do high <- azip (fun v s => Qclt_bool (median s + LOCATION_QUARTILE_LIMIT * (upper s - median s))%Qc v) analysis_field stats;
      do flag_values <- raise_flag low LOCATION_LOW_FLAG no_flags;
      raise_flag high LOCATION_HIGH_FLAG flag_values
  end.

(* ------------------------------------------------------------------ cell_percentile_calculation.py *)
Definition reference_leap_year : Z := 2000.
(* cell_percentile_calculation.py:25-30: the dates loaded for a calendar day, and the date whose month and day name the file *)
Definition calendar_reference (calendar_day : Z) : result Z := dt_add (ymd2ord reference_leap_year 1 1 * DAY) (calendar_day * DAY).
Definition dates_to_load (start_year end_year calendar_day : Z) : result (list Z) :=
  do reference_time <- calendar_reference calendar_day;
  mapM (fun yearshift => add_months reference_time (12 * yearshift)) (zrange (start_year - reference_leap_year) (end_year - reference_leap_year + 1)).
Definition percentile_file (calendar_day : Z) : result (Z * Z) :=
  do reference_time <- calendar_reference calendar_day; Ok (dt_month reference_time, dt_day reference_time).
(* cell_percentile_calculation.py:49-59: the calendar days of a month; a month outside 1..12 is no date *)
Definition month_days (month_number : Z) : result (list Z) :=
  if (month_number <? 1) || (12 <? month_number) then Err ValueError
  else
    let reference_date := ymd2ord reference_leap_year 1 1 in
    let start_date := ymd2ord reference_leap_year month_number 1 in
    let end_date := if month_number =? 12 then ymd2ord (reference_leap_year + 1) 1 1 - 1 else ymd2ord reference_leap_year (month_number + 1) 1 - 1 in
    Ok (zrange (start_date - reference_date) (end_date - reference_date + 1)).
