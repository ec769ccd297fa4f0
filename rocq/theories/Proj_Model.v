(* Model of src/eustace/analysis/advanced_standard/fileio/output_projector.py and output_structure_rectilinear.py: values of a component on a grid.
   Numbers are exact rationals (doubles in the code); a square root is kept as the number under it.  The cosine of a latitude in degrees is a
   parameter.  The design matrix of an element has one row per location: the row is a parameter [row component time (latitude, longitude)].
   Division by a zero weight (NaN in the code) has no special value here: the theorems are for weights that are not zero. *)
From Coq Require Import QArith Qcanon String.
From Verif Require Import Base Grid_Model.
Local Open Scope Z_scope.
Local Open Scope list_scope.

(* ------------------------------------------------------------------ vectors and matrices (lists of rows) *)
Definition dot (a b : list Qc) : Qc := sumQ (map (fun p => fst p * snd p)%Qc (combine a b)).
Definition matrix := list (list Qc).
Definition apply (m : matrix) (x : list Qc) : list Qc := map (fun r => dot r x) m.
Definition scale_row (w : Qc) (r : list Qc) : list Qc := map (Qcmult w) r.
Definition add_row (a b : list Qc) : list Qc := map (fun p => fst p + snd p)%Qc (combine a b).
(* scipy.sparse.diags(w).dot(m) *)
Definition diags_dot (w : list Qc) (m : matrix) : matrix := map (fun p => scale_row (fst p) (snd p)) (combine w m).
Definition add_matrix (a b : matrix) : matrix := map (fun p => add_row (fst p) (snd p)) (combine a b).
Definition add_vector (a b : list Qc) : list Qc := map (fun p => fst p + snd p)%Qc (combine a b).

(* output_structure_rectilinear.py:41-45 location_polar_coordinates of OutputRectilinearGridStructure (meshgrid and ravel) *)
Definition grid_points (latitudes longitudes : list Qc) : list (Qc * Qc) := flat_map (fun lat => map (fun lon => (lat, lon)) longitudes) latitudes.

(* ------------------------------------------------------------------ output_projector.py *)
(* numpy.std and the root of the mean of the squares, before the root *)
Definition mean (l : list Qc) : Qc := (sumQ l / qz (zlen l))%Qc.
Definition variance (l : list Qc) : Qc := let m := mean l in mean (map (fun x => (x - m) * (x - m))%Qc l).
Definition mean_square (l : list Qc) : Qc := mean (map (fun x => x * x)%Qc l).
(* output[a:b] = values *)
Definition splice {A} (out : list A) (a b : Z) (values : list A) : list A := firstn (Z.to_nat a) out ++ values ++ skipn (Z.to_nat b) out.
(* output_projector.py:176-189 and 207-220: the loop over blocks of rows; int(n / blocking) in Python 2, ceil of the quotient of floats *)
Definition blocked (statistic : list Qc -> Qc) (blocking : Z) (design : matrix) (samples : list (list Qc)) : result (list Qc) :=
  let n_outputs := zlen design in
  if blocking =? 0 then Err ZeroDivisionError
  else
    let blocksize := n_outputs / blocking in
    if blocksize =? 0 then Err ZeroDivisionError
    else
      let n_blocks := - (- n_outputs / blocksize) in
      Ok (fold_left (fun output block =>
        let block_start := block * blocksize in
        let block_end := Z.min ((block + 1) * blocksize) n_outputs in
        splice output block_start block_end (map (fun r => statistic (map (dot r) samples)) (zslice design block_start block_end)))
        (zrange 0 n_blocks) (repeat 0%Qc (length design))).

Section Projector.
Variable component : Type.
Variable row : component -> Z -> Qc * Qc -> list Qc.
Variable cosine : Qc -> Qc.
(* what the storage of a component gives: the kind of storage, and the contents for a time (storages without index ignore the time) *)
Inductive storage := Time_indexed | Index_free | Unrecognised.
Variable kind : component -> storage.
Variable state_at : component -> Z -> option (list Qc).
Variable samples_at prior_at : component -> Z -> option (list (list Qc)).
Variable whole_state : component -> option (list Qc).
Variable whole_samples whole_prior : component -> option (list (list Qc)).

(* output_projector.py:222-262: points sampled within each cell, weights, sum, normalisation *)
Record grid := { latitudes : list Qc; longitudes : list Qc; resolution : Qc * Qc; sampling : Z * Z }.
Definition point_coordinates (centres : list Qc) (resolution : Qc) (sampling index : Z) : list Qc :=
  map (fun c => c - resolution / qz 2 + (Q2Qc (1 # 2) + qz index) * (resolution / qz sampling))%Qc centres.
Definition sample_points (g : grid) (i : Z * Z) : list (Qc * Qc) :=
  grid_points (point_coordinates (latitudes g) (fst (resolution g)) (fst (sampling g)) (fst i)) (point_coordinates (longitudes g) (snd (resolution g)) (snd (sampling g)) (snd i)).
Definition sample_indices (g : grid) : list (Z * Z) := flat_map (fun i => map (fun j => (i, j)) (zrange 0 (snd (sampling g)))) (zrange 0 (fst (sampling g))).
(* output_projector.py:243-256: one pass of the loop *)
Definition add_sample (g : grid) (c : component) (time_index : Z) (st : option (matrix * list Qc)) (i : Z * Z) : option (matrix * list Qc) :=
  let points := sample_points g i in
  let block_model_matrix := map (row c time_index) points in
  let block_weight_array := map (fun p => cosine (fst p)) points in
  match st with
  | None => Some (diags_dot block_weight_array block_model_matrix, block_weight_array)
  | Some (m, w) => Some (add_matrix m (diags_dot block_weight_array block_model_matrix), add_vector w block_weight_array)
  end.
Definition evaluate (g : grid) (c : component) (time_index : Z) : result matrix :=
  if (fst (sampling g) =? 0) || (snd (sampling g) =? 0) then Err ZeroDivisionError
  else
    let accumulated := fold_left (add_sample g c time_index) (sample_indices g) None in
    match accumulated with
    | None => Err TypeError
    | Some (m, w) => Ok (diags_dot (map (fun x => 1 / x)%Qc w) m)
    end.

Record projector := { time_index : Z; current : option component; state_solution : option (list Qc); state_samples : option (list (list Qc)); prior_samples : option (list (list Qc));
                      design_matrix : option matrix }.
(* output_projector.py:39-56; the date of the time index is left out, it is a function of it *)
Definition new_projector (t : Z) : projector := {| time_index := t; current := None; state_solution := None; state_samples := None; prior_samples := None; design_matrix := None |}.
(* output_projector.py:96-137 read_state_solution, read_state_sample, read_prior_sample *)
Definition read {A} (by_time : component -> Z -> A) (whole : component -> A) (c : component) (t : Z) : result A :=
  match kind c with Time_indexed => Ok (by_time c t) | Index_free => Ok (whole c) | Unrecognised => Err TypeError end.
(* output_projector.py:58-78 set_component; the printing is left out, and so is the projector half changed that an exception leaves behind *)
Definition set_component (p : projector) (c : component) (keep_design : bool) : result projector :=
  do s <- read state_at whole_state c (time_index p);
  do ss <- read samples_at whole_samples c (time_index p);
  do ps <- read prior_at whole_prior c (time_index p);
  Ok {| time_index := time_index p; current := Some c; state_solution := s; state_samples := ss; prior_samples := ps; design_matrix := if keep_design then design_matrix p else None |}.
(* output_projector.py:80-94 update_time_index *)
Definition update_time_index (p : projector) (t : Z) (keep_design : bool) : projector :=
  {| time_index := t; current := current p; state_solution := state_solution p; state_samples := state_samples p; prior_samples := prior_samples p; design_matrix := if keep_design then design_matrix p else None |}.
(* output_projector.py:222-258 evaluate_design_matrix *)
Definition evaluate_design_matrix (g : grid) (p : projector) : result projector :=
  match current p with
  | None => Err AttributeError
  | Some c => do m <- evaluate g c (time_index p);
      Ok {| time_index := time_index p; current := current p; state_solution := state_solution p; state_samples := state_samples p; prior_samples := prior_samples p; design_matrix := Some m |}
  end.
(* output_projector.py:264-287 save_projection, load_projection: what is saved and loaded again; pickling is exact *)
Definition save_and_load (p : projector) : projector :=
  {| time_index := time_index p; current := current p; state_solution := None; state_samples := None; prior_samples := None; design_matrix := design_matrix p |}.
(* output_projector.py:140-147 project_expected_value *)
Definition project_expected_value (p : projector) : result (option (list Qc)) :=
  match state_solution p with
  | None => Ok None
  | Some s => match design_matrix p with None => Err AttributeError | Some m => Ok (Some (apply m s)) end
  end.
(* output_projector.py:149-161 project_sample_values; the samples of the result are listed one by one; None and Ellipsis take them all *)
Definition project_sample_values (p : projector) (sample_indices : option (list Z)) : result (option (list (list Qc))) :=
  match state_samples p with
  | None => Ok None
  | Some samples =>
      do chosen <- (match sample_indices with None => Ok samples | Some l => mapM (py_index samples) l end);
      match design_matrix p with None => Err AttributeError | Some m => Ok (Some (map (apply m) chosen)) end
  end.
(* output_projector.py:163-189 project_sample_std; the departures are computed first, and not used *)
Definition project_sample_std (blocking : Z) (p : projector) (prior : bool) : result (option (list Qc)) :=
  match (if prior then prior_samples p else state_samples p) with
  | None => Ok None
  | Some samples =>
      match state_solution p with
      | None => Err TypeError
      | Some _ => match design_matrix p with None => Err AttributeError | Some m => do r <- blocked variance blocking m samples; Ok (Some r) end
      end
  end.
(* output_projector.py:191-220 project_sample_deviation; the shapes of the posterior samples and of the state are printed first *)
Definition project_sample_deviation (blocking : Z) (p : projector) (prior : bool) : result (option (list Qc)) :=
  do _ <- (if prior then Ok tt else match state_samples p, state_solution p with Some _, Some _ => Ok tt | _, _ => Err AttributeError end);
  match (if prior then prior_samples p else state_samples p) with
  | None => Ok None
  | Some samples => match design_matrix p with None => Err AttributeError | Some m => do r <- blocked mean_square blocking m samples; Ok (Some r) end
  end.
(* a history of uses of one projector *)
Inductive use := Set_component (c : component) (keep : bool) | Update_time (t : Z) (keep : bool) | Evaluate | Save_and_load.
Definition step (g : grid) (p : projector) (u : use) : result projector :=
  match u with
  | Set_component c keep => set_component p c keep
  | Update_time t keep => Ok (update_time_index p t keep)
  | Evaluate => evaluate_design_matrix g p
  | Save_and_load => Ok (save_and_load p)
  end.
Definition run (g : grid) (t0 : Z) (h : list use) : result projector := foldM (step g) (new_projector t0) h.
End Projector.

(* ------------------------------------------------------------------ output_structure_rectilinear.py: Regridder *)
Section Regridder.
(* numpy.argsort: the order of equal keys is not specified *)
Variable argsort : list Qc -> list nat.
Variable cosine : Qc -> Qc.
(* reshape(-1, n) *)
Definition reshape {A} (n : Z) (l : list A) : result (list (list A)) :=
  if (n <=? 0) || negb (zlen l mod n =? 0) then Err ValueError
  else Ok (map (fun i => zslice l (i * n) ((i + 1) * n)) (zrange 0 (zlen l / n))).
(* numpy.tile of a matrix: a times the rows, b times the columns *)
Definition tile {A} (a b : Z) (rows : list (list A)) : list (list A) := concat (repeat (map (fun r => concat (repeat r (Z.to_nat b))) rows) (Z.to_nat a)).
Record sub_grid := { sub_latitudes : list Qc; sub_longitudes : list Qc; Nlat : Z; Nlon : Z }.
(* output_structure_rectilinear.py:79-86 rearrange_latitudes *)
Definition rearrange_latitudes (s : sub_grid) : result matrix :=
  do latitudes <- reshape (Nlat s) (sub_latitudes s);
  if Nlon s =? 0 then Err ZeroDivisionError
  else
    let latitudes := tile (zlen (sub_longitudes s) / Nlon s) (Nlon s) latitudes in
    let reindexer := argsort (map (fun r => nth 0 r 0%Qc) latitudes) in
    Ok (map (fun i => nth i latitudes []) reindexer).
(* output_structure_rectilinear.py:88-95 rearrange_longitudes *)
Definition rearrange_longitudes (s : sub_grid) : result matrix :=
  do longitudes <- reshape (Nlon s) (sub_longitudes s);
  if Nlat s =? 0 then Err ZeroDivisionError
  else
    let longitudes := tile (zlen (sub_latitudes s) / Nlat s) (Nlat s) longitudes in
    match longitudes with
    | [] => Err IndexError
    | first :: _ => let reindexer := argsort first in Ok (map (fun r => map (fun i => nth i r 0%Qc) reindexer) longitudes)
    end.
(* output_structure_rectilinear.py:97-102 location_polar_coordinates *)
Definition sub_points (s : sub_grid) : result (list (Qc * Qc)) :=
  do lat <- rearrange_latitudes s;
  do lon <- rearrange_longitudes s;
  Ok (combine (concat lat) (concat lon)).
(* output_structure_rectilinear.py:161-170 create_sub_cell_grids: the points of one cell along one axis *)
Definition sub_coordinates (n : Z) (spacing c : Qc) : list Qc :=
  map (fun k => c - spacing / qz 2 + qz (2 * k - 1) * spacing / qz (2 * n))%Qc (zrange 1 (n + 1)).
Definition create_sub_cell_grids (nlat nlon : Z) (latitude_spacing longitude_spacing : Qc) (latitudes longitudes : list Qc) : sub_grid :=
  {| sub_latitudes := flat_map (sub_coordinates nlat latitude_spacing) latitudes; sub_longitudes := flat_map (sub_coordinates nlon longitude_spacing) longitudes; Nlat := nlat; Nlon := nlon |}.
(* output_structure_rectilinear.py:172-185 weighting_factors, normalization_factor, harmonic_factor, for one row *)
Definition weighting_factors (points : list Qc) : list Qc := let h := map cosine points in map (fun x => x / sumQ h)%Qc h.
(* the solution of a component: for each of the three output fields, its value at a point (solution_observation_* give one value per location, from the row of that location) *)
Record solution := { expected_value : Qc * Qc -> Qc; expected_uncertainties : Qc * Qc -> Qc; prior_uncertainties : Qc * Qc -> Qc }.
(* src/eustace/outputformats/definitions.py:26 GLOBAL_FIELD_OUTPUT_FLAGS *)
Definition field_flags : list string := ["MAP"; "post_STD"; "prior_STD"]%string.
(* output_structure_rectilinear.py:147-155 *)
Definition solution_field (field : string) (s : solution) : result (Qc * Qc -> Qc) :=
  if String.eqb field (nth 0 field_flags EmptyString) then Ok (expected_value s)
  else if String.eqb field (nth 1 field_flags EmptyString) then Ok (expected_uncertainties s)
  else if String.eqb field (nth 2 field_flags EmptyString) then Ok (prior_uncertainties s)
  else Err ValueError.
Record regridder := { cell_latitudes : list Qc; cell_longitudes : list Qc; points_lat : Z; points_lon : Z; blocking : Z; latitude_spacing : Qc; longitude_spacing : Qc }.
(* Python 2 round(x, 3): to the nearest multiple of 0.001, halves away from zero *)
Definition round3 (x : Qc) : Qc :=
  let y := (x * qz 1000)%Qc in let h := Q2Qc (1 # 2) in
  (qz (if Qclt_bool y 0%Qc then - trunc (h - y)%Qc else trunc (y + h)%Qc) / qz 1000)%Qc.
(* output_structure_rectilinear.py:107-119 __init__ *)
Definition new_regridder (latitudes longitudes : list Qc) (nlat nlon blocking : Z) : result regridder :=
  do a1 <- py_index latitudes 1; do a0 <- py_index latitudes 0;
  do b1 <- py_index longitudes 1; do b0 <- py_index longitudes 0;
  Ok {| cell_latitudes := latitudes; cell_longitudes := longitudes; points_lat := nlat; points_lon := nlon; blocking := blocking;
        latitude_spacing := round3 (a1 - a0)%Qc; longitude_spacing := round3 (b1 - b0)%Qc |}.
(* output_structure_rectilinear.py:141-159 compute_blocked_gridded_expected_value *)
Definition compute_blocked (r : regridder) (field : string) (s : solution) (blocked_latitudes : list Qc) : result (list Qc) :=
  let g := create_sub_cell_grids (points_lat r) (points_lon r) (latitude_spacing r) (longitude_spacing r) blocked_latitudes (cell_longitudes r) in
  do latitudes_for_weights <- rearrange_latitudes g;
  do f <- solution_field field s;
  do points <- sub_points g;
  do projected_values <- reshape (points_lat r * points_lon r) (map f points);
  Ok (map (fun p => sumQ (map (fun q => fst q * snd q)%Qc (combine (weighting_factors (fst p)) (snd p)))) (combine latitudes_for_weights projected_values)).
(* output_structure_rectilinear.py:121-139 compute_gridded_expected_value; the block length is changed in place, which later calls repeat; for a positive block length *)
Definition compute_gridded_expected_value (r : regridder) (field : string) (s : solution) : result (list Qc) :=
  let n := zlen (cell_latitudes r) in
  let blocking := if blocking r >? n then n else blocking r in
  if blocking =? 0 then Err ZeroDivisionError
  else
    let rest := n mod blocking in
    do st <- foldM (fun (st : list Qc * Z) index =>
      do v <- compute_blocked r field s (zslice (cell_latitudes r) (index * blocking) ((index + 1) * blocking));
      Ok (fst st ++ v, index)) ([], 0) (zrange 0 (n / blocking));
    if rest =? 0 then Ok (fst st)
    else
      do v <- compute_blocked r field s (zslice (cell_latitudes r) ((snd st + 1) * blocking) n);
      Ok (fst st ++ v).
End Regridder.
