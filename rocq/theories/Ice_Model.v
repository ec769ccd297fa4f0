(* Surface-air temperature over ice: quality control of the satellite input, the regression model with its uncertainties,
   the assembly of two hemispheres into one global field, and the pair of hemisphere files as one observation source.
     src/eustace/surfaceairmodel/model_ice_input_processing.py
     src/eustace/surfaceairmodel/model_ice.py
     src/eustace/surfaceairmodel/fileio/ice.py
     src/eustace/surfaceairmodel/fileio/cubemap.py
   Simplifications: numbers are exact rationals (float rounding is left out, also that of scipy.signal.convolve); a masked
   array is a function from row and column to a number or nothing, its shape being kept apart; the land mask has no masked
   cells; there are eight time-of-day bins; the grid has at least five rows and columns (scipy refuses smaller ones).  The
   numbers of the output are of any type with the operations below, so that square root, cosine and sine can be those of the
   real numbers. *)
From Coq Require Import String QArith Qround Qabs.
From Verif Require Import Base.
Open Scope Z_scope.

Definition field (A : Type) := Z -> Z -> A.
Definition Qltb (a b : Q) : bool := negb (Qle_bool b a).

(* model_ice_input_processing.py:82-95, what the constructor stores *)
Record ice_inputs := {
  daynumber : Z;
  latitude : list Q;
  longitude : list Q;
  surface_temperature : field (option Q);
  surface_temperature_min : field (option Q);
  surface_temperature_max : field (option Q);
  surface_temperature_std : field (option Q);
  surface_temperature_3d : Z -> field (option Q);
  Nobs3d : Z -> field (option Q);
  land_mask : field Z;
  sea_ice_fraction : field (option Q);
  uncorrelated_uncertainty : field (option Q);
  synoptically_correlated_uncertainty : field (option Q);
  large_scale_correlated_uncertainty : field (option Q) }.
Definition rows (x : ice_inputs) : Z := zlen (latitude x).
Definition columns (x : ice_inputs) : Z := zlen (longitude x).

(* 45-79, the checks of the constructor on the shapes of its arguments *)
Record ice_shapes := {
  sh_lat : list Z; sh_lon : list Z; sh_t : list Z; sh_tmin : list Z; sh_tmax : list Z; sh_tstd : list Z; sh_t3d : list Z;
  sh_nobs : list Z; sh_land : list Z; sh_ice : list Z; sh_unc : list Z; sh_syn : list Z; sh_large : list Z }.
Fixpoint shape_eqb (a b : list Z) : bool :=
  match a, b with [], [] => true | x :: a, y :: b => (x =? y) && shape_eqb a b | _, _ => false end.
Definition check_shapes (s : ice_shapes) : result unit :=
  if negb (zlen (sh_lat s) =? 1) then Err ValueError else
  if negb (zlen (sh_lon s) =? 1) then Err ValueError else
  if negb (zlen (sh_t s) =? 2) then Err ValueError else
  if negb (zlen (sh_nobs s) =? 3) then Err ValueError else
  if negb (zlen (sh_t3d s) =? 3) then Err ValueError else
  if negb (shape_eqb (sh_t s) [hd 0 (sh_lat s); hd 0 (sh_lon s)]) then Err ValueError else
  if negb (shape_eqb (sh_t s) (sh_tmin s)) then Err ValueError else
  if negb (shape_eqb (sh_t s) (sh_tmax s)) then Err ValueError else
  if negb (shape_eqb (sh_t s) (sh_tstd s)) then Err ValueError else
  if negb (shape_eqb (sh_t s) (tl (sh_t3d s))) then Err ValueError else
  if negb (shape_eqb (sh_t s) (tl (sh_nobs s))) then Err ValueError else
  if negb (shape_eqb (sh_land s) (sh_land s)) then Err ValueError else
  if negb (shape_eqb (sh_t s) (sh_ice s)) then Err ValueError else
  if negb (shape_eqb (sh_t s) (sh_unc s)) then Err ValueError else
  if negb (shape_eqb (sh_t s) (sh_large s)) then Err ValueError else
  if negb (shape_eqb (sh_t s) (sh_syn s)) then Err ValueError else
  Ok tt.

(* 97-100; model_ice.py:48-49 *)
Inductive hemisphere_name := Northern | Southern.
Definition hemisphere (x : ice_inputs) : result hemisphere_name :=
  do l <- py_index (latitude x) 0; Ok (if Qltb 0 l then Northern else Southern).

(* 102-120 *)
Definition land_ice_mask (x : ice_inputs) : field bool := fun i j => negb (land_mask x i j =? 1) && negb (land_mask x i j =? 4).
Definition sea_ice_concentration_mask (x : ice_inputs) : field bool := fun i j =>
  match sea_ice_fraction x i j with Some f => Qltb f (3#10) | None => true end.
Definition sea_ice_mask (x : ice_inputs) : field bool := fun i j => sea_ice_concentration_mask x i j || negb (land_ice_mask x i j).
Definition ice_mask (x : ice_inputs) : field bool := fun i j => land_ice_mask x i j && sea_ice_concentration_mask x i j.

(* 127-135 *)
Definition temperature_standard_deviation_mask (x : ice_inputs) : field bool := fun i j =>
  match surface_temperature_std x i j with Some s => Qltb (707#100) s | None => false end.
Definition temperature_value_mask (x : ice_inputs) : field bool := fun i j =>
  match surface_temperature x i j with Some t => Qltb (27815#100) t | None => false end.

(* numpy.sum and numpy.mean of a masked array along an axis: masked entries are left out, and the result is masked when all are *)
Fixpoint unmasked (l : list (option Q)) : list Q :=
  match l with [] => [] | Some a :: l => a :: unmasked l | None :: l => unmasked l end.
Definition Qsum (l : list Q) : Q := fold_right Qplus 0%Q l.
Definition masked_sum (l : list (option Q)) : option Q := match unmasked l with [] => None | u => Some (Qsum u) end.
Definition masked_mean (l : list (option Q)) : option Q :=
  match unmasked l with [] => None | u => Some (Qsum u / inject_Z (zlen u))%Q end.

(* 25-26 *)
Definition NIGHTBINS : list Z := [0; 1; 6; 7].
Definition DAYBINS : list Z := [2; 3; 4; 5].
Definition ALLBINS : list Z := [0; 1; 2; 3; 4; 5; 6; 7].
Definition at_bins (v : Z -> field (option Q)) (bins : list Z) (i j : Z) : list (option Q) := map (fun b => v b i j) bins.

(* 137-152 *)
Definition observations_mask (x : ice_inputs) (bins : list Z) : field bool := fun i j =>
  match masked_sum (at_bins (Nobs3d x) bins i j) with Some n => Qeq_bool n 0 | None => true end.
Definition observations_day_mask (x : ice_inputs) := observations_mask x DAYBINS.
Definition observations_night_mask (x : ice_inputs) := observations_mask x NIGHTBINS.
Definition observations_day_or_night_mask (x : ice_inputs) : field bool := fun i j =>
  observations_day_mask x i j || observations_night_mask x i j.

(* 154-173 *)
Definition combined_bin_comparison_mask (x : ice_inputs) : field bool := fun i j =>
  match surface_temperature x i j, masked_mean (at_bins (surface_temperature_3d x) ALLBINS i j) with
  | Some t, Some m => Qltb 10 (Qabs (t - m)%Q) | _, _ => false end.
Definition day_bin_comparison_mask (x : ice_inputs) : field bool := fun i j =>
  match surface_temperature_max x i j, masked_mean (at_bins (surface_temperature_3d x) DAYBINS i j) with
  | Some t, Some m => Qltb 20 (Qabs (t - m)%Q) | _, _ => false end.
Definition night_bin_comparison_mask (x : ice_inputs) : field bool := fun i j =>
  match surface_temperature_min x i j, masked_mean (at_bins (surface_temperature_3d x) NIGHTBINS i j) with
  | Some t, Some m => Qltb (Qabs (t - m)%Q) (-20) | _, _ => false end.

(* 261-287: mean over the square around a cell, without the cell itself, where at least mincount of its cells are known *)
Definition halfwidth : Z := 2.
Definition mincount : Z := 2.
Definition kernel : list (Z * Z) :=
  filter (fun d => negb ((fst d =? 0) && (snd d =? 0))) (list_prod (zrange (- halfwidth) (halfwidth + 1)) (zrange (- halfwidth) (halfwidth + 1))).
Definition local_mean (v : field (option Q)) : field (option Q) := fun i j =>
  let u := unmasked (map (fun d => v (i + fst d) (j + snd d)) kernel) in
  if zlen u <? mincount then None else Some (Qsum u / inject_Z (zlen u))%Q.
(* 236-259 *)
Definition cloud_mask (nrows ncolumns : Z) (variable : field (option Q)) (icemask : field bool) : field bool :=
  let remasked := fun i j => if icemask i j then None else variable i j in
  fun i j =>
    if (halfwidth <=? i) && (i <? nrows - halfwidth) && (halfwidth <=? j) && (j <? ncolumns - halfwidth) then
      match local_mean remasked i j, remasked i j with
      | Some m, Some v => Qltb 10 (m - v)%Q
      | _, _ => false
      end
    else false.

(* 175-183 *)
Definition filter_outliers (x : ice_inputs) (variable : field (option Q)) (threshold_mask : field bool) : field (option Q) :=
  let sea_ice_outliers := cloud_mask (rows x) (columns x) variable (fun i j => threshold_mask i j || sea_ice_concentration_mask x i j) in
  let land_ice_outliers := cloud_mask (rows x) (columns x) variable (fun i j => threshold_mask i j || land_ice_mask x i j) in
  fun i j => if ice_mask x i j || sea_ice_outliers i j || land_ice_outliers i j || threshold_mask i j then None else variable i j.

(* model_ice.py:52-57 *)
Inductive observable := TAS | TASMIN | TASMAX.
Definition OBSERVABLES : list observable := [TAS; TASMIN; TASMAX].
Definition observable_name (o : observable) : string :=
  match o with TAS => "tas"%string | TASMIN => "tasmin"%string | TASMAX => "tasmax"%string end.

(* 185-219 and the dictionary of model_ice.py:301-305 *)
Definition threshold_mask (x : ice_inputs) (o : observable) : field bool := fun i j =>
  match o with
  | TAS => temperature_standard_deviation_mask x i j || temperature_value_mask x i j || observations_day_or_night_mask x i j || combined_bin_comparison_mask x i j
  | TASMIN => temperature_standard_deviation_mask x i j || temperature_value_mask x i j || observations_night_mask x i j || night_bin_comparison_mask x i j
  | TASMAX => temperature_standard_deviation_mask x i j || temperature_value_mask x i j || observations_day_mask x i j || day_bin_comparison_mask x i j
  end.
Definition variable_of (x : ice_inputs) (o : observable) : field (option Q) :=
  match o with TAS => surface_temperature x | TASMIN => surface_temperature_min x | TASMAX => surface_temperature_max x end.
Definition quality_controlled (x : ice_inputs) (o : observable) : field (option Q) := filter_outliers x (variable_of x o) (threshold_mask x o).

(* ---- model_ice.py *)

(* 45-46 *)
Inductive part := LAND_ICE | SEA_ICE.
Definition part_name (p : part) : string := match p with LAND_ICE => "LandIce"%string | SEA_ICE => "SeaIce"%string end.

(* 65-97 *)
Definition glob_LSU : Q := 2#10.
Definition glob_CU_offset (o : observable) : Q := match o with TASMIN => 2 | _ => 0 end.
Definition RU_sampling (h : hemisphere_name) (p : part) (o : observable) : Q :=
  match h, p, o with
  | Northern, LAND_ICE, TAS => 16#10 | Northern, LAND_ICE, TASMIN => 22#10 | Northern, LAND_ICE, TASMAX => 21#10
  | Northern, SEA_ICE, TAS => 0 | Northern, SEA_ICE, TASMIN => 29#10 | Northern, SEA_ICE, TASMAX => 20#10
  | Southern, LAND_ICE, TAS => 16#10 | Southern, LAND_ICE, TASMIN => 15#10 | Southern, LAND_ICE, TASMAX => 38#10
  | Southern, SEA_ICE, TAS => 17#10 | Southern, SEA_ICE, TASMIN => 57#10 | Southern, SEA_ICE, TASMAX => 29#10
  end.
Definition SSU_relation (p : part) (o : observable) : Q :=
  match p, o with
  | LAND_ICE, TAS => 15#10 | LAND_ICE, TASMIN => 18#10 | LAND_ICE, TASMAX => 20#10
  | SEA_ICE, TAS => 17#10 | SEA_ICE, TASMIN => 18#10 | SEA_ICE, TASMAX => 21#10
  end.

(* numbers of the output *)
Record arithmetic := {
  num : Type; of_Q : Q -> num; add : num -> num -> num; sub : num -> num -> num; mul : num -> num -> num; quot : num -> num -> num;
  root : num -> num; cosine : num -> num; sine : num -> num; pi : num }.

(* 142-177: [M] holds the list of vectors of each surface type; a dictionary as a list, the last entry of a key counts *)
Definition load_hemisphere_model_parameters {V} (sf_name : list string) (M : list (list V)) : result (list (string * list (observable * V))) :=
  if negb (existsb (String.eqb "LandIce") sf_name) then Err ValueError else
  if negb (existsb (String.eqb "SeaIce") sf_name) then Err ValueError else
  (fix each (index : Z) (names : list string) : result (list (string * list (observable * V))) :=
     match names with
     | [] => Ok []
     | name :: names =>
         do component_list <- py_index M index;
         if negb (zlen component_list =? 3) then Err ValueError else
         do rest <- each (index + 1) names;
         Ok ((name, combine OBSERVABLES component_list) :: rest)
     end) 0 sf_name.

Section Processing.
Variable A : arithmetic.
Let N := num A.
Definition coefficients : Type := (N * N * N * N)%type.   (* coeffs[0] .. coeffs[3] *)
Definition coeff1 (c : coefficients) : N := let '(_, c1, _, _) := c in c1.
(* self.components: hemisphere, part, observable *)
Definition components : Type := hemisphere_name -> part -> observable -> coefficients.

Definition square (a : N) : N := mul A a a.

(* 271-287 *)
Definition compute_air_temperature_TskinSeason (c : coefficients) (day : Z) (t : Q) : N :=
  let '(c0, c1, c2, c3) := c in
  let temperature_normalised := of_Q A (t - (27315#100))%Q in
  let time_normalised := quot A (mul A (mul A (of_Q A 2%Q) (pi A)) (of_Q A (inject_Z day - 18262)%Q)) (of_Q A (3652425#10000)) in
  let result_normalised :=
    add A (mul A c1 temperature_normalised)
          (add A (add A c0 (mul A c2 (cosine A time_normalised))) (mul A c3 (sine A time_normalised))) in
  add A result_normalised (of_Q A (27315#100)).

(* 353-378, the masked arrays of the processor of one observable *)
Record processor := {
  air_temperature : field (option N);
  uncertainty_uncorrelated : field (option N);
  uncertainty_synoptically_correlated : field (option N);
  uncertainty_large_scale_correlated : field (option N);
  uncertainty_cloud : field (option N) }.
Definition masked_all : field (option N) := fun _ _ => None.
Definition new_processor : processor :=
  {| air_temperature := masked_all; uncertainty_uncorrelated := masked_all; uncertainty_synoptically_correlated := masked_all;
     uncertainty_large_scale_correlated := masked_all; uncertainty_cloud := masked_all |}.

Definition grid (nrows ncolumns : Z) : list (Z * Z) := list_prod (zrange 0 nrows) (zrange 0 ncolumns).

(* 364-429.  [indices] are the cells where the temperature is known, the part applies and every uncertainty component is known. *)
Definition valid_cell (x : ice_inputs) (t : field (option Q)) (part_mask : field bool) : field (option (Q * Q * Q * Q)) := fun i j =>
  if part_mask i j then None else
  match t i j, uncorrelated_uncertainty x i j, synoptically_correlated_uncertainty x i j, large_scale_correlated_uncertainty x i j with
  | Some t, Some u, Some s, Some l => Some (t, u, s, l)
  | _, _, _, _ => None
  end.
Definition put (v : field (option (Q * Q * Q * Q))) (f : Q * Q * Q * Q -> N) (old : field (option N)) : field (option N) := fun i j =>
  match v i j with Some a => Some (f a) | None => old i j end.
Definition process_observable_part (x : ice_inputs) (o : observable) (p : part) (part_mask : field bool) (c : coefficients)
    (h : hemisphere_name) (t : field (option Q)) (s : processor) : result processor :=
  let v := valid_cell x t part_mask in
  let part_air_temperature := fun a : Q * Q * Q * Q => let '(t, _, _, _) := a in compute_air_temperature_TskinSeason c (daynumber x) t in
  let part_RU := fun a : Q * Q * Q * Q => let '(_, u, _, _) := a in
    mul A (root A (add A (square (of_Q A u)) (square (of_Q A (RU_sampling h p o))))) (coeff1 c) in
  let part_SSU := fun a : Q * Q * Q * Q => let '(_, _, u, _) := a in
    root A (add A (square (mul A (of_Q A u) (coeff1 c))) (square (of_Q A (SSU_relation p o)))) in
  let part_LSU := fun _ : Q * Q * Q * Q => mul A (coeff1 c) (of_Q A glob_LSU) in
  let part_CU := fun a : Q * Q * Q * Q => let '(_, _, _, l) := a in mul A (coeff1 c) (of_Q A (l - glob_LSU + glob_CU_offset o)%Q) in
  if existsb (fun ij => match v (fst ij) (snd ij), air_temperature s (fst ij) (snd ij) with Some _, Some _ => true | _, _ => false end)
       (grid (rows x) (columns x)) then Err ValueError else
  Ok {| air_temperature := put v part_air_temperature (air_temperature s);
        uncertainty_uncorrelated := put v part_RU (uncertainty_uncorrelated s);
        uncertainty_synoptically_correlated := put v part_SSU (uncertainty_synoptically_correlated s);
        uncertainty_large_scale_correlated := put v part_LSU (uncertainty_large_scale_correlated s);
        uncertainty_cloud := put v part_CU (uncertainty_cloud s) |}.

(* arithmetic on masked arrays *)
Definition plus_masked (a b : field (option N)) : field (option N) := fun i j =>
  match a i j, b i j with Some x, Some y => Some (add A x y) | _, _ => None end.
Definition map_masked (f : N -> N) (a : field (option N)) : field (option N) := fun i j => option_map f (a i j).

(* 297-351 *)
Definition process_observable (m : components) (x : ice_inputs) (o : observable) : result (list (string * field (option N))) :=
  do h <- hemisphere x;
  do s <- process_observable_part x o LAND_ICE (land_ice_mask x) (m h LAND_ICE o) h (quality_controlled x o) new_processor;
  do s <- process_observable_part x o SEA_ICE (sea_ice_mask x) (m h SEA_ICE o) h (quality_controlled x o) s;
  let sq := map_masked square in
  let three := plus_masked (plus_masked (sq (uncertainty_uncorrelated s)) (sq (uncertainty_synoptically_correlated s)))
                           (sq (uncertainty_large_scale_correlated s)) in
  let uncertainty_total_excluding_cloud := map_masked (root A) three in
  let uncertainty_total_with_cloud := map_masked (root A) (plus_masked three (sq (uncertainty_cloud s))) in
  let n := observable_name o in
  Ok [ (n, air_temperature s);
       ((n ++ "uncertainty")%string, uncertainty_total_with_cloud);
       ((n ++ "_unc_no_cloud")%string, uncertainty_total_excluding_cloud);
       ((n ++ "_unc_rand")%string, uncertainty_uncorrelated s);
       ((n ++ "_unc_corr_local")%string, uncertainty_synoptically_correlated s);
       ((n ++ "_unc_sys")%string, uncertainty_large_scale_correlated s);
       ((n ++ "_unc_cloud")%string, uncertainty_cloud s) ].

(* 179-193; the keys of the three observables differ, so update is concatenation *)
Definition process_hemisphere (m : components) (x : ice_inputs) : result (list (string * field (option N))) :=
  do a <- process_observable m x TAS;
  do b <- process_observable m x TASMIN;
  do c <- process_observable m x TASMAX;
  Ok (a ++ b ++ c).

(* Python int() of a number: towards zero *)
Definition int (q : Q) : Z := if Qle_bool 0 q then Qfloor q else - Qfloor (- q)%Q.
Definition tolerance : Q := 1#1000000.
(* numpy.max(numpy.abs((l[1:] - l[0:-1]) - resolution)) > 0.000001; numpy.max of nothing is an error *)
Fixpoint steps (l : list Q) : list Q :=
  match l with a :: (b :: _) as r => (b - a)%Q :: steps r | _ => [] end.
Definition uneven (l : list Q) (resolution : Q) : result bool :=
  match steps l with
  | [] => Err ValueError
  | d => Ok (existsb (fun s => Qltb tolerance (Qabs (s - resolution)%Q)) d)
  end.

(* the results dictionary of process_global without its day number *)
Definition lookup {B} (d : list (string * B)) (name : string) : option B :=
  option_map snd (find (fun nf => String.eqb name (fst nf)) d).
Fixpoint store {B} (d : list (string * B)) (name : string) (b : B) : list (string * B) :=
  match d with
  | [] => [(name, b)]
  | (n, c) :: d => if String.eqb name n then (n, b) :: d else (n, c) :: store d name b
  end.

(* 255-266: rows [start, start + count) of the field of that name are assigned; a slice of another length is refused *)
Definition combine_field (total start count : Z) (d : list (string * field (option N))) (nf : string * field (option N))
    : result (list (string * field (option N))) :=
  let combined_field := match lookup d (fst nf) with Some f => f | None => masked_all end in
  if negb ((start <=? total) && (start + count <=? total)) then Err ValueError else
  Ok (store d (fst nf) (fun i j => if (start <=? i) && (i <? start + count) then snd nf (i - start) j else combined_field i j)).
Fixpoint foldM {S B} (f : S -> B -> result S) (s : S) (l : list B) : result S :=
  match l with [] => Ok s | b :: l => do s <- f s b; foldM f s l end.

(* 244-266, one hemisphere *)
Definition combine_hemisphere (m : components) (total : Z) (first_latitude latitude_resolution : Q)
    (d : list (string * field (option N))) (x : ice_inputs) : result (list (string * field (option N))) :=
  do l <- py_index (latitude x) 0;
  let start := int ((l - first_latitude + tolerance) / latitude_resolution)%Q in
  do fields <- process_hemisphere m x;
  foldM (combine_field total start (rows x)) d fields.

(* 195-268: day number, rows, columns and fields *)
Definition process_global (m : components) (s n : ice_inputs) : result (Z * Z * Z * list (string * field (option N))) :=
  do hs <- hemisphere s;
  if negb (match hs with Southern => true | _ => false end) then Err ValueError else
  do hn <- hemisphere n;
  if negb (match hn with Northern => true | _ => false end) then Err ValueError else
  if negb (daynumber s =? daynumber n) then Err ValueError else
  if negb (columns s =? columns n) then Err ValueError else
  do s1 <- py_index (latitude s) 1;
  do s0 <- py_index (latitude s) 0;
  let latitude_resolution := (s1 - s0)%Q in
  if Qle_bool latitude_resolution 0 then Err ValueError else
  do n0 <- py_index (latitude n) 0;
  do sz <- py_index (latitude s) (-1);
  if Qle_bool n0 sz then Err ValueError else
  do u <- uneven (latitude s) latitude_resolution;
  if u : bool then Err ValueError else
  do u <- uneven (latitude n) latitude_resolution;
  if u : bool then Err ValueError else
  do nz <- py_index (latitude n) (-1);
  let total_latitudes := int ((nz - s0 + tolerance) / latitude_resolution)%Q + 1 in
  do d <- foldM (combine_hemisphere m total_latitudes s0 latitude_resolution) [] [s; n];
  Ok (daynumber s, total_latitudes, columns s, d).
End Processing.

(* ---- fileio/ice.py:31-107, two files as one source of observations *)

(* the axes of one file *)
Record ice_file := { f_latitudes : list Q; f_longitudes : list Q }.
Record combined_source := {
  longitude_axis_points : list Q; latitude_axis_points : list Q; location_offsets : list Z; source_files : list ice_file }.

Definition Qceil (q : Q) : Z := - Qfloor (- q)%Q.
(* numpy.arange(start, stop, step) for a positive step *)
Definition arange (start stop step : Q) : list Q :=
  map (fun i => (start + inject_Z i * step)%Q) (zrange 0 (Qceil ((stop - start) / step)%Q)).

(* 36-76; longitudes of different lengths cannot be subtracted, nor can the largest of none be taken: an error *)
Definition combined (files : list ice_file) : result combined_source :=
  match files with
  | [a; b] =>
      if negb (zlen (f_longitudes a) =? zlen (f_longitudes b)) || (zlen (f_longitudes a) =? 0) then Err ValueError else
      if existsb (fun xy => Qltb tolerance (Qabs (snd xy - fst xy)%Q)) (List.combine (f_longitudes a) (f_longitudes b)) then Err ValueError else
      do a1 <- py_index (f_latitudes a) 1;
      do a0 <- py_index (f_latitudes a) 0;
      let latitude_resolution := (a1 - a0)%Q in
      if Qltb latitude_resolution 0 then Err ValueError else
      do b0 <- py_index (f_latitudes b) 0;
      do az <- py_index (f_latitudes a) (-1);
      if Qle_bool b0 az then Err ValueError else
      do u <- uneven (f_latitudes a) latitude_resolution;
      if u : bool then Err ValueError else
      do u <- uneven (f_latitudes b) latitude_resolution;
      if u : bool then Err ValueError else
      do bz <- py_index (f_latitudes b) (-1);
      if Qeq_bool latitude_resolution 0 then Err ZeroDivisionError else
      let increments := int ((b0 - az) / latitude_resolution + tolerance)%Q in
      Ok {| longitude_axis_points := f_longitudes a;
            latitude_axis_points := arange a0 (bz + tolerance)%Q latitude_resolution;
            location_offsets := [0; (zlen (f_latitudes a) - 1 + increments) * zlen (f_longitudes a)];
            source_files := files |}
  | _ => Err ValueError
  end.
(* 89-94: latitude and longitude of each location, longitudes fastest *)
Definition observation_location_lookup (c : combined_source) : list (Q * Q) := list_prod (latitude_axis_points c) (longitude_axis_points c).
(* cubemap.py:50-58, 73: in one file the locations are the grid cells in the same order, numbered from zero *)
Definition file_locations (f : ice_file) : list Z := zrange 0 (zlen (f_latitudes f) * zlen (f_longitudes f)).
Definition file_coordinates (f : ice_file) : list (Q * Q) := list_prod (f_latitudes f) (f_longitudes f).
(* 97-107 with observationsource.py:71: the locations of the observations of both files *)
Definition combined_locations (c : combined_source) : list Z :=
  flat_map (fun fo => map (fun l => l + snd fo) (file_locations (fst fo))) (List.combine (source_files c) (location_offsets c)).
