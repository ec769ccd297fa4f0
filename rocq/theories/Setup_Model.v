(* Model of the settings of the analysis, of the elements its components are put together from, and of the loader of monthly
   gridded data.
   Sources: src/eustace/analysis/advanced_standard/examples/model_structure.py, examples/inputloader_hadcrut4.py,
   advanced_standard/elements/grandmean.py, elements/spatial_bias.py, elements/latitudespline.py, elements/kronecker_annual.py.
   Simplifications: numbers are exact; the triangulated sphere is given by the number of its nodes and the function [build_A] from
   coordinates to a design matrix, the basis of the lattice by a function of displacements (as in Lat_Model), logarithms, radians
   and square roots by functions; data of files are arrays with masks. *)
From Coq Require Import QArith Qcanon String Ascii.
From Verif Require Import Base Time_Model Grid_Model Lin Ana_Model Comb_Model Obs_Model Src_Model Spde_Model Lat_Model Conn_Model.
Local Open Scope Z_scope.
Local Open Scope list_scope.

(* ---- model_structure.py: the nodes in time *)

(* 171-178; the last one does not use its second argument but the spacing of the enclosing function *)
Definition round_to_quantisation (value quantisation : Qc) : Qc := (qz (qfloor ((value + quantisation / qz 2) / quantisation)) * quantisation)%Qc.
Definition floor_to_quantisation (value quantisation : Qc) : Qc := (qz (qfloor (value / quantisation)) * quantisation)%Qc.
Definition qceil (q : Qc) : Z := - qfloor (- q).
Definition ceil_to_quantisation (node_spacing value quantisation : Qc) : Qc := (qz (qceil (value / node_spacing)) * node_spacing)%Qc.
(* round of a number to the nearest whole one, halves away from zero *)
Definition py_round (q : Qc) : Z := if Qclt_le_dec q 0 then - qfloor (- q + / qz 2) else qfloor (q + / qz 2).
(* 183-196: the lattice that the element gets for a period and spacing *)
Definition slow_lattice (start_time end_time node_spacing : Qc) : dimension :=
  let starttime := floor_to_quantisation start_time node_spacing in
  let endtime := ceil_to_quantisation node_spacing end_time node_spacing in
  {| d_lo := starttime; d_hi := endtime; d_n := Z.to_nat (py_round ((endtime - starttime) / node_spacing + 1)%Qc); d_wrap := false |}.
Definition slow_settings : result dimension :=
  do start_time <- decimal_year (ymd2ord 1860 1 1 * DAY);
  do end_time <- decimal_year (ymd2ord 2035 1 1 * DAY);
  Ok (slow_lattice start_time end_time (qz 4)).

(* rrule(MONTHLY, dtstart, until) of a first day of a month: the first days of the following months that are not later than [until] *)
Definition months_until (dtstart until : Z) : list Z :=
  filter (fun t => t <=? until)
    (map (fun k => let total := 12 * dt_year dtstart + (dt_month dtstart - 1) + Z.of_nat k in
                   ymd2ord (total / 12) (total mod 12 + 1) 1 * DAY)
         (seq 0 (Z.to_nat (12 * (dt_year until - dt_year dtstart + 1))))).
(* 142-157: first and last year, years added at both ends, months for each node; days since the epoch (epoch.py:16-18) *)
Definition monthly_lattice (first_year last_year extension avg_months_per_node : Z) : result dimension :=
  do model_startdate <- mk_datetime (first_year - extension) 1 1 0 0 0;
  do model_enddate <- mk_datetime (last_year + extension) 1 1 0 0 0;
  if avg_months_per_node =? 0 then Err ZeroDivisionError else
  let months := Z.of_nat (List.length (months_until model_startdate model_enddate)) in
  Ok {| d_lo := (qz (days_datetime_to_number EPOCH model_startdate) / qz DAY)%Qc; d_hi := (qz (days_datetime_to_number EPOCH model_enddate) / qz DAY)%Qc;
        d_n := Z.to_nat ((months - 1) / avg_months_per_node + 1); d_wrap := false |}.
Definition midscale_settings : result dimension := monthly_lattice 1880 2016 2 3.

(* 103-122 SeasonalSpline *)
Definition seasonal_lattice : dimension := {| d_lo := 0%Qc; d_hi := 1%Qc; d_n := 12; d_wrap := true |}.

(* ---- latitudespline.py:13-35 *)
Definition PADDING_NODES : nat := 180.
Definition latitude_lattice (n_nodes : nat) : result dimension :=
  if (n_nodes =? 1)%nat then Err ZeroDivisionError else
  let node_separation := (qz 180 / (qn n_nodes - 1))%Qc in
  let padding_distance := (qn PADDING_NODES * node_separation)%Qc in
  Ok {| d_lo := (- qz 90 - padding_distance)%Qc; d_hi := (qz 90 + padding_distance)%Qc; d_n := (n_nodes + PADDING_NODES * 2)%nat; d_wrap := false |}.

(* lattice.py:213-281 build_A of locations in one dimension, with lattice.py:151-152 basis_span *)
Definition lattice_matrix (basis : Qc -> list Qc -> Qc) (d : dimension) (overlap_factor : Qc) (locations : list Qc) : matrix :=
  let span := (spacing d * overlap_factor)%Qc in
  {| m_rows := List.length locations; m_cols := d_n d; m_at := fun i k => build_A_row (basis span) [d] [span] [nth i locations 0%Qc] k |}.

(* ---- designs for the observations of a structure *)

(* latitudespline.py:50-79 *)
Definition latitude_design (basis : Qc -> list Qc -> Qc) (n_nodes : nat) (overlap_factor : Qc) (st : structure) : result matrix :=
  do d <- latitude_lattice n_nodes;
  do cs <- location_polar_coordinates st;
  Ok (lattice_matrix basis d overlap_factor (map fst cs)).
(* grandmean.py:17-43 *)
Definition grand_mean_design (st : structure) : result matrix :=
  do cs <- location_polar_coordinates st;
  Ok {| m_rows := List.length cs; m_cols := 1; m_at := fun _ _ => 1%Qc |}.
(* spatial_bias.py:48-87 *)
Definition spatial_bias_design (latents : nat) (build_A : list (Qc * Qc) -> matrix) (st : structure) (group : string) : result matrix :=
  do effect <- covariate_effect st group None;
  match effect with
  | Some _ => do cs <- location_polar_coordinates st; Ok (build_A cs)
  | None => Ok {| m_rows := number_of_observations st; m_cols := latents; m_at := fun _ _ => 0%Qc |}
  end.
(* kronecker_annual.py:28-65; observation_structure_source_connector.py:45-52 time_datetime *)
Definition annual_design (basis : Qc -> list Qc -> Qc) (build_A : list (Qc * Qc) -> matrix) (d : dimension) (overlap_factor : Qc) (st : structure) : result matrix :=
  do cs <- location_polar_coordinates st;
  do year <- decimal_year (st_datetime st);
  Ok (kron (lattice_matrix basis d overlap_factor [year]) (build_A cs)).

(* ---- model_structure.py: the elements of the components and their hyperparameters.  A triangulation is given by its number of
   divisions. *)
Inductive element :=
| EKronecker (divisions : nat) (time : dimension) | EAnnual (divisions : nat) (time : dimension)
| EGrandMean | ELatitude (n_nodes : nat) | ECovariate (name : string)
| ELocal (divisions : nat) | ENonStationary (divisions : nat)
| EBias (group : string) (n : nat) | ESpatialBias (group : string) (divisions : nat) | EInsituLand (breakpoints : string).

Definition pick_lattice (d : result dimension) : dimension := match d with Ok d => d | Err _ => {| d_lo := 0; d_hi := 0; d_n := 0; d_wrap := false |} end.

(* 253-312 ClimatologyDefinition, with the elements and hyperparameters of the covariates as loaded *)
Definition climatology_definition (lg rad : Qc -> Qc) (covariates : list element * list hyper) : list element * list hyper :=
  ([EAnnual 6 seasonal_lattice; EGrandMean; ELatitude 361] ++ fst covariates,
   [HSpaceTime (lg (qz 5)) (lg (rad (qz 25))) (lg (qz 2 / qz 12)%Qc); HCovariate (lg (qz 2 * (qz 27315 / qz 100))%Qc); HLocal (lg (qz 12)) (lg (qz 30))]
   ++ snd covariates).
(* 314-349 LargeScaleDefinition *)
Definition large_scale_definition (lg rad : Qc -> Qc) (bias_terms : bool) (breakpoints_file : string) : list element * list hyper :=
  let bias := if bias_terms then ([EInsituLand breakpoints_file], [HCovariate (lg (qz 9 / qz 10)%Qc)]) else ([], []) in
  ([EKronecker 4 (pick_lattice midscale_settings); EAnnual 4 (pick_lattice slow_settings)] ++ fst bias,
   [HSpaceTime (lg 1%Qc) (lg (rad (qz 15))) (lg (qz 135)); HSpaceTime (lg (qz 1 / qz 2)%Qc) (lg (rad (qz 30))) (lg (qz 10))] ++ snd bias).
(* 351-388 LocalDefinition: what one name of the list adds *)
Definition local_bias (lg rad : Qc -> Qc) (group : string) : list (element * hyper) :=
  let mean n := (EBias group n, HCovariate (lg (qz 2))) in
  let spatial := (ESpatialBias group 6, HLocal (lg 1%Qc) (lg (rad (qz 25)))) in
  if String.eqb group "surfaceairmodel_land_global" then [mean 1%nat; spatial]
  else if String.eqb group "surfaceairmodel_ocean_global" then [mean 1%nat]
  else if String.eqb group "surfaceairmodel_ice_global" then [mean 2%nat; spatial]
  else [].
Definition local_definition (lg rad : Qc -> Qc) (bias_terms : bool) (groups : list string) : list element * list hyper :=
  let biases := if bias_terms then flat_map (local_bias lg rad) groups else [] in
  (ELocal 7 :: map fst biases, HLocal (lg (qz 2)) (lg (rad (qz 5))) :: map snd biases).
(* 390-415 NonStationaryLocalDefinition; the hyperparameters of the local element are those of the file *)
Definition nonstationary_bias (lg : Qc -> Qc) (group : string) : list (element * hyper) :=
  if String.eqb group "surfaceairmodel_land_global" || String.eqb group "surfaceairmodel_ocean_global" then [(EBias group 1, HCovariate (lg (qz 2)))]
  else if String.eqb group "surfaceairmodel_ice_global" then [(EBias group 2, HCovariate (lg (qz 2)))]
  else [].
Definition nonstationary_definition (lg : Qc -> Qc) (bias_terms : bool) (groups : list string) (stored : hyper) : list element * list hyper :=
  let biases := if bias_terms then flat_map (nonstationary_bias lg) groups else [] in
  (ENonStationary 7 :: map fst biases, stored :: map snd biases).

(* ---- inputloader_hadcrut4.py *)

(* 64-74 midmonth *)
Definition midmonth (epoch monthnumber : Z) : result Z :=
  let total := 12 * dt_year epoch + monthnumber in
  do t0 <- mk_datetime (total / 12) (1 + total mod 12) 1 0 0 0;
  do t1 <- mk_datetime ((total + 1) / 12) (1 + (total + 1) mod 12) 1 0 0 0;
  dt_add t0 ((t1 - t0) / 2).
(* 76-87: days since the epoch *)
Definition monthnumber_to_decimal (epoch monthnumber : Z) : result Qc :=
  do t <- midmonth epoch monthnumber; Ok (qz (t - epoch) / qz DAY)%Qc.

(* a variable of a file: the points of its time axis, and for each a field of cells, which may be masked *)
Definition cells := list (bool * Qc).
Record variable := { v_times : list Qc; v_fields : list cells }.
(* 102: what is selected by the time, cells in order *)
Definition select_time (request : Qc) (v : variable) : list cells :=
  map snd (filter (fun p => if Qc_eq_dec (fst p) request then true else false) (combine (v_times v) (v_fields v))).
(* iris.load: one cube from each file with data selected *)
Definition load (request : Qc) (vs : list variable) : list cells :=
  flat_map (fun v => match select_time request v with [] => [] | fs => [concat fs] end) vs.

(* 118-163 observations, of a file of temperatures and files of standard errors *)
Definition combined_error (root : Qc -> Qc) (t u0 u1 : bool * Qc) : Qc :=
  if fst t then 0%Qc
  else let u := root (snd u0 * snd u0 + snd u1 * snd u1)%Qc in
       if Qclt_le_dec u (1 / qz 1000) then root (1 / qz 10)%Qc else u.
Definition hadcrut_observations (root : Qc -> Qc) (temperatures errors : list variable) (epoch monthnumber : Z) (observable : string) : result (option obset) :=
  do request <- monthnumber_to_decimal epoch monthnumber;
  if negb (String.eqb observable "Tmean") then Ok None else
  match load request temperatures with
  | [] => Err ValueError
  | fields =>
      let tas := concat fields in
      match load request errors with
      | u0 :: u1 :: _ =>
          let triples := combine tas (combine u0 u1) in
          if existsb (fun x => negb (fst (fst x)) && (fst (fst (snd x)) || fst (snd (snd x)))) triples then Err ValueError else
          Ok (Some {| s_mask := map fst tas; s_time := TScalar (qz monthnumber); s_location := map Z.of_nat (seq 0 (List.length tas));
                      s_measurement := map snd tas; s_unc := map (fun x => combined_error root (fst x) (fst (snd x)) (snd (snd x))) triples; s_cor := [] |})
      | _ => Err IndexError
      end
  end.

(* 111-116 observation_location_lookup: latitudes and longitudes of the cells *)
Definition hadcrut_lookup (lats lons : list Qc) : list (Qc * Qc) := flat_map (fun lat => map (fun lon => (lat, lon)) lons) lats.
(* 46-59: an observable other than the mean gives None, of which the connector then asks the mask *)
Definition hadcrut_structure (root : Qc -> Qc) (lats lons : list Qc) (temperatures errors : list variable) (epoch monthnumber : Z) (observable : string) : result structure :=
  do t <- midmonth epoch monthnumber;
  do o <- hadcrut_observations root temperatures errors epoch monthnumber observable;
  match o with
  | Some o => Ok {| st_table := Some (hadcrut_lookup lats lons); st_found := {| fd_set := o; fd_float := false |}; st_datetime := t; st_files := [] |}
  | None => Err AttributeError
  end.
