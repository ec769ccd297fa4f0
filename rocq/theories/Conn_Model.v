(* Model of what the analysis sees of its input files: the loader of a day of raw binary files, the observations it gives and
   the connector from those to the elements of the statistical model, with the biases of each source; and the check of latent
   variables of the output.
   Sources: src/eustace/analysis/advanced_standard/fileio/observation_structure_source_connector.py,
   advanced_standard/examples/inputloader_rawbinary.py, analysis/fileio/observationsource_rawbinary.py:439-482,
   analysis/fileio/observationsource_missing.py, advanced_standard/fileio/observation_source_surface_effects.py:96-106,
   outputformats/definitions.py:659-663 and
   postprocess/latent_variable_check.py.
   [num] is the number that a 64-bit word of a file stands for and [root] the square root; arithmetic is exact.
   RuntimeError is OperationException here. *)
From Coq Require Import QArith Qcanon String Ascii.
From Verif Require Import Base Time_Model Grid_Model Lin Ana_Model Comb_Model Flag_Model Name_Model Obs_Model Cpp_Model.
Local Open Scope Z_scope.
Local Open Scope list_scope.

(* ---- dictionaries *)
Fixpoint dict_get {A} (d : list (string * A)) (key : string) : option A :=
  match d with [] => None | (k, v) :: r => if String.eqb k key then Some v else dict_get r key end.
Fixpoint day_get {A} (d : list (Z * A)) (key : Z) : option A :=
  match d with [] => None | (k, v) :: r => if k =? key then Some v else day_get r key end.
Definition key_error {A} (o : option A) : result A := match o with Some v => Ok v | None => Err KeyError end.

(* ---- a set of observations, and whether its array of locations is an array of floating point numbers, which cannot be
   used as indices (observationsource_missing.py:41: numpy.empty of the default type) *)
Record found := { fd_set : obset; fd_float : bool }.

(* numbers for the words of a file (observationsource_rawbinary.py:143-171) *)
Definition numbered (num : Z -> Qc) (o : Obs_Model.observations) : obset :=
  {| s_mask := o_mask o; s_time := o_time o; s_location := o_location o; s_measurement := map num (o_measurement o);
     s_unc := map num (o_unc o); s_cor := map (map num) (o_cor o) |}.

(* observationsource_missing.py:34-44 *)
Definition observations_missing (day : Z) : found :=
  {| fd_set := {| s_mask := []; s_time := TScalar (qz day); s_location := []; s_measurement := []; s_unc := []; s_cor := [] |};
     fd_float := true |}.

(* ---- observationsource_rawbinary.py:431-482: file name or None and correlation ranges of each observable *)
Definition filespecs := list (string * (option string * list Z)).
Definition open_file (fs : files) (path : string) : result (list byte) :=
  match fs path with Some data => Ok data | None => Err IOErrorE end.

(* 467-475 observations *)
Definition source_observations (num : Z -> Qc) (fs : files) (lk : option Obs_Model.lookup) (specs : filespecs) (day : Z) (observable : string) : result found :=
  do spec <- key_error (dict_get specs observable);
  match fst spec, lk with
  | Some name, Some l =>
      do data <- open_file fs name;
      do o <- read_day (List.length (snd spec)) data (lk_uuid l) day;
      Ok {| fd_set := numbered num o; fd_float := false |}
  | _, _ => Ok (observations_missing day)
  end.

(* observationsource.py:24-64 mean, whose errors are the roots of the means of squares.  The locations are those of the first
   set, of its type. *)
Definition rooted (root : Qc -> Qc) (o : obset) : obset :=
  {| s_mask := s_mask o; s_time := s_time o; s_location := s_location o; s_measurement := s_measurement o;
     s_unc := map root (s_unc o); s_cor := map (map root) (s_cor o) |}.
Definition mean_found (root : Qc -> Qc) (a b : found) : result found :=
  do m <- mean_sets (fd_set a) (fd_set b); Ok {| fd_set := rooted root m; fd_float := fd_float a |}.

(* inputloader_rawbinary.py:28-49 observations; observationsource.py:172-174 names *)
Definition observations_or_mean (num : Z -> Qc) (root : Qc -> Qc) (fs : files) (lk : option Obs_Model.lookup) (specs : filespecs) (day : Z) (observable : string) : result found :=
  match dict_get specs observable with
  | Some _ => source_observations num fs lk specs day observable
  | None =>
      match String.eqb observable "Tmean", dict_get specs "Tmin", dict_get specs "Tmax" with
      | true, Some _, Some _ =>
          do tmin <- source_observations num fs lk specs day "Tmin";
          do tmax <- source_observations num fs lk specs day "Tmax";
          mean_found root tmin tmax
      | _, _, _ => Err OperationException
      end
  end.

(* 51-60 local_correlation_length_scale *)
Definition length_scales (specs : filespecs) (observable : string) : result (list Z) :=
  let observable := match dict_get specs observable with
                    | None => if String.eqb observable "Tmean" then "Tmin"%string else observable
                    | Some _ => observable
                    end in
  do spec <- key_error (dict_get specs observable); Ok (snd spec).

(* ---- os.path.basename: what follows the last slash *)
Fixpoint basename (path : string) : string :=
  match path with
  | EmptyString => EmptyString
  | String c r => if existsb (Ascii.eqb "/") (list_ascii_of_string (String c r)) then basename r else String c r
  end.

(* ---- observation_structure_source_connector.py:17-26: latitudes and longitudes of the locations, or None *)
Record structure := { st_table : option (list (Qc * Qc)); st_found : found; st_datetime : Z; st_files : list string }.
Definition st_set (st : structure) : obset := fd_set (st_found st).

(* 23: numpy.nonzero(~mask) *)
Definition valid (st : structure) : list nat :=
  filter (fun i => negb (nth i (s_mask (st_set st)) true)) (seq 0 (List.length (s_mask (st_set st)))).
(* 29-43, 54-57 *)
Definition time_index (st : structure) : times := s_time (st_set st).
Definition number_of_observations (st : structure) : nat := List.length (valid st).
(* 59-66: wrap_longitude; unsigned words are used as signed indices, negative ones count from the end *)
Definition wrap_longitude (ll : Qc * Qc) : Qc * Qc := if Qle_bool (qz 180) (snd ll) then (fst ll, snd ll - qz 360)%Qc else ll.
Definition location_polar_coordinates (st : structure) : result (list (Qc * Qc)) :=
  match st_table st with
  | None => Err TypeError
  | Some table =>
      if fd_float (st_found st) then Err IndexError else
      mapM (fun i => match wrap (List.length table) (signed64 (nth i (s_location (st_set st)) 0)) with
                     | Some k => Ok (wrap_longitude (nth k table (0, 0)%Qc))
                     | None => Err IndexError
                     end) (valid st)
  end.
(* 71-74 *)
Definition observation_vector (st : structure) : list Qc := take 0%Qc (s_measurement (st_set st)) (valid st).
(* 76-79: the diagonal; errors are taken to be other than zero (numpy gives infinity, here 0) *)
Definition observation_precision (st : structure) : list Qc := map (fun u => (1 / (u * u))%Qc) (take 0%Qc (s_unc (st_set st)) (valid st)).

(* ---- biases: definitions.py:659-663 *)
Definition BIAS_PATTERNS : list (string * string) :=
  [("insitu_land", "insitu_land_%A_%Y%m%d.bin"); ("insitu_ocean", "insitu_ocean_%A_%Y%m%d.bin");
   ("surfaceairmodel_land_global", "surfaceairmodel_land_%A_%Y%m%d.bin");
   ("surfaceairmodel_ocean_global", "surfaceairmodel_ocean_%A_%Y%m%d.bin");
   ("surfaceairmodel_ice_global", "surfaceairmodel_ice_%A_%Y%m%d.bin")]%string.

(* 103-108 check_all_candidates.  With a single pattern no dictionary is traversed. *)
Definition check_all_candidates (st : structure) (pattern : string) : result bool :=
  do extracts <- nested_search_patterns (fun l => l) (fun l => l) [pattern] (st_files st);
  Ok (List.length extracts =? List.length (st_files st))%nat.

(* observation_source_surface_effects.py:96-106 *)
Definition global_satellite_effect (n : nat) : list (Z * Z) := map (fun k => (Z.of_nat k, 0)) (seq 0 n).
Definition hemispheric_satellite_effect (n : nat) (latitudes : list Qc) : list (Z * Z) :=
  combine (map Z.of_nat (seq 0 n)) (map (fun lat : Qc => if Qle_bool 0 lat then 0 else 1) latitudes).

(* the day as the code of break points takes it (observation_source_surface_effects.py:56-57): a whole number, as it is for
   files of one day *)
Definition effect_time (t : times) : Z := trunc (time_at t 0).

(* 81-101 covariate_effect; break points are the keyword argument *)
Definition covariate_effect (st : structure) (group : string) (breakpoints : option breaks) : result (option (list (Z * Z))) :=
  match dict_get BIAS_PATTERNS group with
  | None => Err ValueError
  | Some pattern =>
      do all <- check_all_candidates st pattern;
      if negb all then Ok None else
      match String.eqb group "insitu_land", breakpoints with
      | true, Some b =>
          do e <- Obs_Model.covariate_effect (effect_time (time_index st)) (take 0 (s_location (st_set st)) (valid st)) b;
          Ok (option_map (map (fun ij => (Z.of_nat (fst ij), Z.of_nat (snd ij)))) e)
      | _, _ =>
          if String.eqb group "surfaceairmodel_land_global" || String.eqb group "surfaceairmodel_ocean_global"
          then Ok (Some (global_satellite_effect (number_of_observations st)))
          else if String.eqb group "surfaceairmodel_ice_global"
          then do ll <- location_polar_coordinates st; Ok (Some (hemispheric_satellite_effect (number_of_observations st) (map fst ll)))
          else Ok None
      end
  end.

(* elements/bias.py:49-90: the design matrix of a group of biases for these observations *)
Definition bias_design (st : structure) (group : string) (number_of_biases : nat) : result matrix :=
  do e <- covariate_effect st group None; bias_matrix (number_of_observations st) number_of_biases e.

(* ---- inputloader_rawbinary.py:63-73: correlation ranges by observable, names of files by day and observable (None where
   there is none), fixed locations, names of files of mobile locations by day *)
Record loader := { l_ranges : list (string * list Z); l_files : list (Z * list (string * option string));
                   l_fixed : option Obs_Model.lookup; l_mobile : option (list (Z * option string)) }.

(* 75-80 *)
Definition datetime_at_time_index (day : Z) : result Z := days_number_to_datetime EPOCH (day * DAY).

Definition numbers (num : Z -> Qc) (l : Obs_Model.lookup) : list (Qc * Qc) := map (fun ll => (num (fst ll), num (snd ll))) (lk_table l).

(* 84-93 *)
Definition day_locations (fs : files) (l : loader) (day : Z) : result (option Obs_Model.lookup) :=
  match l_fixed l with
  | Some lk => Ok (Some lk)
  | None =>
      match l_mobile l with
      | None => Ok None
      | Some m =>
          match day_get m day with
          | Some (Some name) => do data <- open_file fs name; do lk <- read_lookup data; Ok (Some lk)
          | _ => Ok None
          end
      end
  end.

(* 96-100 *)
Definition day_specs (l : loader) (day : Z) : result filespecs :=
  do names <- key_error (day_get (l_files l) day);
  mapM (fun nf => do r <- key_error (dict_get (l_ranges l) (fst nf)); Ok (fst nf, (snd nf, r))) names.

(* 82-110 load_observation_structure.  The names of files come in the order of the dictionary (their number and whether all
   match is all that is used). *)
Definition load_observation_structure (num : Z -> Qc) (root : Qc -> Qc) (fs : files) (l : loader) (observable : string) (day : Z) : result structure :=
  do lk <- day_locations fs l day;
  do specs <- day_specs l day;
  do t <- datetime_at_time_index day;
  do o <- observations_or_mean num root fs lk specs day observable;
  Ok {| st_table := option_map (numbers num) lk; st_found := o; st_datetime := t;
        st_files := flat_map (fun s => match fst (snd s) with Some name => [basename name] | None => [] end) specs |}.

(* 112-133 AnalysisSystemInputLoaderRawBinary_OneDay.  Of several mobile lookup files the first of the dictionary is taken. *)
Definition one_day_loader (fs : files) (ranges_files : list (string * string)) (day : Z) (observable_files : list (string * option string))
           (fixed : option string) (mobile : list (string * option string)) : result loader :=
  do ranges <- mapM (fun nf => do data <- open_file fs (snd nf); do r <- read_ranges data; Ok (fst nf, r)) ranges_files;
  do lk <- match fixed with
           | Some name => do data <- open_file fs name; do lk <- read_lookup data; Ok (Some lk)
           | None => Ok None
           end;
  Ok {| l_ranges := ranges; l_files := [(day, observable_files)]; l_fixed := lk;
        l_mobile := match mobile with [] => None | (_, name) :: _ => Some [(day, name)] end |}.

(* 135-153: observables of each source *)
Definition SOURCE_OBSERVABLES : list (string * list string) :=
  [("surfaceairmodel_ice", ["Tmean"]); ("surfaceairmodel_land", ["Tmin"; "Tmax"]); ("surfaceairmodel_ocean", ["Tmean"]);
   ("insitu_land", ["Tmin"; "Tmax"]); ("insitu_ocean", ["Tmean"])]%string.

(* 155-207 AnalysisSystemInputLoaderRawBinary_Sources *)
Definition source_loader (fs : files) (base source : string) (days : list Z) : result loader :=
  do observables <- key_error (dict_get SOURCE_OBSERVABLES source);
  do ranges <- mapM (fun o => do data <- open_file fs (py_filename_ranges base source o); do r <- read_ranges data; Ok (o, r)) observables;
  do fm <- match py_filename_lookup base source with
           | Some name => do data <- open_file fs name; do lk <- read_lookup data; Ok (Some lk, None)
           | None =>
               do m <- mapM (fun day => do name <- py_filename_mobile_locations base source (hd EmptyString observables) day; Ok (day, Some name)) days;
               Ok (None, Some m)
           end;
  do names <- mapM (fun day => do ns <- mapM (fun o => do name <- py_filename_observations base source o day; Ok (o, Some name)) observables;
                               Ok (day, ns)) days;
  Ok {| l_ranges := ranges; l_files := names; l_fixed := fst fm; l_mobile := snd fm |}.

(* ---- postprocess/latent_variable_check.py *)

(* 175-190 evaluate_latent_variable_constraint, from the variances of the samples after and before observations (of which
   the latter are not zero) *)
Definition latent_constraint (post prior : Qc) : Qc :=
  let ratio := (post / prior)%Qc in (1 - (if Qle_bool ratio 1 then ratio else 1))%Qc.
Definition latent_constraints (post prior : list Qc) : list Qc := map (fun pq => latent_constraint (fst pq) (snd pq)) (combine post prior).

(* 70 *)
Definition CONSTRAINT_THRESHOLD : Qc := (1 / qz 5)%Qc.

(* 192-205 evaluate_constraint_statistic: rows of the design matrix are the cells *)
Definition indicator (constraints : list Qc) (threshold : Qc) : list Qc :=
  map (fun c : Qc => if Qle_bool threshold c then 0%Qc else 1%Qc) constraints.
Definition dot (a b : list Qc) : Qc := fold_right Qcplus 0%Qc (map (fun xy => (fst xy * snd xy)%Qc) (combine a b)).
Definition constraint_statistic (design : list (list Qc)) (constraints : list Qc) (threshold : Qc) : list bool :=
  map (fun row => negb (Qle_bool (dot row (indicator constraints threshold)) 0)) design.
(* postprocess/flags.py:16-55: the names it defines, with their values; those of latent variables are commented out (42-43) *)
Definition FLAGS_MODULE : list (string * Z) :=
  [("NULL_FLAG", NULL_FLAG); ("DAY_FLAG", bit 0); ("PRIOR_WINDOW_FLAG", bit 1); ("POST_WINDOW_FLAG", bit 2);
   ("PRIOR_CALENDAR_FLAG", bit 3); ("POST_CALENDAR_FLAG", bit 4); ("CLIMATOLOGY_UNC_FLAG", bit 5); ("LARGE_SCALE_UNC_FLAG", bit 6);
   ("AREAL_LOW_FLAG", bit 7); ("AREAL_HIGH_FLAG", bit 8); ("EXTREME_LOW_FLAG", bit 9); ("EXTREME_HIGH_FLAG", bit 10);
   ("PERSISTANT_OUTLIER_FLAG", bit 11); ("MISSING_MARINE_FLAG", bit 12); ("LOCATION_LOW_FLAG", bit 13); ("LOCATION_HIGH_FLAG", bit 14);
   ("MISSING_FLAG_FLAG", bit 15); ("CALENDAR_DAY_FLAG", Z.lor (Z.lor (bit 0) (bit 1)) (bit 2))]%string.
Definition flags_attribute (name : string) : result Z :=
  match dict_get FLAGS_MODULE name with Some v => Ok v | None => Err AttributeError end.
(* 142-149, 155-166: the flag is set for those cells *)
Definition raise_flags (flag : Z) (statistic : list bool) (values : list Z) : list Z :=
  map (fun bv : bool * Z => if fst bv then Z.lor (snd bv) flag else snd bv) (combine statistic values).
(* 66-70 (on import), 142-166: the flags of a day, from the statistics of the two components *)
Definition latent_variable_flags (climatology large_scale : list bool) : result (list Z) :=
  do c <- flags_attribute "CLIMATOLOGY_LATENT_FLAG";
  do l <- flags_attribute "LARGE_SCALE_LATENT_FLAG";
  Ok (raise_flags l large_scale (raise_flags c climatology (map (fun _ => 0) climatology))).
