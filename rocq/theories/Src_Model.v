(* Model of the sources of in-situ and lake observations and of the steps that turn them into daily files:
   src/eustace/preprocess/fileio/insitu_land.py, insitu_land_breakpoints.py, insitu_ocean.py, height_adjustment.py,
   src/eustace/surfaceairmodel/fileio/lake.py, surfaceairmodel/correlation_ranges.py, src/eustace/analysis/preparedailyfixed.py,
   preparedailymobile.py, preparelocationlookup.py, preparelocationpointers.py and src/eustace/timeutils/decimaltime.py.
   Simplifications: numbers are exact rationals; the opened NetCDF files are records of arrays (all of which netCDF4 gives as
   masked arrays with a mask for each value); enc turns a number into the 64-bit word that is stored, and num back; numpy.sqrt
   is any function root; the identifier made by uuid1 is a parameter. *)
From Coq Require Import QArith Qcanon String Ascii.
From Verif Require Import Base Time_Model Grid_Model Land_Model Obs_Model Cpp_Model.
Local Open Scope Z_scope.
Local Open Scope list_scope.

(* ---- a value of a masked array: whether it is masked, and its data *)
Notation cell := (bool * Qc)%type.
Definition mask_cell (m : bool) (c : cell) : cell := (fst c || m, snd c).
(* logical_or of the mask of a row with an array of the same length *)
Definition mask_row (ms : list bool) (row : list cell) : list cell := map (fun mc => mask_cell (fst mc) (snd mc)) (combine ms row).

(* ---- insitu_land.py *)

(* the arrays of a file: by time and station *)
Record land_file := { lf_time : list Qc; lf_lat : list Qc; lf_lon : list Qc; lf_elevation : list cell; lf_codes : list (list ascii);
                      lf_tasmin : list (list cell); lf_tasmin_qc : list (list Z); lf_tasmax : list (list cell); lf_tasmax_qc : list (list Z) }.

(* 22-23 OBSERVATIONMAPS, QCOBSERVATIONMAPS *)
Definition land_variable (f : land_file) (observable : string) : result (list (list cell) * list (list Z)) :=
  if String.eqb observable "Tmin" then Ok (lf_tasmin f, lf_tasmin_qc f)
  else if String.eqb observable "Tmax" then Ok (lf_tasmax f, lf_tasmax_qc f)
  else Err KeyError.

(* numpy compares fixed-width strings without the NUL characters that fill them *)
Fixpoint drop_nul (l : list ascii) : list ascii := match l with c :: r => if Ascii.eqb c "000"%char then drop_nul r else l | [] => [] end.
Definition code_text (l : list ascii) : list ascii := rev (drop_nul (rev l)).
Fixpoint ascii_list_eqb (a b : list ascii) : bool :=
  match a, b with [], [] => true | x :: a', y :: b' => Ascii.eqb x y && ascii_list_eqb a' b' | _, _ => false end.
(* 40-55 identify_validation_stations *)
Definition validation_stations (available filtered : list (list ascii)) : list bool :=
  map (fun a => existsb (fun b => ascii_list_eqb (code_text a) (code_text b)) filtered) available.

(* 70-84 *)
Definition land_stations (f : land_file) : Z := zlen (lf_lat f).
Definition land_number_of_observations (f : land_file) (daynumber : option Z) : Z :=
  match daynumber with None => zlen (lf_time f) * land_stations f | Some _ => land_stations f end.
(* 86-100 observation_location_lookup *)
Definition wrap_longitude (lon : Qc) : Qc := if Qle_bool (qz 180) lon then (lon - qz 360)%Qc else lon.
Definition land_locations (f : land_file) : list (Qc * Qc) := combine (lf_lat f) (map wrap_longitude (lf_lon f)).

(* height_adjustment.py:9-10, 36-42; reference is the altitude of the surface at a place (C82), in km *)
Definition LAPSE_RATE : Qc := (- (qz 65 / qz 10))%Qc.
Definition LAPSE_RATE_UNCERTAINTY : Qc := (qz 11 / qz 10)%Qc.
Definition adjustment (reference : Qc * Qc -> Qc) (altitude : Qc) (place : Qc * Qc) : Qc := (- LAPSE_RATE * (altitude - reference place))%Qc.
Definition abs_q (x : Qc) : Qc := if Qle_bool 0%Qc x then x else (- x)%Qc.
Definition adjustment_uncertainty (reference : Qc * Qc -> Qc) (altitude : Qc) (place : Qc * Qc) : Qc := (LAPSE_RATE_UNCERTAINTY * abs_q (altitude - reference place))%Qc.

(* 15, 159 *)
Definition ALTITUDE_SCALE_FACTOR : Qc := (1 / qz 1000)%Qc.
Definition UNCERTAINTY : Qc := (qz 3 / qz 10)%Qc.

(* 162-176, of a row of cells; uncertainties stay as they were where the measurement is masked, which it is where the elevation
   is.  Left out: what the data hold under the mask. *)
Definition adjust_row (root : Qc -> Qc) (reference : Qc * Qc -> Qc) (f : land_file) (row : list cell) : list cell * list Qc :=
  let columns := combine (combine (lf_elevation f) (land_locations f)) row in
  let km (e : cell) := (snd e * ALTITUDE_SCALE_FACTOR)%Qc in
  (map (fun x : cell * (Qc * Qc) * cell => let '(e, place, c) := x in
          if fst c then c else if fst e then mask_cell true c else (false, (adjustment reference (km e) place + snd c)%Qc)) columns,
   map (fun x : cell * (Qc * Qc) * cell => let '(e, place, c) := x in
          if fst c || fst e then UNCERTAINTY
          else root (adjustment_uncertainty reference (km e) place * adjustment_uncertainty reference (km e) place + UNCERTAINTY * UNCERTAINTY)%Qc) columns).

(* 121: positions of a value in the times *)
Definition day_positions (f : land_file) (day : Z) : list nat := filter (fun i => Qc_eq_bool (nth i (lf_time f) 0%Qc) (qz day)) (seq 0 (List.length (lf_time f))).
Definition failed (qc : list Z) : list bool := map (fun q => negb (q =? 0)) qc.

(* 102-185 observations; None where the code returns None (122, 141-142).
   150-153: the flags of the whole file are combined with the mask, by broadcasting if it has one row, and assigned to the mask
   by its flat elements, so that rows are taken from the first on. *)
Definition land_observations (root : Qc -> Qc) (f : land_file) (daynumber : option Z) (hold_out : option (list (list ascii)))
                             (altitude_adjustment : option (Qc * Qc -> Qc)) (observable : string) (qc_mask : bool) : result (option obset) :=
  do mq <- land_variable f observable;
  let (variable, qc_var) := mq in
  match match daynumber with
        | None => Some (lf_time f, variable)
        | Some day =>
            match day_positions f day with
            | [i] => let row := nth i variable [] in
                     Some ([nth i (lf_time f) 0%Qc], [if qc_mask then mask_row (failed (nth i qc_var [])) row else row])
            | _ => None
            end
        end with
  | None => Ok None
  | Some (time, measurement) =>
      let measurement :=
        match hold_out with
        | None => measurement
        | Some codes =>
            let measurement := map (mask_row (validation_stations (lf_codes f) codes)) measurement in
            if qc_mask then map (fun qr => mask_row (failed (fst qr)) (snd qr)) (combine qc_var measurement) else measurement
        end in
      let rows := match altitude_adjustment with
                  | None => map (fun row => (row, map (fun _ => UNCERTAINTY) row)) measurement
                  | Some reference => map (adjust_row root reference f) measurement
                  end in
      Ok (Some {| s_mask := flat_map (fun r => map fst (fst r)) rows;
                  s_time := TArray (flat_map (fun tr => map (fun _ => fst tr) (fst (snd tr))) (combine time rows));
                  s_location := flat_map (fun r => map Z.of_nat (seq 0 (List.length (fst r)))) rows;
                  s_measurement := flat_map (fun r => map snd (fst r)) rows;
                  s_unc := flat_map snd rows;
                  s_cor := [] |})
  end.

(* ---- preparedailyfixed.py:27-60 run_day for station data.  nc opens NetCDF files; without a list of stations to hold out, the
   altitude adjustment is handed over in its place (40), and the file of its printed name is not there. *)
Definition words_of (enc : Qc -> Z) (o : obset) : observations :=
  {| o_mask := s_mask o; o_time := s_time o; o_location := s_location o; o_measurement := map enc (s_measurement o);
     o_unc := map enc (s_unc o); o_cor := map (map enc) (s_cor o) |}.
Definition nc_open (nc : string -> option land_file) (name : string) : result land_file := match nc name with Some f => Ok f | None => Err IOErrorE end.
Definition run_day_land (root : Qc -> Qc) (enc : Qc -> Z) (num : Z -> Qc) (nc : string -> option land_file) (locationfile : list byte)
                        (dailyfilename : string) (daynumber : Z) (observable : string) (hold_out_list : option string) (qc_mask : bool)
                        (altitude_adjustment : option (Qc * Qc -> Qc)) : result (list byte) :=
  do reference_location <- read_lookup locationfile;
  do f <- nc_open nc dailyfilename;
  do ha <- match hold_out_list with
           | None => match altitude_adjustment with None => Ok (None, None) | Some _ => Err IOErrorE end
           | Some h => do g <- nc_open nc h; Ok (Some (lf_codes g), altitude_adjustment)
           end;
  do dailydata <- land_observations root f (Some daynumber) (fst ha) (snd ha) observable qc_mask;
  match dailydata with
  | None => Err AttributeError
  | Some o => prepare_day num locationfile (map (fun ll => (enc (fst ll), enc (snd ll))) (land_locations f)) (words_of enc o) daynumber
  end.
(* preparelocationlookup.py:9-22 for station data *)
Definition run_location_lookup (enc : Qc -> Z) (nc : string -> option land_file) (uuid : list byte) (inputfilename : string) : result (list byte) :=
  do f <- nc_open nc inputfilename;
  Ok (write_lookup {| lk_uuid := uuid; lk_table := map (fun ll => (enc (fst ll), enc (snd ll))) (land_locations f) |}).

(* ---- insitu_land_breakpoints.py *)

(* times, stations, likelihoods (masked or not) and feasibility by station *)
Record break_file := { bf_time : list Z; bf_station : list Z; bf_likelihood : list (bool * Z); bf_feasibility : list Z }.
Record break_set := { bs_time : list Z; bs_station : list Z; bs_likelihood : list Z; bs_feasibility : list Z }.
(* 37-45 number_of_observations *)
Definition break_count (f : break_file) (station_index : option Z) : Z :=
  match station_index with
  | None => zlen (bf_time f)
  | Some s => zlen (filter (fun x => x =? s) (bf_station f))
  end.
(* numpy indexing by a signed number *)
Definition at_index (l : list Z) (i : Z) : result Z :=
  let j := if i <? 0 then i + zlen l else i in
  if (0 <=? j) && (j <? zlen l) then Ok (nth (Z.to_nat j) l 0) else Err IndexError.
Definition select {A} (m : list bool) (l : list A) : list A := map snd (filter (fun x => fst x) (combine m l)).
(* 63-106 observations *)
Definition break_observations (f : break_file) (station_index : option Z) : result break_set :=
  let likelihood_mask := map (fun c => negb (fst c)) (bf_likelihood f) in
  let final_mask := match station_index with
                    | Some s => map (fun x => (fst x =? s) && snd x) (combine (bf_station f) likelihood_mask)
                    | None => likelihood_mask
                    end in
  do feasibility <- match station_index with Some s => do v <- at_index (bf_feasibility f) s; Ok [v] | None => Ok (bf_feasibility f) end;
  Ok {| bs_time := select final_mask (bf_time f); bs_station := select final_mask (bf_station f);
        bs_likelihood := select final_mask (map snd (bf_likelihood f)); bs_feasibility := feasibility |}.

(* ---- insitu_ocean.py *)

(* str.split() *)
Definition is_space (c : ascii) : bool := existsb (Ascii.eqb c) [" "; "009"; "010"; "011"; "012"; "013"]%char.
Fixpoint split_words (word : list ascii) (l : list ascii) : list (list ascii) :=
  match l with
  | [] => match word with [] => [] | _ => [rev word] end
  | c :: r => if is_space c then (match word with [] => split_words [] r | _ => rev word :: split_words [] r end) else split_words (c :: word) r
  end.
Definition words_in (l : list ascii) : list (list ascii) := split_words [] l.
(* list.index *)
Fixpoint index_of (w : list ascii) (l : list (list ascii)) : option nat :=
  match l with [] => None | x :: r => if ascii_list_eqb x w then Some O else option_map S (index_of w r) end.

(* 22-32 FIELDS; the hour is read but not used, and so is the ID *)
Definition FIELDS : list (list ascii) := map list_ascii_of_string ["ID"; "Lat"; "Lon"; "year"; "month"; "day"; "hour"; "Air"]%string.
(* 47-54 HadNMAT2Format: the columns of the fields; reading past the end gives empty lines *)
Definition format_columns (lines : list (list ascii)) : result (list nat) :=
  mapM (fun f => match index_of f (words_in (nth 2 lines [])) with Some i => Ok i | None => Err ValueError end) FIELDS.

(* numpy.genfromtxt with a delimiter of 8: _fixedwidth_splitter.  A line is given with or without its end. *)
Definition is_end (c : ascii) : bool := Ascii.eqb c "013"%char || Ascii.eqb c "010"%char.
Fixpoint drop_ends (l : list ascii) : list ascii := match l with c :: r => if is_end c then drop_ends r else l | [] => [] end.
Definition strip_ends (l : list ascii) : list ascii := rev (drop_ends (rev (drop_ends l))).
Fixpoint pieces (fuel : nat) (width : nat) (l : list ascii) : list (list ascii) :=
  match fuel, l with
  | O, _ | _, [] => []
  | S fuel', _ => firstn width l :: pieces fuel' width (skipn width l)
  end.
Definition fixed_width (line : list ascii) : list (list ascii) := let l := strip_ends line in pieces (List.length l) 8 l.

(* the converter of whole numbers, int(float(text)), with -1 for text that is none.  Left out: text with a decimal point or an
   exponent, and the words for infinity. *)
Fixpoint drop_spaces (l : list ascii) : list ascii := match l with c :: r => if is_space c then drop_spaces r else l | [] => [] end.
Definition strip_spaces (l : list ascii) : list ascii := rev (drop_spaces (rev (drop_spaces l))).
Fixpoint read_digits (v : Z) (l : list ascii) : option Z :=
  match l with
  | [] => Some v
  | c :: r => match digit_value c with Some d => read_digits (10 * v + d) r | None => None end
  end.
Definition read_unsigned (l : list ascii) : option Z := match l with [] => None | _ => read_digits 0 l end.
Definition read_int (text : list ascii) : option Z :=
  match strip_spaces text with
  | c :: r => if Ascii.eqb c "-"%char then option_map Z.opp (read_unsigned r)
              else if Ascii.eqb c "+"%char then read_unsigned r
              else read_unsigned (c :: r)
  | [] => None
  end.
Definition to_int (text : list ascii) : Z := match read_int text with Some v => v | None => -1 end.

(* the rows of the table: lines without text are passed over; one with too few columns is an error of the whole file *)
Record ocean_row := { or_lat : Z; or_lon : Z; or_year : Z; or_month : Z; or_day : Z; or_air : Z }.
Definition ocean_row_of (usecols : list nat) (columns : list (list ascii)) : result ocean_row :=
  do v <- mapM (fun k => match nth_error columns k with Some t => Ok t | None => Err ValueError end) usecols;
  match v with
  | [_; lat; lon; year; month; day; _; air] =>
      Ok {| or_lat := to_int lat; or_lon := to_int lon; or_year := to_int year; or_month := to_int month; or_day := to_int day; or_air := to_int air |}
  | _ => Err ValueError
  end.
Definition genfromtxt (usecols : list nat) (lines : list (list ascii)) : result (list ocean_row) :=
  mapM (ocean_row_of usecols) (filter (fun c => match c with [] => false | _ => true end) (map fixed_width lines)).

(* 40-45, 118 *)
Definition ocean_coordinate (v : Z) : Qc := (qz v * (1 / qz 10))%Qc.
Definition ocean_temperature (v : Z) : Qc := (qz v * (1 / qz 100) + qz 27315 / qz 100)%Qc.
Definition OCEAN_UNCERTAINTY : Qc := (qz 11 / qz 10)%Qc.
(* days since the epoch of a date (timeutils/epoch.py:16-18) *)
Definition date_number (y m d : Z) : result Z := do t <- mk_datetime y m d 0 0 0; Ok (int_days (days_datetime_to_number EPOCH t)).
Record ocean_source := { oc_coords : list (Qc * Qc); oc_time : list Qc; oc_tmean : list Qc }.
(* 62-93 __init__: a table of one row is an array without dimensions, whose shape has no first element *)
Definition ocean_open (usecols : list nat) (lines : list (list ascii)) : result ocean_source :=
  do rows <- genfromtxt usecols lines;
  match rows with
  | [_] => Err IndexError
  | _ =>
      do days <- mapM (fun r => date_number (or_year r) (or_month r) (or_day r)) rows;
      Ok {| oc_coords := map (fun r => (ocean_coordinate (or_lat r), ocean_coordinate (or_lon r))) rows; oc_time := map qz days;
            oc_tmean := map (fun r => ocean_temperature (or_air r)) rows |}
  end.
(* 108-121 observations: None for other observables *)
Definition ocean_observations (s : ocean_source) (observable : string) : option obset :=
  if String.eqb observable "Tmean"
  then Some {| s_mask := map (fun _ => false) (oc_tmean s); s_time := TArray (oc_time s); s_location := zrange 0 (zlen (oc_tmean s));
               s_measurement := oc_tmean s; s_unc := map (fun _ => OCEAN_UNCERTAINTY) (oc_tmean s); s_cor := [] |}
  else None.
(* preparedailymobile.py:17-37 run_day: the two files written, observations first *)
Definition run_day_mobile (enc : Qc -> Z) (uuid : list byte) (formatlines lines : list (list ascii)) (daynumber : Z) (observable : string)
  : result (list byte * list byte) :=
  do usecols <- format_columns formatlines;
  do source <- ocean_open usecols lines;
  match ocean_observations source observable with
  | None => Err AttributeError
  | Some o => Ok (write_day uuid (words_of enc o) daynumber,
                  write_lookup {| lk_uuid := uuid; lk_table := map (fun ll => (enc (fst ll), enc (snd ll))) (oc_coords source) |})
  end.

(* ---- lake.py: rows as genfromtxt gives them *)
Record lake_row := { lr_day : Z; lr_lat : Qc; lr_lon : Qc; lr_temperature : Qc }.
(* 46-49 *)
Definition signature (r : lake_row) : Z := trunc (qz 360 * qz 1000000 * lr_lat r)%Qc + trunc (qz 1000000 * lr_lon r)%Qc.
(* 52 numpy.unique: sorted, with the first position of each and the positions of all among them *)
Fixpoint insert_z (x : Z) (l : list Z) : list Z := match l with [] => [x] | y :: r => if x <? y then x :: l else if x =? y then l else y :: insert_z x r end.
Definition unique_z (l : list Z) : list Z := fold_right insert_z [] l.
Fixpoint first_position (x : Z) (l : list Z) : nat := match l with [] => O | y :: r => if x =? y then O else S (first_position x r) end.
Definition lake_ids (rows : list lake_row) : list Z :=
  let sigs := map signature rows in map (fun s => Z.of_nat (first_position s (unique_z sigs))) sigs.
(* 54-57 *)
Definition lake_lookup (rows : list lake_row) : list (Qc * Qc) :=
  let sigs := map signature rows in
  map (fun s => match nth_error rows (first_position s sigs) with Some r => (lr_lat r, lr_lon r) | None => (0%Qc, 0%Qc) end) (unique_z sigs).
(* 59-63, 78-91 *)
Definition lake_observations (rows : list lake_row) : obset :=
  {| s_mask := map (fun _ => false) rows; s_time := TArray (map (fun r => qz (lr_day r)) rows); s_location := lake_ids rows;
     s_measurement := map (fun r => (lr_temperature r + qz 27315 / qz 100)%Qc) rows; s_unc := map (fun _ => qz 5) rows; s_cor := [] |}.

(* ---- timeutils/decimaltime.py:6-22 datetime_to_decimal_year *)
Definition decimal_year (t : Z) : result Qc :=
  let year := dt_year t in
  do year_start <- mk_datetime year 1 1 0 0 0;
  do year_end <- mk_datetime (year + 1) 1 1 0 0 0;
  let t_seconds := (qz (t - year_start) / qz SECOND)%Qc in
  let total_seconds := (qz (year_end - year_start) / qz SECOND)%Qc in
  Ok (qz year + t_seconds / total_seconds)%Qc.

(* ---- surfaceairmodel/correlation_ranges.py *)
Record ranges_info := { ri_length : Qc; ri_length_units : string; ri_time : Qc; ri_time_units : string }.
Definition unit_at (units : list string) (k : nat) : result string := match nth_error units k with Some u => Ok u | None => Err IndexError end.
(* 25-27: the last of equal keys stays *)
Definition scales_dictionary (keys units : list string) (lengths times : list Qc) : result (list (string * ranges_info)) :=
  mapM (fun klt => let '(k, (l, t)) := klt in
          do u0 <- unit_at units 0; do u1 <- unit_at units 1;
          Ok (k, {| ri_length := l; ri_length_units := u0; ri_time := t; ri_time_units := u1 |})) (combine keys (combine lengths times)).
Definition last_of {A} (k : string) (d : list (string * A)) : option A := option_map snd (find (fun e => String.eqb (fst e) k) (rev d)).
(* 16-23: the attributes given to a variable *)
Definition update_ranges (keys units : list string) (lengths times : list Qc) (name : string) : result ranges_info :=
  do d <- scales_dictionary keys units lengths times;
  match last_of name d with Some i => Ok i | None => Err KeyError end.

(* ---- preparelocationpointers.py:8-23 extractdaynumber; s[-n:] *)
Definition suffix (n : nat) (s : string) : string := if (n <=? String.length s)%nat then substring (String.length s - n) n s else s.
Definition extract_day_number (filename : string) : result Z :=
  if negb (String.eqb (suffix 4 filename) ".bin") then Err ValueError else
  let tail := suffix 12 filename in
  do t <- strptime_date (substring 0 (String.length tail - 4) tail);
  Ok (int_days (days_datetime_to_number EPOCH t)).
