(* What C125-C127 mean. *)
From Coq Require Import String Ascii QArith Reals.
From Verif Require Import Base Time_Model Time_Spec Land_Model.
Open Scope Z_scope.
Open Scope string_scope.
Open Scope list_scope.

Section Fields.
Variable A : arithmetic.

(* the field that a dictionary has under a name *)
Definition has (r : results A) (name : string) (f : field A) : Prop := lookup name r = Some (V_field A f).

(* a cell is missing if it is masked *)
Definition masked (f : field A) (i : nat) : bool := match mask A f with None => false | Some m => nth i m false end.
Definition known (f : field A) (i : nat) : option (num A) :=
  if masked f i then None else nth_error (data A f) i.

(* the mask, if any, has one flag for each cell *)
Definition well_formed (f : field A) : Prop := match mask A f with None => True | Some m => List.length m = size A f end.
(* there is such a mask *)
Definition has_mask (f : field A) : Prop := exists m, mask A f = Some m /\ List.length m = size A f.

(* the data say the same as the mask: the fill value where a cell is missing, and only there *)
Definition clean (f : field A) : Prop :=
  forall i x, nth_error (data A f) i = Some x -> masked f i = same A x (fill A f).

(* both temperatures of pixel [i] are known, and the maximum is below the minimum *)
Definition inverted (tasmin tasmax : field A) (i : nat) : bool :=
  match known tasmin i, known tasmax i with Some a, Some b => below A b a | _, _ => false end.
(* the number of pixels for which a test holds *)
Definition pixels (n : nat) (p : nat -> bool) : Z := Z.of_nat (List.length (filter p (seq 0 n))).

(* the variables that the filter is about *)
Definition filtered (vars : list string) : list string := ["tasmin"; "tasminuncertainty"; "tasmax"; "tasmaxuncertainty"] ++ vars.

(* the name of the variable of an intermediate land file that each output variable copies *)
Definition land_source : list (string * string) :=
  [("tasmin", "tasmin"); ("tasmax", "tasmax");
   ("tasmin_unc_rand", "unc_rand_tasmin"); ("tasmin_unc_corr_atm", "unc_corr_atm_tasmin");
   ("tasmin_unc_corr_sfc", "unc_corr_sfc_tasmin"); ("tasmin_unc_sys", "unc_sys_tasmin");
   ("tasmax_unc_rand", "unc_rand_tasmax"); ("tasmax_unc_corr_atm", "unc_corr_atm_tasmax");
   ("tasmax_unc_corr_sfc", "unc_corr_sfc_tasmax"); ("tasmax_unc_sys", "unc_sys_tasmax");
   ("tasmin_model_number", "tasmin_model_number"); ("tasmax_model_number", "tasmax_model_number")].
(* ... and the components of each total uncertainty *)
Definition land_total : list (string * list string) :=
  [("tasminuncertainty", ["unc_rand_tasmin"; "unc_corr_atm_tasmin"; "unc_corr_sfc_tasmin"; "unc_sys_tasmin"]);
   ("tasmaxuncertainty", ["unc_rand_tasmax"; "unc_corr_atm_tasmax"; "unc_corr_sfc_tasmax"; "unc_sys_tasmax"])].
(* ocean; "tas" is apart, it changes from Celsius to Kelvin *)
Definition ocean_source : list (string * string) :=
  [("tas_unc_rand", "unc_rand_tas"); ("tas_unc_corr_sat", "unc_corr_tas"); ("tas_unc_sys", "unc_syst_tas");
   ("tas_unc_corr_mod", "unc_corr2_tas"); ("tas_unc_sys_mod", "unc_syst2_tas");
   ("tas_unc_parameter_0", "unc_parameter_0_tas"); ("tas_unc_parameter_1", "unc_parameter_1_tas");
   ("tas_unc_parameter_2", "unc_parameter_2_tas"); ("tas_unc_parameter_3", "unc_parameter_3_tas");
   ("tas_unc_parameter_4", "unc_parameter_4_tas")].
Definition ocean_total : list (string * list string) := [("tasuncertainty", map snd ocean_source)].

(* the variable [name] of a file *)
Definition variable (d : dataset A) (name : string) (f : field A) : Prop := lookup name (d_variables A d) = Some f.

(* a file with all these variables, each a field of [cells] cells *)
Definition complete (cells : nat) (names : list string) (d : dataset A) : Prop :=
  d_time A d <> None /\
  forall name, In name names -> exists f, variable d name f /\ well_formed f /\ size A f = cells.

(* two fields with the same known values *)
Definition same_values (f g : field A) : Prop := size A f = size A g /\ forall i, known f i = known g i.

(* the settings that are meant to be the same for every day *)
Definition with_settings_of (first x : daily_inputs) : daily_inputs :=
  {| catalogue_id := catalogue_id first; institution := institution first;
     output_main := output_main x; output_ancillary := output_ancillary x;
     input_model_1 := input_model_1 first; input_model_2 := input_model_2 first; input_model_3 := input_model_3 first;
     input_satellite_land_day := input_satellite_land_day x; input_satellite_land_night := input_satellite_land_night x;
     input_satellite_land_snow := Some (match input_satellite_land_snow x with Some s => s | None => "MISSING" end);
     input_satellite_land_mask_north := input_satellite_land_mask_north first;
     input_satellite_land_mask_south := input_satellite_land_mask_south first;
     input_satellite_land_DEM := input_satellite_land_DEM first; input_satellite_land_fvc := input_satellite_land_fvc first;
     frac_sat_obs_threshold := frac_sat_obs_threshold first; sampling_threshold := sampling_threshold first |}.
Definition same_settings (days : list daily_inputs) : Prop :=
  forall x y, In x days -> In y days -> input_satellite_land_snow y <> None /\ with_settings_of x y = y.

(* a file with the number in its comment called a number *)
Definition as_number (f : file A) : file A :=
  {| f_name := f_name A f; f_day := f_day A f;
     f_attributes := {| a_catalogue_id := a_catalogue_id (f_attributes A f); a_institution := a_institution (f_attributes A f);
                        a_comment := match a_comment (f_attributes A f) with Some (Percentage n) => Some (Number n) | c => c end |};
     f_fields := f_fields A f |}.

End Fields.

(* the real numbers *)
Definition reals : arithmetic :=
  {| num := R; of_Q := fun q => (IZR (Qnum q) / IZR (Zpos (Qden q)))%R; add := Rplus; mul := Rmult; root := sqrt;
     below := fun x y => if Rlt_dec x y then true else false; same := fun x y => if Req_EM_T x y then true else false;
     FILL := IZR (10 ^ 20) |}.

(* the sum of the squares of known values *)
Definition sum_of_squares (l : list R) : R := fold_right Rplus 0%R (map (fun x => (x * x)%R) l).

(* the whole numbers, for examples *)
Definition integers : arithmetic :=
  {| num := Z; of_Q := fun q => Qnum q / Zpos (Qden q); add := Z.add; mul := Z.mul; root := Z.sqrt;
     below := Z.ltb; same := Z.eqb; FILL := -32768 |}.

(* eight consecutive numerals *)
Definition eight_numerals_in (s : string) : Prop := exists a d b, s = (a ++ d ++ b)%string /\ numerals 8 d.
(* the start of a day of the calendar, in microseconds since the epoch of the calendar *)
Definition calendar_date (y m d : Z) : Prop := 1 <= y <= 9999 /\ 1 <= m <= 12 /\ 1 <= d <= days_in_month y m.
Definition midnight (y m d : Z) : Z := ymd2ord y m d * DAY.
