(* What a reader expects of the sources of in-situ and lake observations.  The records of arrays (land_file, ocean_row,
   ocean_source, lake_row, break_file, break_set, ranges_info, obset) come from the models; nothing else does. *)
From Coq Require Import QArith Qcanon String Ascii.
From Verif Require Import Base Time_Model Grid_Model Land_Model Obs_Model Src_Model.
Local Open Scope Z_scope.
Local Open Scope list_scope.

(* ---- station data *)

Definition stations (f : land_file) : nat := List.length (lf_lat f).
Definition table_ok {A} (rows columns : nat) (t : list (list A)) : Prop := List.length t = rows /\ Forall (fun r => List.length r = columns) t.
Definition file_ok (f : land_file) : Prop :=
  List.length (lf_lon f) = stations f /\ List.length (lf_elevation f) = stations f /\ List.length (lf_codes f) = stations f /\
  table_ok (List.length (lf_time f)) (stations f) (lf_tasmin f) /\ table_ok (List.length (lf_time f)) (stations f) (lf_tasmin_qc f) /\
  table_ok (List.length (lf_time f)) (stations f) (lf_tasmax f) /\ table_ok (List.length (lf_time f)) (stations f) (lf_tasmax_qc f).

Inductive extreme := Minimum | Maximum.
Definition observable_name (e : extreme) : string := match e with Minimum => "Tmin" | Maximum => "Tmax" end.
Definition temperatures (f : land_file) (e : extreme) : list (list cell) := match e with Minimum => lf_tasmin f | Maximum => lf_tasmax f end.
Definition flags (f : land_file) (e : extreme) : list (list Z) := match e with Minimum => lf_tasmin_qc f | Maximum => lf_tasmax_qc f end.
(* the values of a file for a row (a day) and a station *)
Definition reading (f : land_file) (e : extreme) (i s : nat) : cell := nth s (nth i (temperatures f e) []) (true, 0%Qc).
Definition flag_at (f : land_file) (e : extreme) (i s : nat) : Z := nth s (nth i (flags f e) []) 0.
Definition elevation_at (f : land_file) (s : nat) : cell := nth s (lf_elevation f) (true, 0%Qc).
(* coordinates, with longitudes from -180 on *)
Definition place_at (f : land_file) (s : nat) : Qc * Qc :=
  (nth s (lf_lat f) 0%Qc, let lon := nth s (lf_lon f) 0%Qc in if Qclt_le_dec lon (qz 180) then lon else (lon - qz 360)%Qc).

(* codes are padded with NUL characters *)
Definition same_code (a b : list ascii) : Prop := exists code m n, a = code ++ repeat "000"%char m /\ b = code ++ repeat "000"%char n.
Definition held_out (f : land_file) (codes : option (list (list ascii))) (s : nat) : Prop :=
  exists l c, codes = Some l /\ In c l /\ same_code (nth s (lf_codes f) []) c.

(* row i of the file is the one that has the time of the day *)
Definition row_of_day (f : land_file) (day : Z) (i : nat) : Prop :=
  (i < List.length (lf_time f))%nat /\ forall j, (j < List.length (lf_time f))%nat -> nth j (lf_time f) 0%Qc = qz day <-> j = i.

(* rows of the file that are asked for *)
Definition rows_for (f : land_file) (day : option Z) (rows : list nat) : Prop :=
  match day with None => rows = seq 0 (List.length (lf_time f)) | Some d => exists i, rows = [i] /\ row_of_day f d i end.

(* metres above the reference, in km *)
Definition height (f : land_file) (reference : Qc * Qc -> Qc) (s : nat) : Qc := (snd (elevation_at f s) / qz 1000 - reference (place_at f s))%Qc.

(* the numbers of an entry of a set of observations *)
Definition entry (o : obset) (n : nat) : bool * Qc * Z * Qc * Qc :=
  (nth n (s_mask o) true, match s_time o with TScalar t => t | TArray ts => nth n ts 0%Qc end, nth n (s_location o) 0, nth n (s_measurement o) 0%Qc, nth n (s_unc o) 0%Qc).
Definition sized (o : obset) (n : nat) : Prop :=
  List.length (s_mask o) = n /\ match s_time o with TScalar _ => False | TArray ts => List.length ts = n end /\
  List.length (s_location o) = n /\ List.length (s_measurement o) = n /\ List.length (s_unc o) = n /\ s_cor o = [].

(* why the observation of row i and station s is not used.  Here is what a user would ask for. *)
Definition unusable (f : land_file) (e : extreme) (codes : option (list (list ascii))) (adjusted qc : bool) (i s : nat) : Prop :=
  fst (reading f e i s) = true \/ (qc = true /\ flag_at f e i s <> 0) \/ held_out f codes s \/ (adjusted = true /\ fst (elevation_at f s) = true).
(* What the code does, for entry k of the result: flags count for the row itself only when a day is asked for, and those of row k
   when stations are held out. *)
Definition masked_by_code (f : land_file) (e : extreme) (day : option Z) (codes : option (list (list ascii))) (adjusted qc : bool) (k i s : nat) : Prop :=
  fst (reading f e i s) = true \/ (qc = true /\ day <> None /\ flag_at f e i s <> 0) \/ held_out f codes s \/
  (qc = true /\ codes <> None /\ flag_at f e k s <> 0) \/ (adjusted = true /\ fst (elevation_at f s) = true).

(* temperature and uncertainty of a used observation *)
Definition at_reference (f : land_file) (e : extreme) (adjust : option (Qc * Qc -> Qc)) (i s : nat) : Qc :=
  match adjust with None => snd (reading f e i s) | Some r => (snd (reading f e i s) + qz 13 / qz 2 * height f r s)%Qc end.
Definition variance (f : land_file) (r : Qc * Qc -> Qc) (s : nat) : Qc :=
  let h := height f r s in (qz 121 / qz 100 * (h * h) + qz 9 / qz 100)%Qc.
Definition error_of (root : Qc -> Qc) (f : land_file) (adjust : option (Qc * Qc -> Qc)) (s : nat) : Qc :=
  match adjust with None => (qz 3 / qz 10)%Qc | Some r => root (variance f r s) end.

(* ---- ship reports *)

(* text of words with white space between them *)
Definition white (c : ascii) : Prop := In c [" "; "009"; "010"; "011"; "012"; "013"]%char.
Inductive spaced : list ascii -> list (list ascii) -> Prop :=
| spaced_end s : Forall white s -> spaced s []
| spaced_word s w rest ws : Forall white s -> w <> [] -> Forall (fun c => ~ white c) w -> (rest = [] \/ exists c r, rest = c :: r /\ white c) ->
    spaced rest ws -> spaced (s ++ w ++ rest) (w :: ws).
Definition first_at (w : list ascii) (ws : list (list ascii)) (i : nat) : Prop :=
  nth_error ws i = Some w /\ forall j, (j < i)%nat -> nth_error ws j <> Some w.
Definition field_titles : list string := ["ID"; "Lat"; "Lon"; "year"; "month"; "day"; "hour"; "Air"]%string.

(* a whole number in decimal, with blanks around it *)
Definition digit (d : Z) : ascii := ascii_of_nat (48 + Z.to_nat d).
Definition number_of_digits (ds : list Z) : Z := fold_left (fun v d => 10 * v + d) ds 0.
Definition says (text : list ascii) (v : Z) : Prop :=
  exists a b ds negative, Forall (fun d => 0 <= d <= 9) ds /\ ds <> [] /\
    text = repeat " "%char a ++ (if negative : bool then ["-"%char] else []) ++ map digit ds ++ repeat " "%char b /\
    v = if negative then - number_of_digits ds else number_of_digits ds.
(* a line of columns of eight characters, the last of which may be shorter *)
Inductive eights : list ascii -> list (list ascii) -> Prop :=
| eights_nil : eights [] []
| eights_last c : c <> [] -> (List.length c <= 8)%nat -> eights c [c]
| eights_cons c line cs : List.length c = 8%nat -> eights line cs -> eights (c ++ line) (c :: cs).
Definition no_end (l : list ascii) : Prop := ~ In "010"%char l /\ ~ In "013"%char l.
Definition line_of (columns : list (list ascii)) (line : list ascii) : Prop :=
  exists text, eights text columns /\ no_end text /\ (line = text \/ line = text ++ ["010"%char] \/ line = text ++ ["013"%char; "010"%char]).
(* what the columns say about a report: latitude, longitude, year, month, day and temperature in the columns numbered so *)
Definition column_says (columns : list (list ascii)) (k : nat) (v : Z) : Prop := exists text, nth_error columns k = Some text /\ says text v.
Definition report (usecols : list nat) (columns : list (list ascii)) (r : ocean_row) : Prop :=
  exists a lat lon y m d h air, usecols = [a; lat; lon; y; m; d; h; air] /\ (a < List.length columns)%nat /\ (h < List.length columns)%nat /\
    column_says columns lat (or_lat r) /\ column_says columns lon (or_lon r) /\ column_says columns y (or_year r) /\
    column_says columns m (or_month r) /\ column_says columns d (or_day r) /\ column_says columns air (or_air r).
Definition real_date (r : ocean_row) : Prop :=
  1 <= or_year r <= 9999 /\ 1 <= or_month r <= 12 /\ 1 <= or_day r <= days_in_month (or_year r) (or_month r).
(* days since 1 January 1850 *)
Definition day_of_report (r : ocean_row) : Z := ymd2ord (or_year r) (or_month r) (or_day r) - ymd2ord 1850 1 1.
Definition kelvin (air : Z) : Qc := (qz air / qz 100 + qz 27315 / qz 100)%Qc.
Definition degrees (v : Z) : Qc := (qz v / qz 10)%Qc.

(* ---- break points *)
Definition break_at (f : break_file) (i : nat) : Z * Z * Z := (nth i (bf_time f) 0, nth i (bf_station f) 0, snd (nth i (bf_likelihood f) (true, 0))).
Definition break_known (f : break_file) (i : nat) : bool := negb (fst (nth i (bf_likelihood f) (true, 0))).
Definition wanted (station : option Z) (f : break_file) (i : nat) : bool := match station with None => true | Some s => nth i (bf_station f) 0 =? s end.
Definition break_file_ok (f : break_file) : Prop := List.length (bf_station f) = List.length (bf_time f) /\ List.length (bf_likelihood f) = List.length (bf_time f).

(* ---- time *)
(* dates and moments as numbers of microseconds (Time_Model); the first moment of a year *)
Definition year_begins (y : Z) : Z := ymd2ord y 1 1 * DAY.

(* the lines of a file of ship reports: blank lines count for nothing *)
Inductive reports (usecols : list nat) : list (list ascii) -> list ocean_row -> Prop :=
| reports_nil : reports usecols [] []
| reports_blank line ls rs : line_of [] line -> reports usecols ls rs -> reports usecols (line :: ls) rs
| reports_cons line columns ls r rs : line_of columns line -> columns <> [] -> report usecols columns r -> reports usecols ls rs -> reports usecols (line :: ls) (r :: rs).
(* in ascending order *)
Fixpoint ascending_nat (l : list nat) : Prop := match l with [] => True | x :: r => Forall (fun y => (x < y)%nat) r /\ ascending_nat r end.
