(* What diagnostic grids, counts and listings of observations should say, without the loops of the programs. *)
From Coq Require Import QArith Qcanon Ascii String.
From Verif Require Import Base Time_Model Grid_Model Grid_Spec Obs_Model Obs_Spec Cpp_Model Diag_Model.
Local Open Scope Z_scope.
Local Open Scope list_scope.

(* ---- places *)

(* v lies in the i-th interval of the axis: intervals begin half a step after the "zeroth" coordinate. *)
Definition covers (a : field_axis) (i : Z) (v : Qc) : Prop :=
  exists t, (0 <= t)%Qc /\ (t < 1)%Qc /\ v = (fa_zeroth a + (1 / qz 2 + qz i + t) * fa_step a)%Qc.
(* The index given to a coordinate: that of its interval; the first, also for coordinates less than one step before the axis;
   and the first for those of the interval after the last, if the axis is circular (see C22). *)
Definition lies (a : field_axis) (i : Z) (v : Qc) : Prop :=
  0 <= i < fa_count a /\
  (covers a i v \/
   (i = 0 /\ exists t, (0 < t)%Qc /\ (t < 1)%Qc /\ v = (fa_zeroth a + (1 / qz 2 - t) * fa_step a)%Qc) \/
   (fa_circular a = true /\ i = 0 /\ covers a (fa_count a) v)).
(* the cell of a pair of coordinates *)
Definition in_grid_cell (lat lon : field_axis) (c : Z) (latlon : Qc * Qc) : Prop :=
  exists i j, lies lat i (fst latlon) /\ lies lon j (snd latlon) /\ c = i * fa_count lon + j.

(* ---- observations of a day: location, measurement, uncertainty *)
Definition set_records (o : obset) : list (Z * (Qc * Qc)) :=
  map (fun i => (nth i (s_location o) 0, (nth i (s_measurement o) 0%Qc, nth i (s_unc o) 0%Qc))) (seq 0 (List.length (s_measurement o))).
Definition set_time (o : obset) (i : nat) : Qc := match s_time o with TScalar t => t | TArray ts => nth i ts 0%Qc end.
Definition day_records (o : obset) (day : Z) : list (Z * (Qc * Qc)) :=
  map (fun i => (nth i (s_location o) 0, (nth i (s_measurement o) 0%Qc, nth i (s_unc o) 0%Qc)))
      (filter (fun i => negb (nth i (s_mask o) true) && in_day (set_time o i) day) (seq 0 (List.length (s_measurement o)))).

(* ---- fields *)

(* What a reader sees of a field at a cell: nothing if it is masked or not there. *)
Definition shown (cubes : list cube) (name : string) (c : Z) : option Qc :=
  match find (fun k => String.eqb (cu_name k) name) cubes with
  | Some k => if cu_mask k c then None else Some (cu_data k c)
  | None => None
  end.
Definition field (source observable diag : string) : string := (source ++ "_" ++ observable ++ "_" ++ diag)%string.
Definition the_fields : list string :=
  ["count"; "observation_max"; "observation_min"; "uncertainty_max"; "uncertainty_min"; "observation_weightedsum"; "precision_sum"]%string.

Definition weighted_sum (l : list (Qc * Qc)) : Qc := sumQ (map (fun ou => (fst ou / snd ou)%Qc) l).
Definition weights (l : list (Qc * Qc)) : Qc := sumQ (map (fun ou => (1 / snd ou)%Qc) l).
Definition small (x : Qc) : Prop := (- qz (10 ^ 30) <= x)%Qc /\ (x <= qz (10 ^ 30))%Qc.

(* The fields of a source and observable at a cell tell of the observations (measurement, uncertainty) of the list l, in so far
   as the code means them to (the least uncertainty apart). *)
Definition tells (see : string -> option Qc) (l : list (Qc * Qc)) : Prop :=
  match l with
  | [] => forall d, In d the_fields -> see d = None
  | _ =>
      see "count"%string = Some (qz (zlen l)) /\
      see "observation_weightedsum"%string = Some (weighted_sum l) /\
      see "precision_sum"%string = Some (weights l) /\
      (Forall (fun ou => small (fst ou)) l ->
         (exists m, see "observation_min"%string = Some m /\ is_min m (map fst l)) /\
         (exists m, see "observation_max"%string = Some m /\ is_max m (map fst l))) /\
      (Forall (fun ou => small (snd ou)) l -> exists m, see "uncertainty_max"%string = Some m /\ is_max m (map snd l))
  end.

(* a name of no underscore, such as Tmean *)
Definition plain (s : string) : Prop := ~ In "_"%char (list_ascii_of_string s).

(* ---- inputs of a run *)

(* What the files of an input hold: coordinates of the locations and the observations (location, measurement, uncertainty).
   How files hold them is the subject of C27-C29. *)
Definition contents (fs : string -> option (list byte)) (num : Z -> Qc) (day : Z) (d : diag_input)
                    (table : list (Qc * Qc)) (recs : list (Z * (Qc * Qc))) : Prop :=
  exists locfile l rangefile ranges name obsfile o,
    fs (di_locations d) = Some locfile /\ read_lookup locfile = Ok l /\
    fs (di_ranges d) = Some rangefile /\ read_ranges rangefile = Ok ranges /\
    di_observations d = Some name /\ fs name = Some obsfile /\ read_day (List.length ranges) obsfile (lk_uuid l) day = Ok o /\
    table = map (fun ll => (num (fst ll), num (snd ll))) (lk_table l) /\
    recs = map (fun r => let '(loc, m, u, _) := r in (loc, (num m, num u))) (records o).

(* the global grid of quarter degrees, from 90 south and from 180 west, rows numbered from the south *)
Definition quarter_axis (from : Qc) (count : Z) : field_axis :=
  {| fa_zeroth := (from - (1 / qz 2) * (1 / qz 4))%Qc; fa_step := (1 / qz 4)%Qc; fa_count := count; fa_circular := true |}.
Definition LAT : field_axis := quarter_axis (- qz 90)%Qc 720.
Definition LON : field_axis := quarter_axis (- qz 180)%Qc 1440.

(* place gives to each location in use the number of its cell *)
Definition places (table : list (Qc * Qc)) (recs : list (Z * (Qc * Qc))) (place : Z -> Z) : Prop :=
  forall r ll, In r recs -> nth_error table (Z.to_nat (fst r)) = Some ll -> in_grid_cell LAT LON (place (fst r)) ll.

Definition acceptable (fs : string -> option (list byte)) (num : Z -> Qc) (day : Z) (d : diag_input) : Prop :=
  exists table recs, contents fs num day d table recs /\ recs <> [] /\
    Forall (fun ll => exists c, in_grid_cell LAT LON c ll) table /\
    Forall (fun r => (Z.to_nat (fst r) < List.length table)%nat /\ snd (snd r) <> 0%Qc) recs.

Definition same_pair (d e : diag_input) : Prop := di_source d = di_source e /\ di_observable d = di_observable e.

Definition weighted_mean (l : list (Qc * Qc)) : option Qc :=
  match l with [] => None | _ => if Qc_eq_bool (weights l) 0%Qc then None else Some (weighted_sum l / weights l)%Qc end.

(* the observations of the list in cell c *)
Definition in_cell_list (place : Z -> Z) (recs : list (Z * (Qc * Qc))) (c : Z) : list (Qc * Qc) :=
  map snd (filter (fun r => place (fst r) =? c) recs).

(* ---- counts *)

(* the file of the observable on the day: absent, or holding so many observations *)
Definition day_count (fs : string -> option (list byte)) (base src obs : string) (num_ranges : nat) (day : Z) (x : option Z) : Prop :=
  exists path, py_filename_observations base src obs day = Ok path /\
  match x with
  | None => fs path = None
  | Some n => exists data, fs path = Some data /\ forall uuid, exists o, read_day num_ranges data uuid day = Ok o /\ n = zlen (records o)
  end.
