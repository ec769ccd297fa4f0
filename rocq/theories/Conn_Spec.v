(* What the properties of the connector, of the input loader and of the check of latent variables say, without reference to
   how they are computed. *)
From Coq Require Import QArith Qcanon String Sorted.
From Verif Require Import Base Grid_Model Obs_Model Obs_Spec Cpp_Model.
Local Open Scope Z_scope.
Local Open Scope list_scope.

(* the positions that are not masked, in order *)
Definition positions_kept (mask : list bool) (ps : list nat) : Prop :=
  StronglySorted lt ps /\ forall i, In i ps <-> nth_error mask i = Some false.
(* longitudes of one meridian *)
Definition same_meridian (a b : Qc) : Prop := exists k : Z, (a = b + qz (360 * k))%Qc.
(* the place of an observation in a table of latitudes and longitudes *)
Definition located {A} (table : list A) (location : Z) (ll : A) : Prop := 0 <= location /\ nth_error table (Z.to_nat location) = Some ll.

(* the group of biases of a source *)
Definition group_of (s : source) : option string :=
  match s with
  | SatLand => Some "surfaceairmodel_land_global"%string
  | SatOcean => Some "surfaceairmodel_ocean_global"%string
  | SatIce => Some "surfaceairmodel_ice_global"%string
  | SatLake => None
  | InsituLand => Some "insitu_land"%string
  | InsituOcean => Some "insitu_ocean"%string
  end.

(* records of a set that are not masked and lie in the day *)
Definition kept_records (o : observations) (day : Z) : list obs_record :=
  map (record_at o) (filter (fun i => unmasked o i && in_day (time_of o i) day) (seq 0 (List.length (o_measurement o)))).
Definition rec_location (r : obs_record) : Z := fst (fst (fst r)).
Definition rec_measurement (r : obs_record) : Z := snd (fst (fst r)).
Definition rec_error (r : obs_record) : Z := snd (fst r).

(* pairs of records of two sets at the same location, in the order of the first *)
Definition partner (b : list obs_record) (x : obs_record) : option obs_record := find (fun y => rec_location y =? rec_location x) b.
Definition pairs (a b : list obs_record) : list (obs_record * obs_record) :=
  flat_map (fun x => match partner b x with Some y => [(x, y)] | None => [] end) a.
(* the locations of one set that the other has too *)
Definition shared (a b : list obs_record) : list Z :=
  filter (fun l => existsb (Z.eqb l) (map rec_location b)) (map rec_location a).

(* coordinates c of the observation r, from a table of words *)
Definition placed (num : Z -> Qc) (table : list (Z * Z)) (location : Z) (c : Qc * Qc) : Prop :=
  exists ll, located table location ll /\ fst c = num (fst ll) /\ same_meridian (snd c) (num (snd ll)).

(* tables of locations and sets that can be written to files *)
Definition lookup_ok (lk : Obs_Model.lookup) : Prop := is_uuid (lk_uuid lk) /\ Forall (fun ll => word (fst ll) /\ word (snd ll)) (lk_table lk).
(* days for which the day of a time is its whole part *)
Definition day_ok (o : observations) (d : Z) : Prop := d >= 1 \/ (d = 0 /\ forall i, (0 <= time_of o i)%Qc).
(* the file of locations of a source for a day *)
Definition locations_file (base : string) (s : source) (d : Z) : string :=
  match staticlocation s with Some name => path_lookup base name | None => path_mobile base s Tmean d end.
(* means of measurements, and of squares of errors *)
Definition half_sum (num : Z -> Qc) (xy : obs_record * obs_record) : Qc := ((num (rec_measurement (fst xy)) + num (rec_measurement (snd xy))) * (1 / qz 2))%Qc.
Definition half_squares (num : Z -> Qc) (xy : obs_record * obs_record) : Qc :=
  ((num (rec_error (fst xy)) * num (rec_error (fst xy)) + num (rec_error (snd xy)) * num (rec_error (snd xy))) * (1 / qz 2))%Qc.
(* what each source observes *)
Definition source_observables (s : source) : option (list observable) :=
  match s with SatIce | SatOcean | InsituOcean => Some [Tmean] | SatLand | InsituLand => Some [Tmin; Tmax] | SatLake => None end.
