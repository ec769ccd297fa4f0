(* What the properties of observation files and sets say, without reference to how the files are read or written. *)
From Coq Require Import QArith Qcanon.
From Verif Require Import Base Grid_Model Obs_Model.
Local Open Scope Z_scope.
Local Open Scope list_scope.

Definition word (v : Z) : Prop := 0 <= v < 2 ^ 64.
Definition is_byte (b : Z) : Prop := 0 <= b < 256.
Definition is_uuid (u : list byte) : Prop := length u = 16%nat.

(* one observation: location, measurement, uncorrelated error, correlated errors *)
Definition obs_record := (Z * Z * Z * list Z)%type.
Definition record_at (o : observations) (i : nat) : obs_record :=
  (nth i (o_location o) 0, nth i (o_measurement o) 0, nth i (o_unc o) 0, map (fun c => nth i c 0) (o_cor o)).
Definition records (o : observations) : list obs_record := map (record_at o) (seq 0 (length (o_measurement o))).

(* a set whose arrays agree in length and hold 64-bit words *)
Definition well_formed (o : observations) : Prop :=
  let n := length (o_measurement o) in
  length (o_mask o) = n /\ length (o_location o) = n /\ length (o_unc o) = n /\ Forall (fun c => length c = n) (o_cor o) /\
  match o_time o with TScalar _ => True | TArray ts => length ts = n end /\
  Forall word (o_location o) /\ Forall word (o_measurement o) /\ Forall word (o_unc o) /\ Forall (Forall word) (o_cor o).

Definition unmasked (o : observations) (i : nat) : bool := negb (nth i (o_mask o) true).
(* the moment t lies in the day that begins at day *)
Definition in_day (t : Qc) (day : Z) : bool := Qle_bool (qz day) t && negb (Qle_bool (qz (day + 1)) t).
Definition time_of (o : observations) (i : nat) : Qc := match o_time o with TScalar t => t | TArray ts => nth i ts 0%Qc end.

(* positions in a list holding a value *)
Definition positions (l : Z) (ids : list Z) : list Z := filter (fun i => nth (Z.to_nat i) ids 0 =? l) (zrange 0 (zlen ids)).

(* break points as a list of (time, station, likelihood) *)
Definition break_list (b : breaks) : list (Z * Z * Z) :=
  map (fun i => (nth i (bk_time b) 0, nth i (bk_station b) 0, nth i (bk_likelihood b) 0)) (seq 0 (length (bk_likelihood b))).
Definition breaks_ok (b : breaks) : Prop := length (bk_time b) = length (bk_likelihood b) /\ length (bk_station b) = length (bk_likelihood b).

(* the next break of a station after a time: break files number stations from one *)
Definition next_break (b : breaks) (time station : Z) (i : nat) : Prop :=
  (i < length (bk_station b))%nat /\ nth i (bk_station b) 0 = station + 1 /\ time < nth i (bk_time b) 0 /\
  forall j, (j < length (bk_station b))%nat -> nth j (bk_station b) 0 = station + 1 -> time < nth j (bk_time b) 0 -> nth i (bk_time b) 0 <= nth j (bk_time b) 0.
(* grouped by station, stations ascending, times ascending within a station *)
Definition breaks_ordered (b : breaks) : Prop :=
  length (bk_time b) = length (bk_station b) /\
  forall i j, (i < j < length (bk_station b))%nat ->
    nth i (bk_station b) 0 < nth j (bk_station b) 0 \/ (nth i (bk_station b) 0 = nth j (bk_station b) 0 /\ nth i (bk_time b) 0 < nth j (bk_time b) 0).
Definition ascending (l : list Z) : Prop := forall i j, (i < j < length l)%nat -> nth i l 0 < nth j l 0.

(* observation sets of numbers *)
Definition set_ok (s : obset) : Prop :=
  let n := length (s_measurement s) in
  length (s_mask s) = n /\ length (s_location s) = n /\ length (s_unc s) = n /\ Forall (fun c => length c = n) (s_cor s).
