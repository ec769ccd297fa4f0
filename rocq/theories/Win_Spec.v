(* Specification vocabulary for the spatial checks. *)
From Coq Require Import QArith Qcanon Permutation Sorted.
From Verif Require Import Base Time_Model Grid_Model Flag_Spec Win_Model.
Local Open Scope Z_scope.
Local Open Scope list_scope.

Definition inside {A} (a : array A) (i j : Z) : Prop := 0 <= i < rows a /\ 0 <= j < cols a.
Definition same_shape_as {A B} (a : array A) (b : array B) : Prop := rows a = rows b /\ cols a = cols b.

(* Row [k], counted beyond the poles as well, of a field of [h] rows: rows beyond a pole mirror those before it. *)
Definition mirror (h k : Z) : Z := if k <? 0 then - k else if h <=? k then 2 * (h - 1) - k else k.
(* The values within [r] rows and [s] columns of cell (i, j), going round in longitude. *)
Definition window {A} (a : array A) (r s i j : Z) : list A :=
  flat_map (fun di => map (fun dj => at_ a (mirror (rows a) (i + di)) ((j + dj) mod cols a)) (zrange (- s) (s + 1))) (zrange (- r) (r + 1)).
(* Column j' is within [s] of column j, going round a circle of [w] columns. *)
Definition near_column (w s j j' : Z) : Prop := exists d, - s <= d <= s /\ j' = (j + d) mod w.
(* Some cell within [r] rows and [s] columns has property [P]. *)
Definition nearby {A} (a : array A) (r s i j : Z) (P : Z -> Z -> Prop) : Prop :=
  exists i' j', 0 <= i' < rows a /\ Z.abs (i - i') <= r /\ near_column (cols a) s j j' /\ P i' j'.

(* [x] is the [q]-th percentile of [l]: in the sorted values, the one at position q/100 (n - 1), counted from 0, or between its neighbours in proportion. *)
Definition is_percentile (q : Z) (l : list Qc) (x : Qc) : Prop :=
  exists s k f, Permutation s l /\ StronglySorted Qcle s /\ 0 <= k < zlen l /\ (0 <= f)%Qc /\ (f < 1)%Qc /\ (qz k + f = qz q * (qz (zlen l) - 1) / qz 100)%Qc /\
    nth_error s (Z.to_nat k) <> None /\
    (f = 0%Qc /\ nth_error s (Z.to_nat k) = Some x \/
     exists a b, nth_error s (Z.to_nat k) = Some a /\ nth_error s (S (Z.to_nat k)) = Some b /\ (x = a + f * (b - a))%Qc).

(* ------------------------------------------------------------------ checks *)
Definition global {A} (a : array A) : Prop := rows a = 720 /\ cols a = 1440.
Definition average (l : list Qc) : Qc := (sumQ l / qz (zlen l))%Qc.
(* [v] is below the lower quartile, or above the upper one, by more than [limit] times the distance from the median to that quartile. *)
Definition far_below (limit : Qc) (l : list Qc) (v : Qc) : Prop :=
  exists q1 q2, is_percentile 25 l q1 /\ is_percentile 50 l q2 /\ (v < q1 - limit * (q2 - q1))%Qc.
Definition far_above (limit : Qc) (l : list Qc) (v : Qc) : Prop :=
  exists q2 q3, is_percentile 50 l q2 /\ is_percentile 75 l q3 /\ (q3 + limit * (q3 - q2) < v)%Qc.
(* temperatures reduced to sea level, at 4.5 K per kilometre *)
Definition sea_level (altitude analysis : array Qc) : array Qc :=
  {| rows := rows analysis; cols := cols analysis; at_ := fun i j => (at_ analysis i j + Q2Qc (9 # 2) * (at_ altitude i j / qz 1000))%Qc |}.
(* What the map of coasts says of a cell: the first row is land, the last one sea, and the first and last columns are as their neighbours. *)
Definition sea (coast : array Qc) (i j : Z) : Prop :=
  i = rows coast - 1 \/ (0 < i < rows coast - 1 /\ at_ coast i (if j =? 0 then 1 else if j =? cols coast - 1 then cols coast - 2 else j) = qz 100).
