(* Model of the lattice of nodes and its design matrix (src/eustace/analysis/advanced_standard/stats/spde/lattice.py) and of the
   interpolation of geographical covariates built on it (elements/geography_based.py).
   Simplifications: coordinates are exact rationals; one location at a time (the rows of the design matrix are independent); the square
   root in the Wendland and default basis functions is avoided by taking the basis as a function of the displacements. *)
From Coq Require Import QArith Qcanon Qround.
From Verif Require Import Base Grid_Model Lin Spde_Model.
Local Open Scope nat_scope.
Local Open Scope list_scope.

Definition qfloor (q : Qc) : Z := Qfloor (this q).
Definition qn (n : nat) : Qc := qz (Z.of_nat n).
(* Python's a % b of numbers, with the sign of b *)
Definition qmod (a b : Qc) : Qc := (a - b * qz (qfloor (a / b)))%Qc.

(* One entry of dimension_specification with its entry of wrap_dimensions (False if wrap_dimensions is None). *)
Record dimension := { d_lo : Qc; d_hi : Qc; d_n : nat; d_wrap : bool }.
Definition wrap_one (d : dimension) : Qc := if d_wrap d then 1%Qc else 0%Qc.

(* lattice.py:129-140 node_spacing and node_bounds *)
Definition spacing (d : dimension) : Qc := ((d_hi d - d_lo d) / (qn (d_n d) + wrap_one d - 1))%Qc.
Definition upper_node (d : dimension) : Qc := (d_hi d - wrap_one d * spacing d)%Qc.
(* 143-150 numpy.linspace, meshgrid and reshape: all nodes, the first index fastest *)
Definition coordinate (d : dimension) (i : nat) : Qc := (d_lo d + qn i * ((upper_node d - d_lo d) / (qn (d_n d) - 1)))%Qc.
Fixpoint coordinates (ds : list dimension) (is : list nat) : list Qc :=
  match ds, is with d :: ds, i :: is => coordinate d i :: coordinates ds is | _, _ => [] end.
Definition indices (ds : list dimension) : list (list nat) := grid (map (fun d => seq 0 (d_n d)) ds).
Definition nodes (ds : list dimension) : list (list Qc) := map (coordinates ds) (indices ds).
Definition sizes (ds : list dimension) : list nat := map d_n ds.

(* 171-173 *)
Definition nearest (d : dimension) (x : Qc) : Z := qfloor ((x - (d_lo d - spacing d / qz 2)) / spacing d)%Qc.
(* 176-177 *)
Definition search_range (d : dimension) (span : Qc) : Z := qfloor (span / spacing d + / qz 2)%Qc.
(* 180-196: shifted indices, wrapped in circular dimensions *)
Definition shifts (d : dimension) (span x : Qc) : list Z :=
  map (fun s => let i := (nearest d x + s)%Z in if d_wrap d then (i mod Z.of_nat (d_n d))%Z else i)
      (zrange (- search_range d span) (search_range d span + 1)).
(* all combinations, the last dimension fastest (mgrid and reshape in C order) *)
Fixpoint cube (ls : list (list Z)) : list (list Z) :=
  match ls with [] => [[]] | l :: ls => flat_map (fun i => map (cons i) (cube ls)) l end.
(* 200-205: a negative index is dropped, and one with index / (n - 1) not <= 1; for n = 1 that is 0/0 or more, never <= 1 *)
Definition in_bounds (ds : list dimension) (is : list Z) : bool :=
  forallb (fun p => (0 <=? snd p)%Z && (2 <=? d_n (fst p)) && (snd p <=? Z.of_nat (d_n (fst p)) - 1)%Z) (combine ds is).
Fixpoint shift_lists (ds : list dimension) (spans x : list Qc) : list (list Z) :=
  match ds, spans, x with d :: ds, s :: spans, a :: x => shifts d s a :: shift_lists ds spans x | _, _, _ => [] end.
Definition nearby (ds : list dimension) (spans x : list Qc) : list nat :=
  map (fun is => ravel_F (sizes ds) (map Z.to_nat is)) (filter (in_bounds ds) (cube (shift_lists ds spans x))).

(* 246-266 displacement in one dimension, and in all *)
Definition displacement (d : dimension) (x node : Qc) : Qc :=
  let r := (x - node)%Qc in
  if d_wrap d then
    let span := (qn (d_n d) * spacing d)%Qc in
    let r := qmod r span in
    if Qclt_le_dec (span / qz 2) r then qmod r (- span) else r
  else r.
Fixpoint displacements (ds : list dimension) (x node : list Qc) : list Qc :=
  match ds, x, node with d :: ds, a :: x, b :: node => displacement d a b :: displacements ds x node | _, _, _ => [] end.
(* 213-281 build_A, the row of one location: entries are assigned, so that a later one replaces an earlier one *)
Definition entry (assigned : list (nat * Qc)) (k : nat) : Qc :=
  fold_left (fun v p => if fst p =? k then snd p else v) assigned 0%Qc.
Definition build_A_row (basis : list Qc -> Qc) (ds : list dimension) (spans x : list Qc) (k : nat) : Qc :=
  entry (map (fun j => (j, basis (displacements ds x (nth j (nodes ds) [])))) (nearby ds spans x)) k.

(* 75-83 PiecewiseLinearBasis.evaluate *)
Definition qabs (q : Qc) : Qc := if Qclt_le_dec q 0 then (- q)%Qc else q.
Definition clip (q : Qc) : Qc := if Qclt_le_dec 1 q then 1%Qc else q.
Fixpoint piecewise_linear (spans ds : list Qc) : Qc :=
  match spans, ds with s :: spans, d :: ds => ((1 - clip (qabs (d / s))) * piecewise_linear spans ds)%Qc | _, _ => 1%Qc end.

(* ---- geography_based.py:32-90 bilinear_interpolation.  The coordinate arrays are outer products, as the altitude files have them:
   latitude[i, j] = lats[i] and longitude[i, j] = lons[j].  round(..., 2) is modelled as rounding half up, of non-negative numbers. *)
Definition qmin (l : list Qc) : Qc := match l with [] => 0%Qc | a :: l => fold_left (fun m x => if Qclt_le_dec x m then x else m) l a end.
Definition qmax (l : list Qc) : Qc := match l with [] => 0%Qc | a :: l => fold_left (fun m x => if Qclt_le_dec m x then x else m) l a end.
Definition round2 (q : Qc) : Qc := (qz (qfloor (q * qz 100 + / qz 2)) / qz 100)%Qc.
(* 62-63 *)
Definition array_spacing (l : list Qc) : Qc := round2 ((qmax l - qmin l) / (qn (length l) - 1))%Qc.
Definition mean (l : list Qc) : Qc := (sumQ l / qn (length l))%Qc.
(* 69-77: one more column on each side (periodic), then one more row above and below (the mean of the extended first and last row) *)
Definition extend_columns (rows cols : nat) (c : nat -> nat -> Qc) (i j : nat) : Qc :=
  if j =? 0 then c i (cols - 1) else if j =? cols + 1 then c i 0 else c i (j - 1).
Definition extend_rows (rows cols : nat) (c : nat -> nat -> Qc) (i j : nat) : Qc :=
  if i =? 0 then mean (map (c 0) (seq 0 cols)) else if i =? rows + 1 then mean (map (c (rows - 1)) (seq 0 cols)) else c (i - 1) j.
Definition extended (rows cols : nat) (c : nat -> nat -> Qc) : nat -> nat -> Qc :=
  extend_rows rows (cols + 2) (extend_columns rows cols c).
(* 79 *)
Definition geo_dimension (s : Qc) (l : list Qc) : dimension := {| d_lo := (qmin l - s)%Qc; d_hi := (qmax l + s)%Qc; d_n := length l + 2; d_wrap := false |}.
(* covariate.ravel(order='F') *)
Definition ravelled (rows : nat) (c : nat -> nat -> Qc) (k : nat) : Qc := c (k mod rows) (k / rows).
Definition bilinear (lats lons : list Qc) (c : nat -> nat -> Qc) (lat lon : Qc) : result Qc :=
  let rows := length lats in let cols := length lons in
  let s := array_spacing lats in
  if Qc_eq_dec s (array_spacing lons) then
    let A := build_A_row (piecewise_linear [s; s]) [geo_dimension s lats; geo_dimension s lons] [s; s] [lat; lon] in
    Ok (sumn ((rows + 2) * (cols + 2)) (fun k => A k * ravelled (rows + 2) (extended rows cols c) k)%Qc)
  else Err ValueError.
