(* Model of the location of points on the icosahedral mesh: src/eustace/analysis/mesh/geometry.py, locator.py, locator_search_planes.pyx, the
   coordinates of mesh.py, and the design matrix of src/eustace/analysis/advanced_standard/stats/spde/spherical.py.
   Simplifications: coordinates are real numbers instead of doubles; one point at a time instead of arrays with one row per point. *)
From Coq Require Import NArith Reals.
From Verif Require Import Base Mesh_Model.
Local Open Scope R_scope.
Local Open Scope list_scope.

Record vec := { cx : R; cy : R; cz : R }.
Definition vadd (a b : vec) : vec := {| cx := cx a + cx b; cy := cy a + cy b; cz := cz a + cz b |}.
Definition vsub (a b : vec) : vec := {| cx := cx a - cx b; cy := cy a - cy b; cz := cz a - cz b |}.
(* geometry.py:31-34 scalerows *)
Definition vscale (s : R) (a : vec) : vec := {| cx := s * cx a; cy := s * cy a; cz := s * cz a |}.
(* 36-39 dividerows *)
Definition vdivide (a : vec) (s : R) : vec := {| cx := cx a / s; cy := cy a / s; cz := cz a / s |}.
(* numpy.cross, numpy.sum(a * b), numpy.linalg.norm *)
Definition cross (a b : vec) : vec := {| cx := cy a * cz b - cz a * cy b; cy := cz a * cx b - cx a * cz b; cz := cx a * cy b - cy a * cx b |}.
Definition dot (a b : vec) : R := cx a * cx b + cy a * cy b + cz a * cz b.
Definition norm (a : vec) : R := sqrt (dot a a).
Definition normalise (a : vec) : vec := vdivide a (norm a).

(* 48-60 triangle_area_euclidean *)
Definition area (p0 p1 p2 : vec) : R := /2 * norm (cross (vsub p1 p0) (vsub p2 p0)).
(* 82-102 barycentric_coordinates_planar *)
Definition barycentric (p : vec * vec * vec) (v : vec) : R * R * R :=
  let '(p0, p1, p2) := p in
  let n := cross (vsub p1 p0) (vsub p2 p0) in
  let k := dot p0 n / dot v n in
  let vp := vscale k v in
  let a0 := area p1 p2 vp in let a1 := area p2 p0 vp in let a2 := area p0 p1 vp in
  let s := a0 + a1 + a2 in (a0 / s, a1 / s, a2 / s).

(* locator.py:121-169 triangle_barycentre_subdivision_number *)
Definition subdivision_number (x : R * R * R) : nat :=
  let '(x0, x1, x2) := x in
  if Rle_dec 0 (x0 - x1 - x2) then 0%nat else if Rle_dec 0 (x1 - x2 - x0) then 1%nat else if Rle_dec 0 (x2 - x0 - x1) then 2%nat else 3%nat.
Definition middle (a b : vec) : vec := vscale (/2) (vadd a b).
(* 172-205 triangle_points_to_subtriangle *)
Definition subtriangle (p : vec * vec * vec) (s : nat) : vec * vec * vec :=
  let '(p0, p1, p2) := p in
  let '(q0, q1, q2) := match s with
    | 0%nat => (p0, middle p0 p1, middle p2 p0)
    | 1%nat => (middle p0 p1, p1, middle p1 p2)
    | 2%nat => (middle p2 p0, middle p1 p2, p2)
    | 3%nat => (middle p1 p2, middle p2 p0, middle p0 p1)
    | _ => (p0, p1, p2)
    end in
  (normalise q0, normalise q1, normalise q2).
(* 208-257 triangle_barycentre_subdivide *)
Definition barycentre_subdivide (x : R * R * R) (s : nat) : R * R * R :=
  let '(x0, x1, x2) := x in
  match s with
  | 0%nat => (x0 - x1 - x2, x1 * 2, x2 * 2)
  | 1%nat => (x0 * 2, x1 - x2 - x0, x2 * 2)
  | 2%nat => (x0 * 2, x1 * 2, x2 - x0 - x1)
  | 3%nat => (- x0 + x1 + x2, x0 - x1 + x2, x0 + x1 - x2)
  | _ => (0, 0, 0)
  end.

(* 13-30 outward normals of the planes that bound a triangle; locator_search_planes.pyx:27-39 the test for one triangle *)
Definition within (p : vec * vec * vec) (v : vec) : bool :=
  let '(p0, p1, p2) := p in
  let test a b := if Rle_dec (dot v (normalise (cross a b))) 0 then true else false in
  test p0 p1 && test p1 p2 && test p2 p0.
(* the first triangle that contains the point; numpy index -1 if there is none *)
Fixpoint first_index {A} (f : A -> bool) (l : list A) : option nat :=
  match l with [] => None | x :: l => if f x then Some 0%nat else option_map S (first_index f l) end.
Definition nowhere : vec := {| cx := 0; cy := 0; cz := 0 |}.
Definition triangle_corners (m : mesh vec) (t : triangle) : vec * vec * vec :=
  (nth (t_0 t) (points m) nowhere, nth (t_1 t) (points m) nowhere, nth (t_2 t) (points m) nowhere).
Definition locate_exhaustive (m : mesh vec) (v : vec) : option nat := first_index (fun t => within (triangle_corners m t) v) (triangles m).

(* locator.py:84-118 locate_vector_hierarchical: [descend] is the loop from level [i] on *)
Fixpoint descend (v : vec) (todo i : nat) (p : vec * vec * vec) (number : N) : (vec * vec * vec) * N :=
  match todo with
  | O => (p, number)
  | S todo =>
      let s := subdivision_number (barycentric p v) in
      descend v todo (S i) (subtriangle p s) (N.lor number (N.shiftl (N.of_nat s) (base_hash_shift - 2 * N.of_nat i)))
  end.
Definition locate (top : mesh vec) (levels : nat) (v : vec) : option (N * (R * R * R)) :=
  match locate_exhaustive top v with
  | None => None
  | Some i =>
      let p := triangle_corners top (nth i (triangles top) {| t_id := 0; t_0 := 0; t_1 := 0; t_2 := 0 |}) in
      let '(q, number) := descend v levels 1 p (N.shiftl (N.of_nat i) base_hash_shift) in
      Some (number, barycentric q v)
  end.

(* mesh.py:37-54 golden_ratio_basis *)
Definition golden : R := (1 + sqrt 5) * /2.
Definition basis_a : R := golden / sqrt (1 + golden * golden).
Definition basis_b : R := 1 / sqrt (1 + golden * golden).
(* 84-96 *)
Definition base_points : list vec :=
  let p x y z := {| cx := x; cy := y; cz := z |} in let a := basis_a in let b := basis_b in
  [ p a b 0; p (- a) b 0; p (- a) (- b) 0; p a (- b) 0;
    p b 0 a; p b 0 (- a); p (- b) 0 (- a); p (- b) 0 a;
    p 0 a b; p 0 (- a) b; p 0 (- a) (- b); p 0 a (- b) ].
(* 239-243 mid-points, projected onto the sphere *)
Definition mid_sphere (a b : vec) : vec := normalise (vscale (/2) (vadd a b)).
Definition sphere_mesh (sort : forall A, (A -> N) -> list A -> list A) (level : nat) : mesh vec := build mid_sphere nowhere sort base_points level.

(* geometry.py:142-149 polar2d_to_cartesian, angles in degrees *)
Definition radians (d : R) : R := d * PI / 180.
Definition polar_to_cartesian (latitude longitude : R) : vec :=
  {| cx := cos (radians longitude) * cos (radians latitude); cy := sin (radians longitude) * cos (radians latitude); cz := sin (radians latitude) |}.

(* assignment to elements of a row of a matrix, later ones win *)
Definition assign (row : nat -> R) (jw : nat * R) : nat -> R := fun j => if Nat.eqb j (fst jw) then snd jw else row j.
(* spherical.py:56-79 build_A: the row for one location *)
Definition build_A_row (sort : forall A, (A -> N) -> list A -> list A) (level : nat) (latitude longitude : R) : option (nat -> R) :=
  match locate (sphere_mesh sort 0) level (polar_to_cartesian latitude longitude) with
  | None => None
  | Some (triangle_id, (w0, w1, w2)) =>
      let index := N.to_nat (N.shiftr triangle_id (base_hash_shift - 2 * N.of_nat level)) in
      let t := nth index (triangles (sphere_mesh sort level)) {| t_id := 0; t_0 := 0; t_1 := 0; t_2 := 0 |} in
      Some (fold_left assign [(t_0 t, w0); (t_1 t, w1); (t_2 t, w2)] (fun _ => 0))
  end.
