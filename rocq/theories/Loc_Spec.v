(* What the properties of the location of points mean, stated apart from the code. *)
From Coq Require Import Reals.
From Verif Require Import Base Mesh_Model Loc_Model.
Local Open Scope R_scope.

(* weighted sum of three points *)
Definition combination (x : R * R * R) (p : vec * vec * vec) : vec :=
  let '(x0, x1, x2) := x in let '(p0, p1, p2) := p in
  {| cx := x0 * cx p0 + x1 * cx p1 + x2 * cx p2; cy := x0 * cy p0 + x1 * cy p1 + x2 * cy p2; cz := x0 * cz p0 + x1 * cz p1 + x2 * cz p2 |}.
Definition nonnegative (x : R * R * R) : Prop := let '(x0, x1, x2) := x in 0 <= x0 /\ 0 <= x1 /\ 0 <= x2.
Definition total (x : R * R * R) : R := let '(x0, x1, x2) := x in x0 + x1 + x2.
(* three points that are not in one plane with the origin *)
Definition det (p : vec * vec * vec) : R :=
  let '(p0, p1, p2) := p in
  cx p0 * (cy p1 * cz p2 - cz p1 * cy p2) + cy p0 * (cz p1 * cx p2 - cx p1 * cz p2) + cz p0 * (cx p1 * cy p2 - cy p1 * cx p2).
(* the point [v], seen from the origin, lies in the triangle: some positive multiple of it is a mean of the corners with weights [x] *)
Definition weights (p : vec * vec * vec) (v : vec) (x : R * R * R) : Prop :=
  nonnegative x /\ total x = 1 /\ exists k, 0 < k /\ combination x p = vscale k v.
Definition inside (p : vec * vec * vec) (v : vec) : Prop := exists x, weights p v x.
(* the four parts of a triangle, not projected onto the sphere *)
Definition half_way (a b : vec) : vec := {| cx := (cx a + cx b) / 2; cy := (cy a + cy b) / 2; cz := (cz a + cz b) / 2 |}.
