(* What the properties of geometry and stored meshes say. *)
From Coq Require Import NArith Reals.
From Verif Require Import Base Mesh_Model Loc_Model Geo_Model.
Local Open Scope R_scope.
Local Open Scope list_scope.

Definition distance (a b : vec) : R := norm (vsub a b).
(* points on the plane through three points *)
Definition on_plane (p0 p1 p2 x : vec) : Prop := exists s t, x = vadd p0 (vadd (vscale s (vsub p1 p0)) (vscale t (vsub p2 p0))).
(* not all on a line *)
Definition a_triangle (p0 p1 p2 : vec) : Prop := cross (vsub p1 p0) (vsub p2 p0) <> nowhere.
(* the point that the corners of a triangle have in the middle *)
Definition centroid (p : vec * vec * vec) : vec := let '(p0, p1, p2) := p in vscale (/3) (vadd p0 (vadd p1 p2)).
Definition longitude_range (d : R) : Prop := -180 < d <= 180.

(* numbers of points fit 31 bits, those of triangles 64 *)
Definition fits_file (m : mesh vec) : Prop :=
  (forall t, In t (triangles m) -> (t_id t < 2 ^ 64)%N /\ (Z.of_nat (t_0 t) < 2 ^ 31)%Z /\ (Z.of_nat (t_1 t) < 2 ^ 31)%Z /\ (Z.of_nat (t_2 t) < 2 ^ 31)%Z) /\
  (forall e, In e (edges m) -> (Z.of_nat (e_from e) < 2 ^ 31)%Z /\ (Z.of_nat (e_to e) < 2 ^ 31)%Z /\
     (e_tri0 e < 2 ^ 64)%N /\ (e_side0 e < 2 ^ 64)%N /\ (e_tri1 e < 2 ^ 64)%N /\ (e_side1 e < 2 ^ 64)%N).
