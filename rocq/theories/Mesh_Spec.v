(* What the properties of the mesh mean, stated apart from the code. *)
From Coq Require Import NArith Sorted.
From Verif Require Import Base Mesh_Model.
Local Open Scope nat_scope.

(* any sorting procedure: the same rows, keys ascending *)
Definition sorts (sort : forall A, (A -> N) -> list A -> list A) : Prop :=
  forall A (key : A -> N) l, Permutation l (sort A key l) /\ Sorted (fun x y => (key x <= key y)%N) (sort A key l).
(* the three directed sides of a triangle, clockwise *)
Definition sides (t : triangle) : list half :=
  [ {| h_from := t_0 t; h_to := t_1 t; h_tri := t_id t; h_side := 0 |};
    {| h_from := t_1 t; h_to := t_2 t; h_tri := t_id t; h_side := 1 |};
    {| h_from := t_2 t; h_to := t_0 t; h_tri := t_id t; h_side := 2 |} ].
(* the end points, triangle and side number of an edge, seen from its first and from its second triangle *)
Definition first_view (e : edge) : half := {| h_from := e_from e; h_to := e_to e; h_tri := e_tri0 e; h_side := e_side0 e |}.
Definition second_view (e : edge) : half := {| h_from := e_to e; h_to := e_from e; h_tri := e_tri1 e; h_side := e_side1 e |}.
(* the corner points of a triangle, and those of its four parts: 0, 1, 2 at the corners, 3 in the middle *)
Definition corners {P} (m : mesh P) (nowhere : P) (t : triangle) : P * P * P :=
  (nth (t_0 t) (points m) nowhere, nth (t_1 t) (points m) nowhere, nth (t_2 t) (points m) nowhere).
Definition part {P} (mid : P -> P -> P) (s : nat) (abc : P * P * P) : P * P * P :=
  let '(a, b, c) := abc in
  match s with
  | 0 => (a, mid a b, mid c a)
  | 1 => (mid a b, b, mid b c)
  | 2 => (mid c a, mid b c, c)
  | _ => (mid b c, mid c a, mid a b)
  end.
