(* What the properties of the lattice mean, stated apart from the code. *)
From Coq Require Import QArith Qcanon.
From Verif Require Import Base Grid_Model Lin Spde_Model Lat_Model.
Local Open Scope nat_scope.

(* index tuples of nodes *)
Definition is_node (ds : list dimension) (is : list nat) : Prop := Forall2 (fun d i => i < d_n d) ds is.
(* a dimension as the code expects it: increasing, with at least two nodes *)
Definition proper (d : dimension) : Prop := (d_lo d < d_hi d)%Qc /\ 2 <= d_n d.
(* a basis function is zero as soon as the displacement in one dimension reaches its span *)
Definition compact (basis : list Qc -> Qc) (spans : list Qc) : Prop :=
  forall ds, Exists (fun p => (snd p <= fst p)%Qc \/ (fst p <= - snd p)%Qc) (combine ds spans) -> basis ds = 0%Qc.
(* period of a dimension that wraps *)
Definition period (d : dimension) : Qc := (d_hi d - d_lo d)%Qc.
(* the location lies between node [i] of a dimension and the next one, a fraction [f] of the way; a dimension that wraps continues with
   node 0 after the last one, and locations a whole number of periods apart are the same *)
Definition in_cell (d : dimension) (x : Qc) (i : nat) (f : Qc) : Prop :=
  (0 <= f)%Qc /\ (f <= 1)%Qc /\
  if d_wrap d then i < d_n d /\ exists k : Z, x = (coordinate d i + f * spacing d + qz k * period d)%Qc
  else S i < d_n d /\ x = (coordinate d i + f * spacing d)%Qc.
Definition next (d : dimension) (i : nat) : nat := if d_wrap d then if S i =? d_n d then 0 else S i else S i.
(* interpolation of the values [v] at the corners of a cell, linear in every dimension *)
Fixpoint multilinear (ds : list dimension) (cell : list (nat * Qc)) (v : list nat -> Qc) : Qc :=
  match ds, cell with
  | d :: ds, (i, f) :: cell =>
      ((1 - f) * multilinear ds cell (fun is => v (i :: is)) + f * multilinear ds cell (fun is => v (next d i :: is)))%Qc
  | _, _ => v []
  end.
Fixpoint in_cells (ds : list dimension) (x : list Qc) (cell : list (nat * Qc)) : Prop :=
  match ds, x, cell with
  | [], [], [] => True
  | d :: ds, a :: x, (i, f) :: cell => in_cell d a i f /\ in_cells ds x cell
  | _, _, _ => False
  end.
(* evenly spaced coordinates *)
Definition regular (start step : Qc) (n : nat) : list Qc := map (fun i => start + qn i * step)%Qc (seq 0 n).
(* the number of an index tuple: each index counts the product of the sizes of the dimensions before it *)
Fixpoint number (stride : nat) (ns is : list nat) : nat :=
  match ns, is with n :: ns, i :: is => i * stride + number (stride * n) ns is | _, _ => 0 end.
(* strictly within the span in every dimension *)
Fixpoint within (spans ds : list Qc) : Prop :=
  match spans, ds with s :: spans, d :: ds => (- s < d)%Qc /\ (d < s)%Qc /\ within spans ds | _, _ => True end.
(* column after [j] on a circle of longitudes *)
Definition east (cols j : nat) : nat := if S j =? cols then 0 else S j.
