(* What the properties of the random field precision matrices mean, stated apart from the code. *)
From Coq Require Import Ring_theory Reals QArith Qcanon.
From Verif Require Import Base Spde_Model.
Local Open Scope nat_scope.

(* The operations are those of a commutative ring. *)
Definition is_ring (N : numbers) : Prop := ring_theory (@n0 N) n1 nadd nmul (fun a b => nadd a (nopp b)) nopp eq.

(* [D f t d]: function f has derivative d at t.  What is used of it: constants, sums and products. *)
Record derivative (N : numbers) (D : (N -> N) -> N -> N -> Prop) : Prop := {
  d_same : forall f g t d, (forall s, f s = g s) -> D f t d -> D g t d;
  d_const : forall c t, D (fun _ => c) t n0;
  d_id : forall t, D (fun s => s) t n1;
  d_add : forall f g t a b, D f t a -> D g t b -> D (fun s => nadd (f s) (g s)) t (nadd a b);
  d_mul : forall f g t a b, D f t a -> D g t b -> D (fun s => nmul (f s) (g s)) t (nadd (nmul a (g t)) (nmul (f t) b)) }.
(* ... and that the exponential of a linear function has the slope times itself as derivative *)
Definition exponential (N : numbers) (D : (N -> N) -> N -> N -> Prop) (ex : N -> N) : Prop :=
  forall a b t, D (fun s => ex (nadd a (nmul b s))) t (nmul b (ex (nadd a (nmul b t)))).

Definition reals : numbers := {| num := R; n0 := 0%R; n1 := 1%R; nadd := Rplus; nmul := Rmult; nopp := Ropp |}.
Definition rationals : numbers := {| num := Qc; n0 := 0%Qc; n1 := 1%Qc; nadd := Qcplus; nmul := Qcmult; nopp := Qcopp |}.

(* The vector of parameters with one of them changed. *)
Definition changed {N : numbers} (theta : nat -> N) (j : nat) (s : N) : nat -> N := fun k => if k =? j then s else theta k.

(* [dA] holds the derivative of every entry of the n x n matrix A at t. *)
Definition entrywise {N : numbers} (D : (N -> N) -> N -> N -> Prop) (n : nat) (A : N -> mat N) (t : N) (dA : mat N) : Prop :=
  forall i j, i < n -> j < n -> D (fun s => A s i j) t (dA i j).

(* Lindgren, Rue and Lindstrom's recursion: Q_1 = K, Q_2 = K C^-1 K, Q_a = K C^-1 Q_(a-2) C^-1 K *)
Fixpoint recursion {N : numbers} (n : nat) (K iC : mat N) (alpha : nat) : mat N :=
  match alpha with
  | 0 => K (* not used *)
  | 1 => K
  | 2 => mmul N n (mmul N n K iC) K
  | S (S a) => mmul N n (mmul N n (mmul N n (mmul N n K iC) (recursion n K iC a)) iC) K
  end.

Definition symmetric {N : numbers} (n : nat) (A : mat N) : Prop := forall i j, i < n -> j < n -> A i j = A j i.
Definition apply {N : numbers} (n : nat) (A : mat N) (x : nat -> N) : nat -> N := fun i => nsum N n (fun k => nmul (A i k) (x k)).
Definition form {N : numbers} (n : nat) (A : mat N) (x : nat -> N) : N := nsum N n (fun i => nmul (x i) (apply n A x i)).
(* The numbers that are not negative, in an ordered ring without zero divisors. *)
Record ordered (N : numbers) (nonneg : N -> Prop) : Prop := {
  o_zero : nonneg n0;
  o_add : forall a b, nonneg a -> nonneg b -> nonneg (nadd a b);
  o_mul : forall a b, nonneg a -> nonneg b -> nonneg (nmul a b);
  o_square : forall a, nonneg (nmul a a);
  o_anti : forall a b, nonneg a -> nonneg b -> nadd a b = n0 -> a = n0;
  o_integral : forall a b, nmul a b = @n0 N -> a = n0 \/ b = n0;
  o_trivial : @n1 N <> n0 }.
Definition positive {N : numbers} (nonneg : N -> Prop) (a : N) : Prop := nonneg a /\ a <> n0.
(* positive semi-definite and positive definite matrices *)
Definition psd {N : numbers} (nonneg : N -> Prop) (n : nat) (A : mat N) : Prop := forall x, nonneg (form n A x).
Definition pd {N : numbers} (nonneg : N -> Prop) (n : nat) (A : mat N) : Prop :=
  psd nonneg n A /\ forall x, form n A x = n0 -> forall i, i < n -> x i = n0.
(* diagonal, with positive numbers on the diagonal *)
Definition positive_diagonal {N : numbers} (nonneg : N -> Prop) (n : nat) (A : mat N) : Prop :=
  forall i j, i < n -> j < n -> if i =? j then positive nonneg (A i j) else A i j = n0.

(* Index tuples of a lattice *)
Definition valid (ns is : list nat) : Prop := Forall2 (fun n i => i < n) ns is.
(* the node after i in a dimension with n nodes *)
Definition after (n : nat) (wrapped : bool) (i k : nat) : Prop :=
  (S i = k /\ k < n) \/ (wrapped = true /\ S i = n /\ k = 0).
Definition wrapped_in (wrap : option (list bool)) (d : nat) : bool :=
  match wrap with Some w => nth d w false | None => false end.
(* neighbours in dimension d: equal elsewhere, one node apart in d *)
Definition adjacent (ns : list nat) (wrap : option (list bool)) (d : nat) (x y : list nat) : Prop :=
  length x = length y /\ d < length x /\ (forall e, e <> d -> nth e x 0 = nth e y 0) /\
  (after (nth d ns 0) (wrapped_in wrap d) (nth d x 0) (nth d y 0) \/ after (nth d ns 0) (wrapped_in wrap d) (nth d y 0) (nth d x 0)).

(* Triangles use nodes below n; twice each edge vector field: sum over the corners of a triangle of value times opposite edge. *)
Definition nodes_below {N : numbers} (n : nat) (ts : list (tri N)) : Prop := Forall (fun t => forall a, a < 3 -> t_vertex N t a < n) ts.
Definition corner_sum {N : numbers} (points : nat -> pt N) (t : tri N) (x : nat -> N) : pt N :=
  let v a := points (t_vertex N t a) in let y a := x (t_vertex N t a) in
  fun k => nadd (nadd (nmul (y 0) (nadd (v 2 k) (nopp (v 1 k)))) (nmul (y 1) (nadd (v 0 k) (nopp (v 2 k)))))
                (nmul (y 2) (nadd (v 1 k) (nopp (v 0 k)))).
Definition norm2 {N : numbers} (u : pt N) : N := nadd (nadd (nmul (u 0) (u 0)) (nmul (u 1) (u 1))) (nmul (u 2) (u 2)).
