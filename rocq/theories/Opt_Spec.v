(* What a user expects of linear systems and of the optimisation of parameters. *)
From Coq Require Import Reals.
Set Warnings "-notation-overridden,-ambiguous-paths".
From mathcomp Require Import all_ssreflect all_algebra perm.
From Verif Require Import RMat Opt_Model.
Import GRing.Theory.

Set Implicit Arguments.
Unset Strict Implicit.
Unset Printing Implicit Defensive.
Local Open Scope ring_scope.

(* What a factorisation library promises.  Columns are stored in order of rows, below and on the diagonal, and the
   diagonal is stored and positive; the product of the factor and its transpose is the matrix with its rows and
   columns permuted. *)
Definition factor_of n (A : 'M[R]_n) (f : factor n) : Prop :=
  [/\ size (f_columns f) = n,
      forall j, (j < n)%N ->
        [/\ sorted ltn [seq e.1 | e <- nth [::] (f_columns f) j],
            all (fun e => (j <= e.1 < n)%N) (nth [::] (f_columns f) j)
          & j \in [seq e.1 | e <- nth [::] (f_columns f) j]],
      forall i, (0 < L f i i)%coqR
    & L f *m (L f)^T = permutation_matrix f *m A *m (permutation_matrix f)^T].

Definition library n (cholesky : 'M[R]_n -> result (factor n)) : Prop :=
  forall A, A^T = A -> match cholesky A with Base.Ok f => factor_of A f | Base.Err _ => ~ posdef A end.

(* No element of the factor that elimination fills in is zero by chance. *)
Definition no_cancellation n (f : factor n) : Prop :=
  forall i j k : 'I_n, (i < j)%N -> (j < k)%N -> L f j i != 0 -> L f k i != 0 -> L f k j != 0.

(* A matrix is zero wherever the factor and its transpose are, in the permuted order. *)
Definition within_factor n (f : factor n) (M : 'M[R]_n) : Prop :=
  forall a b : 'I_n, M (f_P f a) (f_P f b) != 0 -> L f a b + L f b a != 0.

(* minus the logarithm of the density at y of a normal distribution *)
Definition minus_log_density p (mean : 'cV[R]_p) (covariance : 'M[R]_p) (y : 'cV[R]_p) : R :=
  (/ 2)%coqR * p%:R * ln (2 * PI)%coqR + (/ 2)%coqR * ln (\det covariance)
  + (/ 2)%coqR * ((y - mean)^T *m invmx covariance *m (y - mean)) 0 0.

(* parameters with the k-th replaced *)
Definition with_parameter (theta : seq R) (k : nat) (t : R) : seq R := set_nth 0 theta k t.

(* each dQ theta k is the derivative of Q at theta in the k-th parameter *)
Definition derivative_of n (Q : seq R -> 'M[R]_n) (dQ : seq R -> nat -> 'M[R]_n) (theta : seq R) : Prop :=
  forall k, (k < size theta)%N -> forall i j,
    derivable_pt_lim (fun t => Q (with_parameter theta k t) i j) (nth 0 theta k) (dQ theta k i j).

(* a matrix is zero wherever another is *)
Definition covers n (A M : 'M[R]_n) : Prop := forall i j, M i j != 0 -> A i j != 0.

(* observations y = A.x + noise, with the precision of the noise *)
Record source (n : nat) : Type := Source
  { s_count : nat; s_design : 'M[R]_(s_count, n); s_precision : 'M[R]_s_count; s_values : 'cV[R]_s_count }.
Definition good n (s : source n) : Prop := posdef (s_precision s).
(* what the code keeps of them *)
Definition measure n (s : source n) : measurement n :=
  create_from_system_observations (s_design s) (s_precision s) (s_values s).
(* minus the logarithm of the probability of the observations, for a prior with the given mean and precision *)
Definition source_minus_log_density n (Q : 'M[R]_n) (mean : 'cV[R]_n) (s : source n) : R :=
  minus_log_density (s_design s *m mean) (invmx (s_precision s) + s_design s *m invmx Q *m (s_design s)^T) (s_values s).
(* the sum of squares that the best estimate makes least *)
Definition misfit n (Q : 'M[R]_n) (sources : seq (source n)) (x : 'cV[R]_n) : R :=
  quad x Q + \sum_(s <- sources) quad (s_values s - s_design s *m x) (s_precision s).

(* one step of time: a set point, a prior mean and observations *)
Definition replicate_of n (t : 'cV[R]_n * 'cV[R]_n * source n) : replicate n :=
  let: (set_point, mean, s) := t in
  Replicate set_point mean (information_vector (measure s)) (information_precision (measure s)).

(* a search that asks only about d parameters *)
Fixpoint asks (d : nat) (s : search) : Prop :=
  match s with
  | AskValue p next => size p = d /\ forall v, asks d (next v)
  | AskDerivative p next => size p = d /\ forall v, asks d (next v)
  | Done _ _ => True
  end.
(* where it ends when the answers are those of a function and its gradient *)
Fixpoint ends (c : seq R -> R) (g : seq R -> seq R) (s : search) : bool * seq R :=
  match s with
  | AskValue p next => ends c g (next (c p))
  | AskDerivative p next => ends c g (next (g p))
  | Done success x => (success, x)
  end.
