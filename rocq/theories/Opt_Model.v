(* Model of the linear systems and of the optimisation of parameters:
   src/eustace/analysis/advanced_standard/linalg/linearsystem.py, costfunction.py, sparse.py, qinv.pyx,
   pardisowrapper.py, extendedcholmodwrapper.py, optimize.py and components/spatialdelayed.py.
   Matrices and vectors hold real numbers; rounding is not modelled.  The files are in linalg/ unless said otherwise. *)
From Coq Require Import Reals.
Set Warnings "-notation-overridden,-ambiguous-paths".
From mathcomp Require Import all_ssreflect all_algebra perm.
From Verif Require Base.
From Verif Require Import RMat.
Import GRing.Theory.

Set Implicit Arguments.
Unset Strict Implicit.
Unset Printing Implicit Defensive.
Local Open Scope ring_scope.

Notation result := Base.result.
Notation Ok := Base.Ok.
Notation Err := Base.Err.
Notation "'let!' x ':=' r 'in' f" := (Base.bind r (fun x => f)) (at level 200, x pattern, r at level 100, f at level 200).

Fixpoint foldR (A B : Type) (f : B -> A -> result B) (s : B) (l : seq A) : result B :=
  match l with [::] => Ok s | a :: l' => let! s' := f s a in foldR f s' l' end.

Section Size.
Variable n : nat.
Notation vector := 'cV[R]_n.
Notation matrix := 'M[R]_n.

(* ---------- factors ---------- *)
(* A sparse matrix by columns (csc): the stored elements of each column as pairs of row and value.  Elements
   that are not stored are zero; an element that is stored may be zero. *)
Notation column := (seq (nat * R)).
Definition entry (c : column) (i : nat) : R := \sum_(e <- c | e.1 == i) e.2.
Definition dense (columns : seq column) : matrix := \matrix_(i, j) entry (nth [::] columns j) i.

(* The object made by sksparse.cholmod.cholesky and by PardisoWrapper.cholesky: a permutation and a lower
   triangular matrix.  The libraries themselves are not modelled: what they promise is factor_of in Opt_Spec. *)
Record factor : Type := Factor { f_P : 'S_n; f_columns : seq column }.
Definition permutation_matrix (f : factor) : matrix := perm_mx (f_P f).
Definition L (f : factor) : matrix := dense (f_columns f).

(* factor.solve_A (extendedcholmodwrapper.py 33-37) and PardisoWrapper.solve_A (pardisowrapper.py 212-247):
   A.x = b for A = P^T.L.L^T.P *)
Definition solve_A m (f : factor) (b : 'M[R]_(n, m)) : 'M[R]_(n, m) :=
  (permutation_matrix f)^T *m (invmx (L f)^T *m (invmx (L f) *m (permutation_matrix f *m b))).
(* pardisowrapper.py 323-350, phase 331: L.x = P.b *)
Definition solve_forward_substitution m (f : factor) (b : 'M[R]_(n, m)) : 'M[R]_(n, m) :=
  invmx (L f) *m (permutation_matrix f *m b).
(* pardisowrapper.py 295-321, phase 333: L^T.P.x = b *)
Definition solve_backward_substitution m (f : factor) (b : 'M[R]_(n, m)) : 'M[R]_(n, m) :=
  (permutation_matrix f)^T *m (invmx (L f)^T *m b).
(* extendedcholmodwrapper.py 39-44: L^T.P.x = P.b *)
Definition cholmod_backward_substitution m (f : factor) (b : 'M[R]_(n, m)) : 'M[R]_(n, m) :=
  (permutation_matrix f)^T *m (invmx (L f)^T *m (permutation_matrix f *m b)).
(* factor.logdet: twice the sum of the logarithms of the diagonal of L *)
Definition logdet (f : factor) : R := (1 + 1) * \sum_i ln (L f i i).

(* ---------- qinv.pyx ---------- *)
(* 56-58: rows of the elements of column j of Sigma_tilde = Lp + Lp.T.  The sum of sparse matrices stores
   only results that are not zero. *)
Definition rows_of_S (f : factor) (j : nat) : seq nat :=
  [seq i <- iota 0 n | entry (nth [::] (f_columns f) j) i + entry (nth [::] (f_columns f) i) j != 0].
(* 60 *)
Definition zeros_of_S (f : factor) : seq column := [seq [seq (i, 0) | i <- rows_of_S f j] | j <- iota 0 n].

Fixpoint drop_above (k : nat) (c : column) : column :=
  match c with [::] => [::] | e :: c' => if (k < e.1)%N then drop_above k c' else c end.

(* 86-103: l is column i of L and s is column j of S, both from the last element to the first.  The result is
   the element of L where the loop ends, what is left of s, and the value.
   Simplification: if s runs out the code goes on with the elements of the column before it; here that is an
   error, and C130_partial_inverse shows that it does not happen. *)
Fixpoint walk (i : nat) (l s : column) (value : R) : result (R * column * R) :=
  match l with
  | [::] => Err Base.IndexError
  | (k, x) :: l' =>
      if (k <= i)%N then Ok (x, s, value)
      else match drop_above k s with
           | [::] => Err Base.IndexError
           | (k', y) :: s' => if k == k' then walk i l' s' (value - x * y) else walk i l' ((k', y) :: s') value
           end
  end.

Definition put (r : nat) (v : R) (c : column) : column := [seq (e.1, if e.1 == r then v else e.2) | e <- c].

(* 76-121: one element (i, j) *)
Definition step (f : factor) (i : nat) (sigma : seq column) (j : nat) : result (seq column) :=
  let! (x, s, value) := walk i (rev (nth [::] (f_columns f) i)) (rev (nth [::] sigma j)) 0 in
  let value := if i == j then (value + 1 / x) / x else value / x in
  let sigma := set_nth [::] sigma i (put j value (nth [::] sigma i)) in
  match drop_above i s with
  | [::] => Err Base.IndexError
  | (r, _) :: _ => Ok (set_nth [::] sigma j (put r value (nth [::] sigma j)))
  end.

(* 74-121 *)
Definition recursion (f : factor) : result (seq column) :=
  foldR (fun sigma i => foldR (step f i) sigma [seq j <- rev (rows_of_S f i) | (i <= j)%N]) (zeros_of_S f) (rev (iota 0 n)).

(* 10-125 *)
Definition Q_inv (f : factor) : result matrix :=
  let! sigma := recursion f in
  Ok ((permutation_matrix f)^T *m dense sigma *m permutation_matrix f).

(* ---------- sparse.py ---------- *)
(* 6-36, with the partial inverse given, as costfunction.py gives it *)
Definition trace_iQ_dQdp (iQp dQdp : matrix) : R := \sum_i (iQp *m dQdp) i i.

(* ---------- costfunction.py ---------- *)
(* sksparse.cholmod.cholesky(A); it raises CholmodNotPositiveDefiniteError (here: ModuleError) *)
Variable cholesky : matrix -> result factor.

(* 119-128 *)
Definition gaussian_loglikelihood (mean_departure : vector) (precision : matrix) (precision_solver : factor) : R :=
  - (/ 2)%coqR * n%:R * ln (2 * PI)%coqR + (/ 2)%coqR * logdet precision_solver
  - (/ 2)%coqR * (mean_departure^T *m (precision *m mean_departure)) 0 0.

(* 131-139 *)
Definition gaussian_loglikelihood_derivative (mean_departure : vector) (precision : matrix)
    (mean_departure_derivative : vector) (precision_derivative : matrix) (iQp : matrix) : R :=
  (/ 2)%coqR * trace_iQ_dQdp iQp precision_derivative
  - (/ 2)%coqR * (mean_departure^T *m (precision_derivative *m mean_departure)) 0 0
  - (mean_departure_derivative^T *m (precision *m mean_departure)) 0 0.

(* Q_function and dQ_function of the constructor (35-39), with the further arguments Qargs already given *)
Variable Q_function : seq R -> matrix.
Variable dQ_function : seq R -> nat -> matrix.

(* 41-66: the value for one set point, given the solver for the prior precision *)
Definition cost_term (prior_precision : matrix) (prior_precision_solver : factor)
    (set_point prior_mean i_increment : vector) (Q_increment : matrix) : result R :=
  let posterior_precision := prior_precision + Q_increment in
  let! posterior_precision_solver := cholesky posterior_precision in
  let prior_i := prior_precision *m prior_mean in
  let posterior_mean := solve_A posterior_precision_solver (prior_i + i_increment) in
  let prior_term := gaussian_loglikelihood (prior_mean - set_point) prior_precision prior_precision_solver in
  let posterior_term := gaussian_loglikelihood (posterior_mean - set_point) posterior_precision posterior_precision_solver in
  Ok (- 0 - prior_term + posterior_term).

(* 41-66 *)
Definition cost_function (set_point : vector) (parameters : seq R) (prior_mean i_increment : vector)
    (Q_increment : matrix) : result R :=
  let prior_precision := Q_function parameters in
  let! prior_precision_solver := cholesky prior_precision in
  cost_term prior_precision prior_precision_solver set_point prior_mean i_increment Q_increment.

(* 75-115: the derivatives for one set point, given the solver and the partial inverse for the prior precision *)
Definition derivative_terms (parameters : seq R) (prior_precision : matrix) (prior_Q_pinv : matrix)
    (set_point prior_mean i_increment : vector) (Q_increment : matrix) : result (seq R) :=
  let posterior_precision := prior_precision + Q_increment in
  let! posterior_precision_solver := cholesky posterior_precision in
  let prior_i := prior_precision *m prior_mean in
  let posterior_mean := solve_A posterior_precision_solver (prior_i + i_increment) in
  let! posterior_Q_pinv := Q_inv posterior_precision_solver in
  Ok [seq let prior_precision_derivative := dQ_function parameters k in
          let posterior_mean_derivative :=
            - solve_A posterior_precision_solver (prior_precision_derivative *m (posterior_mean - prior_mean)) in
          let prior_term := gaussian_loglikelihood_derivative (prior_mean - set_point) prior_precision 0
                              prior_precision_derivative prior_Q_pinv in
          let posterior_term := gaussian_loglikelihood_derivative (posterior_mean - set_point) posterior_precision
                                  posterior_mean_derivative prior_precision_derivative posterior_Q_pinv in
          - 0 - prior_term + posterior_term
     | k <- iota 0 (size parameters)].

(* 67-117 *)
Definition cost_derivative (set_point : vector) (parameters : seq R) (prior_mean i_increment : vector)
    (Q_increment : matrix) : result (seq R) :=
  let prior_precision := Q_function parameters in
  let! prior_precision_solver := cholesky prior_precision in
  let! prior_Q_pinv := Q_inv prior_precision_solver in
  derivative_terms parameters prior_precision prior_Q_pinv set_point prior_mean i_increment Q_increment.

(* The n-th elements of set_points, prior_means, i_increments and Q_increments; the lists are built together
   (components/spatialdelayed.py 220-236) and have the same length. *)
Record replicate : Type := Replicate
  { r_set_point : vector; r_prior_mean : vector; r_i_increment : vector; r_Q_increment : matrix }.

(* 160-197.  Without replicates cf_value is the integer 0, which numpy.asscalar does not take. *)
Definition replicates_cost_function (parameters : seq R) (replicates : seq replicate) : result R :=
  let prior_precision := Q_function parameters in
  let! prior_precision_solver := cholesky prior_precision in
  let! cf_value :=
    foldR (fun cf_value r =>
             let! v := cost_term prior_precision prior_precision_solver
                         (r_set_point r) (r_prior_mean r) (r_i_increment r) (r_Q_increment r) in
             Ok (cf_value + v)) 0 replicates in
  match replicates with [::] => Err Base.AttributeError | _ => Ok cf_value end.

(* 199-270 *)
Definition replicates_cost_derivative (parameters : seq R) (replicates : seq replicate) : result (seq R) :=
  let prior_precision := Q_function parameters in
  let! prior_precision_solver := cholesky prior_precision in
  let! prior_Q_pinv := Q_inv prior_precision_solver in
  foldR (fun cf_derivative r =>
           let! v := derivative_terms parameters prior_precision prior_Q_pinv
                       (r_set_point r) (r_prior_mean r) (r_i_increment r) (r_Q_increment r) in
           Ok [seq x.1 + x.2 | x <- zip cf_derivative v])
        (nseq (size parameters) 0) replicates.

(* ---------- linearsystem.py ---------- *)
Record measurement : Type := Measurement { information_precision : matrix; information_vector : vector }.
(* 10-16 *)
Definition create_blank : measurement := Measurement 0 0.
(* 18-28 *)
Definition create_from_system_observations p (design_jacobian : 'M[R]_(p, n)) (observation_precision : 'M[R]_p)
    (relative_observations : 'cV[R]_p) : measurement :=
  let design_obs_precision := design_jacobian^T *m observation_precision in
  Measurement (design_obs_precision *m design_jacobian) (design_obs_precision *m relative_observations).
(* 36-40 *)
Definition append_measurement_update (m new : measurement) : measurement :=
  Measurement (information_precision m + information_precision new) (information_vector m + information_vector new).

(* 88-99 *)
Definition posterior_precision (prior_precision : matrix) (m : measurement) : matrix :=
  prior_precision + information_precision m.
(* 101-104 *)
Definition maximum_a_posteriori (prior_precision : matrix) (m : measurement) : result vector :=
  let! f := cholesky (posterior_precision prior_precision m) in
  Ok (solve_A f (information_vector m)).
(* 75-82, 117-120: the samples made from the given variates *)
Definition random_sample q (prior_precision : matrix) (m : measurement) (variate : 'M[R]_(n, q)) : result 'M[R]_(n, q) :=
  let! f := cholesky (posterior_precision prior_precision m) in
  Ok (solve_backward_substitution f variate).

(* ---------- pardisowrapper.py ---------- *)
(* 258, 276: rows first to first + w of the identity matrix, transposed *)
Definition identity_columns (first w : nat) : 'M[R]_(n, w) := \matrix_(i, c) (if i == (first + c)%N :> nat then 1 else 0).
(* 260-264, 278-286: sums of the squares down each column *)
Definition column_sums (w : nat) (X : 'M[R]_(n, w)) : seq R := [seq \sum_i X i c * X i c | c <- enum 'I_w].
(* 266-291: the loop; None if it has not ended after so many rounds *)
Fixpoint diag_loop (f : factor) (max_blocksize : nat) (fuel counter : nat) (inverse_diagonal : seq R) : option (seq R) :=
  match fuel with
  | O => None
  | fuel'.+1 =>
      if (counter < n)%N then
        let index_1 := counter in
        let index_2 := if (counter + max_blocksize < n)%N then (counter + max_blocksize)%N else n in
        let sub_L_inverse := solve_forward_substitution f (identity_columns index_1 (index_2 - index_1)) in
        diag_loop f max_blocksize fuel' (counter + max_blocksize)%N
          (take index_1 inverse_diagonal ++ column_sums sub_L_inverse ++ drop index_2 inverse_diagonal)
      else Some inverse_diagonal
  end.
(* 249-293: max_blocksize may be None *)
Definition diag_inv_A (f : factor) (max_blocksize : option nat) (fuel : nat) : option (seq R) :=
  match max_blocksize with
  | None => Some (column_sums (solve_forward_substitution f (identity_columns 0 n)))
  | Some b => diag_loop f b fuel 0 (nseq n 0)
  end.
(* linearsystem.py 106-109, with the default block size *)
Definition marginal_std (prior_precision : matrix) (m : measurement) (fuel : nat) : result (option (seq R)) :=
  let! f := cholesky (posterior_precision prior_precision m) in
  Ok (omap (map sqrt) (diag_inv_A f (Some 1000%N) fuel)).

(* ---------- optimize.py 50-70 and components/spatialdelayed.py 217-272 ---------- *)
(* What scipy.optimize.minimize does: it asks for values and derivatives of the cost function, one after another
   and depending on the answers, and ends with success or not and a vector of parameters. *)
Inductive search : Type :=
| AskValue (parameters : seq R) (next : R -> search)
| AskDerivative (parameters : seq R) (next : seq R -> search)
| Done (success : bool) (x : seq R).

(* Every question sets the hyperparameters of the component (components/spatialdelayed.py 242-248); an exception
   ends the search. *)
Fixpoint run_search (replicates : seq replicate) (s : search) (hyperparameters : seq R) : seq R * result (bool * seq R) :=
  match s with
  | AskValue p next =>
      match replicates_cost_function p replicates with
      | Base.Ok v => run_search replicates (next v) p
      | Base.Err e => (p, Err e)
      end
  | AskDerivative p next =>
      match replicates_cost_derivative p replicates with
      | Base.Ok v => run_search replicates (next v) p
      | Base.Err e => (p, Err e)
      end
  | Done success x => (hyperparameters, Ok (success, x))
  end.

(* components/spatialdelayed.py 217-272: hyperparameters afterwards, and whether it returned *)
Definition optimize (minimize : seq R -> search) (replicates : seq replicate) (hyperparameters : seq R)
  : seq R * result unit :=
  let initial_hyperparameters := hyperparameters in
  match run_search replicates (minimize initial_hyperparameters) hyperparameters with
  | (_, Base.Ok (success, x)) => (if success then x else initial_hyperparameters, Ok tt)
  | (h, Base.Err e) => (h, Err e)
  end.
End Size.

Arguments entry _ _ : clear implicits.
