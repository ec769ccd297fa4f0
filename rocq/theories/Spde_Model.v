(* Model of the precision matrices of the random fields (src/eustace/analysis/advanced_standard/stats/spde): on a mesh of triangles
   (spherical.py) and on a regular lattice (lattice.py), their derivatives, and the priors of the space-time elements.
   Simplifications: numbers are any ring, so that the same code can be taken over the rationals and over the reals; division, logarithm,
   gamma function and square root enter as given numbers; square sparse matrices are functions of row and column, of one size [n];
   powers alpha are natural numbers. *)
From Verif Require Import Base.
Local Open Scope nat_scope.
Local Open Scope list_scope.

Record numbers := { num :> Type; n0 : num; n1 : num; nadd : num -> num -> num; nmul : num -> num -> num; nopp : num -> num }.
Arguments n0 {_}. Arguments n1 {_}. Arguments nadd {_}. Arguments nmul {_}. Arguments nopp {_}.

Section Precision.
Variable N : numbers.
Infix "+!" := (@nadd N) (at level 50, left associativity).
Infix "*!" := (@nmul N) (at level 40, left associativity).

Fixpoint nsum (n : nat) (f : nat -> N) : N := match n with O => n0 | S k => nsum k f +! f k end.
Definition nlist (l : list N) : N := fold_right nadd n0 l.
Fixpoint of_nat (n : nat) : N := match n with O => n0 | S k => of_nat k +! n1 end.
Definition mat := nat -> nat -> N.

(* products and sums of n x n matrices, diagonal matrices (scipy.sparse.diags), scalar multiples *)
Definition mmul (n : nat) (A B : mat) : mat := fun i j => nsum n (fun k => A i k *! B k j).
Definition madd (A B : mat) : mat := fun i j => A i j +! B i j.
Definition mdiag (v : nat -> N) : mat := fun i j => if i =? j then v i else n0.
Definition mscale (c : N) (A : mat) : mat := fun i j => c *! A i j.
Definition mtrans (A : mat) : mat := fun i j => A j i.

(* len(range(a, b, 2)) *)
Definition range2 (a b : nat) : nat := (b - a + 1) / 2.

(* spherical.py:382-411 build_Q_native; [C] is the diagonal of C_tilde and [iC] that of its inverse *)
Definition step (n : nat) (K iC Q : mat) : mat := mmul n (mmul n (mmul n (mmul n K iC) Q) iC) K.
Fixpoint repeat_step (count n : nat) (K iC Q : mat) : mat :=
  match count with O => Q | S c => repeat_step c n K iC (step n K iC Q) end.
Definition K_matrix (n : nat) (C G kappa : mat) : mat := madd (mmul n (mmul n kappa C) kappa) G.
Definition build_Q_native (n : nat) (C iC G kappa tau : mat) (alpha : nat) : mat :=
  let K := K_matrix n C G kappa in
  let Q := if alpha mod 2 =? 0 then repeat_step (range2 4 alpha) n K iC (mmul n (mmul n K iC) K)
           else repeat_step (range2 3 alpha) n K iC K in
  mmul n (mmul n tau Q) tau.

(* 413-456 build_dQdp_native *)
Definition dstep (n : nat) (K iC dK Q dQ : mat) : mat :=
  madd (madd (mmul n (mmul n (mmul n (mmul n dK iC) Q) iC) K) (mmul n (mmul n (mmul n (mmul n K iC) dQ) iC) K))
       (mmul n (mmul n (mmul n (mmul n K iC) Q) iC) dK).
Fixpoint repeat_dstep (count n : nat) (K iC dK Q dQ : mat) : mat * mat :=
  match count with O => (Q, dQ) | S c => repeat_dstep c n K iC dK (step n K iC Q) (dstep n K iC dK Q dQ) end.
Definition build_dQdp_native (n : nat) (C iC G kappa tau : mat) (alpha : nat) (dkappa dtau : mat) : mat :=
  let K := K_matrix n C G kappa in
  let dK := madd (mmul n (mmul n dkappa C) kappa) (mmul n (mmul n kappa C) dkappa) in
  let '(Q, dQ) := if alpha mod 2 =? 0
                  then repeat_dstep (range2 4 alpha) n K iC dK (mmul n (mmul n K iC) K) (madd (mmul n (mmul n dK iC) K) (mmul n (mmul n K iC) dK))
                  else repeat_dstep (range2 3 alpha) n K iC dK K dK in
  madd (madd (mmul n (mmul n dtau Q) tau) (mmul n (mmul n tau dQ) tau)) (mmul n (mmul n tau Q) dtau).

(* 227-299 build_Q and 301-378 build_dQdp.  [ex] is the exponential function; [b0_kappa] and [b0_tau] are the constants computed from
   alpha with logarithm and gamma function; a design has a value for each node and each of the [p] parameters.
   nu = alpha - 1 on the sphere (dimension 2). *)
Variable ex : N -> N.
Definition dot (p : nat) (A : mat) (theta : nat -> N) (i : nat) : N := nsum p (fun j => A i j *! theta j).
Definition kappa_design (rho : mat) : mat := fun i j => nopp (rho i j).
Definition tau_design (nu : N) (sigma rho : mat) : mat := fun i j => nopp (sigma i j) +! nopp (nu *! kappa_design rho i j).
Definition kappa_vector (p : nat) (b0_kappa : N) (rho : mat) (theta : nat -> N) (i : nat) : N :=
  ex (b0_kappa +! dot p (kappa_design rho) theta i).
Definition tau_vector (p : nat) (b0_tau nu : N) (sigma rho : mat) (theta : nat -> N) (i : nat) : N :=
  ex (b0_tau +! dot p (tau_design nu sigma rho) theta i).
Definition unit_vector (parameter_index : nat) (j : nat) : N := if j =? parameter_index then n1 else n0.

Definition build_Q (n p : nat) (C iC G : mat) (b0_kappa b0_tau : nat -> N) (alpha : nat) (sigma rho : mat) (theta : nat -> N) : result mat :=
  if 2 * alpha <=? 2 then Err ValueError else
  let nu := of_nat (alpha - 1) in
  Ok (build_Q_native n C iC G (mdiag (kappa_vector p (b0_kappa alpha) rho theta))
                     (mdiag (tau_vector p (b0_tau alpha) nu sigma rho theta)) alpha).
Definition build_dQdp (n p : nat) (C iC G : mat) (b0_kappa b0_tau : nat -> N) (alpha : nat) (sigma rho : mat) (theta : nat -> N)
    (parameter_index : nat) : result mat :=
  if 2 * alpha <=? 2 then Err ValueError else
  if p <=? parameter_index then Err IndexError else
  let nu := of_nat (alpha - 1) in
  let kappa := kappa_vector p (b0_kappa alpha) rho theta in
  let tau := tau_vector p (b0_tau alpha) nu sigma rho theta in
  let dkappa i := dot p (kappa_design rho) (unit_vector parameter_index) i *! kappa i in
  let dtau i := dot p (tau_design nu sigma rho) (unit_vector parameter_index) i *! tau i in
  Ok (build_dQdp_native n C iC G (mdiag kappa) (mdiag tau) alpha (mdiag dkappa) (mdiag dtau)).

(* 147-165 sigma_design_matrix_stationary, rho_design_matrix_stationary; lattice.py:365-379 likewise *)
Definition sigma_stationary : mat := fun _ j => if j =? 0 then n1 else n0.
Definition rho_stationary : mat := fun _ j => if j =? 1 then n1 else n0.
(* 183-204 sigma_design_matrix_expanded, rho_design_matrix_expanded: the designs of the expanded parameters: a value of each for every node *)
Definition sigma_expanded (n : nat) : mat := fun i j => if (j <? n) && (i =? j) then n1 else n0.
Definition rho_expanded (n : nat) : mat := fun i j => if (n <=? j) && (i =? j - n) then n1 else n0.

(* 167-181 build_Q_stationary and build_dQdp_stationary: parameters log sigma and log rho; lattice.py:381-389 likewise *)
Definition two (a b : N) (k : nat) : N := match k with 0 => a | 1 => b | _ => n0 end.
Definition build_Q_stationary (n : nat) (C iC G : mat) (b0_kappa b0_tau : nat -> N) (alpha : nat) (log_sigma log_rho : N) : result mat :=
  build_Q n 2 C iC G b0_kappa b0_tau alpha sigma_stationary rho_stationary (two log_sigma log_rho).
Definition build_dQdp_stationary (n : nat) (C iC G : mat) (b0_kappa b0_tau : nat -> N) (alpha : nat) (log_sigma log_rho : N) (parameter_index : nat) : result mat :=
  build_dQdp n 2 C iC G b0_kappa b0_tau alpha sigma_stationary rho_stationary (two log_sigma log_rho) parameter_index.

(* 206-225 build_Q_expanded: a parameter vector with log sigma at every node, then log rho at every node *)
Definition both (n : nat) (log_sigma log_rho : nat -> N) (k : nat) : N := if k <? n then log_sigma k else log_rho (k - n).
Definition build_Q_expanded (n : nat) (C iC G : mat) (b0_kappa b0_tau : nat -> N) (alpha : nat) (log_sigma log_rho : nat -> N) : result mat :=
  build_Q n (n + n) C iC G b0_kappa b0_tau alpha (sigma_expanded n) (rho_expanded n) (both n log_sigma log_rho).

(* ---- matrices of the mesh *)
(* A triangle of the mesh: its vertices and what triangle_area (81-107) gives for it. *)
Record tri := { t_vertex : nat -> nat; t_area : N }.
Variable inv : N -> N.
Definition pt := nat -> N. (* coordinates 0, 1, 2 *)
Definition psub (a b : pt) : pt := fun k => a k +! nopp (b k).
Definition pdot (a b : pt) : N := a 0 *! b 0 +! a 1 *! b 1 +! a 2 *! b 2.
(* 109-145 triangle_edges: edge a is opposite vertex a *)
Definition edge (points : nat -> pt) (t : tri) (a : nat) : pt :=
  let v k := points (t_vertex t k) in
  match a with 0 => psub (v 2) (v 1) | 1 => psub (v 0) (v 2) | _ => psub (v 1) (v 0) end.
(* coo_matrix: entries at the same place are added *)
Definition coo (entries : list (nat * nat * N)) : mat :=
  fun i j => nlist (map (fun e => if (fst (fst e) =? i) && (snd (fst e) =? j) then snd e else n0) entries).
(* 458-474 build_Q_C_tilde *)
Definition C_tilde (ts : list tri) : mat :=
  coo (flat_map (fun t => map (fun a => (t_vertex t a, t_vertex t a, t_area t *! inv (of_nat 3))) (seq 0 3)) ts).
(* 476-504 build_Q_G *)
Definition G_matrix (points : nat -> pt) (ts : list tri) : mat :=
  coo (flat_map (fun t => flat_map (fun a => map (fun b =>
         (t_vertex t a, t_vertex t b, inv (of_nat 4 *! t_area t) *! pdot (edge points t a) (edge points t b))) (seq 0 3)) (seq 0 3)) ts).

(* ---- lattice *)
(* numpy.ravel_multi_index with the default order (last index fastest) and with order F (first index fastest) *)
Fixpoint ravel_C_from (acc : nat) (ns is : list nat) : nat :=
  match ns, is with n :: ns, i :: is => ravel_C_from (acc * n + i) ns is | _, _ => acc end.
Definition ravel_C (ns is : list nat) : nat := ravel_C_from 0 ns is.
Fixpoint ravel_F (ns is : list nat) : nat :=
  match ns, is with n :: ns, i :: is => i + n * ravel_F ns is | _, _ => 0 end.
(* numpy.mgrid[slices].T.reshape(-1, n_dims): all index tuples, first index fastest *)
Fixpoint grid (slices : list (list nat)) : list (list nat) :=
  match slices with
  | [] => [[]]
  | s :: slices => flat_map (fun r => map (fun i => i :: r) s) (grid slices)
  end.
Definition set_nth {A} (l : list A) (k : nat) (x : A) : list A := firstn k l ++ match skipn k l with [] => [] | _ :: r => x :: r end.
(* lattice.py:596-618: the pairs of linked nodes in dimension d.  Indices -1 are taken modulo the number of nodes. *)
Definition slices_i (ns : list nat) (wrap : option (list bool)) (d : nat) : list (list nat) :=
  let n := nth d ns 0 in
  set_nth (map (seq 0) ns) d
    (match wrap with
     | Some w => if nth d w false then (match n with 0 => [] | S m => m :: seq 0 m end) else seq 0 (n - 1)
     | None => seq 0 (n - 1)
     end).
Definition slices_j (ns : list nat) (wrap : option (list bool)) (d : nat) : list (list nat) :=
  let n := nth d ns 0 in
  set_nth (map (seq 0) ns) d
    (match wrap with
     | Some w => if nth d w false then seq 0 n else seq 1 (n - 1)
     | None => seq 1 (n - 1)
     end).
Definition links (ns : list nat) (wrap : option (list bool)) (d : nat) : list (nat * nat) :=
  combine (map (ravel_C ns) (grid (slices_i ns wrap d))) (map (ravel_C ns) (grid (slices_j ns wrap d))).
(* Q_neighbour[inds_i, inds_j] = v *)
Definition assign (A : mat) (pairs : list (nat * nat)) (v : N) : mat :=
  fun i j => if existsb (fun p => (fst p =? i) && (snd p =? j)) pairs then v else A i j.
Definition swap (p : nat * nat) : nat * nat := (snd p, fst p).
Fixpoint neighbours (ns : list nat) (wrap : option (list bool)) (scales : list N) (ds : list nat) (A : mat) : mat :=
  match ds with
  | [] => A
  | d :: ds => let l := links ns wrap d in let v := nopp (nth d scales n0) in
               neighbours ns wrap scales ds (assign (assign A l v) (map swap l) v)
  end.
Definition n_nodes (ns : list nat) : nat := fold_right Nat.mul 1 ns.
Definition identity : mat := mdiag (fun _ => n1).
(* 590-626; [scales] are H / node_spacing**2 *)
Definition lattice_K (ns : list nat) (wrap : option (list bool)) (scales : list N) (kappa : mat) : mat :=
  let n := n_nodes ns in
  madd (madd (mmul n (mmul n kappa identity) kappa) (mscale (nlist (map (fun s => s +! s) scales)) identity))
       (neighbours ns wrap scales (seq 0 (length ns)) (fun _ _ => n0)).
(* 551-645 build_Q_native; [volume] is the product of the node spacings *)
Definition lattice_Q (ns : list nat) (wrap : option (list bool)) (scales : list N) (volume : N) (kappa tau : mat) (alpha : nat) : result mat :=
  let n := n_nodes ns in
  let K := lattice_K ns wrap scales kappa in
  if 2 <? alpha then Err ModuleError (* NotImplementedError *) else
  let Q := if alpha =? 2 then mmul n (mtrans K) K else K in
  Ok (mscale volume (mmul n (mmul n tau Q) tau)).
(* 647-703 build_dQdp_native: the dimensions are not wrapped; alpha below 1 leaves dQdp without a value *)
Definition lattice_dQ (ns : list nat) (wrap : option (list bool)) (scales : list N) (volume : N) (kappa tau : mat) (alpha : nat) (dkappa dtau : mat) : result mat :=
  let n := n_nodes ns in
  let K := lattice_K ns None scales kappa in
  let dK := madd (mmul n (mmul n dkappa identity) kappa) (mmul n (mmul n kappa identity) dkappa) in
  match alpha with
  | 0 => Err NameError
  | 1 => Ok (mscale volume (madd (madd (mmul n (mmul n dtau K) tau) (mmul n (mmul n tau dK) tau)) (mmul n (mmul n tau K) dtau)))
  | 2 => Ok (mscale volume (madd (madd (madd (mmul n (mmul n (mmul n dtau K) K) tau) (mmul n (mmul n (mmul n tau dK) K) tau))
                                  (mmul n (mmul n (mmul n tau K) dK) tau)) (mmul n (mmul n (mmul n tau K) K) dtau)))
  | _ => Err ModuleError (* NotImplementedError *)
  end.
(* 391-470 build_Q and 472-549 build_dQdp: [nu] = alpha - dimensions / 2.  build_Q does not test alpha. *)
Definition lattice_build_Q (ns : list nat) (wrap : option (list bool)) (scales : list N) (volume : N) (p : nat)
    (b0_kappa b0_tau nu : nat -> N) (alpha : nat) (sigma rho : mat) (theta : nat -> N) : result mat :=
  lattice_Q ns wrap scales volume (mdiag (kappa_vector p (b0_kappa alpha) rho theta)) (mdiag (tau_vector p (b0_tau alpha) (nu alpha) sigma rho theta)) alpha.
Definition lattice_build_dQdp (ns : list nat) (wrap : option (list bool)) (scales : list N) (volume : N) (p : nat)
    (b0_kappa b0_tau nu : nat -> N) (alpha : nat) (sigma rho : mat) (theta : nat -> N) (parameter_index : nat) : result mat :=
  if 2 * alpha <=? length ns then Err ValueError else
  if p <=? parameter_index then Err IndexError else
  let kappa := kappa_vector p (b0_kappa alpha) rho theta in
  let tau := tau_vector p (b0_tau alpha) (nu alpha) sigma rho theta in
  lattice_dQ ns wrap scales volume (mdiag kappa) (mdiag tau) alpha
    (mdiag (fun i => kappa_design rho i parameter_index *! kappa i)) (mdiag (fun i => tau_design (nu alpha) sigma rho i parameter_index *! tau i)).

Definition lattice_Q_stationary (ns : list nat) (wrap : option (list bool)) (scales : list N) (volume : N)
    (b0_kappa b0_tau nu : nat -> N) (alpha : nat) (log_sigma log_rho : N) : result mat :=
  lattice_build_Q ns wrap scales volume 2 b0_kappa b0_tau nu alpha sigma_stationary rho_stationary (two log_sigma log_rho).
Definition lattice_dQdp_stationary (ns : list nat) (wrap : option (list bool)) (scales : list N) (volume : N)
    (b0_kappa b0_tau nu : nat -> N) (alpha : nat) (log_sigma log_rho : N) (parameter_index : nat) : result mat :=
  lattice_build_dQdp ns wrap scales volume 2 b0_kappa b0_tau nu alpha sigma_stationary rho_stationary (two log_sigma log_rho) parameter_index.

(* ---- priors of the space-time elements *)
(* scipy.sparse.kron of a matrix and one with [m] rows and columns *)
Definition mkron (m : nat) (A B : mat) : mat := fun i j => A (i / m) (j / m) *! B (i mod m) (j mod m).
(* scipy.sparse.block_diag of two square matrices, the first with [m] rows *)
Definition mblock (m : nat) (A B : mat) : mat :=
  fun i j => if i <? m then (if j <? m then A i j else n0) else (if j <? m then n0 else B (i - m) (j - m)).
(* kronecker.py:52-81 SpaceTimeKroneckerPrior, with [Qs], [dQs] the spatial model's build_Q_stationary and build_dQdp_stationary
   (functions of log sigma and log rho) and [Qt], [dQt] the temporal model's (functions of log rho; scale parameter fixed) *)
Definition kronecker_precision (m : nat) (Qs : N -> N -> mat) (Qt : N -> mat) (theta : nat -> N) : mat :=
  mkron m (Qt (theta 2)) (Qs (theta 0) (theta 1)).
Definition kronecker_derivative (m : nat) (Qs : N -> N -> mat) (dQs : nat -> N -> N -> mat) (Qt dQt : N -> mat) (theta : nat -> N) (index : nat) : mat :=
  if index <? 2 then mkron m (Qt (theta 2)) (dQs index (theta 0) (theta 1))
  else mkron m (dQt (theta 2)) (Qs (theta 0) (theta 1)).
(* factor.py:73-98 SpaceTimeFactorPrior *)
Definition zero_matrix : mat := fun _ _ => n0.
Definition factor_precision (m : nat) (Qs : N -> N -> mat) (Qt : N -> mat) (theta : nat -> N) : mat :=
  mblock m (Qs (theta 0) (theta 1)) (Qt (theta 2)).
Definition factor_derivative (m : nat) (Qs : N -> N -> mat) (dQs : nat -> N -> N -> mat) (Qt dQt : N -> mat) (theta : nat -> N) (index : nat) : mat :=
  if index <? 2 then mblock m (dQs index (theta 0) (theta 1)) zero_matrix
  else mblock m zero_matrix (dQt (theta 2)).
End Precision.
