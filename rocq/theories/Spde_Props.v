(* Properties of the random field precision matrices: C41, C42, C76, C77, C78, C79.
   Theorems over [reals] rest on the axioms of Coq's real numbers; the general ones on none. *)
From Coq Require Import Reals QArith Qcanon Lia Lra.
From Verif Require Import Base Spde_Model Spde_Spec Spde_Proofs.
Local Open Scope nat_scope.
Local Open Scope list_scope.

(* ================= C41: the derivative of the precision *)
(* For any commutative ring of numbers, any notion of derivative that obeys the sum and product rules and any exponential function:
   whenever build_dQdp returns a matrix, build_Q returns a matrix for every value of the parameter, and each entry of the former is the
   derivative of that entry of the latter.  No bound on the power alpha, the mesh, the number of parameters or their design. *)
Theorem C41_derivative : forall (N : numbers) (D : (N -> N) -> N -> N -> Prop) (ex : N -> N),
  is_ring N -> derivative N D -> exponential N D ex ->
  forall n p C iC G b0_kappa b0_tau alpha sigma rho theta j dQ,
  build_dQdp N ex n p C iC G b0_kappa b0_tau alpha sigma rho theta j = Ok dQ ->
  exists Q, (forall s, build_Q N ex n p C iC G b0_kappa b0_tau alpha sigma rho (changed theta j s) = Ok (Q s)) /\
            entrywise D n Q (theta j) dQ.
Proof. intros N D ex RT HD HE. exact (build_dQdp_correct N RT D HD ex HE). Qed.
Print Assumptions C41_derivative.

(* the same for the real numbers, their derivative and their exponential function *)
Theorem C41_derivative_real : forall n p C iC G b0_kappa b0_tau alpha sigma rho (theta : nat -> reals) j dQ,
  build_dQdp reals exp n p C iC G b0_kappa b0_tau alpha sigma rho theta j = Ok dQ ->
  exists Q, (forall s, build_Q reals exp n p C iC G b0_kappa b0_tau alpha sigma rho (changed theta j s) = Ok (Q s)) /\
            forall i k, i < n -> k < n -> derivable_pt_lim (fun s => Q s i k) (theta j) (dQ i k).
Proof. exact (build_dQdp_correct reals reals_ring real_derivative reals_derivative exp reals_exponential). Qed.
Print Assumptions C41_derivative_real.

(* and for kappa and tau that depend on a parameter in any way, for every alpha *)
Theorem C41_native : forall (N : numbers) (D : (N -> N) -> N -> N -> Prop), is_ring N -> derivative N D ->
  forall n C iC G alpha kappa tau t dkappa dtau, entrywise D n kappa t dkappa -> entrywise D n tau t dtau ->
  entrywise D n (fun s => build_Q_native N n C iC G (kappa s) (tau s) alpha) t (build_dQdp_native N n C iC G (kappa t) (tau t) alpha dkappa dtau).
Proof. intros N D RT HD. exact (ew_native N RT D HD). Qed.
Print Assumptions C41_native.

(* A derivative is returned exactly when alpha is at least 2 and the parameter exists; the precision exactly when alpha is at least 2. *)
Theorem C41_defined : forall (N : numbers) ex n p C iC G b0_kappa b0_tau alpha sigma rho (theta : nat -> N) j,
  (is_ok (build_dQdp N ex n p C iC G b0_kappa b0_tau alpha sigma rho theta j) = true <-> 2 <= alpha /\ j < p) /\
  (is_ok (build_Q N ex n p C iC G b0_kappa b0_tau alpha sigma rho theta) = true <-> 2 <= alpha).
Proof.
  intros. unfold build_dQdp, build_Q.
  destruct (Nat.leb_spec (2 * alpha) 2), (Nat.leb_spec p j); cbn; split; split; intros H'; try discriminate; try reflexivity; lia.
Qed.
Print Assumptions C41_defined.

Definition qn (a : Z) : Qc := Q2Qc (inject_Z a).
(* K(t) = 3t^2 + 1 at t = 2 with tau = 1 and alpha = 6: the code gives (3t^2+1)^4, with derivative 24 t (3t^2+1)^3 = 105456 *)
Example C41_nonvacuous :
  let one : mat rationals := fun _ _ => qn 1 in
  is_ok (build_dQdp reals exp 3 2 (fun _ _ => 1%R) (fun _ _ => 1%R) (fun _ _ => 1%R) (fun _ => 0%R) (fun _ => 0%R) 5 (sigma_stationary reals) (rho_stationary reals) (two reals 1%R 2%R) 1) = true
  /\ build_dQdp_native rationals 1 (fun _ _ => qn 3) one one (fun _ _ => qn 2) one 6 (fun _ _ => qn 1) (fun _ _ => qn 0) 0 0 = qn 105456.
Proof. split; [reflexivity|]. apply Qc_is_canon. vm_compute. reflexivity. Qed.

(* ================= C42: the order of the precision *)
Definition precision_order (alpha : nat) : Prop := forall (N : numbers) n C iC G kappa tau i j, is_ring N -> i < n -> j < n ->
  build_Q_native N n C iC G kappa tau alpha i j =
  mmul N n (mmul N n tau (recursion n (K_matrix N n C G kappa) iC alpha)) tau i j.
Theorem C42_order_partial : forall alpha, 1 <= alpha <= 2 -> precision_order alpha.
Proof. intros alpha H N n C iC G kappa tau i j _ _ _. rewrite native_low by exact H. reflexivity. Qed.
Print Assumptions C42_order_partial.
(* what the code computes for larger powers: the matrix of alpha - 2 *)
Theorem C42_actual : forall (N : numbers) n C iC G kappa tau alpha, 3 <= alpha ->
  build_Q_native N n C iC G kappa tau alpha = mmul N n (mmul N n tau (recursion n (K_matrix N n C G kappa) iC (alpha - 2))) tau.
Proof. intros N. exact (native_high N). Qed.
Print Assumptions C42_actual.
(* so the recursion is not followed for any power above 2 *)
Theorem C42_refuted : forall alpha, 3 <= alpha -> ~ precision_order alpha.
Proof.
  intros alpha Ha H. set (o := (fun _ _ => qn 1) : mat rationals).
  (* one node, C = G = tau = kappa = 1, so K = 2 and C^-1 taken as 1 *)
  pose proof (H rationals 1 o o o o o 0 0 rationals_ring ltac:(lia) ltac:(lia)) as E.
  rewrite (native_high rationals 1 o o o o o alpha Ha) in E.
  set (K := K_matrix rationals 1 o o o) in E.
  assert (P : forall A : mat rationals, mmul rationals 1 (mmul rationals 1 o A) o 0 0 = A 0 0).
  { intros A. unfold mmul, o. cbn. change (qn 1) with 1%Qc. ring. }
  rewrite !P in E.
  assert (S1 : forall a, recursion 1 K o (3 + a) 0 0 = Qcmult (qn 4) (recursion 1 K o (1 + a) 0 0)).
  { intros a. change (recursion 1 K o (3 + a)) with (mmul rationals 1 (mmul rationals 1 (mmul rationals 1 (mmul rationals 1 K o) (recursion 1 K o (1 + a))) o) K).
    generalize (recursion 1 K o (1 + a)). intros A. unfold mmul. cbn -[K].
    change (o 0 0) with 1%Qc. replace (K 0 0) with (qn 2) by (apply Qc_is_canon; reflexivity).
    replace (qn 4) with (qn 2 * qn 2)%Qc by (apply Qc_is_canon; reflexivity). ring. }
  assert (NZ : forall a, recursion 1 K o (1 + a) 0 0 <> 0%Qc).
  { assert (B : forall a, recursion 1 K o (1 + a) 0 0 <> 0%Qc /\ recursion 1 K o (2 + a) 0 0 <> 0%Qc).
    { induction a as [|a [I1 I2]]; [split; intros X; apply (f_equal this) in X; discriminate|]. split; [exact I2|].
      change (2 + S a) with (3 + a). rewrite S1. intros X. apply Qcmult_integral in X. destruct X as [X|X]; [apply (f_equal this) in X; discriminate|contradiction]. }
    intros a. apply B. }
  destruct alpha as [|[|[|a]]]; [lia..|]. replace (S (S (S a)) - 2) with (1 + a) in E by lia. change (S (S (S a))) with (3 + a) in E.
  rewrite S1 in E. apply (NZ a).
  assert (Z0 : forall r : Qc, r = (qn 4 * r)%Qc -> ((qn 4 - 1) * r = 0)%Qc).
  { intros r E'. transitivity (qn 4 * r - r)%Qc; [ring|rewrite <- E'; ring]. }
  pose proof (Z0 _ E) as Z.
  apply Qcmult_integral in Z. destruct Z as [Z|Z]; [apply (f_equal this) in Z; discriminate|exact Z].
Qed.
Print Assumptions C42_refuted.
Example C42_nonvacuous : 3 <= 4 /\ 1 <= 2 <= 2. Proof. lia. Qed.

(* ================= C76: matrices of the mesh, and a precision that is symmetric and positive definite *)
Theorem C76_mass : forall (N : numbers) inv, is_ring N -> forall n ts, nodes_below n ts -> nmul (of_nat N 3) (inv (of_nat N 3)) = n1 ->
  nsum N n (fun i => C_tilde N inv ts i i) = nlist N (map (t_area N) ts) /\ forall i j, i <> j -> C_tilde N inv ts i j = n0.
Proof. intros N inv RT n ts H I. split; [apply (C_total N RT inv n ts H I)|intros; apply (C_diagonal N RT); assumption]. Qed.
Print Assumptions C76_mass.
Theorem C76_stiffness_constants : forall (N : numbers) inv, is_ring N -> forall n points ts i, nodes_below n ts -> i < n ->
  nsum N n (fun j => G_matrix N inv points ts i j) = n0.
Proof. intros N inv RT. exact (G_constants N RT inv). Qed.
Print Assumptions C76_stiffness_constants.
Theorem C76_stiffness_energy : forall (N : numbers) inv, is_ring N -> forall n points ts x, nodes_below n ts ->
  form n (G_matrix N inv points ts) x = nlist N (map (fun t => nmul (inv (nmul (of_nat N 4) (t_area N t))) (norm2 (corner_sum points t x))) ts).
Proof. intros N inv RT. exact (G_form N RT inv). Qed.
Print Assumptions C76_stiffness_energy.
Theorem C76_symmetric : forall (N : numbers) inv, is_ring N -> forall n points ts kappa tau iC alpha,
  symmetric n (G_matrix N inv points ts) /\
  symmetric n (build_Q_native N n (C_tilde N inv ts) (mdiag N iC) (G_matrix N inv points ts) (mdiag N kappa) (mdiag N tau) alpha).
Proof.
  intros N inv RT n points ts kappa tau iC alpha.
  assert (SG : symmetric n (G_matrix N inv points ts)) by (intros i j _ _; apply (G_symmetric N RT)).
  split; [exact SG|]. apply (native_symmetric N RT); try apply (sym_diag N); [|exact SG].
  intros i j _ _. destruct (Nat.eq_dec i j) as [->|H]; [reflexivity|]. rewrite !(C_diagonal N RT) by congruence. reflexivity.
Qed.
Print Assumptions C76_symmetric.
(* For a mesh whose triangles have positive area and use all nodes, and positive kappa and tau, the precision is positive definite
   for every power alpha. *)
Theorem C76_positive_definite : forall (N : numbers) inv (nonneg : N -> Prop), is_ring N -> ordered N nonneg ->
  forall n points ts iC kappa tau alpha, nodes_below n ts ->
  (forall i, i < n -> exists t a, In t ts /\ a < 3 /\ t_vertex N t a = i) ->
  Forall (fun t => positive nonneg (t_area N t) /\ nonneg (inv (nmul (of_nat N 4) (t_area N t)))) ts -> positive nonneg (inv (of_nat N 3)) ->
  (forall i, i < n -> positive nonneg (iC i) /\ positive nonneg (kappa i) /\ positive nonneg (tau i)) ->
  pd nonneg n (build_Q_native N n (C_tilde N inv ts) (mdiag N iC) (G_matrix N inv points ts) (mdiag N kappa) (mdiag N tau) alpha).
Proof.
  intros N inv nonneg RT HO n points ts iC kappa tau alpha H U P I Q.
  assert (PD : forall v, (forall i, i < n -> positive nonneg (v i)) -> positive_diagonal nonneg n (mdiag N v)).
  { intros v Hv i j Hi Hj. unfold mdiag. destruct (i =? j); [apply Hv; exact Hi|reflexivity]. }
  apply (native_pd N RT nonneg HO).
  - apply (C_positive N RT inv nonneg HO); [|exact I|exact U]. rewrite Forall_forall in *. intros t Ht. apply (P t Ht).
  - apply PD. intros i Hi. apply (Q i Hi).
  - apply PD. intros i Hi. apply (Q i Hi).
  - apply PD. intros i Hi. apply (Q i Hi).
  - intros i j _ _. apply (G_symmetric N RT).
  - apply (G_psd N RT inv nonneg HO); [exact H|]. rewrite Forall_forall in *. intros t Ht. apply (P t Ht).
Qed.
Print Assumptions C76_positive_definite.
(* the same for the real precision built from the parameters *)
Theorem C76_positive_definite_real : forall n p points ts (iC : nat -> reals) b0_kappa b0_tau alpha sigma rho theta Q,
  nodes_below n ts -> (forall i, i < n -> exists t a, In t ts /\ a < 3 /\ t_vertex reals t a = i) ->
  Forall (fun t => 0 < t_area reals t)%R ts -> (forall i, i < n -> (0 < iC i)%R) ->
  build_Q reals exp n p (C_tilde reals Rinv ts) (mdiag reals iC) (G_matrix reals Rinv points ts) b0_kappa b0_tau alpha sigma rho theta = Ok Q ->
  forall x, (0 <= form n Q x)%R /\ (form n Q x = 0%R -> forall i, i < n -> x i = 0%R).
Proof.
  intros n p points ts iC b0_kappa b0_tau alpha sigma rho theta Q H U P I E.
  unfold build_Q in E. destruct (2 * alpha <=? 2); [discriminate|]. inversion E as [E']. clear E E' Q.
  assert (PD : pd (N := reals) (fun a => (0 <= a)%R) n (build_Q_native reals n (C_tilde reals Rinv ts) (mdiag reals iC) (G_matrix reals Rinv points ts)
     (mdiag reals (kappa_vector reals exp p (b0_kappa alpha) rho theta)) (mdiag reals (tau_vector reals exp p (b0_tau alpha) (of_nat reals (alpha - 1)) sigma rho theta)) alpha)).
  { apply C76_positive_definite; [exact reals_ring|exact reals_ordered|exact H|exact U| | |].
    - rewrite Forall_forall in *. intros t Ht. pose proof (P t Ht) as A. split; [split; cbn in *; lra|]. cbn. apply Rlt_le, Rinv_0_lt_compat. cbn in A. lra.
    - split; cbn; [apply Rlt_le|apply Rgt_not_eq]; apply Rinv_0_lt_compat; lra.
    - intros i Hi. pose proof (I i Hi). split; [split; cbn in *; lra|]. split; (split; [apply Rlt_le, exp_pos|apply Rgt_not_eq, exp_pos]). }
  intros x. split; [apply PD|apply PD].
Qed.
Print Assumptions C76_positive_definite_real.

(* the unit square in two triangles *)
Definition sq_point (v : nat) : pt rationals := fun k => match v, k with 1, 0 => qn 1 | 2, 0 => qn 1 | 2, 1 => qn 1 | 3, 1 => qn 1 | _, _ => qn 0 end.
Definition half : Qc := Q2Qc (1 # 2).
Definition sq_tris : list (tri rationals) := [Build_tri rationals (fun a => a) half; Build_tri rationals (fun a => match a with 0 => 0 | 1 => 2 | _ => 3 end) half].
Example C76_nonvacuous :
  nodes_below 4 sq_tris /\ (forall i, i < 4 -> exists t a, In t sq_tris /\ a < 3 /\ t_vertex rationals t a = i) /\
  map this (map (fun i => C_tilde rationals Qcinv sq_tris i i) (seq 0 4)) = [1 # 3; 1 # 6; 1 # 3; 1 # 6]%Q /\
  map this (map (G_matrix rationals Qcinv sq_point sq_tris 0) (seq 0 4)) = [1 # 1; -1 # 2; 0 # 1; -1 # 2]%Q.
Proof.
  split; [constructor; [|constructor; [|constructor]]; intros [|[|[|a]]] Ha; cbn; lia|]. split; [|split; vm_compute; reflexivity].
  intros [|[|[|[|i]]]] Hi; [| | | |lia]; [exists (hd (Build_tri rationals (fun _ => 0) (qn 0)) sq_tris), 0|exists (hd (Build_tri rationals (fun _ => 0) (qn 0)) sq_tris), 1|
    exists (hd (Build_tri rationals (fun _ => 0) (qn 0)) sq_tris), 2|exists (nth 1 sq_tris (Build_tri rationals (fun _ => 0) (qn 0))), 2]; cbn; (split; [tauto|split; [lia|reflexivity]]).
Qed.

(* ================= C77: the precision on a lattice *)
(* The intended statement: entry (ravel_F x, ravel_F y), where ravel_F is the numbering of the node coordinates and of the design matrix,
   is minus the scale of dimension d for neighbours in d, and zero for other pairs of different nodes. *)
Definition links_neighbours (number : list nat -> list nat -> nat) (ns : list nat) (wrap : option (list bool)) : Prop :=
  forall (N : numbers) scales k x y, is_ring N -> valid ns x -> valid ns y ->
  (forall d, adjacent ns wrap d x y -> lattice_K N ns wrap scales (mdiag N k) (number ns x) (number ns y) = nopp (nth d scales n0)) /\
  (x <> y -> (forall d, ~ adjacent ns wrap d x y) -> lattice_K N ns wrap scales (mdiag N k) (number ns x) (number ns y) = n0).
Definition no_single (ns : list nat) (wrap : option (list bool)) : Prop := forall d, d < length ns -> wrapped_in wrap d = true -> 2 <= nth d ns 0.
(* true for a lattice of one dimension, wrapped or not *)
Theorem C77_one_dimension : forall n wrap, no_single [n] wrap -> links_neighbours ravel_F [n] wrap.
Proof.
  intros n wrap W N scales k x y RT V1 V2. 
  assert (E : forall z, valid [n] z -> ravel_F [n] z = ravel_C [n] z).
  { intros z V. inversion V as [|? i ? z' Hi Hz]; subst. inversion Hz; subst. cbn. lia. }
  rewrite !E by assumption. destruct (lattice_links N RT [n] wrap scales k x y W V1 V2) as (A & B & _). tauto.
Qed.
Print Assumptions C77_one_dimension.
(* false for two dimensions: on a 2 x 3 lattice nodes 1 = (1,0) and 2 = (0,1) are not neighbours, but the precision links them *)
Theorem C77_refuted : ~ links_neighbours ravel_F [2; 3] None.
Proof.
  intros H. specialize (H rationals [qn 1; qn 1] (fun _ => qn 1) [1; 0] [0; 1] rationals_ring).
  destruct H as [_ H]; [repeat constructor..|].
  assert (E : lattice_K rationals [2; 3] None [qn 1; qn 1] (mdiag rationals (fun _ => qn 1)) (ravel_F [2; 3] [1; 0]) (ravel_F [2; 3] [0; 1]) = n0).
  { apply H; [discriminate|]. intros [|[|d]] (_ & A & B & C); cbn in *; [specialize (B 1 ltac:(lia)); cbn in B; lia|specialize (B 0 ltac:(lia)); cbn in B; lia|lia]. }
  apply (f_equal this) in E. vm_compute in E. discriminate.
Qed.
Print Assumptions C77_refuted.
(* in any number of dimensions the links are right for the numbering with the last index fastest *)
Theorem C77_row_major_partial : forall ns wrap, no_single ns wrap -> links_neighbours ravel_C ns wrap.
Proof. intros ns wrap W N scales k x y RT V1 V2. destruct (lattice_links N RT ns wrap scales k x y W V1 V2) as (A & B & _). tauto. Qed.
Print Assumptions C77_row_major_partial.
(* the diagonal *)
Theorem C77_diagonal : forall (N : numbers) ns wrap scales k x, is_ring N -> no_single ns wrap -> valid ns x ->
  lattice_K N ns wrap scales (mdiag N k) (ravel_C ns x) (ravel_C ns x) =
  nadd (nmul (k (ravel_C ns x)) (k (ravel_C ns x))) (nlist N (map (fun s => nadd s s) scales)).
Proof. intros N ns wrap scales k x RT W V. apply (lattice_links N RT ns wrap scales k x x W V V). reflexivity. Qed.
Print Assumptions C77_diagonal.
Theorem C77_symmetric : forall (N : numbers) ns wrap scales volume k tau alpha Q, is_ring N ->
  lattice_Q N ns wrap scales volume (mdiag N k) (mdiag N tau) alpha = Ok Q -> symmetric (n_nodes ns) Q.
Proof.
  intros N ns wrap scales volume k tau alpha Q RT. unfold lattice_Q. destruct (2 <? alpha); [discriminate|]. intros E. inversion E as [E']. clear E E' Q.
  assert (S : symmetric (n_nodes ns) (mmul N (n_nodes ns) (mmul N (n_nodes ns) (mdiag N tau)
     (if alpha =? 2 then mmul N (n_nodes ns) (mtrans N (lattice_K N ns wrap scales (mdiag N k))) (lattice_K N ns wrap scales (mdiag N k)) else lattice_K N ns wrap scales (mdiag N k))) (mdiag N tau))).
  { apply (sym_sandwich N RT); [apply sym_diag|]. destruct (alpha =? 2); [|apply (lattice_K_symmetric N RT)].
    intros i j Hi Hj. unfold mmul, mtrans. apply (nsum_ext N). intros l _. apply (Rmul_comm RT). }
  intros i j Hi Hj. unfold mscale. f_equal. apply S; assumption.
Qed.
Print Assumptions C77_symmetric.
(* derivative: right when no dimension wraps *)
Theorem C77_derivative : forall (N : numbers) (D : (N -> N) -> N -> N -> Prop) (ex : N -> N),
  is_ring N -> derivative N D -> exponential N D ex ->
  forall ns wrap scales volume p b0_kappa b0_tau nu alpha sigma rho theta j dQ, (forall d, wrapped_in wrap d = false) ->
  lattice_build_dQdp N ex ns wrap scales volume p b0_kappa b0_tau nu alpha sigma rho theta j = Ok dQ ->
  exists Q, (forall s, lattice_build_Q N ex ns wrap scales volume p b0_kappa b0_tau nu alpha sigma rho (changed theta j s) = Ok (Q s)) /\
            entrywise D (n_nodes ns) Q (theta j) dQ.
Proof. intros N D ex RT HD HE. exact (lattice_dQdp_correct N RT D HD ex HE). Qed.
Print Assumptions C77_derivative.
(* ... and wrong when one does: the derivative ignores the links over the edge *)
Theorem C77_derivative_wrapped_refuted : ~ (forall ns wrap (scales : list reals) volume p b0_kappa b0_tau nu alpha sigma rho theta j dQ,
  lattice_build_dQdp reals exp ns wrap scales volume p b0_kappa b0_tau nu alpha sigma rho theta j = Ok dQ ->
  exists Q, (forall s, lattice_build_Q reals exp ns wrap scales volume p b0_kappa b0_tau nu alpha sigma rho (changed theta j s) = Ok (Q s)) /\
            entrywise real_derivative (n_nodes ns) Q (theta j) dQ).
Proof.
  intros H.
  set (z := (fun _ => 0%R) : nat -> reals).
  specialize (H [3] (Some [true]) [1%R] 1%R 2 z z z 1 (sigma_stationary reals) (rho_stationary reals) z 0 _ eq_refl).
  destruct H as (Q & HQ & HD). specialize (HD 0 2 ltac:(cbn; lia) ltac:(cbn; lia)).
  assert (EQ : forall s, Q s 0 2 = (- (exp (- s) * exp (- s)))%R).
  { intros s. specialize (HQ s).
    unfold lattice_build_Q, lattice_Q in HQ. cbn [Nat.ltb Nat.leb Nat.eqb] in HQ. inversion HQ as [E]. clear HQ E HD Q.
    unfold mscale. cbn [n_nodes fold_right Nat.mul Nat.add].
    change (exp (- s) * exp (- s))%R with (exp (- s) * exp (- s))%R.
    rewrite (mmul_diag_r reals reals_ring 3) by lia.
    unfold mmul. rewrite (nsum_one reals reals_ring 3 0); [|lia|intros i _ Hi; unfold mdiag; destruct (Nat.eqb_spec 0 i); [congruence|cbn; ring]].
    rewrite (lattice_one reals reals_ring 3); [| |lia|lia].
    2:{ intros [|d] Hd _; cbn in *; lia. }
    assert (T : forall i, tau_vector reals exp 2 0%R 0%R (sigma_stationary reals) (rho_stationary reals) (changed z 0 s) i = exp (- s)).
    { intros i. unfold tau_vector, dot, tau_design, kappa_design, changed, sigma_stationary, rho_stationary, z. cbn. f_equal. ring. }
    unfold mdiag. cbn [Nat.eqb wrapped_in nth andb orb]. change (z 1) with 0%R. rewrite !T. cbn. ring. }
  assert (D2 : derivable_pt_lim (fun s => (- (exp (- s) * exp (- s)))%R) 0 2%R).
  { pose proof (reals_exponential 0%R (-1)%R 0%R) as A. unfold real_derivative in A. cbn in A.
    assert (A' : derivable_pt_lim (fun s => exp (- s)) 0 (-1)%R).
    { assert (B : forall s : reals, exp (0 + -1 * s)%R = exp (- s)%R) by (intros s; f_equal; cbn in *; ring).
      apply (d_same _ _ reals_derivative _ (fun s : reals => exp (- s)%R) 0%R _ B) in A.
      unfold real_derivative in A. replace (0 + -1 * 0)%R with 0%R in A by ring. rewrite exp_0, Rmult_1_r in A. exact A. }
    pose proof (derivable_pt_lim_opp _ _ _ (derivable_pt_lim_mult _ _ _ _ _ A' A')) as B.
    unfold opp_fct, mult_fct in B. rewrite Ropp_0, exp_0 in B. replace (- (-1 * 1 + 1 * -1))%R with 2%R in B by ring. exact B. }
  apply (d_same _ _ reals_derivative _ _ _ _ EQ) in HD. unfold real_derivative in HD. change (z 0) with 0%R in HD.
  pose proof (uniqueness_limite _ _ _ _ HD D2) as U. revert U.
  unfold mscale, madd. cbn [n_nodes fold_right Nat.mul Nat.add].
  assert (K02 : lattice_K reals [3] None [1%R] (mdiag reals (kappa_vector reals exp 2 (z 1) (rho_stationary reals) z)) 0 2 = 0%R).
  { rewrite (lattice_one reals reals_ring 3); [cbn; reflexivity| |lia|lia]. intros d _ Hd. discriminate. }
  rewrite !(mmul_diag_r reals reals_ring 3), !(mmul_diag_l reals reals_ring 3), K02 by lia. unfold madd.
  rewrite !(mmul_diag_r reals reals_ring 3), !(mmul_identity reals reals_ring 3) by lia. unfold mdiag. cbn [Nat.eqb]. cbn. intros U. lra.
Qed.
Print Assumptions C77_derivative_wrapped_refuted.
Example C77_nonvacuous :
  no_single [4; 2] (Some [true; false]) /\ valid [4; 2] [3; 1] /\ adjacent [4; 2] (Some [true; false]) 0 [3; 1] [0; 1] /\
  this (lattice_K rationals [4; 2] (Some [true; false]) [qn 5; qn 7] (mdiag rationals (fun _ => qn 1)) (ravel_C [4; 2] [3; 1]) (ravel_C [4; 2] [0; 1])) = (-5 # 1)%Q /\
  is_ok (lattice_build_dQdp reals exp [4] None [1%R] 1%R 2 (fun _ => 0%R) (fun _ => 0%R) (fun _ => 0%R) 2 (sigma_stationary reals) (rho_stationary reals) (two reals 0%R 1%R) 1) = true.
Proof.
  split; [intros [|[|d]] Hd E; cbn in *; lia || discriminate|]. split; [repeat constructor|]. split; [|split; [vm_compute; reflexivity|reflexivity]].
  split; [reflexivity|]. split; [cbn; lia|]. split; [intros [|[|[|e]]] He; cbn; congruence|]. left. right. cbn. lia.
Qed.

(* ================= C78: priors of the space-time elements *)
(* The prior of the Kronecker element is the product of the precision in time and the precision in space, and what it returns as
   derivative with respect to each of its three hyperparameters (log sigma and log rho in space, log rho in time) is the derivative. *)
Theorem C78_kronecker : forall (N : numbers) (D : (N -> N) -> N -> N -> Prop) (ex : N -> N), is_ring N -> derivative N D -> exponential N D ex ->
  forall m C iC G b0_kappa b0_tau alpha nt scales volume c0_kappa c0_tau nu unit Qs dQs Qt dQt theta index, 0 < m ->
  (forall a b, build_Q_stationary N ex m C iC G b0_kappa b0_tau alpha a b = Ok (Qs a b)) ->
  (forall i a b, i < 2 -> build_dQdp_stationary N ex m C iC G b0_kappa b0_tau alpha a b i = Ok (dQs i a b)) ->
  (forall r, lattice_Q_stationary N ex [nt] None scales volume c0_kappa c0_tau nu 1 unit r = Ok (Qt r)) ->
  (forall r, lattice_dQdp_stationary N ex [nt] None scales volume c0_kappa c0_tau nu 1 unit r 1 = Ok (dQt r)) -> index < 3 ->
  entrywise D (nt * m) (fun s => kronecker_precision N m Qs Qt (changed theta index s)) (theta index) (kronecker_derivative N m Qs dQs Qt dQt theta index).
Proof.
  intros N D ex RT HD HE m C iC G b0_kappa b0_tau alpha nt scales volume c0_kappa c0_tau nu unit Qs dQs Qt dQt theta index Hm H1 H2 H3 H4 Hi.
  pose proof (fun a b => stationary_correct N RT D HD ex HE m C iC G b0_kappa b0_tau alpha Qs dQs a b H1 H2) as S.
  apply (kronecker_correct N RT D HD); [exact Hm|apply S|apply S| |exact Hi].
  pose proof (lattice_stationary_correct N RT D HD ex HE [nt] None scales volume c0_kappa c0_tau nu 1 Qt (dQt (theta 2)) unit (theta 2) ltac:(reflexivity) H3 (H4 (theta 2))) as T.
  cbn [n_nodes fold_right] in T. rewrite Nat.mul_1_r in T. exact T.
Qed.
Print Assumptions C78_kronecker.
(* The entry that links latent variable s at time step t with s' at t' is the product of the entries of the two matrices. *)
Theorem C78_kronecker_entry : forall (N : numbers) m Qs Qt (theta : nat -> N) t s t' s', s < m -> s' < m ->
  kronecker_precision N m Qs Qt theta (t * m + s) (t' * m + s') = nmul (Qt (theta 2) t t') (Qs (theta 0) (theta 1) s s').
Proof.
  intros N m Qs Qt theta t s t' s' H H'. unfold kronecker_precision, mkron.
  rewrite !Nat.div_add_l, !(Nat.div_small s m), !(Nat.div_small s' m), !Nat.add_0_r by lia.
  rewrite !(Nat.add_comm (_ * m)), !Nat.mod_add, !Nat.mod_small by lia. reflexivity.
Qed.
Print Assumptions C78_kronecker_entry.
(* The factor element: a block for the factor in space and one for the factor in time. *)
Theorem C78_factor : forall (N : numbers) (D : (N -> N) -> N -> N -> Prop) (ex : N -> N), is_ring N -> derivative N D -> exponential N D ex ->
  forall m C iC G b0_kappa b0_tau alpha nt scales volume c0_kappa c0_tau nu Qs dQs Qt dQt theta index,
  (forall a b, build_Q_stationary N ex m C iC G b0_kappa b0_tau alpha a b = Ok (Qs a b)) ->
  (forall i a b, i < 2 -> build_dQdp_stationary N ex m C iC G b0_kappa b0_tau alpha a b i = Ok (dQs i a b)) ->
  (forall r, lattice_Q_stationary N ex [nt] None scales volume c0_kappa c0_tau nu alpha n0 r = Ok (Qt r)) ->
  (forall r, lattice_dQdp_stationary N ex [nt] None scales volume c0_kappa c0_tau nu alpha n0 r 1 = Ok (dQt r)) -> index < 3 ->
  entrywise D (m + nt) (fun s => factor_precision N m Qs Qt (changed theta index s)) (theta index) (factor_derivative N m Qs dQs Qt dQt theta index).
Proof.
  intros N D ex RT HD HE m C iC G b0_kappa b0_tau alpha nt scales volume c0_kappa c0_tau nu Qs dQs Qt dQt theta index H1 H2 H3 H4 Hi.
  pose proof (fun a b => stationary_correct N RT D HD ex HE m C iC G b0_kappa b0_tau alpha Qs dQs a b H1 H2) as S.
  apply (factor_correct N D HD); [apply S|apply S| |exact Hi].
  pose proof (lattice_stationary_correct N RT D HD ex HE [nt] None scales volume c0_kappa c0_tau nu alpha Qt (dQt (theta 2)) n0 (theta 2) ltac:(reflexivity) H3 (H4 (theta 2))) as T.
  cbn [n_nodes fold_right] in T. rewrite Nat.mul_1_r in T. exact T.
Qed.
Print Assumptions C78_factor.
(* With a space precision of power 2 and a time lattice the hypotheses hold: all four functions return a matrix for all parameters. *)
Example C78_nonvacuous : forall a b : reals,
  let z := (fun _ => 0%R) : nat -> reals in let o := (fun _ _ => 1%R) : mat reals in
  is_ok (build_Q_stationary reals exp 2 o o o z z 2 a b) = true /\ is_ok (build_dQdp_stationary reals exp 2 o o o z z 2 a b 0) = true /\
  is_ok (build_dQdp_stationary reals exp 2 o o o z z 2 a b 1) = true /\
  is_ok (lattice_Q_stationary reals exp [5] None [1%R] 1%R z z z 1 0%R b) = true /\ is_ok (lattice_dQdp_stationary reals exp [5] None [1%R] 1%R z z z 1 0%R b 1) = true /\
  is_ok (lattice_Q_stationary reals exp [5] None [1%R] 1%R z z z 2 0%R b) = true /\ is_ok (lattice_dQdp_stationary reals exp [5] None [1%R] 1%R z z z 2 0%R b 1) = true.
Proof. intros a b z o. do 6 (split; [reflexivity|]). reflexivity. Qed.

(* ================= C79: stationary and expanded parameters *)
(* kappa and tau at a node under the two sets of designs *)
Theorem C79_stationary : forall (N : numbers) ex, is_ring N -> forall b0 c0 nu (log_sigma log_rho : N) i,
  kappa_vector N ex 2 b0 (rho_stationary N) (two N log_sigma log_rho) i = ex (nadd b0 (nopp log_rho)) /\
  tau_vector N ex 2 c0 nu (sigma_stationary N) (rho_stationary N) (two N log_sigma log_rho) i = ex (nadd (nadd c0 (nopp log_sigma)) (nmul nu log_rho)).
Proof. intros N ex RT b0 c0 nu a b i. split; [apply (kappa_stationary N RT)|apply (tau_stationary N RT)]. Qed.
Print Assumptions C79_stationary.
Theorem C79_expanded : forall (N : numbers) ex, is_ring N -> forall n b0 c0 nu (log_sigma log_rho : nat -> N) i, i < n ->
  kappa_vector N ex (n + n) b0 (rho_expanded N n) (both N n log_sigma log_rho) i = ex (nadd b0 (nopp (log_rho i))) /\
  tau_vector N ex (n + n) c0 nu (sigma_expanded N n) (rho_expanded N n) (both N n log_sigma log_rho) i = ex (nadd (nadd c0 (nopp (log_sigma i))) (nmul nu (log_rho i))).
Proof. intros N ex RT n b0 c0 nu a b i Hi. split; [apply (kappa_expanded N RT)|apply (tau_expanded N RT)]; exact Hi. Qed.
Print Assumptions C79_expanded.
(* Expanded parameters with the same value at every node give the stationary precision. *)
Theorem C79_constant : forall (N : numbers) ex, is_ring N -> forall n C iC G b0_kappa b0_tau alpha (log_sigma log_rho : N),
  match build_Q_stationary N ex n C iC G b0_kappa b0_tau alpha log_sigma log_rho,
        build_Q_expanded N ex n C iC G b0_kappa b0_tau alpha (fun _ => log_sigma) (fun _ => log_rho) with
  | Ok Q, Ok R => forall i j, i < n -> j < n -> Q i j = R i j
  | Err e, Err f => e = f
  | _, _ => False
  end.
Proof. intros N ex RT. exact (expanded_constant N RT ex). Qed.
Print Assumptions C79_constant.
Example C79_nonvacuous : is_ok (build_Q_expanded reals exp 3 (fun _ _ => 1%R) (fun _ _ => 1%R) (fun _ _ => 1%R) (fun _ => 0%R) (fun _ => 0%R) 2 (fun _ => 1%R) (fun _ => 2%R)) = true.
Proof. reflexivity. Qed.
