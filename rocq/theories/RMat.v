(* Real numbers as a field of the matrix library, and facts about real matrices that are not about the code:
   derivatives of determinants and inverses, and factors of positive definite matrices. *)
From Coq Require Import Reals Lra FunctionalExtensionality ClassicalEpsilon.
Set Warnings "-notation-overridden,-ambiguous-paths".
From mathcomp Require Import all_ssreflect all_algebra perm.
Import GRing.Theory.

Set Implicit Arguments.
Unset Strict Implicit.
Unset Printing Implicit Defensive.
Local Open Scope ring_scope.
Delimit Scope R_scope with coqR.
Bind Scope ring_scope with R.

(* ---------- R as a field ---------- *)
Definition eqr (x y : R) : bool := if Req_EM_T x y then true else false.
Lemma eqrP : Equality.axiom eqr.
Proof. by move=> x y; rewrite /eqr; case: (Req_EM_T x y) => H; constructor. Qed.
Canonical R_eqMixin := EqMixin eqrP.
Canonical R_eqType := Eval hnf in EqType R R_eqMixin.

Definition pick (P : pred R) (n : nat) : option R :=
  let x := epsilon (inhabits R0) (fun x => is_true (P x)) in if P x then Some x else None.
Lemma pick_some P n x : pick P n = Some x -> P x.
Proof. by rewrite /pick; case: ifP => // H [] <-. Qed.
Lemma pick_ex (P : pred R) : (exists x, P x) -> exists n, pick P n.
Proof. by move=> H; exists 0%N; rewrite /pick (epsilon_spec (inhabits R0) (fun x => is_true (P x)) H). Qed.
Lemma pick_ext P Q : P =1 Q -> pick P =1 pick Q.
Proof. by move=> H n; have -> : P = Q by apply: functional_extensionality. Qed.
Definition R_choiceMixin : choiceMixin R := Choice.Mixin pick_some pick_ex pick_ext.
Canonical R_choiceType := Eval hnf in ChoiceType R R_choiceMixin.

Lemma RaddA : associative Rplus. Proof. by move=> x y z; ring. Qed.
Lemma RaddC : commutative Rplus. Proof. by move=> x y; ring. Qed.
Lemma Radd0 : left_id R0 Rplus. Proof. by move=> x; ring. Qed.
Lemma RaddN : left_inverse R0 Ropp Rplus. Proof. by move=> x; ring. Qed.
Definition R_zmodMixin := ZmodMixin RaddA RaddC Radd0 RaddN.
Canonical R_zmodType := Eval hnf in ZmodType R R_zmodMixin.

Lemma RmulA : associative Rmult. Proof. by move=> x y z; ring. Qed.
Lemma RmulC : commutative Rmult. Proof. by move=> x y; ring. Qed.
Lemma Rmul1 : left_id R1 Rmult. Proof. by move=> x; ring. Qed.
Lemma RmulD : left_distributive Rmult Rplus. Proof. by move=> x y z; ring. Qed.
Lemma Rone : R1 != R0. Proof. by apply/eqP; lra. Qed.
Definition R_ringMixin := ComRingMixin RmulA RmulC Rmul1 RmulD Rone.
Canonical R_ringType := Eval hnf in RingType R R_ringMixin.
Canonical R_comRingType := Eval hnf in ComRingType R RmulC.

Definition Rinvx (x : R) : R := if x == R0 then R0 else Rinv x.
Lemma Rinvx_mul (x : R) : x != 0%R -> (Rinvx x * x)%R = 1%R.
Proof. by move=> H; rewrite /Rinvx (negbTE H); apply: Rinv_l; apply/eqP. Qed.
Lemma Rinvx0 : Rinvx 0%R = 0%R.
Proof. by rewrite /Rinvx eqxx. Qed.
Definition R_unitMixin := FieldUnitMixin Rinvx_mul Rinvx0.
Canonical R_unitRingType := Eval hnf in UnitRingType R R_unitMixin.
Canonical R_comUnitRingType := Eval hnf in [comUnitRingType of R].
Lemma R_field : GRing.Field.mixin_of R_unitRingType. Proof. by []. Qed.
Canonical R_idomainType := Eval hnf in IdomainType R (FieldIdomainMixin R_field).
Canonical R_fieldType := Eval hnf in FieldType R R_field.

Lemma addE (x y : R) : GRing.add x y = Rplus x y. Proof. by []. Qed.
Lemma mulE (x y : R) : GRing.mul x y = Rmult x y. Proof. by []. Qed.
Lemma oppE (x : R) : GRing.opp x = Ropp x. Proof. by []. Qed.
Lemma zeroE : (GRing.zero R_zmodType) = R0. Proof. by []. Qed.
Lemma oneE : (GRing.one R_ringType) = R1. Proof. by []. Qed.
Lemma invE (x : R) : x <> R0 -> GRing.inv x = Rinv x.
Proof. by move=> H; rewrite /GRing.inv /= /Rinvx; case: eqP. Qed.

(* turn field operations of the matrix library into those of R *)
Ltac toR := rewrite ?addE ?mulE ?oppE ?zeroE ?oneE.

Ltac rlra := intros; toR; lra.

(* ---------- derivatives ---------- *)
Definition D (f : R -> R) (x l : R) : Prop := derivable_pt_lim f x l.

Lemma D_const c x : D (fun _ => c) x 0.
Proof. exact: derivable_pt_lim_const. Qed.
Lemma D_ext f g x l : (forall t, f t = g t) -> D f x l -> D g x l.
Proof. by move=> H; have -> : f = g by apply: functional_extensionality. Qed.
Lemma D_add f g x a b : D f x a -> D g x b -> D (fun t => f t + g t) x (a + b).
Proof. exact: derivable_pt_lim_plus. Qed.
Lemma D_opp f x a : D f x a -> D (fun t => - f t) x (- a).
Proof. exact: derivable_pt_lim_opp. Qed.
Lemma D_sub f g x a b : D f x a -> D g x b -> D (fun t => f t - g t) x (a - b).
Proof. by move=> H1 H2; apply: D_add => //; apply: D_opp. Qed.
Lemma D_mul f g x a b : D f x a -> D g x b -> D (fun t => f t * g t) x (a * g x + f x * b).
Proof. exact: derivable_pt_lim_mult. Qed.
Lemma D_scale c f x a : D f x a -> D (fun t => c * f t) x (c * a).
Proof. by move=> H; have := D_mul (D_const c x) H; rewrite mul0r add0r. Qed.
Lemma D_unique f x a b : D f x a -> D f x b -> a = b.
Proof. exact: uniqueness_limite. Qed.
Lemma D_ln f x a : (0 < f x)%coqR -> D f x a -> D (fun t => ln (f t)) x (a / f x).
Proof.
  move=> P H. have := derivable_pt_lim_comp f ln x a _ H (derivable_pt_lim_ln _ P).
  by rewrite /D /comp mulrC invE //; lra.
Qed.
Lemma D_inv f x a : f x <> 0 -> D f x a -> D (fun t => (f t)^-1) x (- a / (f x * f x)).
Proof.
  move=> N H.
  have H1 := derivable_pt_lim_div (fct_cte 1%coqR) f x 0%coqR a (derivable_pt_lim_const _ _) H N.
  move=> e He. case: (H1 e He) => d1 K1.
  have C : continuity_pt f x by apply: derivable_continuous_pt; exists a.
  have Np : (0 < Rabs (f x))%coqR by apply: Rabs_pos_lt.
  case: (C _ Np) => d2 [Hd2 K2].
  have Hm : (0 < Rmin d1 d2)%coqR by apply: Rmin_pos => //; apply: cond_pos.
  exists (mkposreal _ Hm) => h Hh0 Hh.
  have Hh1 : (Rabs h < d1)%coqR by apply: Rlt_le_trans Hh _; apply: Rmin_l.
  have Hh2 : (Rabs h < d2)%coqR by apply: Rlt_le_trans Hh _; apply: Rmin_r.
  have N' : f (x + h)%coqR <> 0.
  { move=> E. have := K2 (x + h)%coqR. rewrite /dist /= /R_dist E. toR.
    have -> : (x + h - x = h)%coqR by ring. move=> K; have := K (conj (conj I _) Hh2).
    have -> : (0 - f x = - f x)%coqR by ring. rewrite Rabs_Ropp.
    have Q : x <> (x + h)%coqR by lra. move=> /(_ Q). lra. }
  have := K1 h Hh0 Hh1. rewrite /fct_cte /div_fct (invE N') (invE N).
  rewrite (invE (x := f x * f x)); last by toR; apply: Rmult_integral_contrapositive.
  toR. rewrite /Rdiv /Rsqr.
  have -> : (1 * / f (x + h) = / f (x + h))%coqR by ring. have -> : (1 * / f x = / f x)%coqR by ring.
  by have -> : ((0 * f x - a * 1) * / (f x * f x) = - a * / (f x * f x))%coqR by ring.
Qed.

Lemma D_sum (I : Type) (r : seq I) (P : pred I) (f : I -> R -> R) x (l : I -> R) :
  (forall i, P i -> D (f i) x (l i)) -> D (fun t => \sum_(i <- r | P i) f i t) x (\sum_(i <- r | P i) l i).
Proof.
  move=> H. elim: r => [|i r IH].
  - rewrite big_nil. apply: D_ext (D_const 0 x) => t. by rewrite big_nil.
  - rewrite big_cons. case: ifP => Hi.
    + apply: D_ext (D_add (H _ Hi) IH) => t. by rewrite big_cons Hi.
    + apply: D_ext IH => t. by rewrite big_cons Hi.
Qed.

Lemma D_prod (I : eqType) (r : seq I) (f : I -> R -> R) x (l : I -> R) : uniq r ->
  (forall i, D (f i) x (l i)) ->
  D (fun t => \prod_(i <- r) f i t) x (\sum_(k <- r) l k * \prod_(i <- r | i != k) f i x).
Proof.
  move=> U H. elim: r U => [|i r IH] /= U.
  - rewrite big_nil. apply: D_ext (D_const 1 x) => t. by rewrite big_nil.
  - case/andP: U => Ni U. rewrite big_cons.
    have E : \sum_(k <- r) l k * \prod_(i0 <- i :: r | i0 != k) f i0 x
             = f i x * \sum_(k <- r) l k * \prod_(i0 <- r | i0 != k) f i0 x.
    { rewrite big_distrr /=. rewrite big_seq [RHS]big_seq. apply: eq_bigr => k Hk.
      rewrite big_cons. have -> : (i != k) by apply: contra Ni => /eqP ->. by rewrite mulrCA. }
    rewrite E. have -> : \prod_(i0 <- i :: r | i0 != i) f i0 x = \prod_(i0 <- r) f i0 x.
    { rewrite big_cons eqxx /= big_seq_cond [RHS]big_seq_cond. apply: eq_bigl => k.
      rewrite andbT. case Hk: (k \in r) => //=. by apply: contra Ni => /eqP <-. }
    apply: D_ext (D_mul (H i) (IH U)) => t. by rewrite big_cons.
Qed.

(* entries of matrices *)
Definition DM m n (A : R -> 'M[R]_(m, n)) (x : R) (A' : 'M[R]_(m, n)) : Prop :=
  forall i j, D (fun t => A t i j) x (A' i j).

Lemma DM_const m n (C : 'M[R]_(m, n)) x : DM (fun _ => C) x 0.
Proof. by move=> i j; rewrite mxE; apply: D_const. Qed.
Lemma DM_ext m n (A B : R -> 'M[R]_(m, n)) x A' : (forall t, A t = B t) -> DM A x A' -> DM B x A'.
Proof. by move=> H K i j; apply: D_ext (K i j) => t; rewrite H. Qed.
Lemma DM_add m n (A B : R -> 'M[R]_(m, n)) x A' B' : DM A x A' -> DM B x B' -> DM (fun t => A t + B t) x (A' + B').
Proof. by move=> H K i j; rewrite mxE; apply: D_ext (D_add (H i j) (K i j)) => t; rewrite mxE. Qed.
Lemma DM_sub m n (A B : R -> 'M[R]_(m, n)) x A' B' : DM A x A' -> DM B x B' -> DM (fun t => A t - B t) x (A' - B').
Proof. by move=> H K i j; rewrite !mxE; apply: D_ext (D_sub (H i j) (K i j)) => t; rewrite !mxE. Qed.
Lemma DM_tr m n (A : R -> 'M[R]_(m, n)) x A' : DM A x A' -> DM (fun t => (A t)^T) x A'^T.
Proof. by move=> H i j; rewrite mxE; apply: D_ext (H j i) => t; rewrite mxE. Qed.
Lemma DM_mul m n p (A : R -> 'M[R]_(m, n)) (B : R -> 'M[R]_(n, p)) x A' B' :
  DM A x A' -> DM B x B' -> DM (fun t => A t *m B t) x (A' *m B x + A x *m B').
Proof.
  move=> H K i j. rewrite !mxE -big_split /=.
  apply: D_ext (D_sum (index_enum _) (P := predT) (fun k _ => D_mul (H i k) (K k j))) => t.
  by rewrite mxE.
Qed.
Lemma DM_unique m n (A : R -> 'M[R]_(m, n)) x A' B' : DM A x A' -> DM A x B' -> A' = B'.
Proof. by move=> H K; apply/matrixP => i j; apply: D_unique (H i j) (K i j). Qed.

(* the derivative of a determinant *)
Lemma D_det n (A : R -> 'M[R]_n) x A' : DM A x A' ->
  D (fun t => \det (A t)) x (\sum_i \sum_j A' i j * cofactor (A x) i j).
Proof.
  move=> H.
  have K : forall s : 'S_n, D (fun t => (-1) ^+ s * \prod_(i : 'I_n) A t i (s i)) x
     ((-1) ^+ s * \sum_k A' k (s k) * \prod_(i | i != k) A x i (s i)).
  { move=> s. apply: D_scale.
    exact: (@D_prod _ (index_enum _) (fun i t => A t i (s i)) x (fun k => A' k (s k)) (index_enum_uniq _) (fun i => H i (s i))). }
  have E : \sum_(s : 'S_n) ((-1) ^+ s * \sum_k A' k (s k) * \prod_(i | i != k) A x i (s i))
     = \sum_i \sum_j A' i j * cofactor (A x) i j.
  { rewrite (eq_bigr (fun s : 'S_n => \sum_k (-1) ^+ s * (A' k (s k) * \prod_(i | i != k) A x i (s i)))); last by move=> s _; rewrite mulr_sumr.
    rewrite exchange_big /=. apply: eq_bigr => k _.
    pose B := \matrix_(i, j) (if i == k then A' k j else A x i j).
    have -> : \sum_j A' k j * cofactor (A x) k j = \det B.
    { rewrite (expand_det_row B k). apply: eq_bigr => j _. rewrite mxE eqxx. congr (_ * _).
      rewrite /cofactor. congr (_ * \det _). apply/matrixP => a b. rewrite !mxE.
      by rewrite eq_sym (negbTE (neq_lift _ _)). }
    rewrite /determinant. apply: eq_bigr => s _. congr (_ * _).
    rewrite [RHS](bigD1 k) //= mxE eqxx. congr (_ * _). apply: eq_bigr => i Hi. by rewrite mxE (negbTE Hi). }
  rewrite -E.
  apply: D_ext (D_sum (index_enum _) (P := predT) (fun s _ => K s)) => t. by [].
Qed.

Lemma D_det_trace n (A : R -> 'M[R]_n) x A' : DM A x A' -> A x \in unitmx ->
  D (fun t => \det (A t)) x (\det (A x) * \tr (A' *m invmx (A x))).
Proof.
  move=> H U.
  have -> : \det (A x) * \tr (A' *m invmx (A x)) = \sum_i \sum_j A' i j * cofactor (A x) i j.
  { rewrite -mxtraceZ scalemxAr. have -> : \det (A x) *: invmx (A x) = \adj (A x).
    { rewrite /invmx U scalerA divrr ?scale1r //. }
    rewrite /mxtrace. apply: eq_bigr => i _. rewrite mxE. apply: eq_bigr => j _. by rewrite mxE. }
  exact: D_det.
Qed.

Lemma DM_inv_ex n (A : R -> 'M[R]_n) x A' : DM A x A' -> (forall t, A t \in unitmx) ->
  exists B, DM (fun t => invmx (A t)) x B.
Proof.
  move=> H U.
  have [C HC] : exists C, DM (fun t => \adj (A t)) x C.
  { exists (\matrix_(i, j) ((-1) ^+ (j + i) * \sum_a \sum_b (row' j (col' i A')) a b * cofactor (row' j (col' i (A x))) a b)) => i j.
    rewrite mxE. apply: D_ext (D_scale _ (D_det (A := fun t => row' j (col' i (A t))) (x := x) (A' := row' j (col' i A')) _)) => [t|a b].
    - by rewrite mxE.
    - rewrite !mxE. apply: D_ext (H _ _) => t. by rewrite !mxE. }
  have N : \det (A x) <> 0 by move: (U x); rewrite unitmxE unitfE => /eqP.
  have Hd := D_inv N (D_det H).
  eexists (\matrix_(i, j) _) => i j. rewrite mxE.
  apply: D_ext (D_mul Hd (HC i j)) => t. by rewrite /invmx U !mxE.
Qed.

Lemma DM_inv n (A : R -> 'M[R]_n) x A' : DM A x A' -> (forall t, A t \in unitmx) ->
  DM (fun t => invmx (A t)) x (- (invmx (A x) *m A' *m invmx (A x))).
Proof.
  move=> H U. case: (DM_inv_ex H U) => B HB.
  have H1 := DM_mul H HB.
  have H2 : DM (fun t => A t *m invmx (A t)) x 0 by apply: DM_ext (DM_const 1%:M x) => t; rewrite mulmxV.
  have E := DM_unique H1 H2.
  have -> : - (invmx (A x) *m A' *m invmx (A x)) = B; last by [].
  have E' : A x *m B = - (A' *m invmx (A x)) by apply/eqP; rewrite -addr_eq0 addrC E.
  by rewrite -[B](mulKmx (U x)) E' mulmxN mulmxA.
Qed.

Lemma add_pos_nonneg (a b : R) : (0 < a)%coqR -> (0 <= b)%coqR -> (0 < (a + b)%R)%coqR.
Proof. rlra. Qed.
Lemma add_nonneg (a b : R) : (0 <= a)%coqR -> (0 <= b)%coqR -> (0 <= (a + b)%R)%coqR.
Proof. rlra. Qed.
Lemma zero_nonneg : (0 <= (0 : R)%R)%coqR.
Proof. rewrite zeroE; lra. Qed.
Lemma pos_nz (a : R) : (0 < a)%coqR -> a != 0.
Proof. move=> H; apply/eqP; rewrite zeroE; lra. Qed.

(* ---------- positive definite matrices ---------- *)
Definition quad n (x : 'cV[R]_n) (A : 'M[R]_n) : R := (x^T *m A *m x) 0 0.
Definition posdef n (A : 'M[R]_n) : Prop :=
  A^T = A /\ forall x : 'cV[R]_n, x != 0 -> (0 < quad x A)%coqR.
Definition possemidef n (A : 'M[R]_n) : Prop :=
  A^T = A /\ forall x : 'cV[R]_n, (0 <= quad x A)%coqR.

Lemma posdef_add n (A B : 'M[R]_n) : posdef A -> possemidef B -> posdef (A + B).
Proof.
  case=> SA PA [SB PB]. split; first by rewrite linearD /= SA SB.
  move=> x Hx. rewrite /quad mulmxDr mulmxDl mxE. exact: add_pos_nonneg (PA x Hx) (PB x).
Qed.

Lemma ccons_nz n (y : 'cV[R]_n) (u : 'cV[R]_1) : y != 0 -> col_mx u y != 0.
Proof. by apply: contra => /eqP E; move: (col_mxKd u y); rewrite E => <-; rewrite linear0. Qed.

Lemma posdef_corner n (A : 'M[R]_(1 + n)) : posdef A -> (0 < ((ulsubmx A) 0 0)%R)%coqR.
Proof.
  case=> _ /(_ (col_mx 1%:M 0)) H.
  have N : (col_mx 1%:M 0 : 'cV[R]_(1 + n)) != 0.
  { apply/eqP => E. move: (col_mxKu (1%:M : 'cV[R]_1) (0 : 'cV[R]_n)). rewrite E linear0 => /matrixP /(_ 0 0).
    rewrite !mxE /=. move/eqP. by rewrite eq_sym oner_eq0. }
  move: (H N). rewrite /quad -{1}(submxK A) tr_col_mx mul_row_block mul_row_col.
  by rewrite !trmx0 !mul0mx !mulmx0 !addr0 trmx1 mul1mx mulmx1.
Qed.

Lemma sym_sub n (A : 'M[R]_(1 + n)) : A^T = A -> ursubmx A = (dlsubmx A)^T /\ (drsubmx A)^T = drsubmx A.
Proof. by move=> S; rewrite trmx_dlsub trmx_drsub S. Qed.

Definition schur n (A : 'M[R]_(1 + n)) : 'M[R]_n :=
  drsubmx A - ((ulsubmx A) 0 0)^-1 *: (dlsubmx A *m (dlsubmx A)^T).

Lemma posdef_schur n (A : 'M[R]_(1 + n)) : posdef A -> posdef (schur A).
Proof.
  move=> PA. have Ha := posdef_corner PA. case: (PA) => SA QA. case: (sym_sub SA) => Su Sd.
  set a := (ulsubmx A) 0 0 in Ha *. set b := dlsubmx A in Su *. rewrite /schur -/a -/b.
  have Na : a != 0 by apply: pos_nz.
  split.
  - by rewrite linearB /= Sd linearZ /= trmx_mul trmxK.
  - move=> y Hy. have := QA _ (ccons_nz (- (a^-1 *: (b^T *m y))) Hy).
    have Ea : ulsubmx A = a%:M by rewrite [ulsubmx A]mx11_scalar.
    rewrite /quad -{1}(submxK A) tr_col_mx mul_row_block mul_row_col Su -/b Ea.
    have E1 : (- (a^-1 *: (b^T *m y)))^T *m a%:M + y^T *m b = 0.
    { rewrite linearN /= linearZ /= trmx_mul trmxK mulNmx -scalemxAl mul_mx_scalar scalerA mulVf // scale1r. by rewrite addNr. }
    rewrite E1 mul0mx add0r. congr (Rlt _ (_ 0 0)). congr (_ *m _).
    rewrite linearN /= linearZ /= trmx_mul trmxK mulNmx -scalemxAl mulmxBr addrC -scalemxAr mulmxA. by [].
Qed.

Lemma cholesky_exists n (A : 'M[R]_n) : posdef A ->
  exists L : 'M[R]_n, [/\ is_trig_mx L, forall i, (0 < L i i)%coqR & L *m L^T = A].
Proof.
  elim: n A => [|n IH] A PA.
  - exists 0. split; first exact: mx0_is_trig; first by case.
    by apply/matrixP; case.
  - have Ha := @posdef_corner n A PA. case: (IH _ (@posdef_schur n A PA)) => L [TL DL EL].
    case: (PA) => SA _. case: (@sym_sub n A SA) => Su Sd.
    set a := (ulsubmx (A : 'M_(1 + n))) 0 0 in Ha *. set b := dlsubmx (A : 'M_(1 + n)) in Su *.
    have Hs : (0 < sqrt a)%coqR by apply: sqrt_lt_R0.
    have Ns : sqrt a != 0 by apply: pos_nz.
    have Es : sqrt a * sqrt a = a by apply: sqrt_sqrt; rlra.
    exists (block_mx (sqrt a)%:M 0 ((sqrt a)^-1 *: b) L : 'M_(1 + n)). split.
    + have Tb : @is_trig_mx _ (1 + n) (1 + n) (block_mx (sqrt a)%:M 0 ((sqrt a)^-1 *: b) L)
        by rewrite is_trig_block_mx // eqxx scalar_mx_is_trig TL.
      exact: Tb.
    + have Db : forall i : 'I_(1 + n), (0 < ((block_mx (sqrt a)%:M 0 ((sqrt a)^-1 *: b) L : 'M_(1 + n)) i i)%R)%coqR.
      { move=> i. rewrite -(@splitK 1 n i). case: (split i) => k /=.
        * by rewrite block_mxEul mxE !ord1 eqxx mulr1n.
        * by rewrite block_mxEdr. }
      exact: Db.
    + change ((block_mx (sqrt a)%:M 0 ((sqrt a)^-1 *: b) L : 'M_(1 + n)) *m (block_mx (sqrt a)%:M 0 ((sqrt a)^-1 *: b) L : 'M_(1 + n))^T = (A : 'M_(1 + n))).
      rewrite tr_block_mx mulmx_block !trmx0 !mul0mx !mulmx0 !addr0.
      rewrite -[in RHS](submxK (A : 'M_(1 + n))). congr block_mx.
      * by rewrite tr_scalar_mx -scalar_mxM Es [ulsubmx _]mx11_scalar.
      * by rewrite Su linearZ /= mul_scalar_mx scalerA mulfV // scale1r.
      * by rewrite tr_scalar_mx mul_mx_scalar scalerA mulfV // scale1r.
      * rewrite EL linearZ /= -scalemxAl -scalemxAr scalerA /schur -/a -/b.
        have -> : (sqrt a)^-1 * (sqrt a)^-1 = a^-1 by rewrite -invfM Es.
        by rewrite addrC subrK.
Qed.

Lemma det_factor n (L : 'M[R]_n) : is_trig_mx L -> \det (L *m L^T) = (\prod_i L i i) * (\prod_i L i i).
Proof. by move=> T; rewrite det_mulmx det_tr det_trig. Qed.

Lemma prod_pos n (f : 'I_n -> R) : (forall i, 0 < f i)%coqR -> (0 < (\prod_i f i)%R)%coqR.
Proof.
  move=> H. elim/big_ind: _ => //; first by rewrite oneE; rlra.
  move=> x y Hx Hy. exact: Rmult_lt_0_compat.
Qed.

Lemma posdef_det n (A : 'M[R]_n) : posdef A -> (0 < \det A)%coqR.
Proof.
  move=> P. case: (cholesky_exists P) => L [T Dg <-]. rewrite det_factor //.
  have := prod_pos Dg. move=> H. exact: Rmult_lt_0_compat.
Qed.
Lemma posdef_unit n (A : 'M[R]_n) : posdef A -> A \in unitmx.
Proof. by move=> P; rewrite unitmxE unitfE; apply: pos_nz; apply: posdef_det. Qed.

(* L.L^T is positive definite *)
Lemma sumsq_nonneg n (x : 'cV[R]_n) : (0 <= ((x^T *m x) 0 0)%R)%coqR.
Proof.
  rewrite mxE. elim/big_ind: _ => //; first exact: zero_nonneg.
  - move=> u v. exact: add_nonneg.
  - move=> i _. rewrite mxE. toR. exact: Rle_0_sqr.
Qed.
Lemma sumsq_pos n (x : 'cV[R]_n) : x != 0 -> (0 < ((x^T *m x) 0 0)%R)%coqR.
Proof.
  move=> N. have [i Hi] : exists i, x i 0 != 0.
  { apply/existsP. apply: contraR N => /existsPn H. apply/eqP/matrixP => i j. rewrite ord1 mxE. by apply/eqP; move: (H i); rewrite negbK. }
  rewrite mxE (bigD1 i) //= mxE.
  have H1 : (0 < (x i 0 * x i 0)%R)%coqR by apply: Rsqr_pos_lt; apply/eqP.
  have H2 : (0 <= (\sum_(j | j != i) x^T 0 j * x j 0)%R)%coqR.
  { elim/big_ind: _ => //; first exact: zero_nonneg.
    - move=> u v. exact: add_nonneg.
    - move=> j _. rewrite mxE. toR. exact: Rle_0_sqr. }
  exact: add_pos_nonneg.
Qed.
Lemma factor_unit n (L : 'M[R]_n) : is_trig_mx L -> (forall i, 0 < L i i)%coqR -> L \in unitmx.
Proof.
  move=> T Dg. rewrite unitmxE unitfE det_trig //. apply: pos_nz. exact: prod_pos.
Qed.
Lemma factor_posdef n (L : 'M[R]_n) : L \in unitmx -> posdef (L *m L^T).
Proof.
  move=> U. split; first by rewrite trmx_mul trmxK.
  move=> x Hx. rewrite /quad mulmxA -mulmxA -{1}(trmxK L) -trmx_mul. apply: sumsq_pos.
  apply: contra Hx => /eqP E. apply/eqP. have : L^T \in unitmx by rewrite unitmx_tr.
  move=> UT. by rewrite -(mulKmx UT x) E mulmx0.
Qed.
