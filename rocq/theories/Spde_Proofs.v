From Coq Require Import Ring_theory Ring Reals QArith Qcanon Lia Lra.
From Verif Require Import Base Spde_Model Spde_Spec.
Local Open Scope nat_scope.
Local Open Scope list_scope.

Section Generic.
Variable N : numbers.
Variable RT : is_ring N.
Let RT' : ring_theory (@n0 N) n1 nadd nmul (fun a b => nadd a (nopp b)) nopp eq := RT.
Add Ring Nring : RT'.
Infix "+!" := (@nadd N) (at level 50, left associativity).
Infix "*!" := (@nmul N) (at level 40, left associativity).

Lemma nsum_ext n (f g : nat -> N) : (forall i, i < n -> f i = g i) -> nsum N n f = nsum N n g.
Proof. induction n; cbn; intros H; [reflexivity|]. rewrite IHn, (H n) by (intros; try apply H; lia). reflexivity. Qed.
Lemma nsum_zero n (f : nat -> N) : (forall i, i < n -> f i = n0) -> nsum N n f = n0.
Proof. induction n; cbn; intros H; [reflexivity|]. rewrite IHn, (H n) by (intros; try apply H; lia). ring. Qed.
Lemma nsum_add n (f g : nat -> N) : nsum N n (fun i => f i +! g i) = nsum N n f +! nsum N n g.
Proof. induction n; cbn; [ring|]. rewrite IHn. ring. Qed.
Lemma nsum_mul_l n c (f : nat -> N) : nsum N n (fun i => c *! f i) = c *! nsum N n f.
Proof. induction n; cbn; [ring|]. rewrite IHn. ring. Qed.
Lemma nsum_mul_r n c (f : nat -> N) : nsum N n (fun i => f i *! c) = nsum N n f *! c.
Proof. induction n; cbn; [ring|]. rewrite IHn. ring. Qed.
Lemma nsum_swap n m (f : nat -> nat -> N) : nsum N n (fun i => nsum N m (fun j => f i j)) = nsum N m (fun j => nsum N n (fun i => f i j)).
Proof. induction n; cbn; [symmetry; apply nsum_zero; reflexivity|]. rewrite IHn. symmetry. apply nsum_add. Qed.
Lemma nsum_one n k (f : nat -> N) : k < n -> (forall i, i < n -> i <> k -> f i = n0) -> nsum N n f = f k.
Proof.
  induction n; cbn; intros Hk H; [lia|]. destruct (Nat.eq_dec k n) as [->|E].
  - rewrite nsum_zero by (intros; apply H; lia). ring.
  - rewrite IHn, (H n) by (try lia; intros; apply H; lia). ring.
Qed.

Definition meq (A B : mat N) : Prop := forall i j, A i j = B i j.
Lemma meq_refl A : meq A A. Proof. intros i j; reflexivity. Qed.
Lemma meq_sym A B : meq A B -> meq B A. Proof. intros H i j; symmetry; apply H. Qed.
Lemma meq_trans A B C : meq A B -> meq B C -> meq A C. Proof. intros H K i j. rewrite (H i j). apply K. Qed.
Lemma mmul_ext n A A' B B' : meq A A' -> meq B B' -> meq (mmul N n A B) (mmul N n A' B').
Proof. intros H K i j. apply nsum_ext. intros k _. rewrite (H i k), (K k j). reflexivity. Qed.
Lemma madd_ext A A' B B' : meq A A' -> meq B B' -> meq (madd N A B) (madd N A' B').
Proof. intros H K i j. unfold madd. rewrite (H i j), (K i j). reflexivity. Qed.
Lemma mmul_assoc n A B C : meq (mmul N n (mmul N n A B) C) (mmul N n A (mmul N n B C)).
Proof.
  intros i j. unfold mmul. 
  rewrite (nsum_ext n _ (fun k => nsum N n (fun l => A i l *! B l k *! C k j))) by (intros; symmetry; apply nsum_mul_r).
  rewrite nsum_swap. apply nsum_ext. intros l _. rewrite <- nsum_mul_l. apply nsum_ext. intros; ring.
Qed.
Lemma mtrans_mmul n A B : meq (mtrans N (mmul N n A B)) (mmul N n (mtrans N B) (mtrans N A)).
Proof. intros i j. apply nsum_ext. intros; unfold mtrans; ring. Qed.

(* ---- the recursion *)
Lemma repeat_step_out c n K iC : forall Q, repeat_step N c n K iC (step N n K iC Q) = step N n K iC (repeat_step N c n K iC Q).
Proof. induction c; intros; cbn; [reflexivity|apply IHc]. Qed.
Lemma repeat_even c n K iC : repeat_step N c n K iC (mmul N n (mmul N n K iC) K) = recursion n K iC (2 + 2 * c).
Proof.
  induction c; [reflexivity|]. replace (2 + 2 * S c) with (S (S (S (S (2 * c))))) by lia.
  cbn [repeat_step]. rewrite repeat_step_out, IHc. reflexivity.
Qed.
Lemma repeat_odd c n K iC : repeat_step N c n K iC K = recursion n K iC (1 + 2 * c).
Proof.
  induction c; [reflexivity|]. replace (1 + 2 * S c) with (S (S (S (2 * c)))) by lia.
  cbn [repeat_step]. rewrite repeat_step_out, IHc. reflexivity.
Qed.
Lemma native_low n C iC G kappa tau alpha : 1 <= alpha <= 2 ->
  build_Q_native N n C iC G kappa tau alpha = mmul N n (mmul N n tau (recursion n (K_matrix N n C G kappa) iC alpha)) tau.
Proof. intros H. assert (alpha = 1 \/ alpha = 2) as [-> | ->] by lia; reflexivity. Qed.
Lemma native_high n C iC G kappa tau alpha : 3 <= alpha ->
  build_Q_native N n C iC G kappa tau alpha = mmul N n (mmul N n tau (recursion n (K_matrix N n C G kappa) iC (alpha - 2))) tau.
Proof.
  intros H. unfold build_Q_native, range2. destruct (Nat.eqb_spec (alpha mod 2) 0) as [E|E].
  - rewrite repeat_even. do 3 f_equal. pose proof (Nat.div_mod alpha 2 ltac:(lia)).
    replace (alpha - 4 + 1) with ((alpha / 2 - 2) * 2 + 1) by lia. rewrite Nat.div_add_l by lia. change (1 / 2) with 0. lia.
  - rewrite repeat_odd. do 3 f_equal. pose proof (Nat.div_mod alpha 2 ltac:(lia)). pose proof (Nat.mod_upper_bound alpha 2 ltac:(lia)).
    replace (alpha - 3 + 1) with ((alpha / 2 - 1) * 2 + 1) by lia. rewrite Nat.div_add_l by lia. change (1 / 2) with 0. lia.
Qed.

(* ---- symmetry and definiteness *)
Definition beq (n : nat) (A B : mat N) : Prop := forall i j, i < n -> j < n -> A i j = B i j.
Lemma mmul_bext n A A' B B' : beq n A A' -> beq n B B' -> beq n (mmul N n A B) (mmul N n A' B').
Proof. intros H K i j Hi Hj. apply nsum_ext. intros k Hk. rewrite (H i k), (K k j) by assumption. reflexivity. Qed.
Lemma beq_refl n A : beq n A A. Proof. intros i j _ _; reflexivity. Qed.
Lemma beq_trans n A B C : beq n A B -> beq n B C -> beq n A C. Proof. intros H K i j Hi Hj. rewrite (H i j), (K i j) by assumption; reflexivity. Qed.
Lemma beq_meq n A B : meq A B -> beq n A B. Proof. intros H i j _ _; apply H. Qed.
Lemma sym_iff n (A : mat N) : symmetric n A <-> beq n (mtrans N A) A.
Proof. unfold symmetric, beq, mtrans. split; intros H i j Hi Hj; [rewrite (H j i)|rewrite <- (H i j)]; auto. Qed.
Lemma sym_sandwich n (A : mat N) (M : mat N) : symmetric n A -> symmetric n M -> symmetric n (mmul N n (mmul N n A M) A).
Proof.
  rewrite !sym_iff. intros HA HM.
  eapply beq_trans; [apply beq_meq, mtrans_mmul|].
  eapply beq_trans; [apply mmul_bext; [exact HA|eapply beq_trans; [apply beq_meq, mtrans_mmul|apply mmul_bext; [exact HM|exact HA]]]|].
  apply beq_meq, meq_sym, mmul_assoc.
Qed.
Lemma sym_diag n v : symmetric n (mdiag N v).
Proof. intros i j _ _. unfold mdiag. rewrite (Nat.eqb_sym j i). destruct (Nat.eqb_spec i j); [subst|]; reflexivity. Qed.
Lemma sym_add n (A : mat N) (B : mat N) : symmetric n A -> symmetric n B -> symmetric n (madd N A B).
Proof. intros H K i j Hi Hj. unfold madd. rewrite (H i j), (K i j) by assumption. reflexivity. Qed.
Lemma step_sandwich n K iC Q : meq (step N n K iC Q) (mmul N n (mmul N n K (mmul N n (mmul N n iC Q) iC)) K).
Proof.
  apply mmul_ext; [|apply meq_refl].
  eapply meq_trans; [apply mmul_ext; [apply mmul_assoc|apply meq_refl]|]. apply mmul_assoc.
Qed.
Lemma sym_meq n (A : mat N) (B : mat N) : meq A B -> symmetric n A -> symmetric n B.
Proof. intros E H i j Hi Hj. rewrite <- !(E _ _). apply H; assumption. Qed.
Lemma recursion_ind n (K : mat N) (iC : mat N) (P : mat N -> Prop) : P K -> P (mmul N n (mmul N n K iC) K) -> (forall Q, P Q -> P (step N n K iC Q)) ->
  forall a, P (recursion n K iC a).
Proof.
  intros H1 H2 HS. assert (H : forall a, P (recursion n K iC (1 + a)) /\ P (recursion n K iC (2 + a))).
  { induction a; [split; assumption|]. destruct IHa as [IH1 IH2]. split; [exact IH2|]. exact (HS _ IH1). }
  intros [|a]; [exact H1|apply (H a)].
Qed.
Lemma native_recursion n (C : mat N) (iC : mat N) (G : mat N) (kappa : mat N) (tau : mat N) alpha : exists a, 1 <= a /\
  build_Q_native N n C iC G kappa tau alpha = mmul N n (mmul N n tau (recursion n (K_matrix N n C G kappa) iC a)) tau.
Proof.
  destruct (Nat.eq_dec alpha 0) as [->|H0]; [exists 2; split; [lia|reflexivity]|].
  destruct (Nat.le_gt_cases 3 alpha); [exists (alpha - 2); split; [lia|apply native_high; assumption]|
    exists alpha; split; [lia|apply native_low; lia]].
Qed.
Theorem native_symmetric n (C : mat N) (iC : mat N) (G : mat N) (kappa : mat N) (tau : mat N) alpha : symmetric n C -> symmetric n iC -> symmetric n G -> symmetric n kappa -> symmetric n tau ->
  symmetric n (build_Q_native N n C iC G kappa tau alpha).
Proof.
  intros HC HI HG Hk Ht. destruct (native_recursion n C iC G kappa tau alpha) as (a & _ & ->).
  apply sym_sandwich; [exact Ht|]. assert (HK : symmetric n (K_matrix N n C G kappa)) by (apply sym_add; [apply sym_sandwich|]; assumption).
  apply recursion_ind; [exact HK|apply sym_sandwich; assumption|].
  intros Q HQ. eapply sym_meq; [apply meq_sym, step_sandwich|]. apply sym_sandwich; [exact HK|]. apply sym_sandwich; assumption.
Qed.

Lemma apply_mul n (A : mat N) (B : mat N) (x : nat -> N) i : apply n (mmul N n A B) x i = apply n A (apply n B x) i.
Proof.
  unfold apply, mmul. rewrite (nsum_ext n _ (fun k => nsum N n (fun l => A i l *! B l k *! x k))) by (intros; symmetry; apply nsum_mul_r).
  rewrite nsum_swap. apply nsum_ext. intros l _. rewrite <- nsum_mul_l. apply nsum_ext. intros; ring.
Qed.
Lemma apply_ext n (A : mat N) (x : nat -> N) (y : nat -> N) i : (forall k, k < n -> x k = y k) -> apply n A x i = apply n A y i.
Proof. intros H. apply nsum_ext. intros k Hk. rewrite H by assumption. reflexivity. Qed.
Lemma apply_bext n (A : mat N) (B : mat N) (x : nat -> N) i : beq n A B -> i < n -> apply n A x i = apply n B x i.
Proof. intros H Hi. apply nsum_ext. intros k Hk. rewrite (H i k) by assumption. reflexivity. Qed.
Lemma form_bext n (A : mat N) (B : mat N) (x : nat -> N) : beq n A B -> form n A x = form n B x.
Proof. intros H. apply nsum_ext. intros i Hi. rewrite (apply_bext n A B) by assumption. reflexivity. Qed.
Lemma form_add n (A : mat N) (B : mat N) (x : nat -> N) : form n (madd N A B) x = form n A x +! form n B x.
Proof.
  unfold form. rewrite <- nsum_add. apply nsum_ext. intros i _. unfold apply, madd.
  rewrite (nsum_ext n _ (fun k => A i k *! x k +! B i k *! x k)) by (intros; ring). rewrite nsum_add. ring.
Qed.
Lemma inner_sym n (A : mat N) (x : nat -> N) (y : nat -> N) : symmetric n A -> nsum N n (fun i => x i *! apply n A y i) = nsum N n (fun i => y i *! apply n A x i).
Proof.
  intros H. unfold apply.
  rewrite (nsum_ext n _ (fun i => nsum N n (fun k => x i *! (A i k *! y k)))) by (intros; symmetry; apply nsum_mul_l).
  rewrite nsum_swap. apply nsum_ext. intros k Hk. rewrite <- nsum_mul_l. apply nsum_ext. intros i Hi. rewrite (H i k) by assumption. ring.
Qed.
(* x^T A M A x = (A x)^T M (A x) *)
Lemma form_sandwich n (A : mat N) (M : mat N) (x : nat -> N) : symmetric n A -> form n (mmul N n (mmul N n A M) A) x = form n M (apply n A x).
Proof.
  intros H. unfold form. rewrite (nsum_ext n _ (fun i => x i *! apply n A (apply n M (apply n A x)) i))
    by (intros; rewrite !apply_mul; reflexivity).
  rewrite (inner_sym n A x _ H). apply nsum_ext. intros i _. ring.
Qed.

Section Order.
Variable nonneg : N -> Prop.
Variable HO : ordered N nonneg.
Lemma nsum_nonneg n f : (forall i, i < n -> nonneg (f i)) -> nonneg (nsum N n f).
Proof. induction n; cbn; intros H; [apply (o_zero _ _ HO)|]. apply (o_add _ _ HO); [apply IHn; intros; apply H; lia|apply H; lia]. Qed.
Lemma nsum_null n f : (forall i, i < n -> nonneg (f i)) -> nsum N n f = n0 -> forall i, i < n -> f i = n0.
Proof.
  induction n; cbn; intros H E i Hi; [lia|].
  pose proof (nsum_nonneg n f ltac:(intros; apply H; lia)) as P. pose proof (H n ltac:(lia)) as P'.
  destruct (Nat.eq_dec i n) as [->|].
  - apply (o_anti _ _ HO _ (nsum N n f) P' P). rewrite <- E. ring.
  - apply IHn; [intros; apply H; lia| |lia]. apply (o_anti _ _ HO _ (f n) P P' E).
Qed.
Lemma pd_diagonal n (A : mat N) : positive_diagonal nonneg n A -> pd nonneg n A.
Proof.
  intros H.
  assert (E : forall x, form n A x = nsum N n (fun i => A i i *! (x i *! x i))).
  { intros x. apply nsum_ext. intros i Hi. unfold apply. rewrite (nsum_one n i); [ring|exact Hi|].
    intros k Hk Hne. specialize (H i k Hi Hk). destruct (Nat.eqb_spec i k); [congruence|]. rewrite H. ring. }
  assert (P : forall i, i < n -> positive nonneg (A i i)) by (intros i Hi; specialize (H i i Hi Hi); rewrite Nat.eqb_refl in H; exact H).
  assert (Q : forall x i, i < n -> nonneg (A i i *! (x i *! x i))).
  { intros x i Hi. apply (o_mul _ _ HO); [apply P; exact Hi|apply (o_square _ _ HO)]. }
  split.
  - intros x. rewrite E. apply nsum_nonneg. apply Q.
  - intros x Hx i Hi. rewrite E in Hx. pose proof (nsum_null n _ (Q x) Hx i Hi) as Z. cbn in Z.
    apply (o_integral _ _ HO) in Z. destruct Z as [Z|Z]; [destruct (P i Hi); contradiction|].
    apply (o_integral _ _ HO) in Z. destruct Z; assumption.
Qed.
Lemma pd_sandwich n (A : mat N) (M : mat N) : symmetric n A -> (forall x, (forall i, i < n -> apply n A x i = n0) -> forall i, i < n -> x i = n0) ->
  pd nonneg n M -> pd nonneg n (mmul N n (mmul N n A M) A).
Proof.
  intros S I [P1 P2]. split.
  - intros x. rewrite form_sandwich by exact S. apply P1.
  - intros x E. rewrite form_sandwich in E by exact S. apply I. apply P2. exact E.
Qed.
Lemma pd_injective n (A : mat N) : pd nonneg n A -> forall x, (forall i, i < n -> apply n A x i = n0) -> forall i, i < n -> x i = n0.
Proof. intros [_ P] x H. apply P. apply nsum_zero. intros i Hi. rewrite H by exact Hi. ring. Qed.
Lemma pd_add n (A : mat N) (B : mat N) : pd nonneg n A -> psd nonneg n B -> pd nonneg n (madd N A B).
Proof.
  intros [P1 P2] Q. split.
  - intros x. rewrite form_add. apply (o_add _ _ HO); [apply P1|apply Q].
  - intros x E. rewrite form_add in E. apply P2. apply (o_anti _ _ HO _ _ (P1 x) (Q x) E).
Qed.
Lemma pd_bext n (A : mat N) (B : mat N) : beq n A B -> pd nonneg n A -> pd nonneg n B.
Proof. intros E [P1 P2]. split; intros x; rewrite <- (form_bext n A B x E); [apply P1|apply P2]. Qed.
Lemma positive_diagonal_symmetric n (A : mat N) : positive_diagonal nonneg n A -> symmetric n A.
Proof.
  intros H i j Hi Hj. pose proof (H i j Hi Hj) as A1. pose proof (H j i Hj Hi) as A2. rewrite (Nat.eqb_sym j i) in A2.
  destruct (Nat.eqb_spec i j); [subst; reflexivity|congruence].
Qed.
Theorem native_pd n (C : mat N) (iC : mat N) (G : mat N) (kappa : mat N) (tau : mat N) alpha :
  positive_diagonal nonneg n C -> positive_diagonal nonneg n iC -> positive_diagonal nonneg n kappa -> positive_diagonal nonneg n tau ->
  symmetric n G -> psd nonneg n G -> pd nonneg n (build_Q_native N n C iC G kappa tau alpha).
Proof.
  intros HC HI Hk Ht SG PG. pose proof (positive_diagonal_symmetric) as PS.
  assert (SK : symmetric n (K_matrix N n C G kappa)) by (apply sym_add; [apply sym_sandwich|]; auto).
  assert (PK : pd nonneg n (K_matrix N n C G kappa)).
  { apply pd_add; [|exact PG]. apply pd_sandwich; [auto|apply pd_injective, pd_diagonal, Hk|apply pd_diagonal, HC]. }
  destruct (native_recursion n C iC G kappa tau alpha) as (a & _ & ->).
  apply pd_sandwich; [auto|apply pd_injective, pd_diagonal, Ht|].
  apply recursion_ind; [exact PK|apply pd_sandwich; [exact SK|apply pd_injective, PK|apply pd_diagonal, HI]|].
  intros Q HQ. eapply pd_bext; [apply beq_meq, meq_sym, step_sandwich|].
  apply pd_sandwich; [exact SK|apply pd_injective, PK|]. apply pd_sandwich; [auto|apply pd_injective, pd_diagonal, HI|exact HQ].
Qed.
End Order.

(* ---- matrices of the mesh *)
Section Mesh.
Variable inv : N -> N.
Lemma nlist_cons a l : nlist N (a :: l) = a +! nlist N l. Proof. reflexivity. Qed.
Lemma nlist_nil : nlist N [] = n0. Proof. reflexivity. Qed.
Lemma nlist_zero {A} (l : list A) : nlist N (map (fun _ => n0) l) = n0.
Proof. induction l; cbn [map]; rewrite ?nlist_nil, ?nlist_cons; [reflexivity|rewrite IHl; ring]. Qed.
Lemma nlist_app l1 l2 : nlist N (l1 ++ l2) = nlist N l1 +! nlist N l2.
Proof. induction l1; cbn [app]; rewrite ?nlist_nil, ?nlist_cons; [ring|rewrite IHl1; ring]. Qed.
Lemma nlist_flat_map {A B} (f : A -> N) (g : B -> list A) l : nlist N (map f (flat_map g l)) = nlist N (map (fun t => nlist N (map f (g t))) l).
Proof. induction l; cbn [flat_map map]; [reflexivity|]. rewrite map_app, nlist_app, IHl. reflexivity. Qed.
Lemma nlist_ext {A} (f g : A -> N) l : (forall a, In a l -> f a = g a) -> nlist N (map f l) = nlist N (map g l).
Proof. intros H. f_equal. apply map_ext_in. exact H. Qed.
Lemma nsum_nlist {A} n (f : nat -> A -> N) l : nsum N n (fun i => nlist N (map (f i) l)) = nlist N (map (fun a => nsum N n (fun i => f i a)) l).
Proof.
  induction l; cbn [map]; [apply nsum_zero; reflexivity|]. rewrite nlist_cons, <- IHl, <- nsum_add. reflexivity.
Qed.
Lemma nlist_mul_l {A} c (f : A -> N) l : nlist N (map (fun a => c *! f a) l) = c *! nlist N (map f l).
Proof. induction l; cbn [map]; rewrite ?nlist_nil, ?nlist_cons; [ring|rewrite IHl; ring]. Qed.

Definition within (n : nat) (es : list (nat * nat * N)) : Prop := Forall (fun e => fst (fst e) < n /\ snd (fst e) < n) es.
(* the sum of any function of row and column weighted by the entries *)
Lemma coo_weighted n es (w : nat -> nat -> N) : within n es ->
  nsum N n (fun i => nsum N n (fun j => w i j *! coo N es i j)) = nlist N (map (fun e => w (fst (fst e)) (snd (fst e)) *! snd e) es).
Proof.
  intros H. unfold coo.
  transitivity (nsum N n (fun i => nsum N n (fun j => nlist N (map (fun e => w i j *! (if (fst (fst e) =? i) && (snd (fst e) =? j) then snd e else n0)) es)))).
  { apply nsum_ext; intros i _. apply nsum_ext; intros j _. symmetry. apply nlist_mul_l. }
  rewrite (nsum_ext n _ (fun i => nlist N (map (fun e => nsum N n (fun j => w i j *! (if (fst (fst e) =? i) && (snd (fst e) =? j) then snd e else n0))) es)))
    by (intros; apply nsum_nlist).
  rewrite nsum_nlist. apply nlist_ext. intros e He. unfold within in H. rewrite Forall_forall in H. specialize (H e He). destruct e as [[r c] v]. cbn in *.
  rewrite (nsum_one n r); [|tauto|].
  - rewrite Nat.eqb_refl. cbn. rewrite (nsum_one n c); [rewrite Nat.eqb_refl; reflexivity|tauto|].
    intros j _ Hj. destruct (Nat.eqb_spec c j); [congruence|ring].
  - intros i _ Hi. apply nsum_zero. intros j _. destruct (Nat.eqb_spec r i); [congruence|cbn; ring].
Qed.

Lemma within_flat {A} n (g : A -> list (nat * nat * N)) l : (forall a, In a l -> within n (g a)) -> within n (flat_map g l).
Proof. induction l; cbn; intros H; [constructor|]. apply Forall_app. split; [apply H; left; reflexivity|apply IHl; intros; apply H; right; assumption]. Qed.

Definition C_entries (t : tri N) := map (fun a => (t_vertex N t a, t_vertex N t a, t_area N t *! inv (of_nat N 3))) (seq 0 3).
Definition G_entries points (t : tri N) := flat_map (fun a => map (fun b =>
         (t_vertex N t a, t_vertex N t b, inv (of_nat N 4 *! t_area N t) *! pdot N (edge N points t a) (edge N points t b))) (seq 0 3)) (seq 0 3).
Lemma C_within n ts : nodes_below n ts -> within n (flat_map C_entries ts).
Proof.
  intros H. apply within_flat. intros t Ht. unfold nodes_below in H. rewrite Forall_forall in H. specialize (H t Ht).
  cbn. repeat constructor; apply H; lia.
Qed.
Lemma G_within n points ts : nodes_below n ts -> within n (flat_map (G_entries points) ts).
Proof.
  intros H. apply within_flat. intros t Ht. unfold nodes_below in H. rewrite Forall_forall in H. specialize (H t Ht).
  cbn. repeat constructor; apply H; lia.
Qed.

Theorem C_diagonal ts i j : i <> j -> C_tilde N inv ts i j = n0.
Proof.
  intros H. unfold C_tilde, coo. rewrite nlist_flat_map. transitivity (nlist N (map (fun _ => n0) ts)).
  - apply nlist_ext. intros t _. cbn. 
    assert (E : forall r, (r =? i) && (r =? j) = false) by (intros r; destruct (Nat.eqb_spec r i), (Nat.eqb_spec r j); cbn; congruence).
    rewrite !E. ring.
  - apply nlist_zero.
Qed.
Lemma C_entry ts i : C_tilde N inv ts i i =
  nlist N (map (fun t => nlist N (map (fun a => if t_vertex N t a =? i then t_area N t *! inv (of_nat N 3) else n0) (seq 0 3))) ts).
Proof.
  unfold C_tilde, coo. rewrite nlist_flat_map. apply nlist_ext. intros t _. rewrite map_map. apply nlist_ext. intros a _. cbn.
  destruct (t_vertex N t a =? i); reflexivity.
Qed.
Theorem C_total n ts : nodes_below n ts -> of_nat N 3 *! inv (of_nat N 3) = n1 ->
  nsum N n (fun i => C_tilde N inv ts i i) = nlist N (map (t_area N) ts).
Proof.
  intros H I. rewrite (nsum_ext n _ _ (fun i _ => C_entry ts i)). rewrite nsum_nlist. apply nlist_ext. intros t Ht.
  rewrite nsum_nlist. unfold nodes_below in H. rewrite Forall_forall in H. specialize (H t Ht).
  transitivity (nlist N (map (fun _ => t_area N t *! inv (of_nat N 3)) (seq 0 3))).
  - apply nlist_ext. intros a Ha. apply in_seq in Ha. rewrite (nsum_one n (t_vertex N t a)); [rewrite Nat.eqb_refl; reflexivity|apply H; lia|].
    intros i _ Hi. destruct (Nat.eqb_spec (t_vertex N t a) i); [congruence|reflexivity].
  - transitivity (t_area N t *! (of_nat N 3 *! inv (of_nat N 3))); [cbn; ring|rewrite I; ring].
Qed.

Theorem G_symmetric points ts i j : G_matrix N inv points ts i j = G_matrix N inv points ts j i.
Proof.
  unfold G_matrix, coo. rewrite !nlist_flat_map. apply nlist_ext. intros t _. cbn -[of_nat edge pdot].
  assert (E : forall a b, pdot N (edge N points t a) (edge N points t b) = pdot N (edge N points t b) (edge N points t a)) by (intros; unfold pdot; ring).
  rewrite (E 1 0), (E 2 0), (E 2 1).
  set (d := inv (of_nat N 4 *! t_area N t)). clearbody d.
  destruct (t_vertex N t 0 =? i), (t_vertex N t 1 =? i), (t_vertex N t 2 =? i), (t_vertex N t 0 =? j), (t_vertex N t 1 =? j), (t_vertex N t 2 =? j); cbn [andb]; ring.
Qed.
(* the quadratic form of G *)
Theorem G_form n points ts x : nodes_below n ts ->
  form n (G_matrix N inv points ts) x = nlist N (map (fun t => inv (of_nat N 4 *! t_area N t) *! norm2 (corner_sum points t x)) ts).
Proof.
  intros H. pose proof (coo_weighted n _ (fun i j => x i *! x j) (G_within n points ts H)) as E.
  transitivity (nlist N (map (fun e : nat * nat * N => x (fst (fst e)) *! x (snd (fst e)) *! snd e) (flat_map (G_entries points) ts))).
  - rewrite <- E. unfold form, apply. apply nsum_ext. intros i _. rewrite <- nsum_mul_l. apply nsum_ext. intros j _.
    fold (G_matrix N inv points ts). change (coo N (flat_map (G_entries points) ts)) with (G_matrix N inv points ts). ring.
  - rewrite nlist_flat_map. apply nlist_ext. intros t _. cbn -[of_nat].
    set (d := inv (of_nat N 4 *! t_area N t)). clearbody d. unfold norm2, corner_sum, pdot, edge, psub. ring.
Qed.
(* constant functions have no energy: rows of G sum to zero *)
Theorem G_constants n points ts i : nodes_below n ts -> i < n -> nsum N n (fun j => G_matrix N inv points ts i j) = n0.
Proof.
  intros H Hi. pose proof (coo_weighted n _ (fun r _ => if r =? i then n1 else n0) (G_within n points ts H)) as E. cbn beta in E.
  change (coo N (flat_map (G_entries points) ts)) with (G_matrix N inv points ts) in E.
  rewrite (nsum_one n i) in E; [|exact Hi|].
  2:{ intros r _ Hr. apply nsum_zero. intros j _. destruct (Nat.eqb_spec r i); [contradiction|ring]. }
  rewrite Nat.eqb_refl in E. transitivity (nsum N n (fun j => n1 *! G_matrix N inv points ts i j)); [apply nsum_ext; intros; ring|].
  rewrite E, nlist_flat_map. transitivity (nlist N (map (fun _ : tri N => n0) ts)).
  - apply nlist_ext. intros t _. cbn -[of_nat]. set (d := inv (of_nat N 4 *! t_area N t)). clearbody d.
    unfold pdot, edge, psub. ring.
  - apply nlist_zero.
Qed.
Section MeshOrder.
Variable nonneg : N -> Prop.
Variable HO : ordered N nonneg.
Lemma nlist_nonneg {A} (f : A -> N) l : (forall a, In a l -> nonneg (f a)) -> nonneg (nlist N (map f l)).
Proof.
  induction l; cbn [map]; intros H; [apply (o_zero _ _ HO)|]. rewrite nlist_cons.
  apply (o_add _ _ HO); [apply H; left; reflexivity|apply IHl; intros; apply H; right; assumption].
Qed.
Theorem G_psd n points ts : nodes_below n ts -> Forall (fun t => nonneg (inv (of_nat N 4 *! t_area N t))) ts -> psd nonneg n (G_matrix N inv points ts).
Proof.
  intros H P x. rewrite G_form by exact H. apply nlist_nonneg. intros t Ht. rewrite Forall_forall in P.
  apply (o_mul _ _ HO); [apply P; exact Ht|]. unfold norm2. repeat apply (o_add _ _ HO); apply (o_square _ _ HO).
Qed.
Lemma positive_add a b : positive nonneg a -> nonneg b -> positive nonneg (a +! b).
Proof. intros [P Q] R. split; [apply (o_add _ _ HO); assumption|]. intros E. apply Q. exact (o_anti _ _ HO a b P R E). Qed.
Lemma nlist_positive {A} (f : A -> N) l a : In a l -> positive nonneg (f a) -> (forall b, In b l -> nonneg (f b)) -> positive nonneg (nlist N (map f l)).
Proof.
  induction l as [|b l IH]; cbn [map]; intros Hin Ha H; [destruct Hin|]. rewrite nlist_cons. destruct Hin as [->|Hin].
  - apply positive_add; [exact Ha|apply nlist_nonneg; intros; apply H; right; assumption].
  - replace (f b +! nlist N (map f l)) with (nlist N (map f l) +! f b) by ring.
    apply positive_add; [apply IH; [exact Hin|exact Ha|intros; apply H; right; assumption]|apply H; left; reflexivity].
Qed.
Lemma positive_mul a b : positive nonneg a -> positive nonneg b -> positive nonneg (a *! b).
Proof. intros [P Q] [R S]. split; [apply (o_mul _ _ HO); assumption|]. intros E. apply (o_integral _ _ HO) in E. tauto. Qed.
Theorem C_positive n ts : Forall (fun t => positive nonneg (t_area N t)) ts -> positive nonneg (inv (of_nat N 3)) ->
  (forall i, i < n -> exists t a, In t ts /\ a < 3 /\ t_vertex N t a = i) -> positive_diagonal nonneg n (C_tilde N inv ts).
Proof.
  intros P I E i j Hi Hj. destruct (Nat.eqb_spec i j) as [<-|Hne]; [|apply C_diagonal; exact Hne].
  destruct (E i Hi) as (t & a & Ht & Ha & Hv). rewrite C_entry. rewrite Forall_forall in P.
  assert (NN : forall t' b, In t' ts -> nonneg (if t_vertex N t' b =? i then t_area N t' *! inv (of_nat N 3) else n0)).
  { intros t' b Ht'. destruct (t_vertex N t' b =? i); [apply (o_mul _ _ HO); [apply (P _ Ht')|apply I]|apply (o_zero _ _ HO)]. }
  apply (nlist_positive (fun t => nlist N (map (fun a => if t_vertex N t a =? i then t_area N t *! inv (of_nat N 3) else n0) (seq 0 3))) ts t Ht).
  - apply (nlist_positive (fun a => if t_vertex N t a =? i then t_area N t *! inv (of_nat N 3) else n0) (seq 0 3) a); [apply in_seq; lia| |intros; apply NN; exact Ht].
    rewrite Hv, Nat.eqb_refl. apply positive_mul; [apply P; exact Ht|exact I].
  - intros t' Ht'. apply nlist_nonneg. intros b _. apply NN. exact Ht'.
Qed.
End MeshOrder.
End Mesh.

(* ---- the lattice *)
Lemma combine_app {A B} (a b : list A) (c d : list B) : length a = length c -> combine (a ++ b) (c ++ d) = combine a c ++ combine b d.
Proof. revert c. induction a; destruct c; cbn; intros H; try discriminate; [reflexivity|]. rewrite IHa by lia. reflexivity. Qed.
Lemma combine_flat_map {A B C E} (f : A -> list C) (g : B -> list E) l l' : length l = length l' -> (forall a b, length (f a) = length (g b)) ->
  combine (flat_map f l) (flat_map g l') = flat_map (fun p => combine (f (fst p)) (g (snd p))) (combine l l').
Proof.
  intros H K. revert l' H. induction l; destruct l'; cbn; intros H; try discriminate; [reflexivity|].
  rewrite combine_app by apply K. f_equal. apply IHl. lia.
Qed.
Lemma combine_map {A B C E} (f : A -> C) (g : B -> E) l l' : combine (map f l) (map g l') = map (fun p => (f (fst p), g (snd p))) (combine l l').
Proof. revert l'. induction l; destruct l'; cbn; [reflexivity..|]. rewrite IHl. reflexivity. Qed.
Lemma combine_self {A} (l : list A) : combine l l = map (fun a => (a, a)) l.
Proof. induction l; cbn; [reflexivity|]. rewrite IHl. reflexivity. Qed.
Fixpoint pairs_in (ss ss' : list (list nat)) (x y : list nat) : Prop :=
  match ss, ss', x, y with
  | s :: ss, s' :: ss', i :: x, j :: y => In (i, j) (combine s s') /\ pairs_in ss ss' x y
  | [], [], [], [] => True
  | _, _, _, _ => False
  end.
Lemma Forall2_length {A B} (P : A -> B -> Prop) l l' : Forall2 P l l' -> length l = length l'.
Proof. induction 1; cbn; congruence. Qed.
Lemma flat_map_const_length {A B} (f : A -> list B) m l : (forall a, length (f a) = m) -> length (flat_map f l) = length l * m.
Proof. intros H. induction l; cbn; [reflexivity|]. rewrite app_length, IHl, H. reflexivity. Qed.
Lemma grid_length : forall ss ss', Forall2 (fun s s' : list nat => length s = length s') ss ss' -> length (grid ss) = length (grid ss').
Proof.
  induction 1 as [|s s' ss ss' Hl Hr IH]; [reflexivity|]. cbn.
  rewrite (flat_map_const_length _ (length s)), (flat_map_const_length _ (length s')) by (intros; apply map_length). rewrite IH, Hl. reflexivity.
Qed.
Lemma grid_pairs : forall ss ss' x y, Forall2 (fun s s' : list nat => length s = length s') ss ss' ->
  (In (x, y) (combine (grid ss) (grid ss')) <-> pairs_in ss ss' x y).
Proof.
  induction ss as [|s ss IH]; intros ss' x y H; inversion H as [|? s' ? ss1 Hl Hr]; subst.
  - cbn. destruct x, y; split; intros K; try contradiction; try (destruct K as [K|[]]; discriminate); auto.
  - cbn [grid]. rewrite combine_flat_map; [|apply grid_length; exact Hr|intros; rewrite !map_length; exact Hl].
    rewrite in_flat_map. split.
    + intros ([u v] & Huv & K). cbn in K. rewrite combine_map in K. apply in_map_iff in K. destruct K as ([i j] & E & K).
      cbn in E. inversion E; subst. cbn. split; [exact K|]. apply (IH ss1); assumption.
    + destruct x as [|i x], y as [|j y]; cbn; try contradiction. intros [K1 K2]. exists (x, y). split; [apply (IH ss1); assumption|].
      cbn. rewrite combine_map. apply in_map_iff. exists (i, j). split; [reflexivity|exact K1].
Qed.
Definition Li (n : nat) (w : bool) : list nat := if w then (match n with 0 => [] | S m => m :: seq 0 m end) else seq 0 (n - 1).
Definition Lj (n : nat) (w : bool) : list nat := if w then seq 0 n else seq 1 (n - 1).
Lemma slices_i_eq ns wrap d : slices_i ns wrap d = set_nth (map (seq 0) ns) d (Li (nth d ns 0) (wrapped_in wrap d)).
Proof. unfold slices_i, Li, wrapped_in. destruct wrap; reflexivity. Qed.
Lemma slices_j_eq ns wrap d : slices_j ns wrap d = set_nth (map (seq 0) ns) d (Lj (nth d ns 0) (wrapped_in wrap d)).
Proof. unfold slices_j, Lj, wrapped_in. destruct wrap; reflexivity. Qed.
Lemma L_length n w : length (Li n w) = length (Lj n w).
Proof. unfold Li, Lj. destruct w; [destruct n; cbn; rewrite ?seq_length; reflexivity|rewrite !seq_length; reflexivity]. Qed.
Lemma combine_shift m a i j : In (i, j) (combine (seq a m) (seq (S a) m)) <-> S i = j /\ a <= i < a + m.
Proof.
  revert a. induction m; intros a; cbn; [split; [tauto|lia]|]. rewrite IHm. split.
  - intros [E|E]; [inversion E; subst|]; lia.
  - intros [E H]. destruct (Nat.eq_dec i a); [left; subst; reflexivity|right; lia].
Qed.
Lemma L_after n w i j : In (i, j) (combine (Li n w) (Lj n w)) <-> after n w i j.
Proof.
  unfold Li, Lj, after. destruct w.
  - destruct n; [cbn; split; [tauto|intros [H|H]; lia]|]. cbn [seq combine In]. rewrite combine_shift. split.
    + intros [E|E]; [inversion E; subst; right|left]; repeat split; lia.
    + intros [E|E]; [right; lia|left; f_equal; lia].
  - rewrite combine_shift. split; [intros [E H]; left; lia|intros [[E H]|[E _]]; [lia|discriminate]].
Qed.
Lemma set_nth_0 {A} (a : A) l v : set_nth (a :: l) 0 v = v :: l. Proof. reflexivity. Qed.
Lemma set_nth_S {A} (a : A) l d v : set_nth (a :: l) (S d) v = a :: set_nth l d v. Proof. reflexivity. Qed.
Lemma pairs_same ns x y : pairs_in (map (seq 0) ns) (map (seq 0) ns) x y <-> valid ns x /\ x = y.
Proof.
  revert x y. induction ns as [|n ns IH]; intros x y; cbn [map pairs_in].
  - destruct x, y; split; try tauto; try (intros [H E]; inversion H; subst; try discriminate; tauto). intros _. split; [constructor|reflexivity].
  - destruct x as [|i x], y as [|j y]; try (split; [tauto|intros [H E]; inversion H; subst; discriminate]).
    rewrite combine_self, in_map_iff, IH. split.
    + intros [(k & E & Hk) [V <-]]. inversion E; subst. apply in_seq in Hk. split; [constructor; [lia|exact V]|reflexivity].
    + intros [V E]. inversion V; subst. inversion E; subst. split; [exists j; split; [reflexivity|apply in_seq; lia]|split; [assumption|reflexivity]].
Qed.
Lemma after_lt n w i j : after n w i j -> i < n /\ j < n. Proof. unfold after. lia. Qed.
Lemma pairs_links ns d w x y : d < length ns ->
  (pairs_in (set_nth (map (seq 0) ns) d (Li (nth d ns 0) w)) (set_nth (map (seq 0) ns) d (Lj (nth d ns 0) w)) x y <->
   valid ns x /\ valid ns y /\ (forall e, e <> d -> nth e x 0 = nth e y 0) /\ after (nth d ns 0) w (nth d x 0) (nth d y 0)).
Proof.
  revert d x y. induction ns as [|n ns IH]; intros d x y Hd; cbn in Hd; [lia|]. cbn [map]. destruct d as [|d].
  - rewrite !set_nth_0. cbn [nth pairs_in]. destruct x as [|i x], y as [|j y].
    1-3: split; [tauto|intros (V1 & V2 & _); inversion V1; inversion V2; subst; discriminate || tauto].
    rewrite L_after, pairs_same. cbn [nth]. split.
    + intros [A [V <-]]. pose proof (after_lt _ _ _ _ A). do 2 (split; [constructor; [lia|exact V]|]). split; [intros [|e] He; [congruence|reflexivity]|exact A].
    + intros (V1 & V2 & E & A). inversion V1; inversion V2; subst. split; [exact A|]. split; [assumption|].
      apply (nth_ext x y 0 0); [apply Forall2_length in H4; apply Forall2_length in H10; congruence|].
      intros k _. apply (E (S k)). lia.
  - rewrite !set_nth_S. cbn [nth pairs_in]. destruct x as [|i x], y as [|j y].
    1-3: split; [tauto|intros (V1 & V2 & _); inversion V1; inversion V2; subst; discriminate || tauto].
    rewrite combine_self, in_map_iff, IH by lia. cbn [nth]. split.
    + intros [(k & E & Hk) (V1 & V2 & F & A)]. inversion E; subst. apply in_seq in Hk.
      do 2 (split; [constructor; [lia|assumption]|]). split; [|exact A]. intros [|e] He; cbn; [reflexivity|apply F; lia].
    + intros (V1 & V2 & E & A). inversion V1; inversion V2; subst. pose proof (E 0 ltac:(lia)) as E0. cbn in E0. subst j.
      split; [exists i; split; [reflexivity|apply in_seq; lia]|]. do 2 (split; [assumption|]). split; [|exact A].
      intros e He. apply (E (S e)). lia.
Qed.

Lemma ravel_C_from_inj ns : forall a b x y, valid ns x -> valid ns y -> ravel_C_from a ns x = ravel_C_from b ns y -> a = b /\ x = y.
Proof.
  induction ns as [|n ns IH]; intros a b x y V1 V2; inversion V1; inversion V2; subst; cbn; [tauto|]. intros E.
  apply IH in E; [|assumption..]. destruct E as [E ->]. assert (a = b) by nia. subst. split; [reflexivity|f_equal; lia].
Qed.
Lemma ravel_C_inj ns x y : valid ns x -> valid ns y -> ravel_C ns x = ravel_C ns y -> x = y.
Proof. intros V1 V2 E. apply (ravel_C_from_inj ns 0 0 x y V1 V2 E). Qed.

(* x comes just before y in dimension d *)
Definition before (ns : list nat) (wrap : option (list bool)) (d : nat) (x y : list nat) : Prop :=
  (forall e, e <> d -> nth e x 0 = nth e y 0) /\ after (nth d ns 0) (wrapped_in wrap d) (nth d x 0) (nth d y 0).
Lemma in_links ns wrap d x y : d < length ns -> valid ns x -> valid ns y ->
  (existsb (fun p => (fst p =? ravel_C ns x) && (snd p =? ravel_C ns y)) (links ns wrap d) = true <-> before ns wrap d x y).
Proof.
  intros Hd V1 V2. unfold links. rewrite combine_map, existsb_exists, slices_i_eq, slices_j_eq.
  assert (HL : Forall2 (fun s s' : list nat => length s = length s') (set_nth (map (seq 0) ns) d (Li (nth d ns 0) (wrapped_in wrap d)))
                  (set_nth (map (seq 0) ns) d (Lj (nth d ns 0) (wrapped_in wrap d)))).
  { generalize (L_length (nth d ns 0) (wrapped_in wrap d)). generalize (Li (nth d ns 0) (wrapped_in wrap d)) (Lj (nth d ns 0) (wrapped_in wrap d)).
    intros l l' Hl. clear -Hl. revert d. induction ns; intros [|d]; cbn [map]; [constructor..| |].
    - rewrite !set_nth_0. constructor; [exact Hl|]. clear. induction ns; cbn; constructor; auto.
    - rewrite !set_nth_S. constructor; [reflexivity|apply IHns]. }
  split.
  - intros (p & Hp & E). apply in_map_iff in Hp. destruct Hp as ([u v] & <- & Hp). cbn in E.
    apply andb_true_iff in E. destruct E as [E1 E2]. apply Nat.eqb_eq in E1, E2.
    apply (grid_pairs _ _ u v HL) in Hp. apply pairs_links in Hp; [|exact Hd]. destruct Hp as (U1 & U2 & Hp).
    apply ravel_C_inj in E1; [|assumption..]. apply ravel_C_inj in E2; [|assumption..]. subst. exact Hp.
  - intros [H1 H2]. exists (ravel_C ns x, ravel_C ns y). split; [|cbn; rewrite !Nat.eqb_refl; reflexivity].
    apply in_map_iff. exists (x, y). split; [reflexivity|]. apply (grid_pairs _ _ x y HL). apply pairs_links; [exact Hd|]. tauto.
Qed.
Lemma existsb_swap l i j : existsb (fun p => (fst p =? i) && (snd p =? j)) (map swap l) = existsb (fun p => (fst p =? j) && (snd p =? i)) l.
Proof. induction l; cbn; [reflexivity|]. rewrite IHl, (andb_comm (snd a =? i)). reflexivity. Qed.
Lemma adjacent_iff ns wrap d x y : d < length ns -> valid ns x -> valid ns y ->
  (adjacent ns wrap d x y <-> before ns wrap d x y \/ before ns wrap d y x).
Proof.
  intros Hd V1 V2. apply Forall2_length in V1. apply Forall2_length in V2. unfold adjacent, before. split.
  - intros (_ & _ & E & [A|A]); [left|right]; (split; [|exact A]); [exact E|]. intros e He. symmetry. apply E. exact He.
  - intros [[E A]|[E A]]; (split; [congruence|split; [congruence|split; [|tauto]]]); [exact E|]. intros e He. symmetry. apply E. exact He.
Qed.
Lemma assigned ns wrap d v A x y : d < length ns -> valid ns x -> valid ns y ->
  let B := assign N (assign N A (links ns wrap d) v) (map swap (links ns wrap d)) v in
  (adjacent ns wrap d x y -> B (ravel_C ns x) (ravel_C ns y) = v) /\
  (~ adjacent ns wrap d x y -> B (ravel_C ns x) (ravel_C ns y) = A (ravel_C ns x) (ravel_C ns y)).
Proof.
  intros Hd V1 V2 B. unfold B, assign. rewrite existsb_swap, (adjacent_iff ns wrap d x y Hd V1 V2).
  pose proof (in_links ns wrap d x y Hd V1 V2) as E1. pose proof (in_links ns wrap d y x Hd V2 V1) as E2.
  match type of E1 with (?e = true <-> _) => destruct e end; match type of E2 with (?e = true <-> _) => destruct e end;
    (split; [intros H|intros H]); try reflexivity; try (exfalso; apply H; tauto).
  destruct H as [H|H]; [apply E1 in H|apply E2 in H]; discriminate.
Qed.
Lemma neighbours_none ns wrap scales x y : valid ns x -> valid ns y -> forall ds A, (forall d, In d ds -> d < length ns /\ ~ adjacent ns wrap d x y) ->
  neighbours N ns wrap scales ds A (ravel_C ns x) (ravel_C ns y) = A (ravel_C ns x) (ravel_C ns y).
Proof.
  intros V1 V2. induction ds as [|d ds IH]; intros A H; cbn [neighbours]; [reflexivity|].
  rewrite IH by (intros; apply H; right; assumption). destruct (H d (or_introl eq_refl)) as [Hd HA].
  apply (assigned ns wrap d (nopp (nth d scales n0)) A x y Hd V1 V2). exact HA.
Qed.
Lemma neighbours_one ns wrap scales x y d : valid ns x -> valid ns y -> adjacent ns wrap d x y -> (forall e, e <> d -> ~ adjacent ns wrap e x y) ->
  forall ds A, (forall e, In e ds -> e < length ns) -> In d ds -> 
  neighbours N ns wrap scales ds A (ravel_C ns x) (ravel_C ns y) = nopp (nth d scales n0).
Proof.
  intros V1 V2 HA HU. induction ds as [|e ds IH]; intros A Hl Hin; [destruct Hin|]. cbn [neighbours].
  destruct (in_dec Nat.eq_dec d ds) as [Hd|Hd]; [apply IH; [intros; apply Hl; right; assumption|exact Hd]|].
  destruct Hin as [->|Hin]; [|contradiction].
  rewrite neighbours_none; [|assumption..|].
  - apply (assigned ns wrap d (nopp (nth d scales n0)) A x y (Hl d (or_introl eq_refl)) V1 V2). exact HA.
  - intros e He. split; [apply Hl; right; exact He|]. apply HU. intros ->. contradiction.
Qed.
Lemma neighbours_symmetric ns wrap scales : forall ds A, meq (mtrans N A) A -> meq (mtrans N (neighbours N ns wrap scales ds A)) (neighbours N ns wrap scales ds A).
Proof.
  induction ds as [|d ds IH]; intros A H; cbn [neighbours]; [exact H|]. apply IH. intros i j. unfold mtrans, assign.
  rewrite !existsb_swap. pose proof (H i j) as E. unfold mtrans in E. rewrite E.
  destruct (existsb (fun p => (fst p =? i) && (snd p =? j)) (links ns wrap d)), (existsb (fun p => (fst p =? j) && (snd p =? i)) (links ns wrap d)); reflexivity.
Qed.

(* ---- derivatives *)
Variable D : (N -> N) -> N -> N -> Prop.
Variable HD : derivative N D.

Lemma D_val f t a b : a = b -> D f t a -> D f t b. Proof. intros ->; auto. Qed.
Lemma D_nsum n (f : N -> nat -> N) t d : (forall i, i < n -> D (fun s => f s i) t (d i)) -> D (fun s => nsum N n (f s)) t (nsum N n d).
Proof.
  induction n; intros H; cbn; [apply (d_const _ _ HD)|].
  apply (d_add _ _ HD); [apply IHn; intros; apply H; lia|apply H; lia].
Qed.
Lemma ew_const n A t : entrywise D n (fun _ => A) t (zero_matrix N).
Proof. intros i j _ _. apply (d_const _ _ HD). Qed.
Lemma ew_same n A B t dA dB : (forall s i j, A s i j = B s i j) -> (forall i j, dA i j = dB i j) -> entrywise D n A t dA -> entrywise D n B t dB.
Proof. intros H K E i j Hi Hj. rewrite <- K. apply (d_same _ _ HD (fun s => A s i j)); [intros; apply H|apply E; assumption]. Qed.
Lemma ew_add n A B t dA dB : entrywise D n A t dA -> entrywise D n B t dB -> entrywise D n (fun s => madd N (A s) (B s)) t (madd N dA dB).
Proof. intros H K i j Hi Hj. apply (d_add _ _ HD (fun s => A s i j) (fun s => B s i j)); [apply H|apply K]; assumption. Qed.
Lemma ew_mul n A B t dA dB : entrywise D n A t dA -> entrywise D n B t dB ->
  entrywise D n (fun s => mmul N n (A s) (B s)) t (madd N (mmul N n dA (B t)) (mmul N n (A t) dB)).
Proof.
  intros H K i j Hi Hj. unfold mmul, madd. rewrite <- nsum_add.
  apply (D_nsum n (fun s k => A s i k *! B s k j)). intros k Hk.
  apply (d_mul _ _ HD (fun s => A s i k) (fun s => B s k j)); [apply H|apply K]; assumption.
Qed.
Lemma mmul_zero_r n A i j : mmul N n A (zero_matrix N) i j = n0.
Proof. apply nsum_zero. intros; unfold zero_matrix; ring. Qed.
Lemma mmul_zero_l n A i j : mmul N n (zero_matrix N) A i j = n0.
Proof. apply nsum_zero. intros; unfold zero_matrix; ring. Qed.
Lemma ew_mul_c n A B t dA : entrywise D n A t dA -> entrywise D n (fun s => mmul N n (A s) B) t (mmul N n dA B).
Proof.
  intros H. eapply ew_same; [| |exact (ew_mul n A (fun _ => B) t dA _ H (ew_const n B t))]; [reflexivity|].
  intros i j. unfold madd. rewrite mmul_zero_r. ring.
Qed.
Lemma ew_diag n v t d : (forall i, i < n -> D (fun s => v s i) t (d i)) -> entrywise D n (fun s => mdiag N (v s)) t (mdiag N d).
Proof. intros H i j Hi Hj. unfold mdiag. destruct (i =? j); [apply H; assumption|apply (d_const _ _ HD)]. Qed.
Lemma ew_scale n c A t dA : entrywise D n A t dA -> entrywise D n (fun s => mscale N c (A s)) t (mscale N c dA).
Proof.
  intros H i j Hi Hj. unfold mscale. eapply D_val; [|apply (d_mul _ _ HD (fun _ => c) (fun s => A s i j)); [apply (d_const _ _ HD)|apply H; assumption]].
  cbn. ring.
Qed.
Lemma mmul_madd_l n A B C i j : mmul N n (madd N A B) C i j = mmul N n A C i j +! mmul N n B C i j.
Proof. unfold mmul, madd. rewrite <- nsum_add. apply nsum_ext. intros; ring. Qed.
Lemma mmul_madd_r n A B C i j : mmul N n C (madd N A B) i j = mmul N n C A i j +! mmul N n C B i j.
Proof. unfold mmul, madd. rewrite <- nsum_add. apply nsum_ext. intros; ring. Qed.
Lemma mmul3_madd n A B C E i j : mmul N n (mmul N n E (madd N A B)) C i j = mmul N n (mmul N n E A) C i j +! mmul N n (mmul N n E B) C i j.
Proof.
  rewrite <- mmul_madd_l. apply nsum_ext. intros k _. f_equal. apply mmul_madd_r.
Qed.

(* three factors, the middle one constant: A M B *)
Lemma ew_sandwich n A M B t dA dB : entrywise D n A t dA -> entrywise D n B t dB ->
  entrywise D n (fun s => mmul N n (mmul N n (A s) M) (B s)) t (madd N (mmul N n (mmul N n dA M) (B t)) (mmul N n (mmul N n (A t) M) dB)).
Proof. intros H K. apply ew_mul; [apply ew_mul_c|]; assumption. Qed.
Lemma ew_three n A M B t dA dM dB : entrywise D n A t dA -> entrywise D n M t dM -> entrywise D n B t dB ->
  entrywise D n (fun s => mmul N n (mmul N n (A s) (M s)) (B s)) t
    (madd N (madd N (mmul N n (mmul N n dA (M t)) (B t)) (mmul N n (mmul N n (A t) dM) (B t))) (mmul N n (mmul N n (A t) (M t)) dB)).
Proof.
  intros H K L. eapply ew_same; [| |apply ew_mul; [apply ew_mul; [exact H|exact K]|exact L]]; [reflexivity|].
  intros i j. unfold madd at 1 3. rewrite mmul_madd_l. reflexivity.
Qed.

Lemma ew_K n C G kappa t dkappa : entrywise D n kappa t dkappa ->
  entrywise D n (fun s => K_matrix N n C G (kappa s)) t (madd N (mmul N n (mmul N n dkappa C) (kappa t)) (mmul N n (mmul N n (kappa t) C) dkappa)).
Proof.
  intros H. unfold K_matrix. eapply ew_same; [| |apply ew_add; [exact (ew_sandwich n kappa C kappa t _ _ H H)|exact (ew_const n G t)]]; [reflexivity|].
  intros i j. unfold madd at 1, zero_matrix. ring.
Qed.
Lemma ew_step n K iC Q t dK dQ : entrywise D n K t dK -> entrywise D n Q t dQ ->
  entrywise D n (fun s => step N n (K s) iC (Q s)) t (dstep N n (K t) iC dK (Q t) dQ).
Proof.
  intros H L. unfold step, dstep.
  pose proof (ew_mul_c n _ iC t _ (ew_mul n _ _ t _ _ (ew_mul_c n K iC t _ H) L)) as P.
  pose proof (ew_mul n _ K t _ dK P H) as P2.
  eapply ew_same; [| |exact P2]; [reflexivity|].
  apply madd_ext; [|apply meq_refl].
  eapply meq_trans; [apply mmul_ext; [exact (mmul_madd_l n _ _ iC)|apply meq_refl]|exact (mmul_madd_l n _ _ (K t))].
Qed.
Lemma repeat_dstep_fst c n K iC dK : forall Q dQ, fst (repeat_dstep N c n K iC dK Q dQ) = repeat_step N c n K iC Q.
Proof. induction c; intros; cbn; [reflexivity|apply IHc]. Qed.
Lemma ew_repeat c n K iC t dK : entrywise D n K t dK -> forall Q dQ, entrywise D n Q t dQ ->
  entrywise D n (fun s => repeat_step N c n (K s) iC (Q s)) t (snd (repeat_dstep N c n (K t) iC dK (Q t) dQ)).
Proof.
  intros H. induction c; intros Q dQ HQ; cbn; [exact HQ|].
  apply (IHc (fun s => step N n (K s) iC (Q s))). apply ew_step; assumption.
Qed.

Theorem ew_native n C iC G alpha kappa tau t dkappa dtau : entrywise D n kappa t dkappa -> entrywise D n tau t dtau ->
  entrywise D n (fun s => build_Q_native N n C iC G (kappa s) (tau s) alpha) t
    (build_dQdp_native N n C iC G (kappa t) (tau t) alpha dkappa dtau).
Proof.
  intros Hk Ht. unfold build_Q_native, build_dQdp_native. pose proof (ew_K n C G kappa t dkappa Hk) as HK.
  set (dK := madd N (mmul N n (mmul N n dkappa C) (kappa t)) (mmul N n (mmul N n (kappa t) C) dkappa)) in *. clearbody dK.
  destruct (alpha mod 2 =? 0).
  - pose proof (ew_sandwich n _ iC _ t _ _ HK HK) as H2.
    pose proof (ew_repeat (range2 4 alpha) n _ iC t dK HK _ _ H2) as H3.
    match goal with |- context [repeat_dstep N ?c n ?K iC dK ?Q ?dQ] => pose proof (repeat_dstep_fst c n K iC dK Q dQ) as E;
      destruct (repeat_dstep N c n K iC dK Q dQ) as [Q1 dQ1] end.
    cbn [fst snd] in *. subst Q1. apply (ew_three n tau _ tau t dtau dQ1 dtau Ht H3 Ht).
  - pose proof (ew_repeat (range2 3 alpha) n _ iC t dK HK _ _ HK) as H3.
    match goal with |- context [repeat_dstep N ?c n ?K iC dK ?Q ?dQ] => pose proof (repeat_dstep_fst c n K iC dK Q dQ) as E;
      destruct (repeat_dstep N c n K iC dK Q dQ) as [Q1 dQ1] end.
    cbn [fst snd] in *. subst Q1. apply (ew_three n tau _ tau t dtau dQ1 dtau Ht H3 Ht).
Qed.

(* ---- parameters *)
Lemma dot_changed p A theta i j s : j < p -> dot N p A (changed theta j s) i = dot N p A (changed theta j n0) i +! A i j *! s.
Proof.
  intros Hj. unfold dot.
  transitivity (nsum N p (fun k => A i k *! changed theta j n0 k +! (if k =? j then A i j *! s else n0))).
  - apply nsum_ext. intros k _. unfold changed. destruct (Nat.eqb_spec k j); [subst|]; ring.
  - rewrite nsum_add. f_equal. rewrite (nsum_one p j); [rewrite Nat.eqb_refl; reflexivity|exact Hj|].
    intros k _ H. destruct (Nat.eqb_spec k j); [contradiction|reflexivity].
Qed.
Lemma dot_unit p A i j : j < p -> dot N p A (unit_vector N j) i = A i j.
Proof.
  intros Hj. unfold dot. rewrite (nsum_one p j _ Hj); unfold unit_vector; [rewrite Nat.eqb_refl; ring|].
  intros k _ H. destruct (Nat.eqb_spec k j); [contradiction|ring].
Qed.
Lemma changed_same p A theta i j : dot N p A (changed theta j (theta j)) i = dot N p A theta i.
Proof. apply nsum_ext. intros k _. unfold changed. destruct (Nat.eqb_spec k j); [subst|]; reflexivity. Qed.

Variable ex : N -> N.
Variable HE : exponential N D ex.
Lemma D_ex_dot p b0 A theta i j : j < p ->
  D (fun s => ex (b0 +! dot N p A (changed theta j s) i)) (theta j) (A i j *! ex (b0 +! dot N p A theta i)).
Proof.
  intros Hj. pose proof (HE (b0 +! dot N p A (changed theta j n0) i) (A i j) (theta j)) as H.
  eapply D_val; [|eapply (d_same _ _ HD); [|exact H]].
  - rewrite <- (changed_same p A theta i j), (dot_changed p A theta i j (theta j) Hj). do 2 f_equal. ring.
  - intros s. cbn. f_equal. rewrite (dot_changed p A theta i j s Hj). ring.
Qed.
Lemma kappa_vector_changed p b0 rho theta j i : kappa_vector N ex p b0 rho (changed theta j (theta j)) i = kappa_vector N ex p b0 rho theta i.
Proof. unfold kappa_vector. rewrite changed_same. reflexivity. Qed.

Lemma mdiag_ext v w : (forall i, v i = w i) -> meq (mdiag N v) (mdiag N w).
Proof. intros H i j. unfold mdiag. rewrite H. reflexivity. Qed.
Ltac ext := repeat first [apply mmul_ext | apply madd_ext | assumption | apply meq_refl].
Lemma repeat_dstep_ext c n iC : forall K K' dK dK' Q Q' dQ dQ', meq K K' -> meq dK dK' -> meq Q Q' -> meq dQ dQ' ->
  meq (fst (repeat_dstep N c n K iC dK Q dQ)) (fst (repeat_dstep N c n K' iC dK' Q' dQ')) /\
  meq (snd (repeat_dstep N c n K iC dK Q dQ)) (snd (repeat_dstep N c n K' iC dK' Q' dQ')).
Proof.
  induction c; intros; cbn; [split; assumption|]. apply IHc; try assumption; unfold step, dstep; ext.
Qed.
Lemma native_ext n C iC G alpha k k' t t' dk dk' dt dt' : meq k k' -> meq t t' -> meq dk dk' -> meq dt dt' ->
  meq (build_dQdp_native N n C iC G k t alpha dk dt) (build_dQdp_native N n C iC G k' t' alpha dk' dt').
Proof.
  intros Hk Ht Hdk Hdt. unfold build_dQdp_native, K_matrix.
  match goal with |- meq (let '(_, _) := ?x in _) (let '(_, _) := ?y in _) =>
    assert (H : meq (fst x) (fst y) /\ meq (snd x) (snd y)) end.
  { destruct (alpha mod 2 =? 0); apply repeat_dstep_ext; ext. }
  match goal with |- meq (let '(_, _) := ?x in _) (let '(_, _) := ?y in _) => destruct x, y end.
  cbn in H. destruct H. ext.
Qed.

(* ---- build_dQdp holds the derivative of build_Q *)
Theorem build_dQdp_correct n p C iC G b0_kappa b0_tau alpha sigma rho theta j dQ :
  build_dQdp N ex n p C iC G b0_kappa b0_tau alpha sigma rho theta j = Ok dQ ->
  exists Q, (forall s, build_Q N ex n p C iC G b0_kappa b0_tau alpha sigma rho (changed theta j s) = Ok (Q s)) /\
            entrywise D n Q (theta j) dQ.
Proof.
  unfold build_dQdp, build_Q. destruct (2 * alpha <=? 2); [discriminate|]. destruct (p <=? j) eqn:Ej; [discriminate|].
  apply Nat.leb_gt in Ej. intros E. inversion E as [E']. clear E.
  eexists; split; [intros s; reflexivity|].
  eapply ew_same; [intros; reflexivity| |apply (ew_native n C iC G alpha _ _ (theta j))].
  2:{ apply (ew_diag n (fun s => kappa_vector N ex p (b0_kappa alpha) rho (changed theta j s))). intros i _. unfold kappa_vector. apply D_ex_dot. exact Ej. }
  2:{ apply (ew_diag n (fun s => tau_vector N ex p (b0_tau alpha) (of_nat N (alpha - 1)) sigma rho (changed theta j s))). intros i _. unfold tau_vector. apply D_ex_dot. exact Ej. }
  apply native_ext; apply mdiag_ext; intros i; cbn beta; unfold kappa_vector, tau_vector; rewrite ?changed_same, ?dot_unit by exact Ej; reflexivity.
Qed.

(* ---- entries of the lattice matrix *)
Lemma mmul_identity n A i j : j < n -> mmul N n A (identity N) i j = A i j.
Proof.
  intros Hj. unfold mmul, identity, mdiag. rewrite (nsum_one n j _ Hj); [rewrite Nat.eqb_refl; ring|].
  intros k _ Hk. destruct (Nat.eqb_spec k j); [contradiction|ring].
Qed.
Lemma mmul_diag_r n A v i j : j < n -> mmul N n A (mdiag N v) i j = A i j *! v j.
Proof.
  intros Hj. unfold mmul, mdiag. rewrite (nsum_one n j _ Hj); [rewrite Nat.eqb_refl; ring|].
  intros k _ Hk. destruct (Nat.eqb_spec k j); [contradiction|ring].
Qed.
Lemma mmul_diag_l n A v i j : i < n -> mmul N n (mdiag N v) A i j = v i *! A i j.
Proof.
  intros Hi. unfold mmul, mdiag. rewrite (nsum_one n i _ Hi); [rewrite Nat.eqb_refl; ring|].
  intros k _ Hk. destruct (Nat.eqb_spec i k); [congruence|ring].
Qed.
Lemma diag_identity_diag n k i j : i < n -> j < n -> mmul N n (mmul N n (mdiag N k) (identity N)) (mdiag N k) i j = if i =? j then k i *! k i else n0.
Proof.
  intros Hi Hj. rewrite mmul_diag_r, mmul_identity by assumption. unfold mdiag. destruct (Nat.eqb_spec i j); [subst|]; ring.
Qed.
Lemma lattice_entry ns wrap scales k i j : i < n_nodes ns -> j < n_nodes ns ->
  lattice_K N ns wrap scales (mdiag N k) i j =
  (if i =? j then k i *! k i +! nlist N (map (fun s => s +! s) scales) else n0) +! neighbours N ns wrap scales (seq 0 (length ns)) (fun _ _ => n0) i j.
Proof.
  intros Hi Hj. unfold lattice_K, madd. rewrite diag_identity_diag by assumption. unfold mscale, identity, mdiag. destruct (i =? j); ring.
Qed.
Lemma ravel_C_from_lt ns : forall a x, valid ns x -> ravel_C_from a ns x < (a + 1) * n_nodes ns.
Proof.
  induction ns as [|n ns IH]; intros a x V; inversion V; subst; cbn [ravel_C_from]; [cbn; lia|].
  specialize (IH (a * n + y) l' H3). change (n_nodes (n :: ns)) with (n * n_nodes ns). nia.
Qed.
Lemma ravel_C_lt ns x : valid ns x -> ravel_C ns x < n_nodes ns.
Proof. intros V. pose proof (ravel_C_from_lt ns 0 x V). unfold ravel_C. lia. Qed.
(* a dimension that wraps has at least two nodes *)
Definition wraps_ok (ns : list nat) (wrap : option (list bool)) : Prop := forall d, d < length ns -> wrapped_in wrap d = true -> 2 <= nth d ns 0.
Lemma after_irrefl n w i : (w = true -> 2 <= n) -> ~ after n w i i.
Proof. unfold after. intros H [E|(E & A & B)]; [lia|]. specialize (H E). lia. Qed.
Lemma adjacent_unique ns wrap d e x y : wraps_ok ns wrap -> valid ns x -> adjacent ns wrap d x y -> e <> d -> ~ adjacent ns wrap e x y.
Proof.
  intros W V (L & Hd & E & A) Hne (_ & _ & E' & A'). apply Forall2_length in V. specialize (E' d ltac:(congruence)).
  rewrite E' in A. assert (B : after (nth d ns 0) (wrapped_in wrap d) (nth d y 0) (nth d y 0)) by tauto.
  revert B. apply after_irrefl. apply W. lia.
Qed.
Lemma adjacent_neq ns wrap d x y : wraps_ok ns wrap -> valid ns x -> adjacent ns wrap d x y -> x <> y.
Proof.
  intros W V (L & Hd & E & A) ->. apply Forall2_length in V.
  assert (B : after (nth d ns 0) (wrapped_in wrap d) (nth d y 0) (nth d y 0)) by tauto.
  revert B. apply after_irrefl. apply W. lia.
Qed.
Theorem lattice_links ns wrap scales k x y : wraps_ok ns wrap -> valid ns x -> valid ns y ->
  (forall d, adjacent ns wrap d x y -> lattice_K N ns wrap scales (mdiag N k) (ravel_C ns x) (ravel_C ns y) = nopp (nth d scales n0)) /\
  (x <> y -> (forall d, ~ adjacent ns wrap d x y) -> lattice_K N ns wrap scales (mdiag N k) (ravel_C ns x) (ravel_C ns y) = n0) /\
  (x = y -> lattice_K N ns wrap scales (mdiag N k) (ravel_C ns x) (ravel_C ns y) =
            k (ravel_C ns x) *! k (ravel_C ns x) +! nlist N (map (fun s => s +! s) scales)).
Proof.
  intros W V1 V2. pose proof (Forall2_length _ _ _ V1) as L1. rewrite lattice_entry by (apply ravel_C_lt; assumption).
  assert (HS : forall e, In e (seq 0 (length ns)) -> e < length ns) by (intros e He; apply in_seq in He; lia).
  split; [|split].
  - intros d HA. destruct (Nat.eqb_spec (ravel_C ns x) (ravel_C ns y)) as [E|_].
    + apply ravel_C_inj in E; [|assumption..]. destruct (adjacent_neq ns wrap d x y W V1 HA E).
    + rewrite (neighbours_one ns wrap scales x y d V1 V2 HA); [ring| |exact HS|].
      * intros e He. apply (adjacent_unique ns wrap d e x y W V1 HA He).
      * apply in_seq. destruct HA as (_ & HA & _). lia.
  - intros Hne HN. destruct (Nat.eqb_spec (ravel_C ns x) (ravel_C ns y)) as [E|_].
    + apply ravel_C_inj in E; [|assumption..]. contradiction.
    + rewrite neighbours_none; [ring|assumption..|]. intros d Hd. split; [apply HS, Hd|apply HN].
  - intros ->. rewrite Nat.eqb_refl, neighbours_none; [ring|assumption..|]. intros d Hd. split; [apply HS, Hd|].
    intros HA. exact (adjacent_neq ns wrap d y y W V1 HA eq_refl).
Qed.

Theorem lattice_one n wrap scale k i j : wraps_ok [n] wrap -> i < n -> j < n ->
  lattice_K N [n] wrap [scale] (mdiag N k) i j =
  if i =? j then k i *! k i +! (scale +! scale)
  else if (S i =? j) || (S j =? i) || (wrapped_in wrap 0 && (((S i =? n) && (j =? 0)) || ((S j =? n) && (i =? 0)))) then nopp scale else n0.
Proof.
  intros W Hi Hj. assert (V1 : valid [n] [i]) by (constructor; [exact Hi|constructor]). assert (V2 : valid [n] [j]) by (constructor; [exact Hj|constructor]).
  pose proof (lattice_links [n] wrap [scale] k [i] [j] W V1 V2) as (H1 & H2 & H3).
  assert (AE : forall d, adjacent [n] wrap d [i] [j] <-> d = 0 /\ (after n (wrapped_in wrap 0) i j \/ after n (wrapped_in wrap 0) j i)).
  { intros d. unfold adjacent. cbn [length]. split.
    - intros (_ & Hd & _ & A). assert (d = 0) by lia. subst. split; [reflexivity|exact A].
    - intros [-> A]. split; [reflexivity|split; [lia|split; [|exact A]]]. intros [|[|e]] He; [congruence|reflexivity|reflexivity]. }
  change (ravel_C [n] [i]) with i in *. change (ravel_C [n] [j]) with j in *.
  destruct (Nat.eqb_spec i j) as [E|Hne].
  - rewrite H3 by congruence. cbn [map]. unfold nlist. cbn [fold_right]. ring.
  - destruct ((S i =? j) || (S j =? i) || (wrapped_in wrap 0 && (((S i =? n) && (j =? 0)) || ((S j =? n) && (i =? 0))))) eqn:B.
    + rewrite (H1 0); [reflexivity|]. apply AE. split; [reflexivity|]. unfold after.
      rewrite !orb_true_iff, !andb_true_iff, !orb_true_iff, !andb_true_iff, !Nat.eqb_eq in B. intuition lia.
    + apply H2; [congruence|]. intros d A. apply AE in A. destruct A as [_ A]. unfold after in A.
      rewrite !orb_false_iff, !andb_false_iff, !orb_false_iff, !andb_false_iff, !Nat.eqb_neq in B. intuition (try lia; congruence).
Qed.

(* ---- derivative of the lattice precision *)
Lemma slices_none ns wrap d : (forall e, wrapped_in wrap e = false) -> links ns wrap d = links ns None d.
Proof. intros H. unfold links. rewrite !slices_i_eq, !slices_j_eq, H. reflexivity. Qed.
Lemma neighbours_unwrapped ns wrap scales ds : (forall e, wrapped_in wrap e = false) -> forall A, neighbours N ns wrap scales ds A = neighbours N ns None scales ds A.
Proof. intros H. induction ds; intros A; cbn [neighbours]; [reflexivity|]. rewrite (slices_none ns wrap a H). apply IHds. Qed.
Lemma lattice_K_unwrapped ns wrap scales kappa : (forall e, wrapped_in wrap e = false) -> lattice_K N ns wrap scales kappa = lattice_K N ns None scales kappa.
Proof. intros H. unfold lattice_K. rewrite (neighbours_unwrapped ns wrap scales _ H). reflexivity. Qed.
Lemma lattice_K_symmetric ns wrap scales k : symmetric (n_nodes ns) (lattice_K N ns wrap scales (mdiag N k)).
Proof.
  apply sym_add; [apply sym_add|].
  - apply sym_sandwich; apply sym_diag.
  - intros i j _ _. unfold mscale, identity, mdiag. rewrite (Nat.eqb_sym j i). reflexivity.
  - intros i j _ _. symmetry. apply (neighbours_symmetric ns wrap scales (seq 0 (length ns)) (fun _ _ => n0)). intros a b; reflexivity.
Qed.
Lemma ew_lattice_K ns wrap scales kappa t dkappa : entrywise D (n_nodes ns) kappa t dkappa ->
  entrywise D (n_nodes ns) (fun s => lattice_K N ns wrap scales (kappa s)) t
    (madd N (mmul N (n_nodes ns) (mmul N (n_nodes ns) dkappa (identity N)) (kappa t)) (mmul N (n_nodes ns) (mmul N (n_nodes ns) (kappa t) (identity N)) dkappa)).
Proof.
  intros H. unfold lattice_K.
  eapply ew_same; [| |apply ew_add; [apply ew_add; [exact (ew_sandwich _ kappa (identity N) kappa t _ _ H H)|apply ew_const]|apply ew_const]]; [reflexivity|].
  intros i j. unfold madd at 1 2, zero_matrix. ring.
Qed.
Lemma ew_b n A B t dA : (forall s, beq n (A s) (B s)) -> entrywise D n A t dA -> entrywise D n B t dA.
Proof. intros H E i j Hi Hj. apply (d_same _ _ HD (fun s => A s i j)); [intros; apply H; assumption|apply E; assumption]. Qed.
Lemma ew_v n A t dA dB : beq n dA dB -> entrywise D n A t dA -> entrywise D n A t dB.
Proof. intros H E i j Hi Hj. rewrite <- H by assumption. apply E; assumption. Qed.
Lemma madd_bext n A A' B B' : beq n A A' -> beq n B B' -> beq n (madd N A B) (madd N A' B').
Proof. intros H K i j Hi Hj. unfold madd. rewrite (H i j), (K i j) by assumption. reflexivity. Qed.

Lemma madd_app A B i j : madd N A B i j = A i j +! B i j. Proof. reflexivity. Qed.
Lemma assoc3 n E A B C i j : mmul N n (mmul N n E (mmul N n A B)) C i j = mmul N n (mmul N n (mmul N n E A) B) C i j.
Proof. apply mmul_ext; [apply meq_sym, mmul_assoc|apply meq_refl]. Qed.
Theorem ew_lattice ns wrap scales volume k tau alpha t dk dtau dQ : (forall e, wrapped_in wrap e = false) ->
  (forall i, i < n_nodes ns -> D (fun s => k s i) t (dk i)) -> entrywise D (n_nodes ns) tau t dtau ->
  lattice_dQ N ns wrap scales volume (mdiag N (k t)) (tau t) alpha (mdiag N dk) dtau = Ok dQ ->
  exists Q, (forall s, lattice_Q N ns wrap scales volume (mdiag N (k s)) (tau s) alpha = Ok (Q s)) /\ entrywise D (n_nodes ns) Q t dQ.
Proof.
  intros W Hk Ht. unfold lattice_dQ, lattice_Q. set (n := n_nodes ns) in *.
  pose proof (ew_lattice_K ns None scales _ t _ (ew_diag n k t dk Hk)) as HK. fold n in HK.
  set (dK := madd N (mmul N n (mmul N n (mdiag N dk) (identity N)) (mdiag N (k t))) (mmul N n (mmul N n (mdiag N (k t)) (identity N)) (mdiag N dk))) in *. clearbody dK.
  assert (EK : forall s, lattice_K N ns wrap scales (mdiag N (k s)) = lattice_K N ns None scales (mdiag N (k s))) by (intros; apply lattice_K_unwrapped; exact W).
  assert (SK : forall s, symmetric n (lattice_K N ns None scales (mdiag N (k s)))) by (intros; apply lattice_K_symmetric).
  set (K := fun s => lattice_K N ns None scales (mdiag N (k s))) in *.
  destruct alpha as [|[|[|alpha]]]; [discriminate| | |discriminate]; intros E; inversion E; subst; clear E; cbn [Nat.ltb Nat.leb Nat.eqb].
  - eexists; split; [intros s; rewrite EK; reflexivity|]. apply ew_scale. change (lattice_K N ns None scales (mdiag N (k t))) with (K t).
    apply (ew_three n tau K tau t dtau dK dtau Ht HK Ht).
  - eexists; split; [intros s; rewrite EK; reflexivity|]. apply ew_scale. change (lattice_K N ns None scales (mdiag N (k t))) with (K t).
    pose proof (ew_three n tau _ tau t dtau _ dtau Ht (ew_mul n K K t dK dK HK HK) Ht) as P.
    eapply ew_b; [|eapply ew_v; [|exact P]].
    + intros s. apply mmul_bext; [|apply beq_refl]. apply mmul_bext; [apply beq_refl|]. apply mmul_bext; [|apply beq_refl].
      pose proof (proj1 (sym_iff n (K s)) (SK s)) as Q. intros i j Hi Hj. symmetry. apply Q; assumption.
    + apply beq_meq. intros i j. rewrite !madd_app, mmul3_madd, !assoc3. ring.
Qed.

Lemma mscale_ext c A B : meq A B -> meq (mscale N c A) (mscale N c B).
Proof. intros H i j. unfold mscale. rewrite (H i j). reflexivity. Qed.
Lemma lattice_dQ_ext ns wrap scales volume alpha k k' t t' dk dk' dt dt' dQ : meq k k' -> meq t t' -> meq dk dk' -> meq dt dt' ->
  lattice_dQ N ns wrap scales volume k t alpha dk dt = Ok dQ ->
  exists dQ', lattice_dQ N ns wrap scales volume k' t' alpha dk' dt' = Ok dQ' /\ meq dQ' dQ.
Proof.
  intros Hk Ht Hdk Hdt. apply meq_sym in Hk, Ht, Hdk, Hdt. unfold lattice_dQ, lattice_K.
  destruct alpha as [|[|[|alpha]]]; [discriminate| | |discriminate]; intros E; inversion E; subst; clear E;
    (eexists; split; [reflexivity|]); apply mscale_ext; ext.
Qed.
Theorem lattice_dQdp_correct ns wrap scales volume p b0_kappa b0_tau nu alpha sigma rho theta j dQ : (forall e, wrapped_in wrap e = false) ->
  lattice_build_dQdp N ex ns wrap scales volume p b0_kappa b0_tau nu alpha sigma rho theta j = Ok dQ ->
  exists Q, (forall s, lattice_build_Q N ex ns wrap scales volume p b0_kappa b0_tau nu alpha sigma rho (changed theta j s) = Ok (Q s)) /\
            entrywise D (n_nodes ns) Q (theta j) dQ.
Proof.
  intros W. unfold lattice_build_dQdp, lattice_build_Q. destruct (2 * alpha <=? length ns); [discriminate|].
  destruct (p <=? j) eqn:Ej; [discriminate|]. apply Nat.leb_gt in Ej. intros E.
  set (k := fun s => kappa_vector N ex p (b0_kappa alpha) rho (changed theta j s)).
  set (ta := fun s => tau_vector N ex p (b0_tau alpha) (nu alpha) sigma rho (changed theta j s)).
  eapply (lattice_dQ_ext _ _ _ _ _ _ (mdiag N (k (theta j))) _ (mdiag N (ta (theta j)))
            _ (mdiag N (fun i => kappa_design N rho i j *! kappa_vector N ex p (b0_kappa alpha) rho theta i))
            _ (mdiag N (fun i => tau_design N (nu alpha) sigma rho i j *! tau_vector N ex p (b0_tau alpha) (nu alpha) sigma rho theta i))) in E.
  2-5: apply mdiag_ext; intros i; unfold k, ta, kappa_vector, tau_vector; rewrite ?changed_same; reflexivity.
  destruct E as (dQ' & E & EQ).
  apply (ew_lattice ns wrap scales volume k (fun s => mdiag N (ta s)) alpha (theta j)) in E; [|exact W| |].
  - destruct E as (Q & HQ & HE'). exists Q. split; [exact HQ|]. eapply ew_v; [|exact HE']. apply beq_meq. exact EQ.
  - intros i _. unfold k, kappa_vector. apply D_ex_dot. exact Ej.
  - apply (ew_diag _ ta). intros i _. unfold ta, tau_vector. apply D_ex_dot. exact Ej.
Qed.

Lemma repeat_step_ext c n iC : forall K K' Q Q', meq K K' -> meq Q Q' -> meq (repeat_step N c n K iC Q) (repeat_step N c n K' iC Q').
Proof. induction c; intros; cbn; [assumption|]. apply IHc; try assumption; unfold step; ext. Qed.
Lemma native_Q_ext n C iC G alpha k k' t t' : meq k k' -> meq t t' ->
  meq (build_Q_native N n C iC G k t alpha) (build_Q_native N n C iC G k' t' alpha).
Proof.
  intros Hk Ht. unfold build_Q_native, K_matrix. destruct (alpha mod 2 =? 0); ext; apply repeat_step_ext; ext.
Qed.
Lemma dot_ext p A u v i : (forall k, k < p -> u k = v k) -> dot N p A u i = dot N p A v i.
Proof. intros H. apply nsum_ext. intros k Hk. rewrite H by exact Hk. reflexivity. Qed.
Lemma build_Q_ext n p C iC G b0_kappa b0_tau alpha sigma rho u v Q R : (forall k, k < p -> u k = v k) ->
  build_Q N ex n p C iC G b0_kappa b0_tau alpha sigma rho u = Ok Q -> build_Q N ex n p C iC G b0_kappa b0_tau alpha sigma rho v = Ok R -> meq Q R.
Proof.
  intros H. unfold build_Q. destruct (2 * alpha <=? 2); [discriminate|]. intros E F. inversion E. inversion F.
  apply native_Q_ext; apply mdiag_ext; intros i; unfold kappa_vector, tau_vector; rewrite (dot_ext p _ u v) by exact H; reflexivity.
Qed.
Lemma lattice_build_Q_ext ns wrap scales volume p b0_kappa b0_tau nu alpha sigma rho u v Q R : (forall k, k < p -> u k = v k) ->
  lattice_build_Q N ex ns wrap scales volume p b0_kappa b0_tau nu alpha sigma rho u = Ok Q ->
  lattice_build_Q N ex ns wrap scales volume p b0_kappa b0_tau nu alpha sigma rho v = Ok R -> meq Q R.
Proof.
  intros H. unfold lattice_build_Q, lattice_Q. destruct (2 <? alpha); [discriminate|]. intros E F. inversion E. inversion F.
  apply mscale_ext.
  assert (HK : meq (mdiag N (kappa_vector N ex p (b0_kappa alpha) rho u)) (mdiag N (kappa_vector N ex p (b0_kappa alpha) rho v)))
    by (apply mdiag_ext; intros i; unfold kappa_vector; rewrite (dot_ext p _ u v) by exact H; reflexivity).
  assert (HT : meq (mdiag N (tau_vector N ex p (b0_tau alpha) (nu alpha) sigma rho u)) (mdiag N (tau_vector N ex p (b0_tau alpha) (nu alpha) sigma rho v)))
    by (apply mdiag_ext; intros i; unfold tau_vector; rewrite (dot_ext p _ u v) by exact H; reflexivity).
  unfold lattice_K. destruct (alpha =? 2); ext. intros i j. unfold mtrans. revert i j.
  match goal with |- forall i j, ?A j i = ?B j i => assert (HE2 : meq A B) by ext end. intros i j. apply HE2.
Qed.
Lemma changed_two_0 a b s k : k < 2 -> changed (two N a b) 0 s k = two N s b k.
Proof. unfold changed. destruct k as [|[|k]]; cbn; intros; [reflexivity..|lia]. Qed.
Lemma changed_two_1 a b s k : k < 2 -> changed (two N a b) 1 s k = two N a s k.
Proof. unfold changed. destruct k as [|[|k]]; cbn; intros; [reflexivity..|lia]. Qed.

(* ---- priors of space-time elements *)
Lemma ew_kron_r m n A B t dB : 0 < m -> entrywise D m B t dB -> entrywise D (n * m) (fun s => mkron N m A (B s)) t (mkron N m A dB).
Proof.
  intros Hm H i j Hi Hj. unfold mkron.
  eapply D_val; [|apply (d_mul _ _ HD (fun _ => A (i / m) (j / m)) (fun s => B s (i mod m) (j mod m))); [apply (d_const _ _ HD)|apply H; apply Nat.mod_upper_bound; lia]].
  cbn. ring.
Qed.
Lemma ew_kron_l m n A B t dA : 0 < m -> entrywise D n A t dA -> entrywise D (n * m) (fun s => mkron N m (A s) B) t (mkron N m dA B).
Proof.
  intros Hm H i j Hi Hj. unfold mkron.
  eapply D_val; [|apply (d_mul _ _ HD (fun s => A s (i / m) (j / m)) (fun _ => B (i mod m) (j mod m))); [apply H; apply Nat.div_lt_upper_bound; lia|apply (d_const _ _ HD)]].
  cbn. ring.
Qed.
Theorem kronecker_correct m n Qs dQs Qt dQt theta index : 0 < m ->
  entrywise D m (fun s => Qs s (theta 1)) (theta 0) (dQs 0 (theta 0) (theta 1)) ->
  entrywise D m (fun s => Qs (theta 0) s) (theta 1) (dQs 1 (theta 0) (theta 1)) ->
  entrywise D n Qt (theta 2) (dQt (theta 2)) -> index < 3 ->
  entrywise D (n * m) (fun s => kronecker_precision N m Qs Qt (changed theta index s)) (theta index) (kronecker_derivative N m Qs dQs Qt dQt theta index).
Proof.
  intros Hm H0 H1 H2 Hi. destruct index as [|[|[|index]]]; [| | |lia]; unfold kronecker_precision, kronecker_derivative, changed; cbn [Nat.eqb Nat.ltb Nat.leb].
  - apply (ew_kron_r m n (Qt (theta 2)) (fun s => Qs s (theta 1))); assumption.
  - apply (ew_kron_r m n (Qt (theta 2)) (fun s => Qs (theta 0) s)); assumption.
  - apply (ew_kron_l m n Qt); assumption.
Qed.
Lemma ew_block m n A B t dA dB : entrywise D m A t dA -> entrywise D n B t dB -> entrywise D (m + n) (fun s => mblock N m (A s) (B s)) t (mblock N m dA dB).
Proof.
  intros H K i j Hi Hj. unfold mblock. destruct (Nat.ltb_spec i m), (Nat.ltb_spec j m); try apply (d_const _ _ HD).
  - apply H; assumption.
  - apply K; lia.
Qed.
Theorem factor_correct m n Qs dQs Qt dQt theta index :
  entrywise D m (fun s => Qs s (theta 1)) (theta 0) (dQs 0 (theta 0) (theta 1)) ->
  entrywise D m (fun s => Qs (theta 0) s) (theta 1) (dQs 1 (theta 0) (theta 1)) ->
  entrywise D n Qt (theta 2) (dQt (theta 2)) -> index < 3 ->
  entrywise D (m + n) (fun s => factor_precision N m Qs Qt (changed theta index s)) (theta index) (factor_derivative N m Qs dQs Qt dQt theta index).
Proof.
  intros H0 H1 H2 Hi. destruct index as [|[|[|index]]]; [| | |lia]; unfold factor_precision, factor_derivative, changed; cbn [Nat.eqb Nat.ltb Nat.leb].
  - apply (ew_block m n (fun s => Qs s (theta 1)) (fun _ => Qt (theta 2))); [exact H0|apply ew_const].
  - apply (ew_block m n (fun s => Qs (theta 0) s) (fun _ => Qt (theta 2))); [exact H1|apply ew_const].
  - apply (ew_block m n (fun _ => Qs (theta 0) (theta 1)) Qt); [apply ew_const|exact H2].
Qed.

(* the stationary models *)
Theorem stationary_correct n C iC G b0_kappa b0_tau alpha Qs dQs a b :
  (forall a b, build_Q_stationary N ex n C iC G b0_kappa b0_tau alpha a b = Ok (Qs a b)) ->
  (forall i a b, i < 2 -> build_dQdp_stationary N ex n C iC G b0_kappa b0_tau alpha a b i = Ok (dQs i a b)) ->
  entrywise D n (fun s => Qs s b) a (dQs 0 a b) /\ entrywise D n (fun s => Qs a s) b (dQs 1 a b).
Proof.
  intros HQ HdQ. split.
  - destruct (build_dQdp_correct _ _ _ _ _ _ _ _ _ _ _ _ _ (HdQ 0 a b ltac:(lia))) as (Q & E & H). cbn [two] in H.
    eapply ew_b; [|exact H]. intros s. apply beq_meq. eapply build_Q_ext; [|apply E|apply HQ]. intros k Hk. apply changed_two_0; exact Hk.
  - destruct (build_dQdp_correct _ _ _ _ _ _ _ _ _ _ _ _ _ (HdQ 1 a b ltac:(lia))) as (Q & E & H). cbn [two] in H.
    eapply ew_b; [|exact H]. intros s. apply beq_meq. eapply build_Q_ext; [|apply E|apply HQ]. intros k Hk. apply changed_two_1; exact Hk.
Qed.
Theorem lattice_stationary_correct ns wrap scales volume b0_kappa b0_tau nu alpha Qt dQt a b : (forall e, wrapped_in wrap e = false) ->
  (forall b, lattice_Q_stationary N ex ns wrap scales volume b0_kappa b0_tau nu alpha a b = Ok (Qt b)) ->
  lattice_dQdp_stationary N ex ns wrap scales volume b0_kappa b0_tau nu alpha a b 1 = Ok dQt ->
  entrywise D (n_nodes ns) Qt b dQt.
Proof.
  intros W HQ HdQ. destruct (lattice_dQdp_correct _ _ _ _ _ _ _ _ _ _ _ _ _ _ W HdQ) as (Q & E & H). cbn [two] in H.
  eapply ew_b; [|exact H]. intros s. apply beq_meq. eapply lattice_build_Q_ext; [|apply E|apply HQ]. intros k Hk. apply changed_two_1; exact Hk.
Qed.

(* stationary and expanded parameters *)
Lemma nsum_plus n m (f : nat -> N) : nsum N (n + m) f = nsum N n f +! nsum N m (fun k => f (n + k)).
Proof. induction m; cbn; [rewrite Nat.add_0_r; ring|]. rewrite Nat.add_succ_r. cbn. rewrite IHm. ring. Qed.
Lemma kappa_stationary b0 a b i : kappa_vector N ex 2 b0 (rho_stationary N) (two N a b) i = ex (b0 +! nopp b).
Proof. unfold kappa_vector, dot. f_equal. unfold kappa_design, rho_stationary. cbn. ring. Qed.
Lemma tau_stationary b0 nu a b i : tau_vector N ex 2 b0 nu (sigma_stationary N) (rho_stationary N) (two N a b) i = ex (b0 +! nopp a +! nu *! b).
Proof. unfold tau_vector, dot. f_equal. unfold tau_design, kappa_design, rho_stationary, sigma_stationary. cbn. ring. Qed.
Lemma dot_rho_expanded n a b i : i < n -> dot N (n + n) (kappa_design N (rho_expanded N n)) (both N n a b) i = nopp (b i).
Proof.
  intros Hi. unfold dot. rewrite nsum_plus. rewrite nsum_zero, (nsum_one n i).
  - unfold kappa_design, rho_expanded, both. destruct (Nat.leb_spec n (n + i)); [|lia]. replace (n + i - n) with i by lia. rewrite Nat.eqb_refl.
    destruct (Nat.ltb_spec (n + i) n); [lia|]. cbn. ring.
  - exact Hi.
  - intros k Hk Hne. unfold kappa_design, rho_expanded. replace (n + k - n) with k by lia. destruct (Nat.eqb_spec i k); [congruence|]. rewrite andb_false_r. ring.
  - intros k Hk. unfold kappa_design, rho_expanded. destruct (Nat.leb_spec n k); [lia|]. cbn. ring.
Qed.
Lemma kappa_expanded n b0 a b i : i < n -> kappa_vector N ex (n + n) b0 (rho_expanded N n) (both N n a b) i = ex (b0 +! nopp (b i)).
Proof. intros Hi. unfold kappa_vector. rewrite dot_rho_expanded by exact Hi. reflexivity. Qed.
Lemma tau_expanded n b0 nu a b i : i < n ->
  tau_vector N ex (n + n) b0 nu (sigma_expanded N n) (rho_expanded N n) (both N n a b) i = ex (b0 +! nopp (a i) +! nu *! b i).
Proof.
  intros Hi. unfold tau_vector.
  assert (E : dot N (n + n) (tau_design N nu (sigma_expanded N n) (rho_expanded N n)) (both N n a b) i = nopp (a i) +! nu *! b i).
  { transitivity (nsum N (n + n) (fun j => nopp (sigma_expanded N n i j) *! both N n a b j) +! nopp nu *! dot N (n + n) (kappa_design N (rho_expanded N n)) (both N n a b) i).
    - unfold dot. rewrite <- nsum_mul_l, <- nsum_add. apply nsum_ext. intros j _. unfold tau_design. ring.
    - rewrite dot_rho_expanded by exact Hi. rewrite nsum_plus. rewrite (nsum_one n i _ Hi), nsum_zero.
      + unfold sigma_expanded, both. destruct (Nat.ltb_spec i n); [|lia]. rewrite Nat.eqb_refl. cbn. ring.
      + intros k Hk. unfold sigma_expanded. destruct (Nat.ltb_spec (n + k) n); [lia|]. cbn. ring.
      + intros k Hk Hne. unfold sigma_expanded. destruct (Nat.eqb_spec i k); [congruence|]. rewrite andb_false_r. ring. }
  rewrite E. f_equal. ring.
Qed.
Lemma native_Q_bext n C iC G alpha k k' t t' : beq n k k' -> beq n t t' ->
  beq n (build_Q_native N n C iC G k t alpha) (build_Q_native N n C iC G k' t' alpha).
Proof.
  intros Hk Ht.
  assert (HK : beq n (K_matrix N n C G k) (K_matrix N n C G k')).
  { apply madd_bext; [|apply beq_refl]. repeat apply mmul_bext; try assumption; apply beq_refl. }
  assert (HR : forall c Q Q', beq n Q Q' -> beq n (repeat_step N c n (K_matrix N n C G k) iC Q) (repeat_step N c n (K_matrix N n C G k') iC Q')).
  { induction c; intros Q Q' HQ; cbn; [exact HQ|]. apply IHc. unfold step. repeat apply mmul_bext; try assumption; apply beq_refl. }
  unfold build_Q_native. apply mmul_bext; [apply mmul_bext; [exact Ht|]|exact Ht].
  destruct (alpha mod 2 =? 0); apply HR; [|exact HK]. repeat apply mmul_bext; try assumption; apply beq_refl.
Qed.
Lemma mdiag_bext n u v : (forall i, i < n -> u i = v i) -> beq n (mdiag N u) (mdiag N v).
Proof. intros H i j Hi Hj. unfold mdiag. rewrite H by exact Hi. reflexivity. Qed.
Theorem expanded_constant n C iC G b0_kappa b0_tau alpha a b :
  match build_Q_stationary N ex n C iC G b0_kappa b0_tau alpha a b, build_Q_expanded N ex n C iC G b0_kappa b0_tau alpha (fun _ => a) (fun _ => b) with
  | Ok Q, Ok R => beq n Q R | Err e, Err f => e = f | _, _ => False end.
Proof.
  unfold build_Q_stationary, build_Q_expanded, build_Q. destruct (2 * alpha <=? 2); [reflexivity|].
  apply native_Q_bext; apply mdiag_bext; intros i Hi.
  - rewrite kappa_stationary, kappa_expanded by exact Hi. reflexivity.
  - rewrite tau_stationary, tau_expanded by exact Hi. reflexivity.
Qed.
End Generic.

(* ---- the rationals and the reals *)
Lemma rationals_ring : is_ring rationals. Proof. exact Qcrt. Qed.
Lemma reals_ring : is_ring reals. Proof. exact RTheory. Qed.
Lemma rationals_ordered : ordered rationals (fun a => (0 <= a)%Qc).
Proof.
  split; cbn.
  - apply Qcle_refl.
  - intros a b Ha Hb. replace 0%Qc with (0 + 0)%Qc by ring. apply Qcplus_le_compat; assumption.
  - intros a b Ha Hb. replace 0%Qc with (0 * b)%Qc by ring. apply Qcmult_le_compat_r; assumption.
  - intros a. destruct (Qclt_le_dec a 0) as [H|H].
    + replace (a * a)%Qc with ((- a) * (- a))%Qc by ring. apply Qclt_le_weak in H. apply Qcopp_le_compat in H. change (- 0)%Qc with 0%Qc in H.
      replace 0%Qc with (0 * - a)%Qc by ring. apply Qcmult_le_compat_r; assumption.
    + replace 0%Qc with (0 * a)%Qc by ring. apply Qcmult_le_compat_r; assumption.
  - intros a b Ha Hb E. apply Qcle_antisym; [|exact Ha]. replace a with (a + b + - b)%Qc by ring. rewrite E.
    apply Qcopp_le_compat in Hb. replace (0 + - b)%Qc with (- b)%Qc by ring. exact Hb.
  - intros a b E. destruct (Qc_eq_dec a 0) as [->|Ha]; [left; reflexivity|right]. apply (Qcmult_integral_l a b Ha E).
  - intros E. apply (f_equal this) in E. discriminate.
Qed.
Lemma reals_ordered : ordered reals (fun a => (0 <= a)%R).
Proof.
  split; cbn; intros; try lra; try nra.
Qed.
Definition real_derivative (f : reals -> reals) (t d : reals) : Prop := derivable_pt_lim f t d.
Lemma reals_derivative : derivative reals real_derivative.
Proof.
  split; unfold real_derivative; cbn.
  - intros f g t d E H eps He. destruct (H eps He) as [delta Hd]. exists delta. intros h Hh Hh'. rewrite <- !E. apply Hd; assumption.
  - intros c t. apply derivable_pt_lim_const.
  - intros t. apply derivable_pt_lim_id.
  - intros f g t a b Hf Hg. apply (derivable_pt_lim_plus f g); assumption.
  - intros f g t a b Hf Hg. apply (derivable_pt_lim_mult f g); assumption.
Qed.
Lemma reals_exponential : exponential reals real_derivative exp.
Proof.
  unfold exponential, real_derivative. cbn. intros a b t.
  pose proof (derivable_pt_lim_comp (fun s => a + b * s)%R exp t b (exp (a + b * t))%R) as H.
  replace (b * exp (a + b * t))%R with (exp (a + b * t) * b)%R by ring. apply H; [|apply derivable_pt_lim_exp].
  assert (E : derivable_pt_lim (fun s => a + b * s)%R t (0 + (0 * t + b * 1))%R).
  { apply (derivable_pt_lim_plus (fun _ => a) (fun s => b * s)%R); [apply derivable_pt_lim_const|].
    apply (derivable_pt_lim_mult (fun _ => b) (fun s => s)); [apply derivable_pt_lim_const|apply derivable_pt_lim_id]. }
  replace (0 + (0 * t + b * 1))%R with b in E by ring. exact E.
Qed.
