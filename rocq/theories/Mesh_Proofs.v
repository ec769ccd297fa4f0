From Coq Require Import NArith Sorted Morphisms.
From Verif Require Import Base Mesh_Model Mesh_Spec.
Local Open Scope nat_scope.
Local Open Scope list_scope.

(* ---- a sorted list is determined if the keys are distinct *)
Section Sorting.
Context {A : Type} (key : A -> N).
Lemma le_strong l : Sorted (fun x y => (key x <= key y)%N) l -> StronglySorted (fun x y => (key x <= key y)%N) l.
Proof. apply Sorted_StronglySorted. intros x y z. lia. Qed.
Lemma sorted_unique : forall l' l, Permutation l l' -> StronglySorted (fun x y => (key x <= key y)%N) l -> StronglySorted (fun x y => (key x < key y)%N) l' -> l = l'.
Proof.
  induction l' as [|b l' IH]; intros l Pm S S'; [apply Permutation_sym, Permutation_nil in Pm; exact Pm|].
  destruct l as [|a l]; [apply Permutation_nil in Pm; discriminate|].
  inversion S as [|? ? Sl Fa]; subst. inversion S' as [|? ? Sl' Fb]; subst.
  assert (a = b).
  { assert (I1 : In a (b :: l')) by (apply (Permutation_in _ Pm); left; reflexivity). destruct I1 as [I1|I1]; [congruence|].
    assert (I2 : In b (a :: l)) by (apply (Permutation_in _ (Permutation_sym Pm)); left; reflexivity). destruct I2 as [I2|I2]; [congruence|].
    rewrite Forall_forall in Fa, Fb. specialize (Fa b I2). specialize (Fb a I1). cbn in Fa, Fb. lia. }
  subst b. f_equal. apply IH; try assumption. apply (Permutation_cons_inv Pm).
Qed.
Lemma sort_unique sort l l' : sorts sort -> Permutation l l' -> StronglySorted (fun x y => (key x < key y)%N) l' -> sort A key l = l'.
Proof.
  intros Hs Pm S'. destruct (Hs A key l) as [P1 S1]. apply sorted_unique; [|apply le_strong, S1|exact S'].
  apply Permutation_trans with l; [apply Permutation_sym, P1|exact Pm].
Qed.
(* lists in which every key occurs twice *)
Definition couple (c : bool * (A * A)) : list A := let '(b, (x, y)) := c in if b then [x; y] else [y; x].
Lemma sorted_pairs : forall canon l, Permutation l (flat_map (fun p => [fst p; snd p]) canon) ->
  StronglySorted (fun x y => (key x <= key y)%N) l -> Forall (fun p => key (fst p) = key (snd p)) canon ->
  StronglySorted (fun p q => (key (fst p) < key (fst q))%N) canon ->
  exists bs, length bs = length canon /\ l = flat_map couple (combine bs canon).
Proof.
  induction canon as [|[x y] canon IH]; intros l Pm S E C.
  - exists []. split; [reflexivity|]. apply Permutation_sym, Permutation_nil in Pm. exact Pm.
  - cbn [flat_map fst snd app] in Pm. apply Forall_cons_iff in E. destruct E as [E Es]. inversion C as [|? ? Cs Fc]; subst. cbn [fst snd] in *.
    assert (G : forall z, In z (flat_map (fun p => [fst p; snd p]) canon) -> (key x < key z)%N).
    { intros z Hz. apply in_flat_map in Hz. destruct Hz as ([p q] & Hp & Hz). rewrite Forall_forall in Fc, Es. specialize (Fc _ Hp). specialize (Es _ Hp). cbn in *.
      destruct Hz as [<-|[<-|[]]]; lia. }
    destruct l as [|a l]; [apply Permutation_nil in Pm; discriminate|]. inversion S as [|? ? Sl Fa]; subst. rewrite Forall_forall in Fa.
    assert (Ia : a = x \/ a = y).
    { assert (I1 : In a (x :: y :: flat_map (fun p => [fst p; snd p]) canon)) by (apply (Permutation_in _ Pm); left; reflexivity).
      destruct I1 as [I1|[I1|I1]]; [left; congruence|right; congruence|]. exfalso.
      assert (I2 : In x (a :: l)) by (apply (Permutation_in _ (Permutation_sym Pm)); left; reflexivity).
      specialize (G a I1). destruct I2 as [I2|I2]; [subst; lia|]. specialize (Fa x I2). cbn in Fa. lia. }
    assert (Q : exists w, Permutation l (w :: flat_map (fun p => [fst p; snd p]) canon) /\ key w = key x /\ ((a = x /\ w = y) \/ (a = y /\ w = x))).
    { destruct Ia as [->| ->].
      - exists y. split; [apply (Permutation_cons_inv Pm)|]. split; [congruence|tauto].
      - exists x. split; [|split; [reflexivity|tauto]]. apply (Permutation_cons_inv (a := y)).
        eapply Permutation_trans; [exact Pm|]. constructor. }
    destruct Q as (w & Pw & Kw & Hw). destruct l as [|b l]; [apply Permutation_nil in Pw; discriminate|]. inversion Sl as [|? ? Sl2 Fb]; subst. rewrite Forall_forall in Fb.
    assert (b = w).
    { assert (I1 : In b (w :: flat_map (fun p => [fst p; snd p]) canon)) by (apply (Permutation_in _ Pw); left; reflexivity).
      destruct I1 as [I1|I1]; [congruence|]. exfalso.
      assert (I2 : In w (b :: l)) by (apply (Permutation_in _ (Permutation_sym Pw)); left; reflexivity).
      specialize (G b I1). destruct I2 as [I2|I2]; [subst; lia|]. specialize (Fb w I2). cbn in Fb. lia. }
    subst b. apply Permutation_cons_inv in Pw. destruct (IH l Pw Sl2 Es Cs) as (bs & Lb & El).
    destruct Hw as [[-> ->]|[-> ->]]; [exists (true :: bs)|exists (false :: bs)]; (split; [cbn; lia|]); cbn [combine flat_map couple app]; rewrite <- El; reflexivity.
Qed.
End Sorting.

(* an instance, to compute with *)
Fixpoint insert {A} (key : A -> N) (x : A) (l : list A) : list A :=
  match l with [] => [x] | y :: l' => if N.leb (key x) (key y) then x :: l else y :: insert key x l' end.
Definition insertion_sort A (key : A -> N) (l : list A) : list A := fold_right (insert key) [] l.
Lemma insert_perm {A} (key : A -> N) x l : Permutation (x :: l) (insert key x l).
Proof.
  induction l as [|y l IH]; [apply Permutation_refl|]. cbn. destruct (N.leb (key x) (key y)); [apply Permutation_refl|].
  eapply Permutation_trans; [apply perm_swap|]. constructor. exact IH.
Qed.
Lemma insert_sorted {A} (key : A -> N) x l : Sorted (fun x y => (key x <= key y)%N) l -> Sorted (fun x y => (key x <= key y)%N) (insert key x l).
Proof.
  induction 1 as [|y l S IH H]; [repeat constructor|]. cbn. destruct (N.leb_spec (key x) (key y)).
  - constructor; [constructor; assumption|constructor; assumption].
  - constructor; [exact IH|]. destruct l as [|z l]; cbn; [constructor; lia|]. inversion H; subst. destruct (N.leb (key x) (key z)); constructor; lia.
Qed.
Lemma insertion_sorts : sorts insertion_sort.
Proof.
  intros A key l. induction l as [|x l [IH1 IH2]]; [split; constructor|]. cbn. split.
  - eapply Permutation_trans; [|apply insert_perm]. constructor. exact IH1.
  - apply insert_sorted, IH2.
Qed.

(* ---- lists in groups *)
Lemma thirds_triples {A B} (f g h : B -> A) l : thirds (flat_map (fun b => [f b; g b; h b]) l) = map (fun b => (f b, g b, h b)) l.
Proof. induction l; cbn; [reflexivity|]. rewrite IHl. reflexivity. Qed.
Lemma halves_couples {A} (cs : list (bool * (A * A))) : halves (flat_map couple cs) = map (fun c : bool * (A * A) => let '(b, (x, y)) := c in if b then (x, y) else (y, x)) cs.
Proof. induction cs as [|[[] [x y]] cs IH]; cbn; [reflexivity|rewrite IH; reflexivity..]. Qed.
Lemma flat_map_app {A B} (f : A -> list B) l l' : flat_map f (l ++ l') = flat_map f l ++ flat_map f l'.
Proof. induction l; cbn; [reflexivity|]. rewrite IHl, app_assoc. reflexivity. Qed.
Lemma flat_map_flat_map {A B C} (f : B -> list C) (g : A -> list B) l : flat_map f (flat_map g l) = flat_map (fun a => flat_map f (g a)) l.
Proof. induction l; cbn; [reflexivity|]. rewrite flat_map_app, IHl. reflexivity. Qed.
Lemma flat_map_map {A B C} (f : B -> list C) (g : A -> B) l : flat_map f (map g l) = flat_map (fun a => f (g a)) l.
Proof. induction l; cbn; [reflexivity|]. rewrite IHl. reflexivity. Qed.
Lemma map_flat_map {A B C} (f : B -> C) (g : A -> list B) l : map f (flat_map g l) = flat_map (fun a => map f (g a)) l.
Proof. induction l; cbn; [reflexivity|]. rewrite map_app, IHl. reflexivity. Qed.
Lemma flat_map_perm {A B} (f g : A -> list B) l : (forall a, In a l -> Permutation (f a) (g a)) -> Permutation (flat_map f l) (flat_map g l).
Proof. induction l as [|a l IH]; intros H; cbn; [constructor|]. apply Permutation_app; [apply H; left; reflexivity|apply IH; intros; apply H; right; assumption]. Qed.
Lemma flat_map_split {A B} (f g : A -> list B) l : Permutation (flat_map f l ++ flat_map g l) (flat_map (fun a => f a ++ g a) l).
Proof.
  induction l as [|a l IH]; cbn; [constructor|]. rewrite <- !app_assoc. apply Permutation_app_head.
  eapply Permutation_trans; [|apply Permutation_app_head, IH]. rewrite !app_assoc. apply Permutation_app_tail, Permutation_app_comm.
Qed.
Lemma flat_map_permuted {A B} (f : A -> list B) l l' : Permutation l l' -> Permutation (flat_map f l) (flat_map f l').
Proof.
  induction 1; cbn; [constructor| | |eapply Permutation_trans; eassumption].
  - apply Permutation_app_head. assumption.
  - rewrite !app_assoc. apply Permutation_app_tail, Permutation_app_comm.
Qed.
Lemma flat_map_length_const {A B} (f : A -> list B) k l : (forall a, length (f a) = k) -> length (flat_map f l) = k * length l.
Proof. intros H. induction l; cbn; [lia|]. rewrite app_length, H, IHl. lia. Qed.

(* ---- identifiers *)
Definition ident (l r : nat) : N := (N.of_nat r * 2 ^ hash_shift l)%N.
Lemma lor_small a b k : (b < 2 ^ k)%N -> N.lor (a * 2 ^ k) b = (a * 2 ^ k + b)%N.
Proof.
  intros H. assert (L : N.land (a * 2 ^ k) b = 0%N).
  { apply N.bits_inj_0. intros i. rewrite N.land_spec. destruct (N.ltb_spec i k) as [K|K].
    - rewrite N.mul_pow2_bits_low by exact K. reflexivity.
    - destruct (N.eq_dec b 0) as [->|Nb]; [rewrite N.bits_0, andb_false_r; reflexivity|].
      rewrite (N.bits_above_log2 b i), andb_false_r; [reflexivity|]. apply N.log2_lt_pow2 in H; lia. }
  rewrite <- N.lxor_lor by exact L. symmetry. apply N.add_nocarry_lxor, L.
Qed.
Lemma shift_step l : l < 29 -> hash_shift l = (hash_shift (S l) + 2)%N.
Proof. intros H. unfold hash_shift, base_hash_shift. lia. Qed.
Lemma child_ident l r s : l < 29 -> (s < 4)%N -> N.lor (ident l r) (N.shiftl s (hash_shift (S l))) = ident (S l) (4 * r + N.to_nat s).
Proof.
  intros H K. unfold ident. rewrite (shift_step l H), N.shiftl_mul_pow2.
  assert (0 < 2 ^ hash_shift (S l))%N by (apply N.neq_0_lt_0, N.pow_nonzero; discriminate).
  rewrite lor_small.
  - rewrite N.pow_add_r. change (2 ^ 2)%N with 4%N. lia.
  - rewrite N.pow_add_r. change (2 ^ 2)%N with 4%N. nia.
Qed.
Lemma shift_ge_2 l : l <= 28 -> (4 <= 2 ^ hash_shift l)%N.
Proof.
  intros H. change 4%N with (2 ^ 2)%N. apply N.pow_le_mono_r; [discriminate|]. unfold hash_shift, base_hash_shift. lia.
Qed.
Lemma ident_key l r s : l <= 28 -> (s < 4)%N -> N.lor (ident l r) s = (ident l r + s)%N.
Proof. intros H K. unfold ident. apply lor_small. pose proof (shift_ge_2 l H). lia. Qed.
Lemma ident_lt l r q : r < q -> l <= 28 -> (ident l r + 4 <= ident l q)%N.
Proof. intros H K. unfold ident. pose proof (shift_ge_2 l K). nia. Qed.
Lemma ident_shiftr l k r : k <= l -> l <= 29 -> N.shiftr (ident l r) (hash_shift k) = N.of_nat (r / 4 ^ (l - k)).
Proof.
  intros H K. rewrite N.shiftr_div_pow2. unfold ident.
  assert (E : hash_shift k = (hash_shift l + 2 * N.of_nat (l - k))%N) by (unfold hash_shift, base_hash_shift; lia).
  rewrite E, N.pow_add_r, N.mul_comm. rewrite N.div_mul_cancel_l; [|apply N.pow_nonzero; discriminate|apply N.pow_nonzero; discriminate].
  rewrite N.pow_mul_r. change (2 ^ 2)%N with 4%N. rewrite Nat2N.inj_div, Nat2N.inj_pow. reflexivity.
Qed.

(* ---- the invariant *)
Definition row_id (l : nat) (ts : list triangle) : Prop := map t_id ts = map (ident l) (seq 0 (length ts)).
Lemma sides_sorted l : l <= 28 -> forall ts a, map t_id ts = map (ident l) (seq a (length ts)) ->
  StronglySorted (fun x y => (N.lor (h_tri x) (h_side x) < N.lor (h_tri y) (h_side y))%N) (flat_map sides ts) /\
  Forall (fun x => (ident l a <= N.lor (h_tri x) (h_side x))%N) (flat_map sides ts).
Proof.
  intros Hl. induction ts as [|t ts IH]; intros a E; [split; constructor|]. cbn [length seq map] in E. injection E as E1 E2.
  destruct (IH (S a) E2) as [S F]. cbn [flat_map sides app].
  assert (F' : Forall (fun x => (ident l a + 4 <= N.lor (h_tri x) (h_side x))%N) (flat_map sides ts)).
  { eapply Forall_impl; [|exact F]. cbn beta. intros x Hx. pose proof (ident_lt l a (Datatypes.S a) (Nat.lt_succ_diag_r a) Hl). lia. }
  split.
  - apply SSorted_cons; [apply SSorted_cons; [apply SSorted_cons; [exact S|]|]|]; repeat apply Forall_cons; cbn [h_tri h_side]; rewrite ?E1, ?ident_key by lia; try lia;
    (eapply Forall_impl; [|exact F']); cbn beta; intros x Hx; rewrite ?ident_key by lia; lia.
  - repeat apply Forall_cons; cbn [h_tri h_side]; rewrite ?E1, ?ident_key by lia; try lia. eapply Forall_impl; [|exact F']. cbn beta. intros x Hx. lia.
Qed.

Section Subdivided.
Context {P : Type} (mid : P -> P -> P) (nowhere : P) (sort : forall A, (A -> N) -> list A -> list A) (Hs : sorts sort).
Record good (l : nat) (M : mesh P) : Prop := {
  g_level : level M = l;
  g_ids : row_id l (triangles M);
  g_sides : Permutation (half_edges (edges M)) (flat_map sides (triangles M));
  g_points : Forall (fun e => e_from e < length (points M) /\ e_to e < length (points M)) (edges M);
  g_two : Forall (fun e => e_tri0 e <> e_tri1 e) (edges M) }.

Definition with_mid (em : list (edge * nat)) : list (half * nat) := map (fun p => (forward (fst p), snd p)) em ++ map (fun p => (backward (fst p), snd p)) em.
Lemma with_mid_fst es ms : length es = length ms -> map fst (with_mid (combine es ms)) = half_edges es.
Proof.
  intros L. unfold with_mid, half_edges. rewrite map_app, !map_map. cbn [fst].
  assert (E : forall (f : edge -> half), map (fun p : edge * nat => f (fst p)) (combine es ms) = map f es).
  { intros f. revert ms L. induction es as [|e es IH]; intros [|m ms] L; try discriminate; [reflexivity|]. cbn. f_equal. apply IH. cbn in L. lia. }
  rewrite !E. reflexivity.
Qed.
Lemma with_mid_rows em : midpoint_rows em = map (fun p => (snd p, h_tri (fst p), h_side (fst p))) (with_mid em).
Proof. unfold midpoint_rows, with_mid. rewrite map_app, !map_map. reflexivity. Qed.
(* group the sides of the triangles, with their mid-points, by triangle *)
Definition sides_mid (p : triangle * (nat * nat * nat)) : list (half * nat) :=
  let '(t, (m0, m1, m2)) := p in combine (sides t) [m0; m1; m2].
Lemma group_sides ts : forall hm, map fst hm = flat_map sides ts -> exists tm, map fst tm = ts /\ hm = flat_map sides_mid tm.
Proof.
  induction ts as [|t ts IH]; intros hm E.
  - exists []. split; [reflexivity|]. destruct hm; [reflexivity|discriminate].
  - cbn [flat_map sides app] in E. destruct hm as [|[h0 m0] hm]; [discriminate|]. destruct hm as [|[h1 m1] hm]; [discriminate|]. destruct hm as [|[h2 m2] hm]; [discriminate|].
    cbn [map fst] in E. injection E as E0 E1 E2 E3. destruct (IH hm E3) as (tm & F & G). exists ((t, (m0, m1, m2)) :: tm). split; [cbn; congruence|].
    cbn [flat_map]. rewrite <- G. subst. reflexivity.
Qed.
Definition children (h : N) (p : triangle * (nat * nat * nat)) : list triangle :=
  let '(t, (m0, m1, m2)) := p in
  [ {| t_id := N.lor (t_id t) (N.shiftl 0 h); t_0 := t_0 t; t_1 := m0; t_2 := m2 |};
    {| t_id := N.lor (t_id t) (N.shiftl 1 h); t_0 := m0; t_1 := t_1 t; t_2 := m1 |};
    {| t_id := N.lor (t_id t) (N.shiftl 2 h); t_0 := m2; t_1 := m1; t_2 := t_2 t |};
    {| t_id := N.lor (t_id t) (N.shiftl 3 h); t_0 := m1; t_1 := m2; t_2 := m0 |} ].
Definition parts (h : N) (p : half * nat) : list half :=
  let '(x, m) := p in
  [ {| h_from := h_from x; h_to := m; h_tri := N.lor (h_tri x) (N.shiftl (h_side x) h); h_side := h_side x |};
    {| h_from := m; h_to := h_to x; h_tri := N.lor (h_tri x) (N.shiftl ((h_side x + 1) mod 3) h); h_side := h_side x |} ].
Definition inner (h : N) (p : triangle * (nat * nat * nat)) : list half :=
  let '(t, (m0, m1, m2)) := p in
  half_edges (inner_edges h ((m0, t_id t, 0%N), (m1, t_id t, 1%N), (m2, t_id t, 2%N))).
Lemma half_edges_app a b : Permutation (half_edges (a ++ b)) (half_edges a ++ half_edges b).
Proof.
  unfold half_edges. rewrite !map_app, <- !app_assoc. apply Permutation_app_head. rewrite !app_assoc. apply Permutation_app_tail, Permutation_app_comm.
Qed.
Lemma half_edges_flat_map {A} (f : A -> list edge) l : Permutation (half_edges (flat_map f l)) (flat_map (fun a => half_edges (f a)) l).
Proof.
  induction l as [|a l IH]; [constructor|]. cbn [flat_map]. eapply Permutation_trans; [apply half_edges_app|]. apply Permutation_app_head, IH.
Qed.
Lemma split_parts h em : Permutation (half_edges (flat_map (split_edge h) em)) (flat_map (parts h) (with_mid em)).
Proof.
  eapply Permutation_trans; [apply half_edges_flat_map|]. unfold with_mid. rewrite flat_map_app, !flat_map_map.
  eapply Permutation_trans; [|apply Permutation_sym, flat_map_split]. apply flat_map_perm. intros [e m] _. cbn.
  (* e0 o0 e1 o1 -> e0 o0 | o1 e1 *)
  do 2 constructor. apply perm_swap.
Qed.
Lemma triangle_parts h p : Permutation (flat_map (parts h) (sides_mid p) ++ inner h p) (flat_map sides (children h p)).
Proof.
  destruct p as [t [[m0 m1] m2]]. cbn.
  match goal with |- Permutation [?a1; ?a2; ?a3; ?a4; ?a5; ?a6; ?b1; ?b2; ?b3; ?c1; ?c2; ?c3] _ => 
    set (x1 := a1); set (x2 := a2); set (x3 := a3); set (x4 := a4); set (x5 := a5); set (x6 := a6); set (y1 := b1); set (y2 := b2); set (y3 := b3); set (z1 := c1); set (z2 := c2); set (z3 := c3) end.
  change (Permutation [x1; x2; x3; x4; x5; x6; y1; y2; y3; z1; z2; z3] [x1; y1; x6; x2; x3; y2; y3; x4; x5; z3; z1; z2]).
  clearbody x1 x2 x3 x4 x5 x6 y1 y2 y3 z1 z2 z3.
  constructor. apply Permutation_cons_app with (l1 := [y1; x6]). apply Permutation_cons_app with (l1 := [y1; x6]). apply Permutation_cons_app with (l1 := [y1; x6; y2; y3]).
  apply Permutation_cons_app with (l1 := [y1; x6; y2; y3]). apply Permutation_cons_app with (l1 := [y1]). cbn. do 3 constructor.
  apply Permutation_cons_app with (l1 := [z3]). apply Permutation_cons_app with (l1 := [z3]). apply Permutation_refl.
Qed.
Lemma children_ids l h tm : l < 29 -> h = hash_shift (S l) -> forall a, map t_id (map fst tm) = map (ident l) (seq a (length tm)) ->
  map t_id (flat_map (children h) tm) = map (ident (S l)) (seq (4 * a) (4 * length tm)).
Proof.
  intros Hl ->. induction tm as [|[t [[m0 m1] m2]] tm IH]; intros a E; [reflexivity|]. cbn [map fst length seq] in E. injection E as E1 E2.
  cbn [flat_map children app map t_id length]. replace (4 * S (length tm)) with (S (S (S (S (4 * length tm))))) by lia. cbn [seq map].
  rewrite E1, !(child_ident l a) by (try exact Hl; reflexivity). rewrite (IH (S a) E2).
  replace (4 * a + N.to_nat 0) with (4 * a) by (cbn; lia). replace (4 * a + N.to_nat 1) with (S (4 * a)) by (cbn; lia).
  replace (4 * a + N.to_nat 2) with (S (S (4 * a))) by (cbn; lia). replace (4 * a + N.to_nat 3) with (S (S (S (4 * a)))) by (cbn; lia).
  replace (4 * S a) with (S (S (S (S (4 * a))))) by lia. reflexivity.
Qed.
Lemma in_with_mid (M : mesh P) h m : (forall x y, mid x y = mid y x) ->
  In (h, m) (with_mid (combine (edges M) (seq (length (points M)) (length (edges M))))) ->
  length (points M) <= m < length (points M) + length (edges M) /\
  nth m (points (subdivide mid nowhere sort M)) nowhere = mid (nth (h_from h) (points M) nowhere) (nth (h_to h) (points M) nowhere).
Proof.
  intros Hc H. assert (exists e, In (e, m) (combine (edges M) (seq (length (points M)) (length (edges M)))) /\ (h = forward e \/ h = backward e)) as (e & K & V).
  { unfold with_mid in H. apply in_app_iff in H. destruct H as [H|H]; apply in_map_iff in H; destruct H as ([e k] & E & K); injection E as <- <-; exists e; tauto. }
  destruct (In_nth _ _ (e, m) K) as (k & Hk & Ek). rewrite combine_length, seq_length in Hk. rewrite combine_nth in Ek by (rewrite seq_length; reflexivity).
  injection Ek as Ee Em. rewrite seq_nth in Em by lia. split; [lia|]. cbn [subdivide points]. rewrite app_nth2 by lia. replace (m - length (points M)) with k by lia.
  rewrite (nth_indep _ _ ((fun e => mid (nth (e_from e) (points M) nowhere) (nth (e_to e) (points M) nowhere)) e)) by (rewrite map_length; lia).
  rewrite (map_nth (fun e => mid (nth (e_from e) (points M) nowhere) (nth (e_to e) (points M) nowhere))), Ee. destruct V as [-> | ->]; cbn; [reflexivity|apply Hc].
Qed.
Lemma step l M : good l M -> S l <= 28 -> exists tm,
  map fst tm = triangles M /\ triangles (subdivide mid nowhere sort M) = flat_map (children (hash_shift (S l))) tm /\
  Permutation (with_mid (combine (edges M) (seq (length (points M)) (length (edges M))))) (flat_map sides_mid tm) /\
  edges (subdivide mid nowhere sort M) = flat_map (split_edge (hash_shift (S l))) (combine (edges M) (seq (length (points M)) (length (edges M)))) ++
    flat_map (fun p : triangle * (nat * nat * nat) => let '(t, (m0, m1, m2)) := p in inner_edges (hash_shift (S l)) ((m0, t_id t, 0%N), (m1, t_id t, 1%N), (m2, t_id t, 2%N))) tm /\
  Permutation (half_edges (edges (subdivide mid nowhere sort M))) (flat_map sides (triangles (subdivide mid nowhere sort M))).
Proof.
  intros G Hl. set (em := combine (edges M) (seq (length (points M)) (length (edges M)))).
  assert (E1 : map fst (with_mid em) = half_edges (edges M)) by (apply with_mid_fst; rewrite seq_length; reflexivity).
  pose proof (g_sides l M G) as Q. rewrite <- E1 in Q. apply Permutation_sym in Q. apply Permutation_map_inv in Q. destruct Q as (hm & E2 & Q).
  symmetry in E2. destruct (group_sides _ hm E2) as (tm & E3 & E4). subst hm. exists tm.
  assert (Ids : map t_id (map fst tm) = map (ident l) (seq 0 (length tm))).
  { rewrite E3. rewrite (g_ids l M G). rewrite <- E3, map_length. reflexivity. }
  assert (Sm : sort _ (fun r : nat * N * N => let '(_, t, s) := r in N.lor t s) (midpoint_rows em) = map (fun p => (snd p, h_tri (fst p), h_side (fst p))) (flat_map sides_mid tm)).
  { apply sort_unique; [exact Hs|rewrite with_mid_rows; apply Permutation_map, Q|].
    destruct (sides_sorted l ltac:(lia) (map fst tm) 0) as [S _]; [rewrite map_length; exact Ids|].
    rewrite <- E3 in E2. rewrite <- E2 in S. clear - S. remember (flat_map sides_mid tm) as hm. clear Heqhm. induction hm as [|[h m] hm IH]; [constructor|]. cbn [map fst] in *.
    inversion S as [|? ? S1 F]; subst. constructor; [apply IH, S1|]. rewrite Forall_forall in *. intros x Hx. apply in_map_iff in Hx. destruct Hx as ([h' m'] & <- & Hx).
    apply (in_map fst) in Hx. exact (F _ Hx). }
  assert (Th : thirds (map (fun p : half * nat => (snd p, h_tri (fst p), h_side (fst p))) (flat_map sides_mid tm)) =
    map (fun p : triangle * (nat * nat * nat) => let '(t, (m0, m1, m2)) := p in ((m0, t_id t, 0%N), (m1, t_id t, 1%N), (m2, t_id t, 2%N))) tm).
  { rewrite map_flat_map. clear. induction tm as [|[t [[m0 m1] m2]] tm IH]; [reflexivity|]. cbn [flat_map sides_mid sides combine map app fst snd h_tri h_side thirds].
    rewrite IH. reflexivity. }
  assert (Ee : edges (subdivide mid nowhere sort M) = flat_map (split_edge (hash_shift (S l))) em ++
    flat_map (fun p : triangle * (nat * nat * nat) => let '(t, (m0, m1, m2)) := p in inner_edges (hash_shift (S l)) ((m0, t_id t, 0%N), (m1, t_id t, 1%N), (m2, t_id t, 2%N))) tm).
  { cbn [subdivide edges]. rewrite (g_level l M G). fold em. rewrite Sm, Th, flat_map_map. f_equal. apply flat_map_ext. intros [t [[m0 m1] m2]]. reflexivity. }
  assert (Ph : Permutation (half_edges (edges (subdivide mid nowhere sort M))) (flat_map sides (flat_map (children (hash_shift (S l))) tm))).
  { rewrite Ee. eapply Permutation_trans; [apply half_edges_app|]. eapply Permutation_trans.
    { apply Permutation_app; [apply split_parts|apply half_edges_flat_map]. }
    eapply Permutation_trans; [apply Permutation_app_tail, flat_map_permuted, Q|]. rewrite flat_map_flat_map.
    eapply Permutation_trans; [apply flat_map_split|]. rewrite flat_map_flat_map. apply flat_map_perm. intros p _.
    eapply Permutation_trans; [|apply triangle_parts]. destruct p as [t [[m0 m1] m2]]. apply Permutation_refl. }
  assert (Et : triangles (subdivide mid nowhere sort M) = flat_map (children (hash_shift (S l))) tm).
  { assert (So : sort _ (fun x => N.lor (h_tri x) (h_side x)) (half_edges (edges (subdivide mid nowhere sort M))) = flat_map sides (flat_map (children (hash_shift (S l))) tm)).
    { apply sort_unique; [exact Hs|exact Ph|]. destruct (sides_sorted (S l) Hl (flat_map (children (hash_shift (S l))) tm) 0) as [S _]; [|exact S].
      rewrite (children_ids l (hash_shift (S l)) tm ltac:(lia) eq_refl 0 Ids). rewrite Nat.mul_0_r. do 2 f_equal.
      rewrite (flat_map_length_const _ 4); [reflexivity|]. intros [t [[m0 m1] m2]]. reflexivity. }
    transitivity (map (fun p : half * half * half => let '(a, b, c) := p in {| t_id := h_tri a; t_0 := h_from a; t_1 := h_from b; t_2 := h_from c |}) (thirds (flat_map sides (flat_map (children (hash_shift (S l))) tm)))).
    - rewrite <- So. reflexivity.
    - unfold sides. rewrite thirds_triples, map_map. rewrite <- (map_id (flat_map (children (hash_shift (S l))) tm)) at 2. apply map_ext. intros []. reflexivity. }
  split; [exact E3|]. split; [exact Et|]. split; [exact Q|]. split; [exact Ee|]. rewrite Et. exact Ph.
Qed.

Lemma subdivide_points M : length (points (subdivide mid nowhere sort M)) = length (points M) + length (edges M).
Proof. cbn [subdivide points]. rewrite app_length, map_length. reflexivity. Qed.
Lemma triangle_points l M t : good l M -> In t (triangles M) -> t_0 t < length (points M) /\ t_1 t < length (points M) /\ t_2 t < length (points M).
Proof.
  intros G H. assert (K : forall h, In h (sides t) -> h_from h < length (points M)).
  { intros h Hh. assert (I : In h (flat_map sides (triangles M))) by (apply in_flat_map; exists t; tauto).
    apply (Permutation_in _ (Permutation_sym (g_sides l M G))) in I. unfold half_edges in I. pose proof (g_points l M G) as F. rewrite Forall_forall in F.
    apply in_app_iff in I. destruct I as [I|I]; apply in_map_iff in I; destruct I as (e & <- & I); specialize (F e I); cbn; tauto. }
  pose proof (K _ (or_introl eq_refl)) as K0. pose proof (K _ (or_intror (or_introl eq_refl))) as K1. pose proof (K _ (or_intror (or_intror (or_introl eq_refl)))) as K2.
  cbn in K0, K1, K2. tauto.
Qed.
Lemma lor_high_neq a b h k x y : (x < 4)%N -> (y < 4)%N -> ident h a <> ident h b -> h < 29 -> k = hash_shift (S h) -> N.lor (ident h a) (N.shiftl x k) <> N.lor (ident h b) (N.shiftl y k).
Proof.
  intros Hx Hy Nab Hh ->. rewrite !child_ident by assumption. unfold ident in *. intros E. apply Nab.
  assert (0 < 2 ^ hash_shift (S h))%N by (apply N.neq_0_lt_0, N.pow_nonzero; discriminate). apply N.mul_cancel_r in E; [|lia]. apply Nat2N.inj in E.
  assert (a = b) by lia. subst. reflexivity.
Qed.
Lemma tri_ident l M e : good l M -> In e (edges M) -> exists a b, e_tri0 e = ident l a /\ e_tri1 e = ident l b /\ (e_side0 e < 3)%N /\ (e_side1 e < 3)%N.
Proof.
  intros G H. assert (K : forall h, In h (half_edges (edges M)) -> (exists a, h_tri h = ident l a) /\ (h_side h < 3)%N).
  { intros h Hh. apply (Permutation_in _ (g_sides l M G)) in Hh. apply in_flat_map in Hh. destruct Hh as (t & Ht & Hh).
    assert (exists a, t_id t = ident l a) as (a & Ea).
    { apply (in_map t_id) in Ht. rewrite (g_ids l M G) in Ht. apply in_map_iff in Ht. destruct Ht as (a & Ea & _). exists a. congruence. }
    destruct Hh as [<-|[<-|[<-|[]]]]; cbn; (split; [exists a; exact Ea|reflexivity]). }
  destruct (K (forward e)) as [[a A] B]; [apply in_app_iff; left; apply in_map, H|]. destruct (K (backward e)) as [[b C] D]; [apply in_app_iff; right; apply in_map, H|].
  exists a, b. cbn in *. tauto.
Qed.
Lemma step_good l M : good l M -> S l <= 28 -> good (S l) (subdivide mid nowhere sort M).
Proof.
  intros G Hl. destruct (step l M G Hl) as (tm & E1 & E2 & Q & Ee & Ph).
  assert (Ids : map t_id (map fst tm) = map (ident l) (seq 0 (length tm))).
  { rewrite E1. rewrite (g_ids l M G). rewrite <- E1, map_length. reflexivity. }
  assert (Hm : forall m h, In (h, m) (flat_map sides_mid tm) -> length (points M) <= m < length (points M) + length (edges M)).
  { intros m h H. apply (Permutation_in _ (Permutation_sym Q)) in H. unfold with_mid in H. apply in_app_iff in H.
    destruct H as [H|H]; apply in_map_iff in H; destruct H as ([e k] & E & K); injection E as _ <-; apply in_combine_r in K; apply in_seq in K; exact K. }
  constructor.
  - cbn. rewrite (g_level l M G). reflexivity.
  - unfold row_id. rewrite E2. rewrite (children_ids l (hash_shift (S l)) tm ltac:(lia) eq_refl 0 Ids). rewrite Nat.mul_0_r. do 2 f_equal.
    rewrite (flat_map_length_const _ 4); [reflexivity|]. intros [t [[m0 m1] m2]]. reflexivity.
  - exact Ph.
  - rewrite subdivide_points, Ee. apply Forall_app. split; rewrite Forall_forall; intros e H; apply in_flat_map in H.
    + destruct H as ([e' m] & H & K). pose proof (in_combine_l _ _ _ _ H) as I. apply in_combine_r, in_seq in H.
      pose proof (g_points l M G) as F. rewrite Forall_forall in F. specialize (F e' I). destruct K as [<-|[<-|[]]]; cbn; lia.
    + destruct H as ([t [[m0 m1] m2]] & H & K).
      assert (In m0 (map snd (flat_map sides_mid tm)) /\ In m1 (map snd (flat_map sides_mid tm)) /\ In m2 (map snd (flat_map sides_mid tm))) as (I0 & I1 & I2).
      { rewrite map_flat_map. split; [|split]; apply in_flat_map; exists (t, (m0, m1, m2)); (split; [exact H|cbn; tauto]). }
      apply in_map_iff in I0, I1, I2. destruct I0 as ([h0 ?] & <- & I0), I1 as ([h1 ?] & <- & I1), I2 as ([h2 ?] & <- & I2). apply Hm in I0, I1, I2.
      destruct K as [<-|[<-|[<-|[]]]]; cbn in *; lia.
  - rewrite Ee. apply Forall_app. split; rewrite Forall_forall; intros e H; apply in_flat_map in H.
    + destruct H as ([e' m] & H & K). pose proof (in_combine_l _ _ _ _ H) as I. pose proof (g_two l M G) as F. rewrite Forall_forall in F. specialize (F e' I).
      destruct (tri_ident l M e' G I) as (a & b & Ea & Eb & S0 & S1).
      assert (forall s, ((s + 1) mod 3 < 4)%N) as Md by (intros s; pose proof (N.mod_lt (s + 1) 3 ltac:(discriminate)); lia).
      rewrite Ea, Eb in F. destruct K as [<-|[<-|[]]]; cbn [split_edge e_tri0 e_tri1]; rewrite Ea, Eb; apply (lor_high_neq a b l); try assumption; try reflexivity; try lia; apply Md.
    + destruct H as ([t [[m0 m1] m2]] & H & K).
      assert (exists a, t_id t = ident l a) as (a & Ea).
      { apply (in_map fst) in H. apply (in_map t_id) in H. rewrite Ids in H. apply in_map_iff in H. destruct H as (a & Ea & _). exists a. symmetry. exact Ea. }
      assert (0 < 2 ^ hash_shift (S l))%N by (apply N.neq_0_lt_0, N.pow_nonzero; discriminate).
      destruct K as [<-|[<-|[<-|[]]]]; cbn [e_tri0 e_tri1]; rewrite Ea, !child_ident by (lia || reflexivity); unfold ident; intros E; apply N.mul_cancel_r in E; try lia.
Qed.
End Subdivided.

(* ---- the icosahedron *)
Definition canon : list (half * half) := Eval vm_compute in halves (insertion_sort _ (edge_number 12) (point_pairs base_triangles)).
Lemma canon_rows : Permutation (point_pairs base_triangles) (flat_map (fun p => [fst p; snd p]) canon).
Proof.
  replace (flat_map (fun p => [fst p; snd p]) canon) with (insertion_sort _ (edge_number 12) (point_pairs base_triangles)) by (vm_compute; reflexivity).
  apply (proj1 (insertion_sorts _ (edge_number 12) (point_pairs base_triangles))).
Qed.
Definition opposite (p : half * half) : Prop := h_from (fst p) = h_to (snd p) /\ h_to (fst p) = h_from (snd p) /\ h_tri (fst p) <> h_tri (snd p) /\ h_from (fst p) < 12 /\ h_to (fst p) < 12.
Definition oppositeb (p : half * half) : bool :=
  (h_from (fst p) =? h_to (snd p)) && (h_to (fst p) =? h_from (snd p)) && negb (N.eqb (h_tri (fst p)) (h_tri (snd p))) && (h_from (fst p) <? 12) && (h_to (fst p) <? 12).
Lemma canon_opposite : Forall opposite canon.
Proof.
  assert (E : forallb oppositeb canon = true) by (vm_compute; reflexivity). rewrite forallb_forall in E. apply Forall_forall. intros p H. specialize (E p H).
  unfold oppositeb in E. rewrite !andb_true_iff in E. destruct E as ((((A & B) & C) & D) & F). unfold opposite.
  apply Nat.eqb_eq in A, B. apply Nat.ltb_lt in D, F. rewrite negb_true_iff in C. apply N.eqb_neq in C. tauto.
Qed.
Lemma canon_keys : Forall (fun p => edge_number 12 (fst p) = edge_number 12 (snd p)) canon.
Proof.
  assert (E : forallb (fun p => N.eqb (edge_number 12 (fst p)) (edge_number 12 (snd p))) canon = true) by (vm_compute; reflexivity).
  rewrite forallb_forall in E. apply Forall_forall. intros p H. apply N.eqb_eq, E, H.
Qed.
Lemma canon_sorted : StronglySorted (fun p q => (edge_number 12 (fst p) < edge_number 12 (fst q))%N) canon.
Proof.
  apply Sorted_StronglySorted; [intros x y z; lia|]. unfold canon. repeat (apply Sorted_cons || apply Sorted_nil || apply HdRel_cons || apply HdRel_nil); vm_compute; reflexivity.
Qed.
Definition chosen (c : bool * (half * half)) : half * half := let '(b, (x, y)) := c in if b then (x, y) else (y, x).
Definition of_pair (p : half * half) : edge :=
  let '(a, b) := p in {| e_from := h_from a; e_to := h_to a; e_tri0 := h_tri a; e_side0 := h_side a; e_tri1 := h_tri b; e_side1 := h_side b |}.
Lemma icosahedron_edges {P} (sort : forall A, (A -> N) -> list A -> list A) (pts : list P) : sorts sort -> length pts = 12 ->
  exists bs, length bs = length canon /\ edges (icosahedron sort pts) = map of_pair (map chosen (combine bs canon)).
Proof.
  intros Hs L. cbn [icosahedron edges]. rewrite L. destruct (Hs _ (edge_number 12) (point_pairs base_triangles)) as [P1 S1].
  destruct (sorted_pairs (edge_number 12) canon (sort _ (edge_number 12) (point_pairs base_triangles))) as (bs & Lb & E).
  - eapply Permutation_trans; [apply Permutation_sym, P1|apply canon_rows].
  - apply le_strong, S1.
  - apply canon_keys.
  - apply canon_sorted.
  - exists bs. split; [exact Lb|]. rewrite E, halves_couples. reflexivity.
Qed.
Lemma chosen_halves : forall cs, Forall opposite cs -> forall bs, length bs = length cs ->
  Permutation (half_edges (map of_pair (map chosen (combine bs cs)))) (flat_map (fun p => [fst p; snd p]) cs).
Proof.
  induction cs as [|[x y] cs IH]; intros F bs L; destruct bs as [|b bs]; try discriminate; [constructor|]. apply Forall_cons_iff in F. destruct F as [O F].
  change (map of_pair (map chosen (combine (b :: bs) ((x, y) :: cs)))) with ([of_pair (chosen (b, (x, y)))] ++ map of_pair (map chosen (combine bs cs))).
  eapply Permutation_trans; [apply half_edges_app|]. change (flat_map (fun p => [fst p; snd p]) ((x, y) :: cs)) with ([x; y] ++ flat_map (fun p => [fst p; snd p]) cs).
  apply Permutation_app; [|apply IH; [exact F|cbn in L; lia]]. destruct O as (A & B & _ & _ & _). cbn in A, B. destruct x as [xf xt xi xs], y as [yf yt yi ys]. cbn in A, B. subst.
  destruct b; cbn; [apply Permutation_refl|apply perm_swap].
Qed.
Lemma icosahedron_good {P} (sort : forall A, (A -> N) -> list A -> list A) (pts : list P) : sorts sort -> length pts = 12 ->
  good 0 (icosahedron sort pts) /\ length (edges (icosahedron sort pts)) = 30 /\ length (triangles (icosahedron sort pts)) = 20.
Proof.
  intros Hs L. destruct (icosahedron_edges sort pts Hs L) as (bs & Lb & E). split; [|split; [|reflexivity]].
  - constructor.
    + reflexivity.
    + unfold row_id. vm_compute. reflexivity.
    + rewrite E. eapply Permutation_trans; [apply chosen_halves; [apply canon_opposite|exact Lb]|]. apply Permutation_sym, canon_rows.
    + rewrite E. change (points (icosahedron sort pts)) with pts. rewrite L. apply Forall_map, Forall_map. rewrite Forall_forall. intros [b [x y]] H. apply in_combine_r in H.
      pose proof canon_opposite as O. rewrite Forall_forall in O. specialize (O _ H). unfold opposite in O. cbn [fst snd] in O. destruct b; cbn; lia.
    + rewrite E. apply Forall_map, Forall_map. rewrite Forall_forall. intros [b [x y]] H. apply in_combine_r in H.
      pose proof canon_opposite as O. rewrite Forall_forall in O. specialize (O _ H). unfold opposite in O. cbn [fst snd] in O. destruct b; cbn; intuition congruence.
  - rewrite E, !map_length, combine_length, Lb. vm_compute. reflexivity.
Qed.
Section Built.
Context {P : Type} (mid : P -> P -> P) (nowhere : P) (sort : forall A, (A -> N) -> list A -> list A) (Hs : sorts sort) (pts : list P) (L : length pts = 12).
Notation build := (build mid nowhere sort pts).
Lemma built_good l : l <= 28 -> good l (build l).
Proof. induction l; intros H; [apply icosahedron_good; assumption|]. cbn [Mesh_Model.build]. apply step_good; [exact Hs|apply IHl; lia|exact H]. Qed.
Lemma built_counts l : l <= 28 -> length (points (build l)) = 10 * 4 ^ l + 2 /\ length (edges (build l)) = 30 * 4 ^ l /\ length (triangles (build l)) = 20 * 4 ^ l.
Proof.
  induction l as [|l IH]; intros H.
  - destruct (icosahedron_good sort pts Hs L) as (_ & A & B). cbn [Mesh_Model.build Nat.pow]. rewrite A, B. change (points (icosahedron sort pts)) with pts. lia.
  - destruct (IH ltac:(lia)) as (A & B & C). destruct (step mid nowhere sort Hs l (build l) (built_good l ltac:(lia)) H) as (tm & E1 & E2 & _ & Ee & _).
    cbn [Mesh_Model.build]. rewrite subdivide_points, E2, Ee, app_length, A, B.
    rewrite (flat_map_length_const _ 2) by (intros [e m]; reflexivity). rewrite combine_length, seq_length, B, ?Nat.min_id.
    rewrite (flat_map_length_const _ 3) by (intros [t [[m0 m1] m2]]; reflexivity). rewrite (flat_map_length_const _ 4) by (intros [t [[m0 m1] m2]]; reflexivity).
    assert (T : length tm = 20 * 4 ^ l) by (rewrite <- C, <- E1, map_length; reflexivity). rewrite T. cbn [Nat.pow]. lia.
Qed.
Lemma nth_children h tm r s d : s < 4 -> r < length tm -> nth (4 * r + s) (flat_map (children h) tm) d = nth s (children h (nth r tm (d, (0, 0, 0)))) d.
Proof.
  intros Hs4. revert r. induction tm as [|p tm IH]; intros r Hr; [cbn in Hr; lia|]. destruct r as [|r].
  - cbn [flat_map nth]. rewrite app_nth1 by (destruct p as [t [[m0 m1] m2]]; cbn; lia). replace (4 * 0 + s) with s by lia. reflexivity.
  - cbn [flat_map]. rewrite app_nth2 by (destruct p as [t [[m0 m1] m2]]; cbn [children length]; lia).
    replace (4 * S r + s - length (children h p)) with (4 * r + s) by (destruct p as [t [[m0 m1] m2]]; cbn [children length]; lia). rewrite IH by (cbn in Hr; lia). reflexivity.
Qed.
Lemma built_part l r s d : (forall x y, mid x y = mid y x) -> S l <= 28 -> r < 20 * 4 ^ l -> s < 4 ->
  corners (build (S l)) nowhere (nth (4 * r + s) (triangles (build (S l))) d) = part mid s (corners (build l) nowhere (nth r (triangles (build l)) d)).
Proof.
  intros Hc H Hr Hs4. pose proof (built_good l ltac:(lia)) as G. destruct (step mid nowhere sort Hs l (build l) G H) as (tm & E1 & E2 & Q & _ & _).
  destruct (built_counts l ltac:(lia)) as (_ & _ & T). assert (Lt : length tm = 20 * 4 ^ l) by (rewrite <- T, <- E1, map_length; reflexivity).
  cbn [Mesh_Model.build]. rewrite E2, nth_children by lia. 
  replace (nth r (triangles (build l)) d) with (fst (nth r tm (d, (0, 0, 0)))) by (rewrite <- E1; symmetry; rewrite (nth_indep _ _ (fst (d, (0, 0, 0)))) by (rewrite map_length; lia); apply map_nth).
  assert (I : In (nth r tm (d, (0, 0, 0))) tm) by (apply nth_In; lia). destruct (nth r tm (d, (0, 0, 0))) as [t [[m0 m1] m2]] eqn:Et. cbn [fst].
  assert (K : forall h m, In (h, m) (combine (sides t) [m0; m1; m2]) -> nth m (points (subdivide mid nowhere sort (build l))) nowhere = mid (nth (h_from h) (points (build l)) nowhere) (nth (h_to h) (points (build l)) nowhere)).
  { intros h m Hm. apply in_with_mid; [exact Hc|]. apply (Permutation_in _ (Permutation_sym Q)). apply in_flat_map. exists (t, (m0, m1, m2)). split; [exact I|exact Hm]. }
  assert (K0 := K {| h_from := t_0 t; h_to := t_1 t; h_tri := t_id t; h_side := 0 |} m0 (or_introl eq_refl)).
  assert (K1 := K {| h_from := t_1 t; h_to := t_2 t; h_tri := t_id t; h_side := 1 |} m1 (or_intror (or_introl eq_refl))).
  assert (K2 := K {| h_from := t_2 t; h_to := t_0 t; h_tri := t_id t; h_side := 2 |} m2 (or_intror (or_intror (or_introl eq_refl)))).
  cbn [h_from h_to] in K0, K1, K2.
  assert (It : In t (triangles (build l))) by (rewrite <- E1; apply (in_map fst) in I; exact I). destruct (triangle_points mid nowhere l (build l) t G It) as (T0 & T1 & T2).
  assert (V : forall v, v < length (points (build l)) -> nth v (points (subdivide mid nowhere sort (build l))) nowhere = nth v (points (build l)) nowhere).
  { intros v Hv. cbn [subdivide points]. apply app_nth1, Hv. }
  unfold corners, part. destruct s as [|[|[|[|s]]]]; [| | | |lia]; cbn [children nth t_0 t_1 t_2]; rewrite ?K0, ?K1, ?K2, ?V by assumption; reflexivity.
Qed.
End Built.

(* ---- looking up rows by identifier *)
Lemma where_filter {A} (f : A -> bool) (d : A) l a :
  map fst (filter (fun p => f (snd p)) (combine (seq a (length l)) l)) = filter (fun r => f (nth (r - a) l d)) (seq a (length l)).
Proof.
  revert a. induction l as [|x l IH]; intros a; [reflexivity|]. cbn [length seq combine filter snd]. replace (a - a) with 0 by lia. change (nth 0 (x :: l) d) with x.
  assert (E : filter (fun r => f (nth (r - a) (x :: l) d)) (seq (S a) (length l)) = filter (fun r => f (nth (r - S a) l d)) (seq (S a) (length l))).
  { apply filter_ext_in. intros r H. apply in_seq in H. replace (r - a) with (S (r - S a)) by lia. reflexivity. }
  rewrite E, <- IH. destruct (f x); reflexivity.
Qed.
Lemma where_eq {A} (f : A -> bool) (d : A) l : where_ f l = filter (fun r => f (nth r l d)) (seq 0 (length l)).
Proof. unfold where_. rewrite (where_filter f d). apply filter_ext. intros r. rewrite Nat.sub_0_r. reflexivity. Qed.
Lemma filter_seq_sorted f : forall n a, StronglySorted lt (filter f (seq a n)).
Proof.
  induction n as [|n IH]; intros a; [constructor|]. cbn [seq filter]. destruct (f a); [|apply IH]. constructor; [apply IH|].
  apply Forall_forall. intros x H. apply filter_In in H. destruct H as [H _]. apply in_seq in H. lia.
Qed.
Lemma filter_all {A} (f : A -> bool) l : (forall x, In x l -> f x = true) -> filter f l = l.
Proof. induction l as [|x l IH]; intros H; [reflexivity|]. cbn. rewrite (H x (or_introl eq_refl)), IH by (intros; apply H; right; assumption). reflexivity. Qed.
Lemma filter_none {A} (f : A -> bool) l : (forall x, In x l -> f x = false) -> filter f l = [].
Proof. induction l as [|x l IH]; intros H; [reflexivity|]. cbn. rewrite (H x (or_introl eq_refl)). apply IH. intros; apply H; right; assumption. Qed.
Lemma filter_div_block b i n : 0 < b -> filter (fun r => r / b =? i) (seq 0 (b * i + b + n)) = seq (b * i) b.
Proof.
  intros B. rewrite <- Nat.add_assoc, seq_app, filter_app, seq_app, filter_app, Nat.add_0_l.
  rewrite (filter_none _ (seq 0 (b * i))), (filter_all _ (seq (b * i) b)), (filter_none _ (seq (b * i + b) n)).
  - rewrite app_nil_r. reflexivity.
  - intros x H. apply in_seq in H. apply Nat.eqb_neq. intros E. pose proof (Nat.mul_succ_div_gt x b ltac:(lia)). nia.
  - intros x H. apply in_seq in H. apply Nat.eqb_eq. symmetry. apply (Nat.div_unique x b i (x - b * i)); lia.
  - intros x H. apply in_seq in H. apply Nat.eqb_neq. intros E. pose proof (Nat.mul_div_le x b ltac:(lia)). nia.
Qed.
Lemma n_triangles_eq l : n_triangles_at_level l = 20 * 4 ^ l.
Proof.
  unfold n_triangles_at_level. assert (K : forall n a b, fold_left (fun n _ => n * 4) (seq a n) b = b * 4 ^ n).
  { induction n as [|n IH]; intros a b; cbn [seq fold_left Nat.pow]; [lia|]. rewrite IH. lia. }
  apply K.
Qed.
Section Rows.
Context {P : Type} (mid : P -> P -> P) (nowhere : P) (sort : forall A, (A -> N) -> list A -> list A) (Hs : sorts sort) (pts : list P) (L : length pts = 12).
Notation build := (build mid nowhere sort pts).
Lemma built_id l r d : l <= 28 -> r < 20 * 4 ^ l -> t_id (nth r (triangles (build l)) d) = ident l r.
Proof.
  intros H Hr. destruct (built_counts mid nowhere sort Hs pts L l H) as (_ & _ & T). pose proof (g_ids _ _ (built_good mid nowhere sort Hs pts L l H)) as I. unfold row_id in I.
  rewrite <- (map_nth t_id), I, T. rewrite (nth_indep _ _ (ident l 0)) by (rewrite map_length, seq_length; exact Hr). rewrite map_nth, seq_nth by exact Hr. reflexivity.
Qed.
Lemma super_rows l k i : k <= l -> l <= 28 -> super_triangle_at_level (build l) k i = filter (fun r => r / 4 ^ (l - k) =? i) (seq 0 (20 * 4 ^ l)).
Proof.
  intros Hk H. unfold super_triangle_at_level. rewrite (where_eq _ {| t_id := 0; t_0 := 0; t_1 := 0; t_2 := 0 |}).
  destruct (built_counts mid nowhere sort Hs pts L l H) as (_ & _ & T). rewrite T. apply filter_ext_in. intros r Hr. apply in_seq in Hr.
  rewrite built_id by lia. rewrite ident_shiftr by lia. destruct (Nat.eqb_spec (r / 4 ^ (l - k)) i) as [E|E]; [rewrite E; apply N.eqb_refl|apply N.eqb_neq; lia].
Qed.
Lemma super_block l k i : k <= l -> l <= 28 -> i < 20 * 4 ^ k -> super_triangle_at_level (build l) k i = seq (4 ^ (l - k) * i) (4 ^ (l - k)).
Proof.
  intros Hk H Hi. rewrite super_rows by assumption. set (b := 4 ^ (l - k)). assert (B : 0 < b) by (unfold b; apply Nat.neq_0_lt_0, Nat.pow_nonzero; lia).
  assert (E : 4 ^ l = 4 ^ k * b) by (unfold b; rewrite <- Nat.pow_add_r; f_equal; lia).
  assert (E2 : 20 * 4 ^ l = b * i + b + b * (20 * 4 ^ k - i - 1)) by (rewrite E; nia). rewrite E2. apply filter_div_block, B.
Qed.
End Rows.

(* ---- no edge joins a point to itself *)
Lemma combine_seq_inj {A} (l : list A) a n x y m : In (x, m) (combine l (seq a n)) -> In (y, m) (combine l (seq a n)) -> x = y.
Proof.
  revert a n. induction l as [|z l IH]; intros a n; [intros []|]. destruct n as [|n]; [intros []|]. cbn [seq combine]. intros [E|H] [F|K].
  - congruence.
  - injection E as _ E. apply in_combine_r, in_seq in K. lia.
  - injection F as _ F. apply in_combine_r, in_seq in H. lia.
  - apply (IH _ _ H K).
Qed.
Section Distinct.
Context {P : Type} (mid : P -> P -> P) (nowhere : P) (sort : forall A, (A -> N) -> list A -> list A) (Hs : sorts sort).
Lemma same_mid l (M : mesh P) h h' m : good l M ->
  In (h, m) (with_mid (combine (edges M) (seq (length (points M)) (length (edges M))))) ->
  In (h', m) (with_mid (combine (edges M) (seq (length (points M)) (length (edges M))))) -> h_tri h = h_tri h' -> h = h'.
Proof.
  intros G H K E. pose proof (g_two l M G) as F. rewrite Forall_forall in F. set (em := combine _ _) in *.
  assert (V : forall h, In (h, m) (with_mid em) -> exists e, In (e, m) em /\ (h = forward e \/ h = backward e)).
  { intros x Hx. unfold with_mid in Hx. apply in_app_iff in Hx. destruct Hx as [Hx|Hx]; apply in_map_iff in Hx; destruct Hx as ([e k] & Ek & Kk); injection Ek as <- <-; exists e; tauto. }
  destruct (V _ H) as (e & I & W), (V _ K) as (e' & I' & W'). assert (e = e') by (apply (combine_seq_inj _ _ _ _ _ _ I I')). subst e'.
  apply in_combine_l in I. specialize (F e I). destruct W as [-> | ->], W' as [-> | ->]; cbn in E; try reflexivity; exfalso; apply F; congruence.
Qed.
Lemma step_distinct l (M : mesh P) : good l M -> S l <= 28 -> Forall (fun e => e_from e <> e_to e) (edges (subdivide mid nowhere sort M)).
Proof.
  intros G Hl. destruct (step mid nowhere sort Hs l M G Hl) as (tm & E1 & E2 & Q & Ee & Ph). rewrite Ee. apply Forall_app. split; rewrite Forall_forall; intros e H; apply in_flat_map in H.
  - destruct H as ([e' m] & H & K). pose proof (in_combine_l _ _ _ _ H) as I. apply in_combine_r, in_seq in H.
    pose proof (g_points l M G) as F. rewrite Forall_forall in F. specialize (F e' I). destruct K as [<-|[<-|[]]]; cbn; lia.
  - destruct H as ([t [[m0 m1] m2]] & H & K).
    assert (V : forall h m, In (h, m) (combine (sides t) [m0; m1; m2]) -> In (h, m) (with_mid (combine (edges M) (seq (length (points M)) (length (edges M)))))).
    { intros h m I. apply (Permutation_in _ (Permutation_sym Q)). apply in_flat_map. exists (t, (m0, m1, m2)). split; [exact H|exact I]. }
    assert (V0 := V {| h_from := t_0 t; h_to := t_1 t; h_tri := t_id t; h_side := 0 |} m0 (or_introl eq_refl)).
    assert (V1 := V {| h_from := t_1 t; h_to := t_2 t; h_tri := t_id t; h_side := 1 |} m1 (or_intror (or_introl eq_refl))).
    assert (V2 := V {| h_from := t_2 t; h_to := t_0 t; h_tri := t_id t; h_side := 2 |} m2 (or_intror (or_intror (or_introl eq_refl)))).
    destruct K as [<-|[<-|[<-|[]]]]; cbn [e_from e_to]; intros E; subst.
    + pose proof (same_mid l M _ _ _ G V0 V2 eq_refl). discriminate.
    + pose proof (same_mid l M _ _ _ G V0 V1 eq_refl). discriminate.
    + pose proof (same_mid l M _ _ _ G V1 V2 eq_refl). discriminate.
Qed.
Context (pts : list P) (L : length pts = 12).
Lemma built_distinct l : l <= 28 -> Forall (fun e => e_from e <> e_to e) (edges (build mid nowhere sort pts l)).
Proof.
  intros H. destruct l as [|l].
  - cbn [build]. destruct (icosahedron_edges sort pts Hs L) as (bs & Lb & E). rewrite E. apply Forall_map, Forall_map, Forall_forall. intros [b [x y]] I. apply in_combine_r in I.
    assert (F : forallb (fun p : half * half => negb (h_from (fst p) =? h_to (fst p)) && negb (h_from (snd p) =? h_to (snd p))) canon = true) by (vm_compute; reflexivity).
    rewrite forallb_forall in F. specialize (F _ I). cbn [fst snd] in F. rewrite andb_true_iff, !negb_true_iff, !Nat.eqb_neq in F. destruct b; cbn; tauto.
  - cbn [build]. apply (step_distinct l); [apply built_good; assumption || lia|exact H].
Qed.
Lemma built_corners_distinct l t : l <= 28 -> In t (triangles (build mid nowhere sort pts l)) -> t_0 t <> t_1 t /\ t_1 t <> t_2 t /\ t_2 t <> t_0 t.
Proof.
  intros H It. pose proof (g_sides _ _ (built_good mid nowhere sort Hs pts L l H)) as Q. pose proof (built_distinct l H) as F. rewrite Forall_forall in F.
  assert (K : forall h, In h (sides t) -> h_from h <> h_to h).
  { intros h Hh. assert (I : In h (flat_map sides (triangles (build mid nowhere sort pts l)))) by (apply in_flat_map; exists t; tauto).
    apply (Permutation_in _ (Permutation_sym Q)) in I. unfold half_edges in I. apply in_app_iff in I.
    destruct I as [I|I]; apply in_map_iff in I; destruct I as (e & <- & I); specialize (F e I); cbn; congruence. }
  pose proof (K _ (or_introl eq_refl)) as K0. pose proof (K _ (or_intror (or_introl eq_refl))) as K1. pose proof (K _ (or_intror (or_intror (or_introl eq_refl)))) as K2.
  cbn in K0, K1, K2. tauto.
Qed.
Lemma built_sides_once l : l <= 28 -> NoDup (map (fun h => (h_tri h, h_side h)) (half_edges (edges (build mid nowhere sort pts l)))).
Proof.
  intros H. pose proof (built_good mid nowhere sort Hs pts L l H) as G. apply (Permutation_NoDup (Permutation_map _ (Permutation_sym (g_sides _ _ G)))).
  destruct (sides_sorted l H _ 0 (g_ids _ _ G)) as [S1 _]. induction S1 as [|x xs S1 IH F]; [constructor|]. cbn [map]. constructor; [|exact IH].
  intros I. apply in_map_iff in I. destruct I as (y & E & I). rewrite Forall_forall in F. specialize (F y I). injection E as E1 E2. rewrite E1, E2 in F. lia.
Qed.
End Distinct.
