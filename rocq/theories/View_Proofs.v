(* Proofs about views of the mesh. *)
From Coq Require Import NArith Reals Lra Ring Ring_theory String.
From Verif Require Import Base Mesh_Model Mesh_Spec Mesh_Proofs Loc_Model Loc_Proofs Spde_Model Spde_Spec Spde_Proofs View_Model View_Spec.
Local Open Scope nat_scope.
Local Open Scope list_scope.

(* ---- sorting *)
Lemma insert_nat_perm x l : Permutation (insert_nat x l) (x :: l).
Proof.
  induction l as [|y l IH]; cbn [insert_nat]; [reflexivity|]. destruct (x <=? y); [reflexivity|]. rewrite IH. apply perm_swap.
Qed.
Lemma sort_nat_perm l : Permutation (sort_nat l) l.
Proof. induction l as [|x l IH]; cbn; [reflexivity|]. fold (sort_nat l). rewrite insert_nat_perm. constructor. exact IH. Qed.
Lemma insert_nat_sorted x l : StronglySorted le l -> StronglySorted le (insert_nat x l).
Proof.
  induction l as [|y l IH]; intros S; cbn [insert_nat]; [repeat constructor|]. inversion S as [|? ? S' F]; subst.
  destruct (x <=? y) eqn:E.
  - apply Nat.leb_le in E. constructor; [exact S|]. constructor; [exact E|]. eapply Forall_impl; [|exact F]. cbn. lia.
  - apply Nat.leb_gt in E. constructor; [apply IH, S'|]. apply Forall_forall. intros z Z. apply (Permutation_in _ (insert_nat_perm x l)) in Z.
    destruct Z as [<-|Z]; [lia|]. rewrite Forall_forall in F. apply F, Z.
Qed.
Lemma sort_nat_sorted l : StronglySorted le (sort_nat l).
Proof. induction l as [|x l IH]; cbn; [constructor|]. fold (sort_nat l). apply insert_nat_sorted, IH. Qed.
Lemma drop_repeats_cons y z l : drop_repeats (y :: z :: l) = if y =? z then drop_repeats (z :: l) else y :: drop_repeats (z :: l).
Proof. reflexivity. Qed.
Lemma drop_repeats_in l x : In x (drop_repeats l) <-> In x l.
Proof.
  induction l as [|y l IH]; [reflexivity|]. destruct l as [|z l]; [reflexivity|]. rewrite drop_repeats_cons. destruct (y =? z) eqn:E.
  - apply Nat.eqb_eq in E. subst z. rewrite IH. cbn [In]. tauto.
  - split; (intros [I|I]; [left; exact I|right; apply IH; exact I]).
Qed.
Lemma drop_repeats_sorted l : StronglySorted le l -> StronglySorted lt (drop_repeats l).
Proof.
  induction l as [|y l IH]; intros S; [constructor|]. inversion S as [|? ? S' F]; subst. destruct l as [|z l]; [repeat constructor|]. rewrite drop_repeats_cons.
  destruct (y =? z) eqn:E; [apply IH, S'|]. apply Nat.eqb_neq in E. constructor; [apply IH, S'|]. apply Forall_forall. intros w W.
  apply (proj1 (drop_repeats_in _ _)) in W. inversion F as [|? ? Yz F']; subst. inversion S' as [|? ? S'' G]; subst. destruct W as [<-|W]; [lia|]. rewrite Forall_forall in G. specialize (G w W). lia.
Qed.
Lemma strict_sorted_le l : StronglySorted lt l -> StronglySorted le l.
Proof. induction 1 as [|x l S IH F]; constructor; [exact IH|]. eapply Forall_impl; [|exact F]. cbn. lia. Qed.
Lemma sorted_perm_eq : forall l l', StronglySorted le l -> StronglySorted le l' -> Permutation l l' -> l = l'.
Proof.
  induction l as [|x l IH]; intros l' S S' E; [symmetry; apply Permutation_nil, E|].
  destruct l' as [|y l']; [apply Permutation_sym, Permutation_nil in E; discriminate|].
  inversion S as [|? ? S1 F1]; subst. inversion S' as [|? ? S2 F2]; subst. rewrite Forall_forall in F1, F2.
  assert (x = y).
  { assert (In x (y :: l')) as [A|A] by (rewrite <- E; left; reflexivity); [congruence|].
    assert (In y (x :: l)) as [B|B] by (rewrite E; left; reflexivity); [congruence|]. specialize (F1 y B). specialize (F2 x A). lia. }
  subst y. f_equal. apply IH; [exact S1|exact S2|]. apply Permutation_cons_inv in E. exact E.
Qed.
Lemma sort_nat_id l : StronglySorted le l -> sort_nat l = l.
Proof. intros S. apply sorted_perm_eq; [apply sort_nat_sorted|exact S|apply sort_nat_perm]. Qed.
Lemma unique_sorted l : StronglySorted lt (unique_nat l).
Proof. apply drop_repeats_sorted, sort_nat_sorted. Qed.
Lemma unique_in l x : In x (unique_nat l) <-> In x l.
Proof. unfold unique_nat. rewrite drop_repeats_in. split; intros I; [rewrite <- (sort_nat_perm l)|rewrite (sort_nat_perm l)]; exact I. Qed.
Lemma seq_strict : forall n a, StronglySorted lt (seq a n).
Proof. induction n as [|n IH]; intros a; cbn [seq]; constructor; [apply IH|]. apply Forall_forall. intros x X. apply in_seq in X. lia. Qed.
Lemma strict_nodup l : StronglySorted lt l -> NoDup l.
Proof. induction 1 as [|x l S IH F]; constructor; [|exact IH]. intros I. rewrite Forall_forall in F. specialize (F x I). lia. Qed.
Lemma strict_ext l l' : StronglySorted lt l -> StronglySorted lt l' -> (forall x, In x l <-> In x l') -> l = l'.
Proof.
  intros S S' E. apply sorted_perm_eq; [apply strict_sorted_le, S|apply strict_sorted_le, S'|]. apply NoDup_Permutation; [apply strict_nodup, S|apply strict_nodup, S'|exact E].
Qed.

(* ---- views *)
Section View.
Context {P : Type} (m : mesh P).
Lemma corner_list_in t j : In j (corner_list t) <-> touches t j.
Proof. unfold corner_list, touches. cbn [In]. intuition. Qed.
Lemma make_view_inv rows v : make_view m rows = Ok v ->
  v_points v = length (points m) /\ v_active v = sort_nat rows /\ Forall (fun r => r < length (triangles m)) rows /\
  StronglySorted lt (v_vertices v) /\ forall j, In j (v_vertices v) <-> exists t, In t (chosen m rows) /\ touches t j.
Proof.
  unfold make_view. destruct (forallb _ _) eqn:F; [|discriminate]. intros E. assert (E' : v = {| v_points := length (points m); v_active := sort_nat rows;
    v_vertices := sort_nat (unique_nat (flat_map (fun r => corner_list (nth r (triangles m) no_triangle)) (sort_nat rows))) |}) by congruence. clear E. subst v. cbn [v_points v_active v_vertices].
  split; [reflexivity|]. split; [reflexivity|]. split.
  { apply Forall_forall. intros r I. rewrite forallb_forall in F. apply Nat.ltb_lt, F. rewrite sort_nat_perm. exact I. }
  rewrite sort_nat_id by apply strict_sorted_le, unique_sorted. split; [apply unique_sorted|]. intros j. rewrite unique_in, in_flat_map. unfold chosen. split.
  - intros (r & I & J). exists (nth r (triangles m) no_triangle). rewrite corner_list_in in J. split; [|exact J]. rewrite in_map_iff. exists r. rewrite <- (sort_nat_perm rows). auto.
  - intros (t & I & J). rewrite in_map_iff in I. destruct I as (r & <- & I). exists r. rewrite corner_list_in. rewrite sort_nat_perm. auto.
Qed.
Lemma make_view_ok rows : Forall (fun r => r < length (triangles m)) rows -> exists v, make_view m rows = Ok v.
Proof.
  intros F. unfold make_view. replace (forallb _ _) with true; [eauto|]. symmetry. apply forallb_forall. intros r I. rewrite sort_nat_perm in I. rewrite Forall_forall in F. apply Nat.ltb_lt, F, I.
Qed.
Lemma make_view_bad rows : ~ Forall (fun r => r < length (triangles m)) rows -> make_view m rows = Err IndexError.
Proof.
  intros F. unfold make_view. destruct (forallb _ _) eqn:E; [|reflexivity]. contradict F. apply Forall_forall. intros r I. rewrite forallb_forall in E. apply Nat.ltb_lt, E. rewrite sort_nat_perm. exact I.
Qed.
Lemma make_view_below rows v : corners_in m -> make_view m rows = Ok v -> Forall (fun j => j < length (points m)) (v_vertices v).
Proof.
  intros K E. destruct (make_view_inv rows v E) as (_ & _ & F & _ & V). apply Forall_forall. intros j J. apply V in J. destruct J as (t & I & J).
  unfold chosen in I. rewrite in_map_iff in I. destruct I as (r & <- & I). rewrite Forall_forall in F. unfold corners_in in K. rewrite Forall_forall in K. apply (K (nth r (triangles m) no_triangle)); [apply nth_In, F, I|exact J].
Qed.

(* ---- matrices *)
Variable N : numbers.
Hypothesis RT : is_ring N.
Let RT' : ring_theory (@n0 N) n1 nadd nmul (fun a b => nadd a (nopp b)) nopp eq := RT.
Add Ring Nring : RT'.
Variables (inv : N -> N) (area_of : triangle -> N).

Lemma map_later : forall (pairs : list (nat * nat)) f j, (forall p, In p pairs -> snd p <> j) ->
  fold_left (fun map_ (p : nat * nat) => fun j => if j =? snd p then Z.of_nat (fst p) else map_ j) pairs f j = f j.
Proof.
  induction pairs as [|p pairs IH]; intros f j H; [reflexivity|]. cbn [fold_left]. rewrite IH by (intros q Q; apply H; right; exact Q).
  destruct (j =? snd p) eqn:E; [|reflexivity]. apply Nat.eqb_eq in E. exfalso. apply (H p (or_introl eq_refl)). symmetry. exact E.
Qed.
Lemma index_at : forall (l : list nat) f a0 k, NoDup l -> k < length l ->
  fold_left (fun map_ (p : nat * nat) => fun j => if j =? snd p then Z.of_nat (fst p) else map_ j) (combine (seq a0 (length l)) l) f (nth k l 0) = Z.of_nat (a0 + k).
Proof.
  induction l as [|x l IH]; intros f a0 k D K; [cbn in K; lia|]. inversion D as [|? ? X D']; subst. cbn [length seq combine fold_left fst snd].
  destruct k as [|k]; cbn [nth].
  - rewrite map_later; [rewrite Nat.eqb_refl; f_equal; lia|]. intros [a y] Q. cbn. apply in_combine_r in Q. congruence.
  - rewrite IH by (cbn in K; lia || assumption). f_equal. lia.
Qed.
Lemma vertex_index_at v k : StronglySorted lt (v_vertices v) -> k < n_latent_variables v -> vertex_index_map v (nth k (v_vertices v) 0) = Z.of_nat k.
Proof. intros S K. unfold vertex_index_map. rewrite index_at; [reflexivity|apply strict_nodup, S|exact K]. Qed.
Lemma vertex_index_in v j : StronglySorted lt (v_vertices v) -> In j (v_vertices v) -> exists k, k < n_latent_variables v /\ nth k (v_vertices v) 0 = j /\ vertex_index_map v j = Z.of_nat k.
Proof. intros S I. destruct (In_nth _ _ 0 I) as (k & K & E). exists k. split; [exact K|]. split; [exact E|]. rewrite <- E. apply vertex_index_at; assumption. Qed.

(* renumbering of entries *)
Lemma extent_le is n : (forall i, In i is -> (i < Z.of_nat n)%Z) -> (0 < n \/ is = []) -> extent is <= n.
Proof.
  induction is as [|i is IH]; intros H Hn; [cbn; lia|]. destruct Hn as [Hn|Hn]; [|discriminate]. cbn [extent fold_right]. fold (extent is).
  pose proof (H i (or_introl eq_refl)). assert (extent is <= n) by (apply IH; [intros x X; apply H; right; exact X|left; exact Hn]). lia.
Qed.
Lemma extent_ge is i : In i is -> S (Z.to_nat i) <= extent is.
Proof. induction is as [|x is IH]; intros I; [contradiction|]. cbn [extent fold_right]. fold (extent is). destruct I as [<-|I]; [lia|]. specialize (IH I). lia. Qed.
Lemma coo_renumbered v (entries : list (nat * nat * N)) : StronglySorted lt (v_vertices v) -> entries <> [] ->
  (forall e, In e entries -> In (fst (fst e)) (v_vertices v) /\ In (snd (fst e)) (v_vertices v)) ->
  (forall j, In j (v_vertices v) -> exists e, In e entries /\ fst (fst e) = j) -> (forall j, In j (v_vertices v) -> exists e, In e entries /\ snd (fst e) = j) ->
  exists A, coo_matrix N (map (fun e => (vertex_index_map v (fst (fst e)), vertex_index_map v (snd (fst e)), snd e)) entries) = Ok (n_latent_variables v, n_latent_variables v, A) /\
    forall a b, a < n_latent_variables v -> b < n_latent_variables v -> A a b = coo N entries (nth a (v_vertices v) 0) (nth b (v_vertices v) 0).
Proof.
  intros S NE IN C1 C2. set (es := map _ entries). unfold coo_matrix. destruct es as [|e0 es0] eqn:ES; [subst es; destruct entries; [contradiction|discriminate]|]. rewrite <- ES. clear ES e0 es0.
  assert (B : forall e, In e es -> (0 <= fst (fst e) < Z.of_nat (n_latent_variables v))%Z /\ (0 <= snd (fst e) < Z.of_nat (n_latent_variables v))%Z).
  { intros e I. unfold es in I. rewrite in_map_iff in I. destruct I as (f & <- & I). cbn [fst snd]. destruct (IN f I) as [I1 I2].
    destruct (vertex_index_in v _ S I1) as (k1 & K1 & _ & ->). destruct (vertex_index_in v _ S I2) as (k2 & K2 & _ & ->). lia. }
  replace (existsb _ es) with false.
  2:{ symmetry. apply not_true_is_false. intros E. rewrite existsb_exists in E. destruct E as (e & I & E). destruct (B e I). lia. }
  assert (NV : 0 < n_latent_variables v). { destruct entries as [|e entries]; [contradiction|]. destruct (IN e (or_introl eq_refl)) as [I _]. unfold n_latent_variables. destruct (v_vertices v); [contradiction|cbn; lia]. }
  assert (LAST : forall g : Z * Z * N -> Z, (forall e, In e es -> (0 <= g e < Z.of_nat (n_latent_variables v))%Z) -> (forall j, In j (v_vertices v) -> exists e, In e es /\ g e = vertex_index_map v j) ->
    extent (map g es) = n_latent_variables v).
  { intros g G C. apply Nat.le_antisymm.
    - apply extent_le; [|left; exact NV]. intros i I. rewrite in_map_iff in I. destruct I as (e & <- & I). apply G, I.
    - assert (KL : n_latent_variables v - 1 < n_latent_variables v) by lia. destruct (C (nth (n_latent_variables v - 1) (v_vertices v) 0)) as (e & I & E); [apply nth_In, KL|].
      rewrite vertex_index_at in E by assumption. pose proof (extent_ge (map g es) (g e) (in_map g es e I)). lia. }
  eexists. split.
  - rewrite !LAST; [reflexivity| | | |].
    + intros e I. apply B, I.
    + intros j J. destruct (C2 j J) as (e & I & <-). eexists. split; [unfold es; apply in_map, I|reflexivity].
    + intros e I. apply B, I.
    + intros j J. destruct (C1 j J) as (e & I & <-). eexists. split; [unfold es; apply in_map, I|reflexivity].
  - intros a b Ha Hb. unfold coo. f_equal. unfold es. rewrite !map_map. apply map_ext_in. intros e I. cbn [fst snd].
    destruct (IN e I) as [I1 I2]. destruct (vertex_index_in v _ S I1) as (k1 & K1 & E1 & ->). destruct (vertex_index_in v _ S I2) as (k2 & K2 & E2 & ->). rewrite !Nat2Z.id, <- E1, <- E2.
    assert (Q : forall x y, x < n_latent_variables v -> y < n_latent_variables v -> (nth x (v_vertices v) 0 =? nth y (v_vertices v) 0) = (x =? y)).
    { intros x y X Y. destruct (x =? y) eqn:E; [apply Nat.eqb_eq in E; subst; apply Nat.eqb_refl|]. apply Nat.eqb_neq. intros F. apply Nat.eqb_neq in E. apply E. apply (proj1 (NoDup_nth (v_vertices v) 0) (strict_nodup _ S)); assumption. }
    rewrite !Q by assumption. reflexivity.
Qed.

Lemma coo_perm es es' i j : Permutation es es' -> coo N es i j = coo N es' i j.
Proof.
  intros E. unfold coo. induction E as [|e es es' E IH|e f es|es es' es'' E IH E' IH']; cbn [map nlist fold_right]; fold (nlist N).
  - reflexivity.
  - unfold nlist in *. rewrite IH. reflexivity.
  - ring.
  - rewrite IH. exact IH'.
Qed.
Lemma coo_app es es' i j : coo N (es ++ es') i j = nadd (coo N es i j) (coo N es' i j).
Proof. unfold coo. rewrite map_app. apply (nlist_app N RT). Qed.
Lemma coo_none es i j : (forall e, In e es -> fst (fst e) <> i \/ snd (fst e) <> j) -> coo N es i j = n0.
Proof.
  induction es as [|e es IH]; intros H; [reflexivity|]. unfold coo in *. cbn [map nlist fold_right]. unfold nlist in IH. rewrite IH by (intros f F; apply H; right; exact F).
  destruct (H e (or_introl eq_refl)) as [E|E]; apply Nat.eqb_neq in E; rewrite E; rewrite ?andb_false_r; cbn [andb]; ring.
Qed.

Lemma filter_split_perm {A} (f : A -> bool) l : Permutation l (filter f l ++ filter (fun x => negb (f x)) l).
Proof.
  induction l as [|x l IH]; [reflexivity|]. cbn [filter]. destruct (f x); cbn [negb app]; [constructor; exact IH|]. etransitivity; [|apply Permutation_middle]. constructor. exact IH.
Qed.
Lemma mem_in x l : mem x l = true <-> In x l.
Proof. unfold mem. rewrite existsb_exists. split; [intros (y & I & E); apply Nat.eqb_eq in E; subst; exact I|]. intros I. exists x. split; [exact I|apply Nat.eqb_refl]. Qed.

(* the entries of one triangle *)
Section Entries.
Variable ent : triangle -> list (nat * nat * N).
Hypothesis ent_in : forall t e, In e (ent t) -> touches t (fst (fst e)) /\ touches t (snd (fst e)).
Hypothesis ent_rows : forall t j, touches t j -> (exists e, In e (ent t) /\ fst (fst e) = j) /\ (exists e, In e (ent t) /\ snd (fst e) = j).
Definition assembled (ts : list triangle) : mat N := coo N (flat_map ent ts).
Definition renumbered (v : view) : list (Z * Z * N) := map (fun e => (vertex_index_map v (fst (fst e)), vertex_index_map v (snd (fst e)), snd e)) (flat_map ent (view_triangles m v)).
Lemma view_triangles_perm rows v : make_view m rows = Ok v -> Permutation (view_triangles m v) (chosen m rows).
Proof. intros E. destruct (make_view_inv rows v E) as (_ & A & _). unfold view_triangles, chosen. rewrite A. apply Permutation_map, sort_nat_perm. Qed.
Lemma assembled_perm ts ts' i j : Permutation ts ts' -> assembled ts i j = assembled ts' i j.
Proof. intros E. apply coo_perm, flat_map_permuted, E. Qed.
Lemma view_matrix rows v : make_view m rows = Ok v -> rows <> [] ->
  exists A, coo_matrix N (renumbered v) = Ok (n_latent_variables v, n_latent_variables v, A) /\
    forall a b, a < n_latent_variables v -> b < n_latent_variables v -> A a b = assembled (chosen m rows) (nth a (v_vertices v) 0) (nth b (v_vertices v) 0).
Proof.
  intros E NE. destruct (make_view_inv rows v E) as (_ & _ & _ & S & V). pose proof (view_triangles_perm rows v E) as VP.
  destruct (coo_renumbered v (flat_map ent (view_triangles m v)) S) as (A & EA & HA).
  - destruct rows as [|r rows]; [contradiction|]. intros Z. assert (I : In (nth r (triangles m) no_triangle) (view_triangles m v)) by (rewrite VP; left; reflexivity).
    destruct (ent_rows (nth r (triangles m) no_triangle) _ (or_introl eq_refl)) as [(e & J & _) _].
    assert (In e (flat_map ent (view_triangles m v))) as Q by (apply in_flat_map; eauto). rewrite Z in Q. exact Q.
  - intros e I. apply in_flat_map in I. destruct I as (t & I & J). rewrite VP in I. destruct (ent_in t e J) as [T1 T2]. rewrite !V. split; eauto.
  - intros j J. apply V in J. destruct J as (t & I & T). rewrite <- VP in I. destruct (ent_rows t j T) as [(e & J & Q) _]. exists e. split; [apply in_flat_map; eauto|exact Q].
  - intros j J. apply V in J. destruct J as (t & I & T). rewrite <- VP in I. destruct (ent_rows t j T) as [_ (e & J & Q)]. exists e. split; [apply in_flat_map; eauto|exact Q].
  - exists A. split; [exact EA|]. intros a b Ha Hb. rewrite HA by assumption. apply assembled_perm, VP.
Qed.
Lemma assembled_outside rows v i j : make_view m rows = Ok v -> ~ In i (v_vertices v) \/ ~ In j (v_vertices v) -> assembled (chosen m rows) i j = n0.
Proof.
  intros E O. destruct (make_view_inv rows v E) as (_ & _ & _ & _ & V). apply coo_none. intros e I. apply in_flat_map in I. destruct I as (t & I & J). destruct (ent_in t e J) as [T1 T2].
  destruct O as [O|O]; [left|right]; intros <-; apply O, V; eauto.
Qed.
Lemma mapping_entry v a j : a < n_latent_variables v -> vertex_mappings N v a j = if nth a (v_vertices v) 0 =? j then n1 else n0.
Proof. intros A. unfold vertex_mappings, mapping. apply Nat.ltb_lt in A. unfold n_latent_variables in A. rewrite A. reflexivity. Qed.
Lemma spread_entry rows v (A : mat N) : make_view m rows = Ok v -> forall i j,
  spread N v A i j = match find (fun a => nth a (v_vertices v) 0 =? i) (seq 0 (n_latent_variables v)), find (fun b => nth b (v_vertices v) 0 =? j) (seq 0 (n_latent_variables v)) with
                     | Some a, Some b => A a b | _, _ => n0 end.
Proof.
  intros E i j. destruct (make_view_inv rows v E) as (_ & _ & _ & S & _). apply strict_nodup in S. unfold spread. set (n := n_latent_variables v) in *.
  assert (ONE : forall i' (f : nat -> N), nsum N n (fun a => if nth a (v_vertices v) 0 =? i' then f a else n0) = match find (fun a => nth a (v_vertices v) 0 =? i') (seq 0 n) with Some a => f a | None => n0 end).
  { intros i' f. destruct (find _ _) as [a|] eqn:F.
    - apply find_some in F. destruct F as [F1 F2]. apply in_seq in F1. rewrite (nsum_one N RT n a); [rewrite F2; reflexivity|lia|]. intros b B NB. destruct (nth b (v_vertices v) 0 =? i') eqn:G; [|reflexivity].
      exfalso. apply NB. apply Nat.eqb_eq in F2, G. apply (proj1 (NoDup_nth (v_vertices v) 0) S); [exact B|unfold n, n_latent_variables in F1; lia|congruence].
    - apply (nsum_zero N RT). intros b B. rewrite (find_none _ _ F b) by (apply in_seq; lia). reflexivity. }
  rewrite (nsum_ext N n _ (fun a => if nth a (v_vertices v) 0 =? i then nsum N n (fun b => if nth b (v_vertices v) 0 =? j then A a b else n0) else n0)).
  - rewrite ONE. destruct (find (fun a => nth a (v_vertices v) 0 =? i) (seq 0 n)); [|reflexivity]. rewrite ONE. reflexivity.
  - intros a Ha. destruct (nth a (v_vertices v) 0 =? i) eqn:G.
    + apply nsum_ext. intros b Hb. rewrite !mapping_entry, G by assumption. destruct (_ =? j); ring.
    + apply (nsum_zero N RT). intros b Hb. rewrite !mapping_entry, G by assumption. ring.
Qed.
Lemma find_position v i : (In i (v_vertices v) -> exists a, find (fun a => nth a (v_vertices v) 0 =? i) (seq 0 (n_latent_variables v)) = Some a /\ a < n_latent_variables v /\ nth a (v_vertices v) 0 = i) /\
  (~ In i (v_vertices v) -> find (fun a => nth a (v_vertices v) 0 =? i) (seq 0 (n_latent_variables v)) = None).
Proof.
  split.
  - intros I. destruct (find _ _) as [a|] eqn:F.
    + exists a. apply find_some in F. destruct F as [F1 F2]. apply in_seq in F1. apply Nat.eqb_eq in F2. repeat split; [lia|exact F2].
    + destruct (In_nth _ _ 0 I) as (a & Ha & E). exfalso. pose proof (find_none _ _ F a) as Q. cbn beta in Q. rewrite E, Nat.eqb_refl in Q. discriminate Q. apply in_seq. unfold n_latent_variables. lia.
  - intros I. destruct (find _ _) as [a|] eqn:F; [|reflexivity]. apply find_some in F. destruct F as [F1 F2]. apply in_seq in F1. apply Nat.eqb_eq in F2. exfalso. apply I. rewrite <- F2. apply nth_In. unfold n_latent_variables in F1. lia.
Qed.
Lemma spread_matrix rows v A : make_view m rows = Ok v ->
  (forall a b, a < n_latent_variables v -> b < n_latent_variables v -> A a b = assembled (chosen m rows) (nth a (v_vertices v) 0) (nth b (v_vertices v) 0)) ->
  forall i j, spread N v A i j = assembled (chosen m rows) i j.
Proof.
  intros E HA i j. rewrite (spread_entry rows v A E). destruct (find_position v i) as [Fi Ni]. destruct (find_position v j) as [Fj Nj].
  destruct (in_dec Nat.eq_dec i (v_vertices v)) as [I|I].
  - destruct (Fi I) as (a & -> & Ha & Ea). destruct (in_dec Nat.eq_dec j (v_vertices v)) as [J|J].
    + destruct (Fj J) as (b & -> & Hb & Eb). rewrite HA, Ea, Eb by assumption. reflexivity.
    + rewrite (Nj J). symmetry. apply (assembled_outside rows v i j E). auto.
  - rewrite (Ni I). symmetry. apply (assembled_outside rows v i j E). auto.
Qed.
Lemma chosen_app rows rows' : chosen m (rows ++ rows') = chosen m rows ++ chosen m rows'.
Proof. apply map_app. Qed.
Lemma assembled_concat parts i j : assembled (chosen m (concat parts)) i j = nlist N (map (fun rows => assembled (chosen m rows) i j) parts).
Proof.
  induction parts as [|rows parts IH]; [reflexivity|]. cbn [concat map nlist fold_right]. unfold nlist in IH. rewrite <- IH. unfold assembled. rewrite chosen_app, flat_map_app, coo_app. reflexivity.
Qed.
Lemma chosen_all : chosen m (seq 0 (length (triangles m))) = triangles m.
Proof.
  unfold chosen. generalize (triangles m) as l. intros l.
  assert (G : forall pre, map (fun r => nth r (pre ++ l) no_triangle) (seq (length pre) (length l)) = l).
  { induction l as [|t l IH]; intros pre; [reflexivity|]. cbn [length seq map]. f_equal; [apply nth_middle|]. specialize (IH (pre ++ [t])). rewrite app_length, Nat.add_1_r, <- app_assoc in IH. exact IH. }
  apply (G []).
Qed.
Lemma sum_of_parts parts i j : Permutation (concat parts) (seq 0 (length (triangles m))) ->
  nlist N (map (fun rows => assembled (chosen m rows) i j) parts) = assembled (triangles m) i j.
Proof. intros E. rewrite <- assembled_concat, <- chosen_all. apply assembled_perm. apply Permutation_map, E. Qed.
(* a row of triangles all of which are chosen *)
Lemma assembled_interior rows i j : NoDup rows -> Forall (fun r => r < length (triangles m)) rows ->
  (forall r, r < length (triangles m) -> touches (nth r (triangles m) no_triangle) i -> In r rows) -> assembled (chosen m rows) i j = assembled (triangles m) i j.
Proof.
  intros D F H. rewrite <- chosen_all. set (all := seq 0 (length (triangles m))).
  assert (PE : Permutation all (filter (fun r => mem r rows) all ++ filter (fun r => negb (mem r rows)) all)) by apply filter_split_perm.
  assert (PR : Permutation (filter (fun r => mem r rows) all) rows).
  { apply NoDup_Permutation; [apply NoDup_filter, seq_NoDup|exact D|]. intros r. rewrite filter_In, mem_in. unfold all. rewrite in_seq. rewrite Forall_forall in F. split; [tauto|]. intros I. specialize (F r I). split; [lia|exact I]. }
  rewrite (assembled_perm (chosen m all) _ i j (Permutation_map _ PE)). fold (chosen m (filter (fun r => mem r rows) all ++ filter (fun r => negb (mem r rows)) all)).
  rewrite chosen_app. unfold assembled at 2. rewrite flat_map_app, coo_app. rewrite (coo_none (flat_map ent (chosen m (filter (fun r => negb (mem r rows)) all)))).
  - fold (assembled (chosen m (filter (fun r => mem r rows) all))). rewrite (assembled_perm (chosen m (filter (fun r => mem r rows) all)) (chosen m rows) i j (Permutation_map _ PR)). ring.
  - intros e I. left. intros EI. apply in_flat_map in I. destruct I as (t & I & J). unfold chosen in I. rewrite in_map_iff in I. destruct I as (r & <- & I). rewrite filter_In in I. destruct I as [I1 I2].
    apply in_seq in I1. destruct (ent_in _ e J) as [T _]. rewrite EI in T. assert (Q : In r rows) by (apply H; [lia|exact T]). apply mem_in in Q. rewrite Q in I2. discriminate.
Qed.
End Entries.

(* the two matrices *)
Definition C_ent (t : triangle) : list (nat * nat * N) := map (fun a => (corner t a, corner t a, nmul (area_of t) (inv (of_nat N 3)))) (seq 0 3).
Definition G_ent (coordinates : nat -> pt N) (t : triangle) : list (nat * nat * N) :=
  flat_map (fun a => map (fun b => (corner t a, corner t b,
    nmul (inv (nmul (of_nat N 4) (area_of t))) (pdot N (Spde_Model.edge N coordinates (tri_of N area_of t) a) (Spde_Model.edge N coordinates (tri_of N area_of t) b)))) (seq 0 3)) (seq 0 3).
Lemma corner_touches t a : touches t (corner t a).
Proof. unfold touches, corner. destruct a as [|[|a]]; auto. Qed.
Lemma touches_corner t j : touches t j -> exists a, a < 3 /\ corner t a = j.
Proof. intros [-> | [-> | ->]]; [exists 0|exists 1|exists 2]; (split; [lia|reflexivity]). Qed.
Lemma C_ent_in t e : In e (C_ent t) -> touches t (fst (fst e)) /\ touches t (snd (fst e)).
Proof. unfold C_ent. rewrite in_map_iff. intros (a & <- & _). cbn [fst snd]. split; apply corner_touches. Qed.
Lemma C_ent_rows t j : touches t j -> (exists e, In e (C_ent t) /\ fst (fst e) = j) /\ (exists e, In e (C_ent t) /\ snd (fst e) = j).
Proof.
  intros T. destruct (touches_corner t j T) as (a & A & <-). split; exists (corner t a, corner t a, nmul (area_of t) (inv (of_nat N 3))); (split; [|reflexivity]);
  unfold C_ent; apply in_map_iff; exists a; (split; [reflexivity|apply in_seq; lia]).
Qed.
Lemma G_ent_in co t e : In e (G_ent co t) -> touches t (fst (fst e)) /\ touches t (snd (fst e)).
Proof. unfold G_ent. rewrite in_flat_map. intros (a & _ & I). rewrite in_map_iff in I. destruct I as (b & <- & _). cbn [fst snd]. split; apply corner_touches. Qed.
Lemma G_ent_rows co t j : touches t j -> (exists e, In e (G_ent co t) /\ fst (fst e) = j) /\ (exists e, In e (G_ent co t) /\ snd (fst e) = j).
Proof.
  intros T. destruct (touches_corner t j T) as (a & A & <-). split; eexists; (split; [unfold G_ent; apply in_flat_map; exists a; (split; [apply in_seq; lia|]); apply in_map_iff; exists a; (split; [reflexivity|apply in_seq; lia])|reflexivity]).
Qed.
Lemma C_full ts i j : C_tilde N inv (map (tri_of N area_of) ts) i j = assembled C_ent ts i j.
Proof. unfold C_tilde, assembled. rewrite flat_map_map. reflexivity. Qed.
Lemma G_full co ts i j : G_matrix N inv co (map (tri_of N area_of) ts) i j = assembled (G_ent co) ts i j.
Proof. unfold G_matrix, assembled. rewrite flat_map_map. reflexivity. Qed.
Lemma C_view v : view_C_tilde N inv area_of m v = coo_matrix N (renumbered C_ent v).
Proof. unfold view_C_tilde, renumbered. f_equal. rewrite map_flat_map. apply flat_map_ext. intros t. unfold C_ent. rewrite map_map. reflexivity. Qed.
Lemma G_view co v : view_G N inv area_of m co v = coo_matrix N (renumbered (G_ent co) v).
Proof.
  unfold view_G, renumbered. f_equal. rewrite map_flat_map. apply flat_map_ext. intros t. unfold G_ent. rewrite map_flat_map. apply flat_map_ext. intros a. rewrite map_map. reflexivity.
Qed.
End View.
