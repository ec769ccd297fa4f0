(* Proofs about views of the subdivided icosahedron, about locations in views and about merging. *)
From Coq Require Import NArith Reals Lra String.
From Verif Require Import Base Mesh_Model Mesh_Spec Mesh_Proofs Loc_Model Loc_Spec Loc_Proofs Spde_Model Spde_Spec View_Model View_Spec View_Proofs.
Local Open Scope nat_scope.
Local Open Scope list_scope.

Section Icosahedron.
Context {P : Type} (mid : P -> P -> P) (origin : P) (sort : forall A, (A -> N) -> list A -> list A) (Hs : sorts sort) (pts : list P) (L : length pts = 12).
Notation M := (build mid origin sort pts).
Lemma built_corners_in n : n <= 28 -> corners_in (M n).
Proof.
  intros H. unfold corners_in. apply Forall_forall. intros t I j T. destruct (triangle_points mid origin n (M n) t (built_good mid origin sort Hs pts L n H) I) as (A & B & C). destruct T as [-> | [-> | ->]]; assumption.
Qed.
Definition on_edge (m : mesh P) (j : nat) : Prop := exists e, In e (edges m) /\ (j = e_from e \/ j = e_to e).
Lemma touched_on_edge n (m : mesh P) j : good n m -> (exists t, In t (triangles m) /\ touches t j) -> on_edge m j.
Proof.
  intros G (t & I & T). assert (H : exists h, In h (sides t) /\ h_from h = j).
  { destruct T as [-> | [-> | ->]]; cbn [sides In]; eexists; (split; [|]); [left; reflexivity|reflexivity|right; left; reflexivity|reflexivity|right; right; left; reflexivity|reflexivity]. }
  destruct H as (h & Ih & <-). assert (J : In h (flat_map sides (triangles m))) by (apply in_flat_map; exists t; tauto).
  apply (Permutation_in _ (Permutation_sym (g_sides n m G))) in J. unfold half_edges in J. apply in_app_iff in J. destruct J as [J|J]; apply in_map_iff in J; destruct J as (e & <- & J); exists e; cbn; auto.
Qed.
Lemma on_edge_touched n (m : mesh P) j : good n m -> on_edge m j -> exists t, In t (triangles m) /\ touches t j.
Proof.
  intros G (e & I & T). assert (H : exists h, In h (half_edges (edges m)) /\ h_from h = j).
  { unfold half_edges. destruct T as [-> | ->].
    - exists (forward e). split; [apply in_app_iff; left; apply in_map, I|reflexivity].
    - exists (backward e). split; [apply in_app_iff; right; apply in_map, I|reflexivity]. }
  destruct H as (h & Ih & <-). apply (Permutation_in _ (g_sides n m G)) in Ih. apply in_flat_map in Ih. destruct Ih as (t & It & Ih). exists t. split; [exact It|].
  cbn [sides In] in Ih. unfold touches. destruct Ih as [<-|[<-|[<-|[]]]]; cbn; auto.
Qed.
Lemma built_touched n : n <= 28 -> forall j, j < length (points (M n)) -> exists t, In t (triangles (M n)) /\ touches t j.
Proof.
  induction n as [|n IH]; intros H j J.
  - change (points (M 0)) with pts in J. rewrite L in J. change (triangles (M 0)) with base_triangles.
    do 12 (destruct j as [|j]; [match goal with |- exists t, In t _ /\ touches t ?k =>
      let q := eval vm_compute in (find (fun t => (t_0 t =? k) || (t_1 t =? k) || (t_2 t =? k)) base_triangles) in
      match q with Some ?t => exists t end end; split; [vm_compute; tauto|vm_compute; tauto]|]). lia.
  - apply (on_edge_touched (S n)); [apply built_good; assumption|]. cbn [build] in *. set (m := M n) in *.
    assert (Lm : length (points (subdivide mid origin sort m)) = length (points m) + length (edges m)) by apply subdivide_points. rewrite Lm in J.
    set (em := combine (edges m) (seq (length (points m)) (length (edges m)))).
    assert (K : forall e k f, In (e, k) em -> In f (split_edge (hash_shift (S (level m))) (e, k)) -> In f (edges (subdivide mid origin sort m))).
    { intros e k f I F. cbn [subdivide edges]. apply in_app_iff. left. apply in_flat_map. exists (e, k). split; [exact I|exact F]. }
    assert (PAIR : forall i d, i < length (edges m) -> In (nth i (edges m) d, length (points m) + i) em).
    { intros i d I. unfold em. assert (E : nth i (combine (edges m) (seq (length (points m)) (length (edges m)))) (d, 0) = (nth i (edges m) d, length (points m) + i)).
      { rewrite combine_nth by (rewrite seq_length; reflexivity). f_equal. apply seq_nth, I. }
      rewrite <- E. apply nth_In. rewrite combine_length, seq_length, Nat.min_id. exact I. }
    destruct (Nat.lt_ge_cases j (length (points m))) as [J'|J'].
    + destruct (IH ltac:(lia) j J') as (t & It & T). destruct (touched_on_edge n m j (built_good mid origin sort Hs pts L n ltac:(lia)) (ex_intro _ t (conj It T))) as (e & Ie & X).
      destruct (In_nth _ _ e Ie) as (i & Hi & Ei). pose proof (PAIR i e Hi) as Q. rewrite Ei in Q. destruct X as [-> | ->].
      * eexists. split; [eapply K; [exact Q|left; reflexivity]|]. left. reflexivity.
      * eexists. split; [eapply K; [exact Q|right; left; reflexivity]|]. right. reflexivity.
    + assert (Hi : j - length (points m) < length (edges m)) by lia. destruct (edges m) as [|d es] eqn:Ed; [cbn in Hi; lia|]. rewrite <- Ed in *.
      pose proof (PAIR _ d Hi) as Q. replace (length (points m) + (j - length (points m))) with j in Q by lia. eexists. split; [eapply K; [exact Q|left; reflexivity]|]. right. reflexivity.
Qed.
Lemma seq_blocks b : forall k a, concat (map (fun i => seq (b * i) b) (seq a k)) = seq (b * a) (b * k).
Proof.
  induction k as [|k IH]; intros a; [rewrite Nat.mul_0_r; reflexivity|]. cbn [seq map concat]. rewrite IH. replace (b * S a) with (b * a + b) by lia. rewrite <- seq_app. f_equal. lia.
Qed.
Lemma super_parts n k : k <= n -> n <= 28 -> concat (map (super_triangle_at_level (M n) k) (seq 0 (20 * 4 ^ k))) = seq 0 (length (triangles (M n))).
Proof.
  intros K H. destruct (built_counts mid origin sort Hs pts L n H) as (_ & _ & T).
  rewrite (map_ext_in _ (fun i => seq (4 ^ (n - k) * i) (4 ^ (n - k)))) by (intros i I; apply in_seq in I; apply super_block; try assumption; lia).
  rewrite seq_blocks, Nat.mul_0_r, T. f_equal. replace (4 ^ (n - k) * (20 * 4 ^ k)) with (20 * (4 ^ k * 4 ^ (n - k))) by lia. rewrite <- Nat.pow_add_r. do 2 f_equal. lia.
Qed.
Lemma super_below n k i : n <= 28 -> Forall (fun r => r < length (triangles (M n))) (super_triangle_at_level (M n) k i).
Proof.
  intros H. unfold super_triangle_at_level. rewrite (where_eq _ no_triangle). apply Forall_forall. intros r I. rewrite filter_In, in_seq in I. lia.
Qed.
Lemma super_view n k i : n <= 28 -> exists v, super_triangle_view (M n) k i = Ok v.
Proof. intros H. unfold super_triangle_view. apply make_view_ok. apply super_below, H. Qed.
Lemma global_vertices n v : n <= 28 -> global_view (M n) = Ok v -> v_vertices v = seq 0 (length (points (M n))) /\ n_latent_variables v = length (points (M n)).
Proof.
  intros H E. assert (V : v_vertices v = seq 0 (length (points (M n)))).
  { destruct (make_view_inv _ _ _ E) as (_ & _ & _ & S & V). apply strict_ext; [exact S|apply seq_strict|]. intros j. rewrite V, chosen_all, in_seq. split.
    - intros (t & I & T). pose proof (built_corners_in n H) as C. unfold corners_in in C. rewrite Forall_forall in C. specialize (C t I j T). lia.
    - intros J. apply built_touched; [exact H|lia]. }
  split; [exact V|]. unfold n_latent_variables. rewrite V, seq_length. reflexivity.
Qed.
End Icosahedron.

(* ---- sums *)
Open Scope R_scope.
Lemma total_app a b : View_Spec.total (a ++ b) = View_Spec.total a + View_Spec.total b.
Proof. unfold View_Spec.total. induction a as [|x a IH]; cbn [app fold_right]; [ring|]. rewrite IH. ring. Qed.
Lemma total_perm a b : Permutation a b -> View_Spec.total a = View_Spec.total b.
Proof. unfold View_Spec.total. induction 1 as [|x a b E IH|x y a|a b c E IH E' IH']; cbn [fold_right]; [reflexivity|rewrite IH; reflexivity|ring|congruence]. Qed.
Lemma total_zero {A} (f : A -> R) l : (forall x, In x l -> f x = 0) -> View_Spec.total (map f l) = 0.
Proof. induction l as [|x l IH]; intros H; [reflexivity|]. cbn [map View_Spec.total fold_right]. fold (View_Spec.total (map f l)). rewrite (H x (or_introl eq_refl)), IH by (intros y Y; apply H; right; exact Y). lra. Qed.
Lemma weighted_total row : forall s k, weighted row k s = View_Spec.total (map (fun j => row (k + j)%nat * nth j s 0) (seq 0 (length s))).
Proof.
  induction s as [|x s IH]; intros k; [reflexivity|]. cbn [weighted length seq map View_Spec.total fold_right nth]. rewrite Nat.add_0_r, IH. f_equal. rewrite <- seq_shift, map_map. unfold View_Spec.total. f_equal. apply map_ext. intros j. cbn [nth]. do 2 f_equal. lia.
Qed.
Lemma nth_map_in {A B} (f : A -> B) l i d d' : (i < length l)%nat -> nth i (map f l) d' = f (nth i l d).
Proof. intros H. rewrite (nth_indep _ d' (f d)) by (rewrite map_length; exact H). apply map_nth. Qed.
Lemma map_nth_seq {A} (l : list A) d : map (fun i => nth i l d) (seq 0 (length l)) = l.
Proof.
  assert (G : forall pre, map (fun r => nth r (pre ++ l) d) (seq (length pre) (length l)) = l).
  { induction l as [|t l IH]; intros pre; [reflexivity|]. cbn [length seq map]. f_equal; [apply nth_middle|]. specialize (IH (pre ++ [t])). rewrite app_length, Nat.add_1_r, <- app_assoc in IH. exact IH. }
  apply (G []).
Qed.
Lemma weighted_restricted full vs s : StronglySorted lt vs -> Forall (fun j => (j < length s)%nat) vs -> (forall j, ~ In j vs -> full j = 0) ->
  weighted (fun k => full (nth k vs 0%nat)) 0 (map (fun j => nth j s 0) vs) = weighted full 0 s.
Proof.
  intros S B Z. rewrite !weighted_total, map_length. cbn [Nat.add].
  transitivity (View_Spec.total (map (fun j => full j * nth j s 0) vs)).
  - f_equal. transitivity (map (fun k => full (nth k vs 0%nat) * nth (nth k vs 0%nat) s 0) (seq 0 (length vs))).
    + apply map_ext_in. intros k K. apply in_seq in K. f_equal. apply (nth_map_in (fun j => nth j s 0) vs k 0%nat). lia.
    + rewrite <- (map_map (fun k => nth k vs 0%nat) (fun j => full j * nth j s 0)), map_nth_seq. reflexivity.
  - assert (PE : Permutation (seq 0 (length s)) (vs ++ filter (fun r => negb (mem r vs)) (seq 0 (length s)))).
    { eapply Permutation_trans; [apply (filter_split_perm (fun r => mem r vs))|]. apply Permutation_app_tail. apply NoDup_Permutation; [apply NoDup_filter, seq_NoDup|apply strict_nodup, S|].
      intros r. rewrite filter_In, mem_in, in_seq. rewrite Forall_forall in B. split; [tauto|]. intros I. specialize (B r I). split; [lia|exact I]. }
    rewrite (total_perm _ _ (Permutation_map (fun j => full j * nth j s 0) PE)), map_app, total_app, (total_zero _ (filter _ _)); [lra|].
    intros j J. rewrite filter_In in J. destruct J as [_ J]. rewrite Z; [lra|]. intros I. apply mem_in in I. rewrite I in J. discriminate.
Qed.
Lemma weighted_zero row s k : (forall j, row j = 0) -> weighted row k s = 0.
Proof. intros Z. revert k. induction s as [|x s IH]; intros k; [reflexivity|]. cbn [weighted]. rewrite Z, IH. lra. Qed.
Lemma weighted_ext row row' : forall s k, (forall j, (k <= j < k + length s)%nat -> row j = row' j) -> weighted row k s = weighted row' k s.
Proof. induction s as [|x s IH]; intros k H; [reflexivity|]. cbn [weighted length] in *. rewrite H by lia. rewrite (IH (S k)) by (intros j J; apply H; lia). reflexivity. Qed.

(* ---- locations *)
Section Located.
Context (sort : forall A, (A -> N) -> list A -> list A) (Hs : sorts sort) (level : nat) (H : (level <= 28)%nat).
Notation m := (sphere_mesh sort level).
Lemma triangle_located latitude longitude : exists r w0 w1 w2, (r < length (triangles m))%nat /\
  triangle_index sort level latitude longitude = Some (r, (w0, w1, w2)) /\
  weights (triangle_corners m (nth r (triangles m) no_triangle)) (polar_to_cartesian latitude longitude) (w0, w1, w2) /\
  build_A_row sort level latitude longitude =
    Some (fold_left Loc_Model.assign [(t_0 (nth r (triangles m) no_triangle), w0); (t_1 (nth r (triangles m) no_triangle), w1); (t_2 (nth r (triangles m) no_triangle), w2)] (fun _ => 0)).
Proof.
  set (v := polar_to_cartesian latitude longitude). assert (V : v <> nowhere) by (apply unit_somewhere, polar_unit).
  destruct (locate_row sort Hs level v H V) as (r & Hr & W & E). destruct (barycentric (row sort level r) v) as [[w0 w1] w2] eqn:EB. exists r, w0, w1, w2.
  destruct (built_counts mid_sphere nowhere sort Hs base_points eq_refl level H) as (_ & _ & T).
  assert (X : N.to_nat (N.shiftr (ident level r) (base_hash_shift - 2 * N.of_nat level)) = r).
  { change (base_hash_shift - 2 * N.of_nat level)%N with (hash_shift level). rewrite ident_shiftr by lia. rewrite Nat.sub_diag. cbn [Nat.pow]. rewrite Nat.div_1_r. apply Nat2N.id. }
  split; [unfold sphere_mesh; rewrite T; exact Hr|]. split; [unfold triangle_index; fold v; rewrite E; do 2 f_equal; exact X|]. split; [exact W|].
  unfold build_A_row. fold v. rewrite E. cbv zeta. rewrite X. reflexivity.
Qed.
End Located.
Lemma assign_outside t w0 w1 w2 j : ~ touches t j -> fold_left Loc_Model.assign [(t_0 t, w0); (t_1 t, w1); (t_2 t, w2)] (fun _ => 0) j = 0.
Proof.
  intros T. unfold touches in T. cbn [fold_left]. unfold Loc_Model.assign. cbn [fst snd]. destruct (Nat.eqb_spec j (t_2 t)); [tauto|]. destruct (Nat.eqb_spec j (t_1 t)); [tauto|]. destruct (Nat.eqb_spec j (t_0 t)); [tauto|]. reflexivity.
Qed.
