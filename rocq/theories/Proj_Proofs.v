(* Proofs about values of a component on a grid. *)
From Coq Require Import QArith Qcanon String Permutation Sorted.
From Verif Require Import Base Grid_Model Grid_Proofs Flag_Proofs Win_Proofs Merge_Proofs Proj_Model Proj_Spec.
Local Open Scope Z_scope.
Local Open Scope list_scope.

Lemma dot_inner r : forall s, dot r s = inner r s.
Proof. unfold dot. induction r as [|a r IH]; intros [|b s]; cbn [combine map inner]; try reflexivity. rewrite sumQ_cons, IH. reflexivity. Qed.
Lemma cells_points la lo : grid_points la lo = cells la lo.
Proof. unfold grid_points. induction la as [|x l IH]; cbn [flat_map cells]; [reflexivity|now rewrite IH]. Qed.
Lemma zlen_map {A B} (f : A -> B) l : zlen (map f l) = zlen l. Proof. unfold zlen. now rewrite map_length. Qed.
Lemma variance_spread l : l <> [] -> variance l = spread l.
Proof.
  intros N. unfold variance, spread, second_moment, average, mean. rewrite !zlen_map, sum_about.
  assert (D : qz (zlen l) <> 0%Qc) by (apply qz_nonzero; destruct l; [easy|unfold zlen; cbn; lia]).
  unfold sq. field. exact D.
Qed.

(* ------------------------------------------------------------------ blocks of rows *)
Lemma zslice_app {A} (l : list A) a b c : 0 <= a <= b -> b <= c -> zslice l a b ++ zslice l b c = zslice l a c.
Proof.
  intros H K. unfold zslice.
  replace (Z.to_nat (c - a)) with (Z.to_nat (b - a) + Z.to_nat (c - b))%nat by lia.
  replace (Z.to_nat b) with (Z.to_nat (b - a) + Z.to_nat a)%nat by lia.
  remember (Z.to_nat (b - a)) as n eqn:En. clear En. generalize (Z.to_nat (c - b)) as m. intros m.
  assert (S : skipn (n + Z.to_nat a) l = skipn n (skipn (Z.to_nat a) l)).
  { clear. revert l. induction (Z.to_nat a) as [|k IH]; intros l; [now rewrite Nat.add_0_r|]. destruct l; [now rewrite !skipn_nil|]. rewrite Nat.add_succ_r. cbn [skipn]. apply IH. }
  rewrite S. generalize (skipn (Z.to_nat a) l) as t. clear. induction n as [|n IH]; intros t; [reflexivity|].
  destruct t as [|x t]; [cbn; now rewrite firstn_nil|]. cbn [firstn skipn plus app]. now rewrite IH.
Qed.
Lemma zslice_all {A} (l : list A) : zslice l 0 (zlen l) = l.
Proof. unfold zslice, zlen. rewrite Z.sub_0_r, Nat2Z.id. cbn [skipn Z.to_nat]. apply firstn_all. Qed.
Lemma zslice_length {A} (l : list A) a b : 0 <= a <= b -> b <= zlen l -> length (zslice l a b) = Z.to_nat (b - a).
Proof. unfold zslice, zlen. intros. rewrite firstn_length, skipn_length. lia. Qed.

Lemma zrange_snoc0 m : zrange 0 (Z.of_nat (S m)) = zrange 0 (Z.of_nat m) ++ [Z.of_nat m].
Proof. unfold zrange. rewrite !Z.sub_0_r, !Nat2Z.id, seq_S, map_app. reflexivity. Qed.
(* After k blocks the first rows are done and the others are zero. *)
Lemma blocks_fold (f : list Qc -> Qc) (design : matrix) bs k : 1 <= bs -> (Z.of_nat k - 1) * bs <= zlen design ->
  fold_left (fun output block => splice output (block * bs) (Z.min ((block + 1) * bs) (zlen design)) (map f (zslice design (block * bs) (Z.min ((block + 1) * bs) (zlen design)))))
    (zrange 0 (Z.of_nat k)) (repeat 0%Qc (length design))
  = map f (zslice design 0 (Z.min (Z.of_nat k * bs) (zlen design))) ++ repeat 0%Qc (Z.to_nat (zlen design - Z.min (Z.of_nat k * bs) (zlen design))).
Proof.
  intros B. set (n := zlen design). assert (N : 0 <= n) by (unfold n, zlen; lia). induction k as [|k IH]; intros K.
  - replace (Z.min (Z.of_nat 0 * bs) n) with 0 by lia. change (zrange 0 (Z.of_nat 0)) with (@nil Z). change (zslice design 0 0) with (@nil (list Qc)). cbn [fold_left map app].
    rewrite Z.sub_0_r. unfold n, zlen. now rewrite Nat2Z.id.
  - rewrite zrange_snoc0, fold_left_app, IH by nia. cbn [fold_left].
    replace (Z.min (Z.of_nat k * bs) n) with (Z.of_nat k * bs) by nia. replace (Z.of_nat k + 1) with (Z.of_nat (S k)) by lia.
    set (a := Z.of_nat k * bs) in *. set (b := Z.min (Z.of_nat (S k) * bs) n).
    assert (A : 0 <= a <= b /\ b <= n) by (unfold a, b in *; nia). destruct A as [A Bn].
    assert (L : length (map f (zslice design 0 a)) = Z.to_nat a) by (rewrite map_length, zslice_length; fold n; lia).
    unfold splice. rewrite firstn_app, L, Nat.sub_diag. cbn [firstn]. rewrite app_nil_r.
    rewrite firstn_all2 by lia. rewrite skipn_app, L.
    rewrite (skipn_all2 (map f (zslice design 0 a))) by lia. cbn [app].
    assert (R : skipn (Z.to_nat b - Z.to_nat a) (repeat 0%Qc (Z.to_nat (n - a))) = repeat 0%Qc (Z.to_nat (n - b))).
    { replace (Z.to_nat (n - a)) with ((Z.to_nat b - Z.to_nat a) + Z.to_nat (n - b))%nat by lia. rewrite repeat_app, skipn_app, repeat_length, Nat.sub_diag.
      rewrite skipn_all2 by (rewrite repeat_length; lia). reflexivity. }
    rewrite R, app_assoc, <- map_app, zslice_app by lia. reflexivity.
Qed.
Lemma blocked_all f bk design samples : 1 <= bk <= zlen design -> blocked f bk design samples = Ok (map (fun r => f (map (dot r) samples)) design).
Proof.
  intros H. unfold blocked. set (n := zlen design) in *. rewrite (proj2 (Z.eqb_neq bk 0)) by lia.
  assert (B : 1 <= n / bk) by (apply Z.div_le_lower_bound; lia). rewrite (proj2 (Z.eqb_neq (n / bk) 0)) by lia. f_equal.
  set (bs := n / bk) in *. set (nb := - (- n / bs)).
  assert (P : (nb - 1) * bs < n <= nb * bs). { unfold nb. pose proof (Z.div_mod (- n) bs ltac:(lia)). pose proof (Z.mod_pos_bound (- n) bs ltac:(lia)). nia. }
  assert (Q : 0 <= nb) by nia. rewrite <- (Z2Nat.id nb Q).
  etransitivity; [apply (blocks_fold (fun r => f (map (dot r) samples)) design bs (Z.to_nat nb)); fold n; lia|]. fold n.
  rewrite Z2Nat.id by lia. replace (Z.min (nb * bs) n) with n by lia. rewrite Z.sub_diag. cbn [repeat Z.to_nat]. rewrite app_nil_r. unfold n. now rewrite zslice_all.
Qed.
Lemma blocked_few f bk design samples : zlen design < bk -> blocked f bk design samples = Err ZeroDivisionError.
Proof. intros H. unfold blocked. assert (0 <= zlen design) by (unfold zlen; lia). rewrite (proj2 (Z.eqb_neq bk 0)) by lia. now rewrite Z.div_small by lia. Qed.

(* ------------------------------------------------------------------ weighted means *)
Lemma combine_maps {A B C} (f : A -> B) (h : A -> C) l : combine (map f l) (map h l) = map (fun x => (f x, h x)) l.
Proof. induction l as [|x l IH]; cbn [map combine]; [reflexivity|now rewrite IH]. Qed.
Lemma inner_scale w r : forall x, inner (scale_row w r) x = (w * inner r x)%Qc.
Proof. unfold scale_row. induction r as [|a r IH]; intros [|b x]; cbn [map inner]; try ring. rewrite IH. ring. Qed.
Lemma inner_add a : forall b x, length a = length b -> inner (add_row a b) x = (inner a x + inner b x)%Qc.
Proof.
  unfold add_row. induction a as [|u a IH]; intros [|v b] [|y x] L; try discriminate L; cbn [combine map inner fst snd]; try ring.
  rewrite IH by (injection L; auto). ring.
Qed.
Lemma add_row_length a b : length a = length b -> length (add_row a b) = length a.
Proof. intros L. unfold add_row. rewrite map_length, combine_length. lia. Qed.
Lemma scale_row_length w r : length (scale_row w r) = length r. Proof. apply map_length. Qed.
Lemma cells_maps {A} (f : A -> Qc) (h : A -> Qc) l m : cells (map f l) (map h m) = flat_map (fun i => map (fun j => (f i, h j)) m) l.
Proof. induction l as [|x l IH]; cbn [map cells flat_map]; [reflexivity|]. now rewrite IH, map_map. Qed.
Lemma cells_map f h la : forall lo, cells (map f la) (map h lo) = map (fun k => (f (fst k), h (snd k))) (cells la lo).
Proof. induction la as [|x l IH]; intros lo; cbn [map cells]; [reflexivity|]. rewrite map_app, IH, !map_map. reflexivity. Qed.
Lemma cells_in la lo a b : In (a, b) (cells la lo) <-> In a la /\ In b lo.
Proof.
  induction la as [|x l IH]; cbn [cells]; [cbn; tauto|]. rewrite in_app_iff, in_map_iff, IH. cbn [In]. split.
  - intros [(y & E & H)|H]; [injection E as -> ->; auto|tauto].
  - intros [[<-|A] B]; [left; exists b; auto|right; auto].
Qed.
Lemma cells_length la lo : length (cells la lo) = (length la * length lo)%nat.
Proof. induction la as [|x l IH]; cbn [cells length]; [reflexivity|]. rewrite app_length, map_length, IH. lia. Qed.

Definition point_of (g : grid) (i : Z * Z) (k : Qc * Qc) : Qc * Qc :=
  (midpoint (fst k) (fst (resolution g)) (fst (sampling g)) (fst i), midpoint (snd k) (snd (resolution g)) (snd (sampling g)) (snd i)).
Lemma coordinates_midpoint l w n i : n <> 0 -> point_coordinates l w n i = map (fun c => midpoint c w n i) l.
Proof.
  intros N. unfold point_coordinates, midpoint. apply map_ext. intros c. rewrite qz_plus, !qz_mult, qz_1.
  assert (D := qz_nonzero n N). assert (T : qz 2 <> 0%Qc) by (apply qz_nonzero; lia). replace (Q2Qc (1 # 2)) with (1 / qz 2)%Qc by (apply Qc_is_canon; vm_compute; reflexivity).
  field. auto.
Qed.
Lemma sample_points_of g i : fst (sampling g) <> 0 -> snd (sampling g) <> 0 -> sample_points g i = map (point_of g i) (cells (latitudes g) (longitudes g)).
Proof. intros A B. unfold sample_points. rewrite cells_points, !coordinates_midpoint by assumption. now rewrite cells_map. Qed.
Lemma parts_of g k : parts (resolution g) (sampling g) k = map (fun i => point_of g i k) (sample_indices g).
Proof.
  unfold parts, sample_indices. rewrite cells_maps. induction (zrange 0 (fst (sampling g))) as [|x l IH]; cbn [flat_map map]; [reflexivity|]. rewrite map_app, <- IH, map_map. reflexivity.
Qed.
Lemma indices_nonempty g : 1 <= fst (sampling g) -> 1 <= snd (sampling g) -> sample_indices g <> [].
Proof. intros A B. unfold sample_indices. rewrite (zrange_cons 0 (fst _)), (zrange_cons 0 (snd _)) by lia. cbn [flat_map map app]. discriminate. Qed.

Section Evaluate.
Context {component : Type} (row : component -> Z -> Qc * Qc -> list Qc) (cosine : Qc -> Qc) (g : grid) (c : component) (t : Z).
Let K := cells (latitudes g) (longitudes g).
Let term (i : Z * Z) (k : Qc * Qc) := scale_row (cosine (fst (point_of g i k))) (row c t (point_of g i k)).
Lemma diags_points i : diags_dot (map (fun p => cosine (fst p)) (map (point_of g i) K)) (map (row c t) (map (point_of g i) K)) = map (term i) K.
Proof. unfold diags_dot. rewrite !map_map, combine_maps, map_map. reflexivity. Qed.
Lemma accumulate idx : fst (sampling g) <> 0 -> snd (sampling g) <> 0 -> forall F W,
  fold_left (add_sample component row cosine g c t) idx (Some (map F K, map W K))
  = Some (map (fun k => fold_left (fun r i => add_row r (term i k)) idx (F k)) K, map (fun k => W k + sumQ (map (fun i => cosine (fst (point_of g i k))) idx))%Qc K).
Proof.
  intros A B. induction idx as [|i idx IH]; intros F W; cbn [fold_left].
  - f_equal. f_equal. apply map_ext. intros k. cbn [map]. change (sumQ []) with 0%Qc. ring.
  - unfold add_sample at 2. cbv zeta. rewrite sample_points_of by assumption. fold K. rewrite diags_points. unfold add_matrix, add_vector. rewrite map_map, !combine_maps, !map_map. cbn [fst snd].
    etransitivity; [exact (IH (fun k => add_row (F k) (term i k)) (fun k => W k + cosine (fst (point_of g i k)))%Qc)|]. f_equal. f_equal. apply map_ext. intros k. cbn [map]. rewrite sumQ_cons. ring.
Qed.
Lemma rows_fold d x idx k : (forall p, length (row c t p) = d) -> forall r, length r = d ->
  inner (fold_left (fun r i => add_row r (term i k)) idx r) x = (inner r x + sumQ (map (fun i => cosine (fst (point_of g i k)) * inner (row c t (point_of g i k)) x)%Qc idx))%Qc.
Proof.
  intros D. induction idx as [|i idx IH]; intros r L; cbn [fold_left map]; [change (sumQ []) with 0%Qc; ring|].
  assert (E : length r = length (term i k)) by (unfold term; now rewrite scale_row_length, D, L).
  rewrite IH by (rewrite add_row_length; assumption). rewrite inner_add by exact E. unfold term at 1. rewrite inner_scale, sumQ_cons. ring.
Qed.
Lemma evaluate_spec d : (forall p, length (row c t p) = d) -> 1 <= fst (sampling g) -> 1 <= snd (sampling g) ->
  exists m, evaluate component row cosine g c t = Ok m /\ length m = length K /\ forall x, apply m x = map (cell_mean cosine (resolution g) (sampling g) (fun p => inner (row c t p) x)) K.
Proof.
  intros D A B. unfold evaluate. rewrite (proj2 (Z.eqb_neq _ 0)), (proj2 (Z.eqb_neq (snd (sampling g)) 0)) by lia. cbn [orb].
  destruct (sample_indices g) as [|i idx] eqn:E; [now apply indices_nonempty in E|]. cbn [fold_left]. unfold add_sample at 2. cbv zeta.
  rewrite sample_points_of by lia. fold K. rewrite diags_points, map_map.
  assert (Acc := accumulate idx ltac:(lia) ltac:(lia) (term i) (fun k => cosine (fst (point_of g i k)))).
  match goal with |- context [match ?f with Some _ => _ | None => _ end] => match type of Acc with _ = ?r => replace f with r by (symmetry; exact Acc) end end.
  eexists. split; [reflexivity|]. split.
  - unfold diags_dot. now rewrite map_map, combine_maps, !map_length.
  - intros x. unfold apply, diags_dot. rewrite !map_map. change matrix with (list (list Qc)). rewrite combine_maps, map_map. apply map_ext. intros k. cbn [fst snd].
    rewrite dot_inner, inner_scale, (rows_fold d) by (solve [assumption | unfold term; now rewrite scale_row_length, D]).
    unfold cell_mean, weighted_mean, area. rewrite parts_of, E, !map_map. cbn [map]. rewrite !sumQ_cons. unfold term at 1. rewrite inner_scale. unfold Qcdiv. ring.
Qed.
End Evaluate.

Lemma weighted_mean_const w f k points : (forall p, In p points -> f p = k) -> sumQ (map w points) <> 0%Qc -> weighted_mean w f points = k.
Proof.
  intros H N. unfold weighted_mean. rewrite (sumQ_ext_in _ (fun p => k * w p)%Qc) by (intros p I; rewrite (H p I); ring).
  rewrite <- (map_map w (fun x => k * x)%Qc), sumQ_scale. field. exact N.
Qed.
Lemma div_le a b c : (0 < c)%Qc -> (a * c <= b)%Qc -> (a <= b / c)%Qc.
Proof.
  intros P H. assert (N : c <> 0%Qc) by (intros ->; exact (Qclt_not_eq _ _ P eq_refl)).
  apply (Qcmult_lt_0_le_reg_r _ _ c P). replace (b / c * c)%Qc with b by (field; exact N). exact H.
Qed.
Lemma div_ge a b c : (0 < c)%Qc -> (b <= a * c)%Qc -> (b / c <= a)%Qc.
Proof.
  intros P H. assert (N : c <> 0%Qc) by (intros ->; exact (Qclt_not_eq _ _ P eq_refl)).
  apply (Qcmult_lt_0_le_reg_r _ _ c P). replace (b / c * c)%Qc with b by (field; exact N). exact H.
Qed.
Lemma sumQ_pos {A} (w : A -> Qc) l : l <> [] -> (forall p, In p l -> (0 < w p)%Qc) -> (0 < sumQ (map w l))%Qc.
Proof.
  intros N P. destruct l as [|x l]; [easy|]. cbn [map]. rewrite sumQ_cons.
  assert (A0 := P x (or_introl eq_refl)). assert (B0 : (0 <= sumQ (map w l))%Qc) by (apply sumQ_nonneg; intros y I; apply Qclt_le_weak, P; now right).
  clear - A0 B0. generalize dependent (w x). generalize dependent (sumQ (map w l)). intros a1 B1 b1 A1. qc.
Qed.
Lemma weighted_mean_bounds w f lo hi points : points <> [] -> (forall p, In p points -> (0 < w p)%Qc) -> (forall p, In p points -> (lo <= f p)%Qc /\ (f p <= hi)%Qc) ->
  (lo <= weighted_mean w f points)%Qc /\ (weighted_mean w f points <= hi)%Qc.
Proof.
  intros N P H. assert (S := sumQ_pos w points N P). unfold weighted_mean. split.
  - apply div_le; [exact S|]. rewrite <- sumQ_scale, map_map. apply sumQ_le. intros p I. rewrite (Qcmult_comm lo), (Qcmult_comm (w p)), (Qcmult_comm (w p)). apply Qcmult_le_compat_r; [apply H, I|apply Qclt_le_weak, P, I].
  - apply div_ge; [exact S|]. rewrite <- sumQ_scale, map_map. apply sumQ_le. intros p I. rewrite (Qcmult_comm (w p)). apply Qcmult_le_compat_r; [apply H, I|apply Qclt_le_weak, P, I].
Qed.

(* ------------------------------------------------------------------ rows of a matrix *)
Lemma zslice_cons_block {A} (r : list A) t n i : 1 <= n -> zlen r = n -> 0 <= i -> zslice (r ++ t) ((i + 1) * n) ((i + 1 + 1) * n) = zslice t (i * n) ((i + 1) * n).
Proof.
  intros N L I. unfold zslice. replace ((i + 1 + 1) * n - (i + 1) * n) with n by ring. replace ((i + 1) * n - i * n) with n by ring. f_equal.
  rewrite skipn_app. unfold zlen in L. rewrite skipn_all2 by nia. cbn [app]. f_equal. nia.
Qed.
Lemma reshape_slices {A} (rows : list (list A)) n : 1 <= n -> Forall (fun r => zlen r = n) rows -> map (fun i => zslice (concat rows) (i * n) ((i + 1) * n)) (zrange 0 (zlen rows)) = rows.
Proof.
  intros N F. induction F as [|r rows L F IH]; [reflexivity|]. replace (zlen (r :: rows)) with (zlen rows + 1) by (unfold zlen; cbn [length]; lia).
  assert (0 <= zlen rows) by (unfold zlen; lia). rewrite zrange_cons by lia. cbn [map concat]. f_equal.
  - unfold zslice. replace ((0 + 1) * n - 0 * n) with n by ring. cbn [Z.mul Z.to_nat skipn]. unfold zlen in L. rewrite firstn_app. replace (Z.to_nat n - length r)%nat with 0%nat by lia. cbn [firstn].
    rewrite app_nil_r. apply firstn_all2. lia.
  - rewrite zrange_shift, map_map. rewrite <- IH at 2. apply map_ext_in. intros i I. apply in_zrange in I. now apply zslice_cons_block.
Qed.
Lemma concat_zlen {A} (rows : list (list A)) n : Forall (fun r => zlen r = n) rows -> zlen (concat rows) = zlen rows * n.
Proof. intros F. induction F as [|r rows L F IH]; [reflexivity|]. cbn [concat]. unfold zlen in *. rewrite app_length. cbn [length]. lia. Qed.
Lemma reshape_rows {A} (rows : list (list A)) n : 1 <= n -> Forall (fun r => zlen r = n) rows -> reshape n (concat rows) = Ok rows.
Proof.
  intros N F. unfold reshape. rewrite (concat_zlen rows n F), Z.mod_mul, Z.div_mul by lia. rewrite (proj2 (Z.leb_gt n 0)) by lia. cbn [orb negb Z.eqb].
  now rewrite reshape_slices.
Qed.
Lemma combine_app_eq {A B} (a1 : list A) : forall (b1 : list B) a2 b2, length a1 = length b1 -> combine (a1 ++ a2) (b1 ++ b2) = combine a1 b1 ++ combine a2 b2.
Proof. induction a1 as [|x a IH]; intros [|y b] a2 b2 L; try discriminate L; [reflexivity|]. cbn [app combine]. rewrite IH by (injection L; auto). reflexivity. Qed.
Lemma combine_concat {A B C} (f : C -> list A) (h : C -> list B) l : (forall x, In x l -> length (f x) = length (h x)) -> combine (concat (map f l)) (concat (map h l)) = concat (map (fun x => combine (f x) (h x)) l).
Proof. induction l as [|x l IH]; intros H; [reflexivity|]. cbn [map concat]. rewrite combine_app_eq by (apply H; now left). rewrite IH by (intros; apply H; now right). reflexivity. Qed.

(* ------------------------------------------------------------------ sorting *)
Lemma permuted_by {A} (d : A) l s : Permutation s (seq 0 (length l)) -> Permutation (map (fun i => nth i l d) s) l.
Proof.
  intros P. rewrite (Permutation_map (fun i => nth i l d) P). replace (map (fun i => nth i l d) (seq 0 (length l))) with l; [reflexivity|].
  clear. induction l as [|x l IH]; [reflexivity|]. cbn [length seq map nth]. f_equal. rewrite <- seq_shift, map_map. exact IH.
Qed.
Lemma sorted_by_key {A} (key : A -> Qc) l1 : forall l2, Permutation l1 l2 -> ascending (map key l1) -> ascending (map key l2) -> (forall x y, In x l1 -> In y l1 -> key x = key y -> x = y) -> l1 = l2.
Proof.
  intros l2 P S1 S2 I. assert (K : map key l1 = map key l2) by (apply sortedQ_unique; [exact S1|exact S2|now apply Permutation_map]).
  assert (I2 : forall x y, In x l1 -> In y l2 -> key x = key y -> x = y) by (intros x y A0 B0; apply I; [exact A0|now apply (Permutation_in _ (Permutation_sym P))]).
  clear - K I2. revert l2 K I2. induction l1 as [|x l IH]; intros [|y m] K I2; try discriminate K; [reflexivity|]. cbn [map] in K. injection K as E K.
  f_equal; [apply I2; [now left|now left|exact E]|]. apply IH; [exact K|]. intros u v A0 B0. apply I2; now right.
Qed.
Lemma ascending_repeat x n t : ascending t -> Forall (Qcle x) t -> ascending (repeat x n ++ t).
Proof.
  intros S F. induction n as [|n IH]; [exact S|]. cbn [repeat app]. constructor; [exact IH|]. apply Forall_app. split; [|exact F].
  apply Forall_forall. intros y H. apply repeat_spec in H. subst y. apply Qcle_refl.
Qed.
Lemma ascending_repeats l n : ascending l -> ascending (flat_map (fun x => repeat x n) l).
Proof.
  intros S. induction S as [|x l S IH F]; [constructor|]. cbn [flat_map]. apply ascending_repeat; [exact IH|].
  apply Forall_forall. intros y H. apply in_flat_map in H. destruct H as (z & Z1 & Z2). apply repeat_spec in Z2. subst y. rewrite Forall_forall in F. now apply F.
Qed.
Lemma flat_map_nil {A B} (l : list A) : flat_map (fun _ => @nil B) l = []. Proof. induction l; auto. Qed.
Lemma tiled_permutation {A} (l : list A) n : Permutation (concat (repeat l n)) (flat_map (fun x => repeat x n) l).
Proof.
  induction n as [|n IH]; cbn [repeat concat]; [now rewrite flat_map_nil|]. rewrite IH. clear IH. generalize n as k. intros k. induction l as [|x l IH]; [reflexivity|]. cbn [flat_map repeat app].
  constructor. rewrite <- IH. rewrite !app_assoc. apply Permutation_app_tail. apply Permutation_app_comm.
Qed.

(* ------------------------------------------------------------------ points of a finer grid *)
Lemma sub_midpoints n w c : 1 <= n -> sub_coordinates n w c = map (midpoint c w n) (zrange 0 n).
Proof.
  intros N. unfold sub_coordinates. change 1 with (0 + 1) at 2. rewrite zrange_shift, map_map. apply map_ext. intros i. unfold midpoint.
  assert (D := qz_nonzero n ltac:(lia)). assert (T : qz 2 <> 0%Qc) by (apply qz_nonzero; lia).
  replace (2 * (i + 1) - 1) with (2 * i + 1) by ring. rewrite !qz_mult. replace (Q2Qc (1 # 2)) with (1 / qz 2)%Qc by (apply Qc_is_canon; vm_compute; reflexivity). field. auto.
Qed.
Lemma ascending_map (f : Z -> Qc) a b : (forall i j, a <= i <= j -> j < b -> (f i <= f j)%Qc) -> ascending (map f (zrange a b)).
Proof.
  intros M. destruct (Z_le_gt_dec b a) as [L|L]; [rewrite zrange_empty by exact L; constructor|]. remember (Z.to_nat (b - a)) as n eqn:E. revert a L M E.
  induction n as [|n IH]; intros a L M E; [lia|]. rewrite zrange_cons by lia. cbn [map]. constructor.
  - destruct (Z.eq_dec b (a + 1)) as [->|Ne]; [rewrite zrange_empty by lia; constructor|]. apply IH; [lia| |lia]. intros i j I J. apply M; lia.
  - apply Forall_forall. intros x I. apply in_map_iff in I. destruct I as (j & <- & J). apply in_zrange in J. apply M; lia.
Qed.
Lemma half : Q2Qc (1 # 2) = (1 / qz 2)%Qc. Proof. apply Qc_is_canon; vm_compute; reflexivity. Qed.
Lemma midpoint_form c w n i : 1 <= n -> midpoint c w n i = (c - w / qz 2 + qz (2 * i + 1) * (w / qz (2 * n)))%Qc.
Proof.
  intros N. unfold midpoint. rewrite half. assert (D : qz (2 * n) <> 0%Qc) by (apply qz_nonzero; lia). assert (T : qz 2 <> 0%Qc) by (apply qz_nonzero; lia). field. auto.
Qed.
Lemma qz_pos n : 1 <= n -> (0 < qz n)%Qc. Proof. intros H. rewrite <- qz_0. apply qz_lt. lia. Qed.
Lemma midpoint_mono c w n i j : 1 <= n -> (0 <= w)%Qc -> i <= j -> (midpoint c w n i <= midpoint c w n j)%Qc.
Proof.
  intros N W L. rewrite !midpoint_form by exact N. assert (P : (0 <= w / qz (2 * n))%Qc) by (apply div_le; [apply qz_pos; lia|]; now rewrite Qcmult_0_l).
  assert (K : (qz (2 * i + 1) <= qz (2 * j + 1))%Qc) by (apply qz_le; lia). assert (M := Qcmult_le_compat_r _ _ _ K P). apply Qcplus_le_compat; [apply Qcle_refl|exact M].
Qed.
Lemma midpoint_anti c w n i j : 1 <= n -> (w <= 0)%Qc -> i <= j -> (midpoint c w n j <= midpoint c w n i)%Qc.
Proof.
  intros N W L. rewrite !midpoint_form by exact N. assert (P : (0 <= - (w / qz (2 * n)))%Qc).
  { replace (- (w / qz (2 * n)))%Qc with ((- w) / qz (2 * n))%Qc by (unfold Qcdiv; ring). apply div_le; [apply qz_pos; lia|]. rewrite Qcmult_0_l. clear - W. qc. }
  assert (K : (qz (2 * i + 1) <= qz (2 * j + 1))%Qc) by (apply qz_le; lia). assert (M := Qcmult_le_compat_r _ _ _ K P).
  apply Qcplus_le_compat; [apply Qcle_refl|]. rewrite !(Qcmult_comm _ (- _)) in M. rewrite !(Qcmult_comm (qz (_ + 1))).
  generalize dependent (w / qz (2 * n))%Qc. intros u P M. replace (- u * qz (2 * i + 1))%Qc with (- (u * qz (2 * i + 1)))%Qc in M by ring. replace (- u * qz (2 * j + 1))%Qc with (- (u * qz (2 * j + 1)))%Qc in M by ring.
  generalize dependent (u * qz (2 * i + 1))%Qc. generalize dependent (u * qz (2 * j + 1))%Qc. intros p q M. clear - M. qc.
Qed.
Lemma midpoint_shift c c0 w n i : midpoint c w n i = (midpoint c0 w n i + (c - c0))%Qc. Proof. unfold midpoint. ring. Qed.
Lemma reversed_range n : Permutation (map (fun i => n - 1 - i) (zrange 0 n)) (zrange 0 n).
Proof.
  apply NoDup_Permutation; [apply FinFun.Injective_map_NoDup; [intros x y; lia|apply zrange_NoDup]|apply zrange_NoDup|]. intros x. rewrite in_map_iff, in_zrange. split.
  - intros (y & <- & H). apply in_zrange in H. lia.
  - intros H. exists (n - 1 - x). split; [lia|]. apply in_zrange. lia.
Qed.
(* The order in which the points of a cell along one axis are ascending. *)
Lemma sorted_midpoints w n : 1 <= n -> exists h, Permutation (map h (zrange 0 n)) (zrange 0 n) /\ forall c, ascending (map (fun i => midpoint c w n (h i)) (zrange 0 n)).
Proof.
  intros N. destruct (Qclt_le_dec w 0) as [W|W].
  - exists (fun i => n - 1 - i). split; [apply reversed_range|]. intros c. apply ascending_map. intros i j I J. apply midpoint_anti; [exact N|now apply Qclt_le_weak|lia].
  - exists (fun i => i). split; [now rewrite map_id|]. intros c. apply ascending_map. intros i j I J. apply midpoint_mono; [exact N|exact W|lia].
Qed.

Lemma tile_maps {A B} (a b : nat) (P : B -> list A) l : tile (Z.of_nat a) (Z.of_nat b) (map P l) = map (fun c => concat (repeat (P c) b)) (concat (repeat l a)).
Proof. unfold tile. rewrite !Nat2Z.id, map_map. rewrite concat_map. f_equal. induction a as [|a IH]; cbn [repeat map]; [reflexivity|now rewrite IH]. Qed.
Lemma concat_repeat_length {A} (l : list A) n : length (concat (repeat l n)) = (n * length l)%nat.
Proof. induction n as [|n IH]; cbn [repeat concat]; [reflexivity|]. rewrite app_length, IH. lia. Qed.
Lemma repeats_length {A} (l : list A) n : length (flat_map (fun x => repeat x n) l) = (length l * n)%nat.
Proof. induction l as [|x l IH]; cbn [flat_map length]; [reflexivity|]. rewrite app_length, repeat_length, IH. lia. Qed.
Lemma cells_fst la lo : map fst (cells la lo) = flat_map (fun x => repeat x (length lo)) la.
Proof.
  induction la as [|x l IH]; [reflexivity|]. cbn [cells flat_map]. rewrite map_app, IH, map_map. f_equal. cbn [fst]. clear. induction lo as [|y m IH]; [reflexivity|]. cbn [map length repeat]. now rewrite IH.
Qed.
Lemma cells_snd la lo : map snd (cells la lo) = concat (repeat lo (length la)).
Proof. induction la as [|x l IH]; [reflexivity|]. cbn [cells length repeat concat]. rewrite map_app, IH, map_map. cbn [snd]. now rewrite map_id. Qed.
Lemma nth_head_map {A B} (key : list A -> B) (rows : list (list A)) d i : key [] = d -> nth i (map key rows) d = key (nth i rows []).
Proof. intros <-. apply map_nth. Qed.
Lemma map_repeat_eq {A B} (f : A -> B) x n : map f (repeat x n) = repeat (f x) n. Proof. induction n; cbn; congruence. Qed.
Lemma map_repeats {A B} (f : A -> B) l n : map f (flat_map (fun x => repeat x n) l) = flat_map (fun x => repeat x n) (map f l).
Proof. induction l as [|x l IH]; [reflexivity|]. cbn [flat_map map]. now rewrite map_app, IH, map_repeat_eq. Qed.
Lemma ascending_shift d l : ascending l -> ascending (map (fun x => x + d)%Qc l).
Proof.
  intros S. induction S as [|x l S IH F]; cbn [map]; constructor; [exact IH|]. apply Forall_map. eapply Forall_impl; [|exact F]. intros y H. apply Qcplus_le_compat; [exact H|apply Qcle_refl].
Qed.
(* A row of tiled latitudes beside a row of sorted longitudes: every pair once. *)
Lemma paired_row {A B} (P : list A) (Q : list B) : combine (concat (repeat P (length Q))) (flat_map (fun q => repeat q (length P)) Q) = flat_map (fun q => map (fun p => (p, q)) P) Q.
Proof.
  induction Q as [|q Q IH]; [reflexivity|]. cbn [length repeat concat flat_map]. rewrite combine_app_eq by now rewrite repeat_length. rewrite IH. f_equal.
  clear. induction P as [|p P IH]; [reflexivity|]. cbn [length repeat combine map]. now rewrite IH.
Qed.
Lemma cells_cons_right la x lo : Permutation (cells la (x :: lo)) (map (fun p => (p, x)) la ++ cells la lo).
Proof.
  induction la as [|y l IH]; [reflexivity|]. cbn [cells map app]. constructor. rewrite IH, !app_assoc. apply Permutation_app_tail. apply Permutation_app_comm.
Qed.
Lemma cells_swap la lo : Permutation (flat_map (fun q => map (fun p => (p, q)) la) lo) (cells la lo).
Proof.
  induction lo as [|q l IH]; cbn [flat_map]; [|rewrite IH; symmetry; apply cells_cons_right].
  induction la as [|x la IH]; [constructor|]. exact IH.
Qed.
Lemma cells_perm la lo lo' : Permutation lo lo' -> Permutation (cells la lo) (cells la lo').
Proof. intros P. induction la as [|x l IH]; [constructor|]. cbn [cells]. apply Permutation_app; [now apply Permutation_map|exact IH]. Qed.
Lemma weighted_mean_perm w f l m : Permutation l m -> weighted_mean w f l = weighted_mean w f m.
Proof.
  intros P. unfold weighted_mean. rewrite (sumQ_perm (map (fun p => w p * f p)%Qc l) (map (fun p => w p * f p)%Qc m)), (sumQ_perm (map w l) (map w m)) by (apply Permutation_map, P). reflexivity.
Qed.

Section Regrid.
Context (argsort : list Qc -> list nat) (cosine : Qc -> Qc) (good : sorts argsort).
Context (nlat nlon : Z) (ws wl : Qc) (H1 : 1 <= nlat) (H2 : 1 <= nlon).
Let P c := map (midpoint c ws nlat) (zrange 0 nlat).
Let Q c := map (midpoint c wl nlon) (zrange 0 nlon).
Let R c := concat (repeat (P c) (Z.to_nat nlon)).
Lemma P_length c : length (P c) = Z.to_nat nlat. Proof. unfold P. rewrite map_length, zrange_length. f_equal. lia. Qed.
Lemma Q_length c : length (Q c) = Z.to_nat nlon. Proof. unfold Q. rewrite map_length, zrange_length. f_equal. lia. Qed.
Lemma sub_rows (F : Qc -> list Qc) n lats : flat_map F lats = concat (map F lats) /\ ((forall c, length (F c) = Z.to_nat n) -> 0 <= n -> Forall (fun r => zlen r = n) (map F lats)).
Proof. split; [apply flat_map_concat_map|]. intros L N. apply Forall_map, Forall_forall. intros c _. unfold zlen. rewrite L. lia. Qed.
Lemma R_key c : nth 0 (R c) 0%Qc = midpoint c ws nlat 0.
Proof. unfold R, P. replace (Z.to_nat nlon) with (S (Z.to_nat (nlon - 1))) by lia. rewrite zrange_cons by lia. reflexivity. Qed.
Lemma latitudes_spec lats lats' lons : Permutation lats lats' -> ascending lats' ->
  rearrange_latitudes argsort (create_sub_cell_grids nlat nlon ws wl lats lons) = Ok (map (fun k => R (fst k)) (cells lats' lons)).
Proof.
  intros Pm S. unfold rearrange_latitudes, create_sub_cell_grids. cbn [Proj_Model.Nlat Proj_Model.Nlon sub_latitudes sub_longitudes].
  rewrite (flat_map_ext (sub_coordinates nlat ws) P) by (intros c; now apply sub_midpoints).
  rewrite (flat_map_ext (sub_coordinates nlon wl) Q) by (intros c; now apply sub_midpoints).
  rewrite (proj1 (sub_rows P nlat lats)), reshape_rows by (solve [exact H1 | apply (sub_rows P nlat lats); [apply P_length|lia]]). cbn [bind].
  rewrite (proj2 (Z.eqb_neq nlon 0)) by lia.
  rewrite (proj1 (sub_rows Q nlon lons)), (concat_zlen (map Q lons) nlon) by (apply (sub_rows Q nlon lons); [apply Q_length|lia]). rewrite zlen_map, Z.div_mul by lia.
  assert (TM := tile_maps (length lons) (Z.to_nat nlon) P lats). rewrite Z2Nat.id in TM by lia. fold (zlen lons) in TM. rewrite TM. clear TM. f_equal.
  set (T := concat (repeat lats (length lons))). set (rows := map (fun c => concat (repeat (P c) (Z.to_nat nlon))) T). change rows with (map R T) in *. clear rows.
  rewrite <- (map_map fst R), cells_fst. destruct (good (map (fun r => nth 0 r 0%Qc) (map R T))) as [G1 G2]. rewrite map_length in G1.
  apply (sorted_by_key (fun r => nth 0 r 0%Qc)).
  - rewrite (permuted_by [] (map R T) _ G1). apply Permutation_map. unfold T. rewrite tiled_permutation. apply Permutation_flat_map, Pm.
  - rewrite map_map. rewrite (map_ext_in (fun x => nth 0 (nth x (map R T) []) 0%Qc) (fun i => nth i (map (fun r => nth 0 r 0%Qc) (map R T)) 0%Qc)); [exact G2|].
    intros i _. symmetry. exact (nth_head_map (fun r => nth 0 r 0%Qc) (map R T) 0%Qc i eq_refl).
  - rewrite map_map. rewrite (map_ext _ (fun c => c + midpoint 0 ws nlat 0)%Qc) by (intros c; rewrite R_key; unfold midpoint; ring). apply ascending_shift. now apply ascending_repeats.
  - intros x y A B E. apply (Permutation_in _ (permuted_by [] (map R T) _ G1)) in A, B. apply in_map_iff in A, B. destruct A as (a & <- & _), B as (b & <- & _).
    rewrite !R_key in E. f_equal. unfold midpoint in E. apply (f_equal (fun x => x - ws * (qz (2 * 0 + 1) / qz (2 * nlat) - Q2Qc (1 # 2)))%Qc) in E. ring_simplify in E. exact E.
Qed.
Lemma longitudes_spec lats lats' lons : length lats = length lats' -> lats <> [] -> lons <> [] -> exists h, Permutation (map h (zrange 0 nlon)) (zrange 0 nlon) /\
  rearrange_longitudes argsort (create_sub_cell_grids nlat nlon ws wl lats lons)
  = Ok (map (fun k => flat_map (fun q => repeat q (Z.to_nat nlat)) (map (fun i => midpoint (snd k) wl nlon (h i)) (zrange 0 nlon))) (cells lats' lons)).
Proof.
  intros Len N1 N2. destruct (sorted_midpoints wl nlon H2) as (h & HP & HS). exists h. split; [exact HP|].
  unfold rearrange_longitudes, create_sub_cell_grids. cbn [Proj_Model.Nlat Proj_Model.Nlon sub_latitudes sub_longitudes].
  rewrite (flat_map_ext (sub_coordinates nlat ws) P) by (intros c; now apply sub_midpoints).
  rewrite (flat_map_ext (sub_coordinates nlon wl) Q) by (intros c; now apply sub_midpoints).
  rewrite (proj1 (sub_rows Q nlon lons)), reshape_rows by (solve [exact H2 | apply (sub_rows Q nlon lons); [apply Q_length|lia]]). cbn [bind].
  rewrite (proj2 (Z.eqb_neq nlat 0)) by lia.
  rewrite (proj1 (sub_rows P nlat lats)), (concat_zlen (map P lats) nlat) by (apply (sub_rows P nlat lats); [apply P_length|lia]). rewrite zlen_map, Z.div_mul by lia.
  assert (TM := tile_maps (length lats) (Z.to_nat nlat) Q lons). rewrite Z2Nat.id in TM by lia. fold (zlen lats) in TM. rewrite TM. clear TM.
  rewrite <- (map_map snd (fun c => flat_map (fun q => repeat q (Z.to_nat nlat)) (map (fun i => midpoint c wl nlon (h i)) (zrange 0 nlon)))), cells_snd, <- Len.
  destruct lats as [|la lats]; [easy|]. destruct lons as [|c0 lons]; [easy|]. cbn [length repeat concat app map]. set (T := lons ++ _).
  set (F := fun c => concat (repeat (Q c) (Z.to_nat nlat))). change (concat (repeat (Q c0) (Z.to_nat nlat))) with (F c0).
  set (s := argsort (F c0)). change (map (fun c => concat (repeat (Q c) (Z.to_nat nlat))) T) with (map F T).
  change (Ok (map (fun r => map (fun i => nth i r 0%Qc) s) (map F (c0 :: T))) = Ok (map (fun c => flat_map (fun q => repeat q (Z.to_nat nlat)) (map (fun i => midpoint c wl nlon (h i)) (zrange 0 nlon))) (c0 :: T))).
  f_equal. rewrite map_map. apply map_ext. intros c.
  destruct (good (F c0)) as [G1 G2]. fold s in G1, G2.
  assert (Sorted0 : map (fun i => nth i (F c0) 0%Qc) s = flat_map (fun q => repeat q (Z.to_nat nlat)) (map (fun i => midpoint c0 wl nlon (h i)) (zrange 0 nlon))).
  { apply sortedQ_unique; [exact G2|apply ascending_repeats, HS|]. rewrite (permuted_by 0%Qc (F c0) s G1). unfold F. rewrite tiled_permutation. unfold Q.
    apply Permutation_flat_map. rewrite <- (map_map h (midpoint c0 wl nlon)). apply Permutation_map. now symmetry. }
  assert (Sh : F c = map (fun x => x + (c - c0))%Qc (F c0)).
  { unfold F. rewrite concat_map, map_repeat_eq. unfold Q. rewrite map_map. f_equal. f_equal. apply map_ext. intros i. apply midpoint_shift. }
  transitivity (map (fun x => x + (c - c0))%Qc (map (fun i => nth i (F c0) 0%Qc) s)).
  - rewrite map_map. apply map_ext_in. intros i I. apply (Permutation_in _ G1) in I. apply in_seq in I. rewrite Sh.
    rewrite (nth_indep _ 0%Qc (0 + (c - c0))%Qc) by (rewrite map_length; lia). exact (map_nth (fun x => x + (c - c0))%Qc (F c0) 0%Qc i).
  - rewrite Sorted0, map_repeats, map_map. f_equal. apply map_ext. intros i. symmetry. apply midpoint_shift.
Qed.

Lemma sum_weighted f C S : sumQ (map (fun q => fst q * snd q)%Qc (combine (map (fun p => cosine (fst p) / S)%Qc C) (map f C))) = (sumQ (map (fun p : Qc * Qc => cosine (fst p) * f p)%Qc C) / S)%Qc.
Proof.
  rewrite combine_maps, map_map. cbn [fst snd]. unfold Qcdiv. rewrite (Qcmult_comm (sumQ _)), <- sumQ_scale, map_map. apply sumQ_ext. intros p. ring.
Qed.
Lemma combine_fst {A B} (a : list A) : forall b : list B, length a = length b -> map fst (combine a b) = a.
Proof. induction a as [|x a IH]; intros [|y b] L; try discriminate L; [reflexivity|]. cbn [combine map fst]. rewrite IH by (injection L; auto). reflexivity. Qed.
Lemma blocked_spec field s f lats lats' lons : Permutation lats lats' -> ascending lats' -> lats <> [] -> lons <> [] -> solution_field field s = Ok f -> forall r, points_lat r = nlat -> points_lon r = nlon ->
  latitude_spacing r = ws -> longitude_spacing r = wl -> cell_longitudes r = lons ->
  compute_blocked argsort cosine r field s lats = Ok (map (cell_mean cosine (ws, wl) (nlat, nlon) f) (cells lats' lons)).
Proof.
  intros Pm S N1 N2 E r E1 E2 E3 E4 E5. unfold compute_blocked. rewrite E1, E2, E3, E4, E5. cbv zeta. rewrite (latitudes_spec lats lats') by assumption. cbn [bind]. rewrite E. cbn [bind]. unfold sub_points. rewrite (latitudes_spec lats lats') by assumption. cbn [bind].
  destruct (longitudes_spec lats lats' lons (Permutation_length Pm) N1 N2) as (h & HP & ->). cbn [bind].
  set (L := fun k : Qc * Qc => flat_map (fun q => repeat q (Z.to_nat nlat)) (map (fun i => midpoint (snd k) wl nlon (h i)) (zrange 0 nlon))).
  set (C := fun k : Qc * Qc => combine (R (fst k)) (L k)).
  assert (LL : forall k, length (R (fst k)) = length (L k)).
  { intros k. unfold R, L. rewrite concat_repeat_length, repeats_length, P_length, map_length, zrange_length. f_equal. lia. }
  assert (CL : forall k, zlen (C k) = nlat * nlon).
  { intros k. unfold C, zlen. rewrite combine_length, <- LL, Nat.min_id. unfold R. rewrite concat_repeat_length, P_length. lia. }
  rewrite (combine_concat (fun k => R (fst k)) L) by (intros k _; apply LL). fold C. rewrite concat_map, map_map.
  rewrite reshape_rows; [|nia|apply Forall_map, Forall_forall; intros k _; rewrite zlen_map; apply CL]. cbn [bind]. f_equal.
  rewrite combine_maps, map_map. apply map_ext. intros k. cbn [fst snd].
  assert (RC : R (fst k) = map fst (C k)) by (unfold C; symmetry; apply combine_fst, LL).
  unfold weighting_factors. cbv zeta. rewrite RC, !map_map. rewrite sum_weighted.
  change (weighted_mean (area cosine) f (C k) = cell_mean cosine (ws, wl) (nlat, nlon) f k). unfold cell_mean. apply weighted_mean_perm. unfold C, R, L, parts. cbn [fst snd].
  set (Q' := map (fun i => midpoint (snd k) wl nlon (h i)) (zrange 0 nlon)).
  assert (QL : Z.to_nat nlon = length Q') by (unfold Q'; rewrite map_length, zrange_length; f_equal; lia). rewrite QL at 1.
  rewrite <- (P_length (fst k)), paired_row, cells_swap. apply cells_perm. unfold Q'. rewrite <- (map_map h (midpoint (snd k) wl nlon)). now apply Permutation_map.
Qed.
End Regrid.

(* ------------------------------------------------------------------ blocks of latitudes *)
Lemma mapM_last {A B} (f : A -> result B) l x : mapM f (l ++ [x]) = do ys <- mapM f l; do y <- f x; Ok (ys ++ [y]).
Proof.
  induction l as [|a l IH]; cbn [app mapM bind]; [destruct (f x); reflexivity|]. destruct (f a) as [b|e]; cbn [bind]; [|reflexivity]. rewrite IH.
  destruct (mapM f l) as [ys|e]; cbn [bind]; [|reflexivity]. destruct (f x); reflexivity.
Qed.
Lemma concat_last {A} (l : list (list A)) v : concat (l ++ [v]) = concat l ++ v.
Proof. rewrite concat_app. cbn [concat]. now rewrite app_nil_r. Qed.
Lemma blocks_foldM {A} (f : list A -> result (list Qc)) l bk k :
  foldM (fun (st : list Qc * Z) index => do v <- f (zslice l (index * bk) ((index + 1) * bk)); Ok (fst st ++ v, index)) ([], 0) (zrange 0 (Z.of_nat k))
  = do vs <- mapM f (map (fun i => zslice l (i * bk) ((i + 1) * bk)) (zrange 0 (Z.of_nat k))); Ok (concat vs, match k with O => 0 | S k' => Z.of_nat k' end).
Proof.
  induction k as [|k IH]; [reflexivity|]. rewrite zrange_snoc0, foldM_snoc, IH, map_app. cbn [map]. rewrite mapM_last.
  destruct (mapM f (map (fun i => zslice l (i * bk) ((i + 1) * bk)) (zrange 0 (Z.of_nat k)))) as [vs|e]; cbn [bind fst]; [|reflexivity].
  destruct (f (zslice l (Z.of_nat k * bk) ((Z.of_nat k + 1) * bk))) as [v|e]; cbn [bind]; [|reflexivity]. now rewrite concat_last.
Qed.
Lemma slices_concat {A} (l : list A) bk k : 0 <= bk -> concat (map (fun i => zslice l (i * bk) ((i + 1) * bk)) (zrange 0 (Z.of_nat k))) = zslice l 0 (Z.of_nat k * bk).
Proof.
  intros B. induction k as [|k IH]; [reflexivity|]. rewrite zrange_snoc0, map_app. cbn [map]. rewrite concat_last, IH, zslice_app by nia. f_equal. lia.
Qed.
Lemma gridded_blocks argsort cosine r field s : 1 <= blocking r -> cell_latitudes r <> [] -> exists blocks,
  concat blocks = cell_latitudes r /\ Forall (fun b => b <> [] /\ zlen b <= blocking r) blocks /\ compute_gridded_expected_value argsort cosine r field s = do vs <- mapM (compute_blocked argsort cosine r field s) blocks; Ok (concat vs).
Proof.
  intros B N. set (f := compute_blocked argsort cosine r field s). set (l := cell_latitudes r). unfold compute_gridded_expected_value. fold l f. set (n := zlen l).
  assert (Np : 1 <= n) by (unfold n, l, zlen; destruct (cell_latitudes r); [easy|cbn [length]; lia]).
  set (bk := if blocking r >? n then n else blocking r).
  assert (Bk : 1 <= bk <= n /\ bk <= blocking r). { unfold bk. destruct (Z.gtb_spec (blocking r) n); lia. }
  cbv zeta. rewrite (proj2 (Z.eqb_neq bk 0)) by lia. destruct Bk as [Bk1 Bk2].
  assert (K : 1 <= n / bk) by (apply Z.div_le_lower_bound; lia). assert (DM := Z.div_mod n bk ltac:(lia)). assert (MB := Z.mod_pos_bound n bk ltac:(lia)).
  remember (Z.to_nat (n / bk)) as k eqn:Ek. assert (Zk : n / bk = Z.of_nat k) by lia. rewrite Zk in *.
  assert (FB : Forall (fun b => b <> [] /\ zlen b <= blocking r) (map (fun i => zslice l (i * bk) ((i + 1) * bk)) (zrange 0 (Z.of_nat k)))).
  { apply Forall_map, Forall_forall. intros i I. apply in_zrange in I. assert (L : length (zslice l (i * bk) ((i + 1) * bk)) = Z.to_nat bk) by (rewrite zslice_length; [f_equal; ring|nia|fold n; nia]).
    unfold zlen. split; [intros E; rewrite E in L; cbn [length] in L; lia|lia]. }
  rewrite (blocks_foldM f l bk k). destruct (Z.eqb_spec (n mod bk) 0) as [M|M].
  - exists (map (fun i => zslice l (i * bk) ((i + 1) * bk)) (zrange 0 (Z.of_nat k))). split; [|split; [exact FB|]].
    + rewrite slices_concat by lia. replace (Z.of_nat k * bk) with n by nia. apply zslice_all.
    + destruct (mapM f _); reflexivity.
  - exists (map (fun i => zslice l (i * bk) ((i + 1) * bk)) (zrange 0 (Z.of_nat k)) ++ [zslice l (Z.of_nat k * bk) n]). split; [|split].
    + rewrite concat_last, slices_concat, zslice_app by nia. apply zslice_all.
    + apply Forall_app. split; [exact FB|]. constructor; [|constructor]. assert (L : length (zslice l (Z.of_nat k * bk) n) = Z.to_nat (n - Z.of_nat k * bk)) by (apply zslice_length; [nia|fold n; lia]).
      unfold zlen. split; [intros E; rewrite E in L; cbn [length] in L; nia|nia].
    + rewrite mapM_last. destruct (mapM f (map _ (zrange 0 (Z.of_nat k)))) as [vs|e]; cbn [bind fst snd]; [|reflexivity].
      destruct k as [|k']; [lia|]. replace (Z.of_nat k' + 1) with (Z.of_nat (S k')) by lia. destruct (f (zslice l (Z.of_nat (S k') * bk) n)) as [v|e]; cbn [bind]; [|reflexivity]. now rewrite concat_last.
Qed.
Lemma cells_app a b lo : cells (a ++ b) lo = cells a lo ++ cells b lo.
Proof. induction a as [|x l IH]; [reflexivity|]. cbn [app cells]. now rewrite IH, app_assoc. Qed.
Lemma ascending_app a b : ascending (a ++ b) -> ascending a /\ ascending b.
Proof.
  induction a as [|x l IH]; intros S; [split; [constructor|exact S]|]. cbn [app] in S. inversion S as [|y m S' F]; subst. destruct (IH S') as [A B]. split; [|exact B].
  constructor; [exact A|]. apply Forall_app in F. exact (proj1 F).
Qed.
Lemma gridded_order argsort cosine r field s f : sorts argsort -> 1 <= blocking r -> 1 <= points_lat r -> 1 <= points_lon r -> cell_latitudes r <> [] -> cell_longitudes r <> [] ->
  solution_field field s = Ok f -> forall blocks sorted, concat blocks = cell_latitudes r -> Forall (fun b => b <> [] /\ zlen b <= blocking r) blocks -> Forall2 (fun b b' => Permutation b b' /\ ascending b') blocks sorted ->
  mapM (compute_blocked argsort cosine r field s) blocks
  = Ok (map (fun b => map (cell_mean cosine (latitude_spacing r, longitude_spacing r) (points_lat r, points_lon r) f) (cells b (cell_longitudes r))) sorted).
Proof.
  intros G B H1 H2 N1 N2 E blocks sorted _ F S. revert F. induction S as [|b b' blocks sorted [Pb Sb] S IH]; intros F; [reflexivity|]. inversion F as [|x y [Nb _] F']; subst. cbn [mapM map].
  rewrite (blocked_spec argsort cosine G (points_lat r) (points_lon r) (latitude_spacing r) (longitude_spacing r) H1 H2 field s f b b' (cell_longitudes r) Pb Sb Nb N2 E r eq_refl eq_refl eq_refl eq_refl eq_refl).
  cbn [bind]. rewrite (IH F'). reflexivity.
Qed.
Lemma cells_concat M blocks lo : concat (map (fun b => map M (cells b lo)) blocks) = map (M : Qc * Qc -> Qc) (cells (concat blocks) lo).
Proof. induction blocks as [|b blocks IH]; [reflexivity|]. cbn [map concat]. rewrite cells_app, map_app, IH. reflexivity. Qed.
Lemma gridded_spec argsort cosine r field s f : sorts argsort -> 1 <= blocking r -> 1 <= points_lat r -> 1 <= points_lon r -> ascending (cell_latitudes r) -> cell_latitudes r <> [] -> cell_longitudes r <> [] ->
  solution_field field s = Ok f ->
  compute_gridded_expected_value argsort cosine r field s = Ok (map (cell_mean cosine (latitude_spacing r, longitude_spacing r) (points_lat r, points_lon r) f) (cells (cell_latitudes r) (cell_longitudes r))).
Proof.
  intros G B H1 H2 S N1 N2 E. destruct (gridded_blocks argsort cosine r field s B N1) as (blocks & C & F & ->).
  rewrite (gridded_order argsort cosine r field s f G B H1 H2 N1 N2 E blocks blocks C F).
  - cbn [bind]. f_equal. rewrite <- C. apply cells_concat.
  - rewrite <- C in S. clear - S. induction blocks as [|b blocks IH]; [constructor|]. cbn [concat] in S. apply ascending_app in S. constructor; [split; [reflexivity|apply S]|apply IH, S].
Qed.
Lemma field_unknown argsort cosine r field s : ascending (cell_latitudes r) -> 1 <= blocking r -> 1 <= points_lat r -> 1 <= points_lon r -> sorts argsort -> cell_latitudes r <> [] ->
  field <> "MAP"%string -> field <> "post_STD"%string -> field <> "prior_STD"%string -> compute_gridded_expected_value argsort cosine r field s = Err ValueError.
Proof.
  intros S B H1 H2 G N F1 F2 F3. destruct (gridded_blocks argsort cosine r field s B N) as (blocks & C & F & ->). destruct blocks as [|b blocks]; [cbn [concat] in C; congruence|]. cbn [mapM].
  assert (X : compute_blocked argsort cosine r field s b = Err ValueError); [|now rewrite X].
  unfold compute_blocked. cbv zeta. rewrite <- C in S. cbn [concat] in S. apply ascending_app in S.
  rewrite (latitudes_spec argsort cosine G (points_lat r) (points_lon r) (latitude_spacing r) (longitude_spacing r) H1 H2 b b) by (solve [reflexivity | apply S]). cbn [bind].
  unfold solution_field, field_flags. cbn [nth]. apply String.eqb_neq in F1, F2, F3. now rewrite F1, F2, F3.
Qed.

(* ------------------------------------------------------------------ midpoints *)
Lemma midpoint_inside c w n i : 0 <= i < n -> (0 < w)%Qc -> (c - w / qz 2 < midpoint c w n i)%Qc /\ (midpoint c w n i < c + w / qz 2)%Qc.
Proof.
  intros I W. assert (U : (0 < w / qz (2 * n))%Qc).
  { assert (P := qz_pos (2 * n) ltac:(lia)). apply Qcnot_le_lt. intros L. assert (M := Qcmult_le_compat_r _ _ _ L (Qclt_le_weak _ _ P)). rewrite Qcmult_0_l in M.
    replace (w / qz (2 * n) * qz (2 * n))%Qc with w in M by (field; apply qz_nonzero; lia). exact (Qclt_not_le _ _ W M). }
  assert (E : (w / qz 2 = qz n * (w / qz (2 * n)))%Qc) by (rewrite qz_mult; field; split; apply qz_nonzero; lia).
  rewrite midpoint_form by lia. rewrite E. set (u := (w / qz (2 * n))%Qc) in *. clearbody u.
  assert (A : (0 < qz (2 * i + 1) * u)%Qc) by (rewrite <- (Qcmult_0_l u); apply Qcmult_lt_compat_r; [exact U|apply qz_pos; lia]).
  assert (B : (qz (2 * i + 1) * u < (qz n + qz n) * u)%Qc) by (apply Qcmult_lt_compat_r; [exact U|rewrite <- qz_plus; apply qz_lt; lia]).
  rewrite Qcmult_plus_distr_l in B. generalize dependent (qz (2 * i + 1) * u)%Qc. generalize (qz n * u)%Qc. intros a b A B. clear - A B. split; qc.
Qed.
Lemma midpoint_step c w n i : 1 <= n -> (midpoint c w n (i + 1) - midpoint c w n i = w / qz n)%Qc.
Proof.
  intros N. rewrite !midpoint_form by exact N. replace (2 * (i + 1) + 1) with (2 * i + 1 + 2) by ring. rewrite (qz_plus _ 2), qz_mult. field. split; apply qz_nonzero; lia.
Qed.
Lemma odd_sum n : sumQ (map (fun i => qz (2 * i + 1)) (zrange 0 (Z.of_nat n))) = (qz (Z.of_nat n) * qz (Z.of_nat n))%Qc.
Proof.
  induction n as [|n IH]; [vm_compute; reflexivity|]. rewrite zrange_snoc0, map_app, sumQ_app, IH. cbn [map]. rewrite sumQ_cons. change (sumQ []) with 0%Qc.
  rewrite <- !qz_mult, Qcplus_0_r, <- qz_plus. f_equal. lia.
Qed.
Lemma midpoint_mean c w n : 1 <= n -> average (map (midpoint c w n) (zrange 0 n)) = c.
Proof.
  intros N. unfold average. rewrite zlen_map, zlen_zrange by lia. rewrite Z.sub_0_r.
  rewrite (map_ext _ (fun i => (c - w / qz 2) + w / qz (2 * n) * qz (2 * i + 1))%Qc) by (intros i; rewrite midpoint_form by exact N; ring).
  rewrite sumQ_plus, sumQ_const, zlen_zrange, Z.sub_0_r by lia. rewrite <- (map_map (fun i => qz (2 * i + 1)) (fun x => w / qz (2 * n) * x)%Qc), sumQ_scale.
  rewrite <- (Z2Nat.id n) at 3 by lia. rewrite odd_sum, Z2Nat.id by lia. rewrite qz_mult. field. split; apply qz_nonzero; lia.
Qed.

(* ------------------------------------------------------------------ a way to sort *)
Fixpoint place_key (k : Qc * nat) (l : list (Qc * nat)) : list (Qc * nat) := match l with [] => [k] | x :: r => if Qclt_bool (fst x) (fst k) then x :: place_key k r else k :: l end.
Definition some_argsort (l : list Qc) : list nat := map snd (fold_right place_key [] (combine l (seq 0 (length l)))).
Lemma place_perm k l : Permutation (place_key k l) (k :: l).
Proof. induction l as [|x l IH]; cbn [place_key]; [reflexivity|]. destruct (Qclt_bool (fst x) (fst k)); [rewrite IH; apply perm_swap|reflexivity]. Qed.
Lemma place_sorted k l : ascending (map fst l) -> ascending (map fst (place_key k l)).
Proof.
  induction l as [|x l IH]; intros S; cbn [place_key map]; [repeat constructor|]. cbn [map] in S. inversion S as [|a b S' F]; subst. destruct (Qclt_bool (fst x) (fst k)) eqn:E.
  - cbn [map]. constructor; [now apply IH|]. rewrite (Permutation_map fst (place_perm k l)). cbn [map]. constructor; [now apply Qclt_le_weak, Qclt_bool_iff|exact F].
  - apply Qclt_bool_false in E. cbn [map]. constructor; [exact S|]. constructor; [exact E|]. eapply Forall_impl; [|exact F]. intros y H. now apply (Qcle_trans _ (fst x)).
Qed.
Lemma some_argsort_sorts : sorts some_argsort.
Proof.
  intros l. unfold some_argsort. set (L := combine l (seq 0 (length l))). set (S := fold_right place_key [] L).
  assert (P : Permutation S L) by (unfold S; clear; induction L as [|k L IH]; cbn [fold_right]; [reflexivity|rewrite place_perm; now constructor]).
  assert (A : ascending (map fst S)) by (unfold S; clear; induction L as [|k L IH]; cbn [fold_right]; [constructor|now apply place_sorted]).
  split.
  - rewrite (Permutation_map snd P). unfold L. replace (map snd (combine l (seq 0 (length l)))) with (seq 0 (length l)); [reflexivity|].
    generalize 0%nat. clear. induction l as [|x l IH]; intros k; cbn [length seq combine map]; [reflexivity|]. now rewrite <- IH.
  - rewrite map_map. rewrite (map_ext_in _ fst); [exact A|]. intros [k i] I. apply (Permutation_in _ P) in I. unfold L in I. cbn [fst snd].
    assert (H : forall b, In (k, i) (combine l (seq b (length l))) -> (b <= i)%nat /\ nth (i - b) l 0%Qc = k).
    { clear. induction l as [|x l IH]; intros b I; cbn [length seq combine In] in I; [easy|]. destruct I as [[= <- <-]|I]; [rewrite Nat.sub_diag; auto|]. destruct (IH (S b) I) as [A B]. split; [lia|].
      replace (i - b)%nat with (S (i - S b)) by lia. exact B. }
    destruct (H 0%nat I) as [_ H']. now rewrite Nat.sub_0_r in H'.
Qed.

(* ------------------------------------------------------------------ width of the cells *)
Lemma py_index_first {A} (x y : A) l : py_index (x :: y :: l) 0 = Ok x.
Proof.
  unfold py_index. cbv zeta. change (0 <? 0) with false. cbv iota. assert (L : 0 < zlen (x :: y :: l)) by (unfold zlen; cbn [length]; lia). apply Z.ltb_lt in L. rewrite L. reflexivity.
Qed.
Lemma py_index_second {A} (x y : A) l : py_index (x :: y :: l) 1 = Ok y.
Proof.
  unfold py_index. cbv zeta. change (1 <? 0) with false. cbv iota. assert (L : 1 < zlen (x :: y :: l)) by (unfold zlen; cbn [length]; lia). apply Z.ltb_lt in L. rewrite L. reflexivity.
Qed.
Lemma round3_exact i : round3 (qz i / qz 1000) = (qz i / qz 1000)%Qc.
Proof.
  unfold round3. cbv zeta. assert (T : qz 1000 <> 0%Qc) by (apply qz_nonzero; lia). replace (qz i / qz 1000 * qz 1000)%Qc with (qz i) by (field; exact T). f_equal. f_equal.
  assert (H : forall k, 0 <= k -> trunc (qz k + Q2Qc (1 # 2))%Qc = k).
  { intros k K. assert (P : (0 <= qz k)%Qc) by (rewrite <- qz_0; now apply qz_le). assert (A : (0 <= Q2Qc (1 # 2))%Qc) by (vm_compute; discriminate). assert (B : (Q2Qc (1 # 2) < 1)%Qc) by (vm_compute; reflexivity).
    generalize dependent (Q2Qc (1 # 2)). intros h A B. apply trunc_nonneg; [clear - P A; qc|]. split; clear - A B; qc. }
  destruct (Qclt_bool (qz i) 0) eqn:L.
  - apply Qclt_bool_iff in L. rewrite <- qz_0 in L. apply qz_lt_inv in L. replace (Q2Qc (1 # 2) - qz i)%Qc with (qz (- i) + Q2Qc (1 # 2))%Qc by (rewrite qz_opp; ring). rewrite H by lia. lia.
  - apply Qclt_bool_false in L. rewrite <- qz_0 in L. apply (proj1 (qz_le _ _)) in L. now apply H.
Qed.

(* ------------------------------------------------------------------ histories of a projector *)
Section Histories.
Context {component : Type} (row : component -> Z -> Qc * Qc -> list Qc) (cosine : Qc -> Qc) (kind : component -> storage).
Context (state_at : component -> Z -> option (list Qc)) (samples_at prior_at : component -> Z -> option (list (list Qc))).
Context (whole_state : component -> option (list Qc)) (whole_samples whole_prior : component -> option (list (list Qc))).
Context (g : grid).
Let step := step component row cosine kind state_at samples_at prior_at whole_state whole_samples whole_prior g.
Let run := run component row cosine kind state_at samples_at prior_at whole_state whole_samples whole_prior g.
Lemma read_stored {A} (by_time : component -> Z -> option A) whole c t x : read component kind by_time whole c t = Ok x -> x = stored kind by_time whole c t.
Proof. unfold read, stored. destruct (kind c); congruence. Qed.
Lemma read_ok {A} (by_time : component -> Z -> option A) whole c t : kind c <> Unrecognised -> read component kind by_time whole c t = Ok (stored kind by_time whole c t).
Proof. unfold read, stored. destruct (kind c); congruence. Qed.
Lemma set_ok p c k : kind c <> Unrecognised -> step p (Set_component component c k) = Ok
  {| time_index := time_index _ p; current := Some c; state_solution := stored kind state_at whole_state c (time_index _ p);
     state_samples := stored kind samples_at whole_samples c (time_index _ p); prior_samples := stored kind prior_at whole_prior c (time_index _ p); design_matrix := if k then design_matrix _ p else None |}.
Proof. intros K. unfold step. cbn [Proj_Model.step]. unfold set_component. rewrite !read_ok by exact K. reflexivity. Qed.
Lemma set_bad p c k : kind c = Unrecognised -> step p (Set_component component c k) = Err TypeError.
Proof. intros K. unfold step. cbn [Proj_Model.step]. unfold set_component, read. now rewrite K. Qed.
Definition loads {A} (by_time : component -> Z -> option A) (whole : component -> option A) (l : option (component * Z)) : option A :=
  match l with None => None | Some (c, t) => stored kind by_time whole c t end.
Lemma evaluate_inv p q : step p (Evaluate component) = Ok q -> exists c m, current _ p = Some c /\ evaluate component row cosine g c (time_index _ p) = Ok m /\
  q = {| time_index := time_index _ p; current := current _ p; state_solution := state_solution _ p; state_samples := state_samples _ p; prior_samples := prior_samples _ p; design_matrix := Some m |}.
Proof.
  unfold step. cbn [Proj_Model.step]. unfold evaluate_design_matrix. destruct (current _ p) as [c|]; [|discriminate]. destruct (evaluate component row cosine g c (time_index _ p)) as [m|] eqn:E; [|discriminate].
  cbn [bind]. intros [= <-]. eauto.
Qed.
Lemma history_state h : forall p q l, foldM step p h = Ok q ->
  state_solution _ p = loads state_at whole_state l -> state_samples _ p = loads samples_at whole_samples l -> prior_samples _ p = loads prior_at whole_prior l ->
  time_index _ q = time_after (time_index _ p) h /\ current _ q = component_after (current _ p) h /\
  let l' := loaded_after (time_index _ p) l h in
  state_solution _ q = loads state_at whole_state l' /\ state_samples _ q = loads samples_at whole_samples l' /\ prior_samples _ q = loads prior_at whole_prior l'.
Proof.
  induction h as [|u h IH]; intros p q l R A B C; cbn [foldM] in R; [injection R as <-; cbn; auto|]. destruct (step p u) as [p'|] eqn:E; [|discriminate R]. cbn [bind] in R.
  destruct u as [c k|t k| |].
  - destruct (kind c) eqn:K; [| |rewrite set_bad in E by exact K; discriminate E]; (rewrite set_ok in E by congruence; injection E as <-; specialize (IH _ q (Some (c, time_index _ p)) R eq_refl eq_refl eq_refl); exact IH).
  - injection E as <-. specialize (IH _ q l R A B C). exact IH.
  - apply evaluate_inv in E. destruct E as (c & m & _ & _ & ->). specialize (IH _ q l R A B C). exact IH.
  - injection E as <-. specialize (IH _ q None R eq_refl eq_refl eq_refl). exact IH.
Qed.
Lemma run_state t0 h p : run t0 h = Ok p ->
  time_index _ p = time_after t0 h /\ current _ p = component_after None h /\
  let l := loaded_after t0 None h in
  state_solution _ p = loads state_at whole_state l /\ state_samples _ p = loads samples_at whole_samples l /\ prior_samples _ p = loads prior_at whole_prior l.
Proof. intros R. exact (history_state h (new_projector component t0) p None R eq_refl eq_refl eq_refl). Qed.
Definition designed (p : projector component) : Prop := forall m, design_matrix _ p = Some m -> exists c, current _ p = Some c /\ evaluate component row cosine g c (time_index _ p) = Ok m.
Lemma history_design h : (forall u, In u h -> keeps u = false) -> forall p q, foldM step p h = Ok q -> designed p -> designed q.
Proof.
  induction h as [|u h IH]; intros K p q R D; cbn [foldM] in R; [injection R as <-; exact D|]. destruct (step p u) as [p'|] eqn:E; [|discriminate R]. cbn [bind] in R.
  assert (Ku := K u (or_introl eq_refl)). apply (IH (fun v I => K v (or_intror I)) p' q R). clear IH K R. destruct u as [c k|t k| |].
  - cbn in Ku. subst k. destruct (kind c) eqn:K; [| |rewrite set_bad in E by exact K; discriminate E]; (rewrite set_ok in E by congruence; injection E as <-; intros m M; discriminate M).
  - cbn in Ku. subst k. injection E as <-. intros m M. discriminate M.
  - apply evaluate_inv in E. destruct E as (c & m & Cc & Em & ->). intros m' [= <-]. exists c. auto.
  - injection E as <-. exact D.
Qed.
Lemma run_design t0 h p : (forall u, In u h -> keeps u = false) -> run t0 h = Ok p -> designed p.
Proof. intros K R. apply (history_design h K (new_projector component t0) p R). intros m M. discriminate M. Qed.
Lemma run_app t0 h1 h2 p : run t0 h1 = Ok p -> run t0 (h1 ++ h2) = foldM step p h2.
Proof. intros R. unfold run, Proj_Model.run in *. rewrite foldM_app. fold step in R |- *. now rewrite R. Qed.
Lemma history_allowed d : (forall c t p, length (row c t p) = d c) -> 1 <= fst (sampling g) -> 1 <= snd (sampling g) -> forall h p,
  is_ok (foldM step p h) = allowed kind (match current _ p with None => false | Some _ => true end) h.
Proof.
  intros D A B h. induction h as [|u h IH]; intros p; [reflexivity|]. cbn [foldM allowed]. destruct u as [c k|t k| |].
  - destruct (kind c) eqn:K; [| |now rewrite set_bad by exact K]; (rewrite set_ok by congruence; cbn [bind]; rewrite IH; reflexivity).
  - change (step p (Update_time component t k)) with (Ok (update_time_index component p t k)). cbn [bind]. rewrite IH. reflexivity.
  - unfold step at 1. cbn [Proj_Model.step]. unfold evaluate_design_matrix. destruct (current _ p) as [c|] eqn:C; [|reflexivity].
    destruct (evaluate_spec row cosine g c (time_index _ p) (d c) (fun q => D c _ q) A B) as (m & -> & _). cbn [bind]. rewrite IH. reflexivity.
  - change (step p (Save_and_load component)) with (Ok (save_and_load component p)). cbn [bind]. rewrite IH. reflexivity.
Qed.
Lemma reuse_fold c t l : forall p, (forall ct, In ct l -> kind (fst ct) <> Unrecognised) -> l <> [] ->
  foldM step p (flat_map (fun ct => [Update_time component (snd ct) true; Set_component component (fst ct) true]) l) = Ok
  (let ct := last l (c, t) in
   {| time_index := snd ct; current := Some (fst ct); state_solution := stored kind state_at whole_state (fst ct) (snd ct);
      state_samples := stored kind samples_at whole_samples (fst ct) (snd ct); prior_samples := stored kind prior_at whole_prior (fst ct) (snd ct); design_matrix := design_matrix _ p |}).
Proof.
  induction l as [|[c1 t1] l IH]; intros p K N; [easy|]. cbn [flat_map app fst snd foldM].
  change (step p (Update_time component t1 true)) with (Ok (update_time_index component p t1 true)). cbn [bind].
  rewrite set_ok by (apply (K (c1, t1)); now left). cbn [bind update_time_index time_index design_matrix].
  destruct l as [|ct l]; [reflexivity|]. rewrite (IH _ (fun x I => K x (or_intror I)) ltac:(discriminate)). reflexivity.
Qed.
End Histories.
