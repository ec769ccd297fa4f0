From Coq Require Import NArith Reals Lia Lra Psatz.
From Verif Require Import Base Mesh_Model Mesh_Spec Mesh_Proofs Loc_Model Loc_Spec.
Local Open Scope R_scope.
Local Open Scope list_scope.

Lemma vec_eq (a b : vec) : cx a = cx b -> cy a = cy b -> cz a = cz b -> a = b.
Proof. destruct a, b. cbn. intros -> -> ->. reflexivity. Qed.
Lemma dot_pos a : 0 <= dot a a.
Proof. unfold dot. nra. Qed.
Lemma dot_zero a : dot a a = 0 -> a = nowhere.
Proof. unfold dot. intros H. apply vec_eq; cbn; nra. Qed.
Lemma norm_nonneg a : 0 <= norm a.
Proof. apply sqrt_pos. Qed.
Lemma norm_pos a : a <> nowhere -> 0 < norm a.
Proof. intros H. apply sqrt_lt_R0. pose proof (dot_pos a). destruct (Req_dec (dot a a) 0) as [E|E]; [elim H; apply dot_zero, E|lra]. Qed.
Lemma norm_scale s a : 0 <= s -> norm (vscale s a) = s * norm a.
Proof.
  intros H. unfold norm. replace (dot (vscale s a) (vscale s a)) with (s * s * dot a a) by (unfold dot; cbn; ring).
  rewrite sqrt_mult by (apply dot_pos || nra). rewrite sqrt_square by exact H. reflexivity.
Qed.
Lemma normalise_scale a : a <> nowhere -> vscale (norm a) (normalise a) = a.
Proof. intros H. pose proof (norm_pos a H). apply vec_eq; cbn; field; lra. Qed.
Lemma normalise_unit a : norm a = 1 -> normalise a = a.
Proof. intros H. unfold normalise. rewrite H. apply vec_eq; cbn; field. Qed.
Lemma norm_normalise a : a <> nowhere -> norm (normalise a) = 1.
Proof.
  intros H. pose proof (norm_pos a H) as P. replace (normalise a) with (vscale (/ norm a) a) by (apply vec_eq; cbn; unfold Rdiv; apply Rmult_comm).
  rewrite norm_scale; [field; lra|]. apply Rlt_le, Rinv_0_lt_compat, P.
Qed.

(* ---- barycentric coordinates by areas *)
Lemma dot_normal p0 p1 p2 : dot p0 (cross (vsub p1 p0) (vsub p2 p0)) = det (p0, p1, p2).
Proof. unfold dot, det. cbn. ring. Qed.
Lemma dot_normal_combination x p0 p1 p2 : dot (combination x (p0, p1, p2)) (cross (vsub p1 p0) (vsub p2 p0)) = total x * det (p0, p1, p2).
Proof. destruct x as [[x0 x1] x2]. unfold dot, det, total, combination. cbn. ring. Qed.
Lemma det_nonzero p0 p1 p2 : det (p0, p1, p2) <> 0 -> p0 <> nowhere /\ p1 <> nowhere /\ p2 <> nowhere /\ cross (vsub p1 p0) (vsub p2 p0) <> nowhere.
Proof.
  intros D. repeat split; intros E; apply D.
  1-3: rewrite E; unfold det; cbn; ring.
  rewrite <- dot_normal, E. unfold dot. cbn. ring.
Qed.
Lemma barycentric_exact p v x : det p <> 0 -> weights p v x -> barycentric p v = x.
Proof.
  destruct p as [[p0 p1] p2], x as [[x0 x1] x2]. intros D ((N0 & N1 & N2) & T & k & K & C). cbn in T. destruct (det_nonzero _ _ _ D) as (_ & _ & _ & Nn).
  unfold barycentric. set (n := cross (vsub p1 p0) (vsub p2 p0)) in *.
  assert (E : k * dot v n = det (p0, p1, p2)).
  { pose proof (dot_normal_combination (x0, x1, x2) p0 p1 p2) as W. rewrite C in W. fold n in W. cbn [total] in W. rewrite T in W. rewrite Rmult_1_l in W. rewrite <- W. unfold dot. cbn. ring. }
  assert (V : dot v n <> 0) by (intros Z; rewrite Z in E; apply D; lra).
  assert (Ek : dot p0 n / dot v n = k) by (unfold n at 1; rewrite dot_normal, <- E; field; exact V). rewrite !Ek, <- !C.
  assert (P : 0 < norm n) by (apply norm_pos, Nn).
  assert (X1 : x1 = 1 - x0 - x2) by lra.
  assert (A0 : area p1 p2 (combination (x0, x1, x2) (p0, p1, p2)) = /2 * (x0 * norm n)).
  { unfold area. rewrite <- (norm_scale _ n) by exact N0. do 2 f_equal. subst x1. unfold n. apply vec_eq; cbn; ring. }
  assert (A1 : area p2 p0 (combination (x0, x1, x2) (p0, p1, p2)) = /2 * (x1 * norm n)).
  { unfold area. rewrite <- (norm_scale _ n) by exact N1. do 2 f_equal. subst x1. unfold n. apply vec_eq; cbn; ring. }
  assert (A2 : area p0 p1 (combination (x0, x1, x2) (p0, p1, p2)) = /2 * (x2 * norm n)).
  { unfold area. rewrite <- (norm_scale _ n) by exact N2. do 2 f_equal. subst x1. unfold n. apply vec_eq; cbn; ring. }
  rewrite A0, A1, A2. replace (/ 2 * (x0 * norm n) + / 2 * (x1 * norm n) + / 2 * (x2 * norm n)) with (/2 * norm n) by (rewrite X1; field).
  f_equal; [f_equal|]; field; lra.
Qed.

(* ---- one subdivision *)
Lemma cone_inside p v y k : v <> nowhere -> 0 < k -> nonnegative y -> combination y p = vscale k v -> inside p v.
Proof.
  destruct y as [[y0 y1] y2], p as [[p0 p1] p2]. intros V K (N0 & N1 & N2) C.
  assert (T : 0 < y0 + y1 + y2).
  { destruct (Req_dec (y0 + y1 + y2) 0) as [E|E]; [|lra]. exfalso. apply V. assert (y0 = 0) by lra. assert (y1 = 0) by lra. assert (y2 = 0) by lra. subst.
    pose proof (f_equal cx C) as C0. pose proof (f_equal cy C) as C1. pose proof (f_equal cz C) as C2. cbn in C0, C1, C2. apply vec_eq; cbn; nra. }
  exists (y0 / (y0 + y1 + y2), y1 / (y0 + y1 + y2), y2 / (y0 + y1 + y2)). split; [|split].
  - repeat split; apply Rmult_le_pos; try assumption; apply Rlt_le, Rinv_0_lt_compat, T.
  - cbn. field. lra.
  - exists (k / (y0 + y1 + y2)). split; [apply Rdiv_lt_0_compat; assumption|].
    pose proof (f_equal cx C) as C0. pose proof (f_equal cy C) as C1. pose proof (f_equal cz C) as C2. cbn in C0, C1, C2. apply vec_eq; cbn.
    + replace (k / (y0 + y1 + y2) * cx v) with (k * cx v / (y0 + y1 + y2)) by (field; lra). rewrite <- C0. field. lra.
    + replace (k / (y0 + y1 + y2) * cy v) with (k * cy v / (y0 + y1 + y2)) by (field; lra). rewrite <- C1. field. lra.
    + replace (k / (y0 + y1 + y2) * cz v) with (k * cz v / (y0 + y1 + y2)) by (field; lra). rewrite <- C2. field. lra.
Qed.
Lemma inside_normalise q0 q1 q2 v y k : v <> nowhere -> 0 < k -> det (q0, q1, q2) <> 0 -> nonnegative y -> combination y (q0, q1, q2) = vscale k v ->
  inside (normalise q0, normalise q1, normalise q2) v.
Proof.
  intros V K D N C. destruct y as [[y0 y1] y2]. destruct N as (N0 & N1 & N2). destruct (det_nonzero _ _ _ D) as (Q0 & Q1 & Q2 & _).
  apply (cone_inside _ v (y0 * norm q0, y1 * norm q1, y2 * norm q2) k); try assumption.
  - repeat split; apply Rmult_le_pos; try assumption; apply norm_nonneg.
  - rewrite <- C. rewrite <- (normalise_scale q0 Q0) at 3. rewrite <- (normalise_scale q1 Q1) at 3. rewrite <- (normalise_scale q2 Q2) at 3. apply vec_eq; cbn; ring.
Qed.
Lemma det_normalise q0 q1 q2 : det (q0, q1, q2) <> 0 -> det (normalise q0, normalise q1, normalise q2) = det (q0, q1, q2) / (norm q0 * norm q1 * norm q2).
Proof.
  intros D. destruct (det_nonzero _ _ _ D) as (Q0 & Q1 & Q2 & _). apply norm_pos in Q0, Q1, Q2. unfold det. cbn. field. lra.
Qed.
Definition part_points (p : vec * vec * vec) (s : nat) : vec * vec * vec := part middle s p.
Lemma middle_comm a b : middle a b = middle b a.
Proof. apply vec_eq; cbn; ring. Qed.
Lemma det_part p s : (s < 4)%nat -> det (part middle s p) = det p / 4.
Proof. destruct p as [[p0 p1] p2]. intros H. destruct s as [|[|[|[|s]]]]; [| | | |lia]; unfold det, part, middle; cbn; field. Qed.
Lemma subtriangle_part p s : (s < 4)%nat -> subtriangle p s = let '(q0, q1, q2) := part middle s p in (normalise q0, normalise q1, normalise q2).
Proof. destruct p as [[p0 p1] p2]. intros H. destruct s as [|[|[|[|s]]]]; [| | | |lia]; reflexivity. Qed.
Lemma number_lt x : (subdivision_number x < 4)%nat.
Proof. destruct x as [[x0 x1] x2]. unfold subdivision_number. repeat destruct Rle_dec; lia. Qed.
Lemma subdivide_total x s : (s < 4)%nat -> total (barycentre_subdivide x s) = total x.
Proof. destruct x as [[x0 x1] x2]. intros H. destruct s as [|[|[|[|s]]]]; [| | | |lia]; cbn; ring. Qed.
Lemma subdivide_nonnegative x : nonnegative x -> nonnegative (barycentre_subdivide x (subdivision_number x)).
Proof.
  destruct x as [[x0 x1] x2]. intros (N0 & N1 & N2). unfold subdivision_number. repeat destruct Rle_dec; cbn; lra.
Qed.
Lemma subdivide_combination x p s : (s < 4)%nat -> combination (barycentre_subdivide x s) (part middle s p) = combination x p.
Proof.
  destruct x as [[x0 x1] x2], p as [[p0 p1] p2]. intros H. destruct s as [|[|[|[|s]]]]; [| | | |lia]; apply vec_eq; cbn; field.
Qed.
(* weights for a part, not negative: the part is the one chosen, or the point is on the border between parts *)
Lemma subdivide_only x s : (s < 4)%nat -> nonnegative x -> nonnegative (barycentre_subdivide x s) -> s <> subdivision_number x ->
  let '(x0, x1, x2) := x in x0 = x1 + x2 \/ x1 = x2 + x0 \/ x2 = x0 + x1.
Proof.
  destruct x as [[x0 x1] x2]. intros H (N0 & N1 & N2). unfold subdivision_number. destruct s as [|[|[|[|s]]]]; [| | | |lia]; cbn; intros (M0 & M1 & M2);
    repeat destruct Rle_dec; intros E; try congruence; try lra.
Qed.
Lemma step_inside p v : v <> nowhere -> det p <> 0 -> inside p v ->
  let q := subtriangle p (subdivision_number (barycentric p v)) in inside q v /\ det q <> 0.
Proof.
  intros V D (x & W) q. assert (E : barycentric p v = x) by (apply barycentric_exact; assumption). destruct W as (N & T & k & K & C).
  unfold q. rewrite E. set (s := subdivision_number x). assert (S4 : (s < 4)%nat) by apply number_lt. rewrite subtriangle_part by exact S4.
  pose proof (det_part p s S4) as Dp. pose proof (subdivide_combination x p s S4) as Cp. destruct (part middle s p) as [[q0 q1] q2].
  assert (D' : det (q0, q1, q2) <> 0) by (rewrite Dp; intros Z; apply D; lra). split.
  - apply (inside_normalise q0 q1 q2 v (barycentre_subdivide x s) k V K D'); [apply subdivide_nonnegative, N|]. rewrite Cp. exact C.
  - rewrite det_normalise by exact D'. destruct (det_nonzero _ _ _ D') as (Q0 & Q1 & Q2 & _). apply norm_pos in Q0, Q1, Q2.
    intros Z. apply D'. apply (Rmult_eq_reg_r (/ (norm q0 * norm q1 * norm q2))); [rewrite Rmult_0_l; exact Z|].
    apply Rinv_neq_0_compat. apply Rgt_not_eq. apply Rmult_lt_0_compat; [apply Rmult_lt_0_compat; assumption|assumption].
Qed.
Lemma inside_barycentric p v : det p <> 0 -> inside p v -> weights p v (barycentric p v).
Proof. intros D (x & W). rewrite (barycentric_exact p v x D W). exact W. Qed.

(* ---- the icosahedron *)
Lemma golden_square : golden * golden = golden + 1.
Proof. unfold golden. pose proof (sqrt_sqrt 5 ltac:(lra)). nra. Qed.
Lemma golden_pos : 0 < golden.
Proof. unfold golden. pose proof (sqrt_pos 5). lra. Qed.
Lemma basis_norm_pos : 0 < sqrt (1 + golden * golden).
Proof. apply sqrt_lt_R0. pose proof golden_pos. nra. Qed.
Lemma basis_b_pos : 0 < basis_b.
Proof. unfold basis_b. apply Rdiv_lt_0_compat; [lra|apply basis_norm_pos]. Qed.
Lemma basis_a_eq : basis_a = golden * basis_b.
Proof. unfold basis_a, basis_b. field. pose proof basis_norm_pos. lra. Qed.
Lemma basis_a_pos : 0 < basis_a.
Proof. rewrite basis_a_eq. apply Rmult_lt_0_compat; [apply golden_pos|apply basis_b_pos]. Qed.
Lemma basis_square : basis_a * basis_a = basis_a * basis_b + basis_b * basis_b.
Proof. rewrite basis_a_eq. replace (golden * basis_b * (golden * basis_b)) with (golden * golden * (basis_b * basis_b)) by ring. rewrite golden_square. ring. Qed.
Lemma basis_unit : basis_a * basis_a + basis_b * basis_b = 1.
Proof.
  unfold basis_a, basis_b. pose proof basis_norm_pos as P. set (s := sqrt (1 + golden * golden)) in *.
  assert (S : s * s = 1 + golden * golden) by (apply sqrt_sqrt; pose proof golden_pos; nra).
  replace (golden / s * (golden / s) + 1 / s * (1 / s)) with ((1 + golden * golden) / (s * s)) by (field; lra). rewrite <- S. field. lra.
Qed.
Lemma base_points_unit : Forall (fun p => norm p = 1) base_points.
Proof.
  assert (H : forall p, dot p p = basis_a * basis_a + basis_b * basis_b -> norm p = 1) by (intros p E; unfold norm; rewrite E, basis_unit; apply sqrt_1).
  unfold base_points. repeat apply Forall_cons; try apply Forall_nil; apply H; unfold dot; cbn; ring.
Qed.
Lemma pos3 a b c : 0 < a -> 0 < b -> 0 < c -> 0 < a * b * c.
Proof. intros. apply Rmult_lt_0_compat; [apply Rmult_lt_0_compat|]; assumption. Qed.
Lemma base_det : Forall (fun t => det (triangle_corners {| points := base_points; triangles := []; edges := []; level := 0 |} t) < 0) base_triangles.
Proof.
  pose proof basis_a_pos as A. pose proof basis_b_pos as B. assert (A2 : 0 < basis_a * basis_a * basis_a) by (apply pos3; assumption).
  assert (B2 : 0 < basis_b * basis_b * basis_b) by (apply pos3; assumption).
  assert (AB : 0 < basis_a * basis_a * basis_b) by (apply pos3; assumption).
  unfold base_triangles, base_rows. cbn [seq combine map]. repeat apply Forall_cons; try apply Forall_nil; unfold triangle_corners, det; cbn; nra.
Qed.
Lemma test_sign v c : dot v c <= 0 <-> dot v (normalise c) <= 0.
Proof.
  destruct (Req_dec (dot c c) 0) as [E|E].
  - apply dot_zero in E. subst c. unfold dot. cbn. unfold Rdiv. lra.
  - assert (P : 0 < norm c) by (apply norm_pos; intros ->; apply E; unfold dot; cbn; ring).
    assert (D : dot v (normalise c) = dot v c * / norm c) by (unfold dot; cbn; field; lra). rewrite D.
    assert (I : 0 < / norm c) by (apply Rinv_0_lt_compat, P). split; intros H; nra.
Qed.
Lemma within_iff p0 p1 p2 v : within (p0, p1, p2) v = true <-> dot v (cross p0 p1) <= 0 /\ dot v (cross p1 p2) <= 0 /\ dot v (cross p2 p0) <= 0.
Proof.
  unfold within. rewrite (test_sign v (cross p0 p1)), (test_sign v (cross p1 p2)), (test_sign v (cross p2 p0)).
  repeat destruct Rle_dec; cbn; intuition (congruence || lra).
Qed.
Lemma within_inside p v : v <> nowhere -> det p < 0 -> within p v = true -> inside p v.
Proof.
  destruct p as [[p0 p1] p2]. intros V D W. apply within_iff in W. destruct W as (W0 & W1 & W2).
  apply (cone_inside _ v (- dot v (cross p1 p2), - dot v (cross p2 p0), - dot v (cross p0 p1)) (- det (p0, p1, p2))); try assumption; try lra.
  - cbn [nonnegative]. lra.
  - unfold det, dot. apply vec_eq; cbn; ring.
Qed.
Lemma inside_within p v : det p < 0 -> inside p v -> within p v = true.
Proof.
  destruct p as [[p0 p1] p2]. intros D (x & (N & T & k & K & C)). destruct x as [[x0 x1] x2]. destruct N as (N0 & N1 & N2). apply within_iff.
  assert (L : forall c, k * dot v c = dot (combination (x0, x1, x2) (p0, p1, p2)) c) by (intros c; rewrite C; unfold dot; cbn; ring).
  assert (E2 : k * dot v (cross p0 p1) = x2 * det (p0, p1, p2)) by (rewrite L; unfold det, dot; cbn; ring).
  assert (E0 : k * dot v (cross p1 p2) = x0 * det (p0, p1, p2)) by (rewrite L; unfold det, dot; cbn; ring).
  assert (E1 : k * dot v (cross p2 p0) = x1 * det (p0, p1, p2)) by (rewrite L; unfold det, dot; cbn; ring).
  repeat split; apply Rnot_lt_le; intros Z; nra.
Qed.
Definition top_rows : mesh vec := {| points := base_points; triangles := base_triangles; edges := []; level := 0 |}.
Ltac tri F n := apply (F n); [lia|unfold dot; cbn; repeat split; lra].
Ltac anytri F := first [tri F 0%nat|tri F 1%nat|tri F 2%nat|tri F 3%nat|tri F 4%nat|tri F 5%nat|tri F 6%nat|tri F 7%nat|tri F 8%nat|tri F 9%nat
  |tri F 10%nat|tri F 11%nat|tri F 12%nat|tri F 13%nat|tri F 14%nat|tri F 15%nat|tri F 16%nat|tri F 17%nat|tri F 18%nat|tri F 19%nat].
(* the triangle in the middle of an octant, or one of the three around it *)
Ltac octant F x y z :=
  destruct (Rle_dec (basis_a * basis_b * y) (basis_b * basis_b * x + basis_a * basis_b * z + basis_b * basis_b * z));
  [destruct (Rle_dec (basis_a * basis_b * z) (basis_b * basis_b * y + basis_a * basis_b * x + basis_b * basis_b * x));
   [destruct (Rle_dec (basis_a * basis_b * x) (basis_b * basis_b * z + basis_a * basis_b * y + basis_b * basis_b * y))|]|]; anytri F.
Lemma covered v : exists i, (i < 20)%nat /\ within (triangle_corners top_rows (nth i base_triangles {| t_id := 0; t_0 := 0; t_1 := 0; t_2 := 0 |})) v = true.
Proof.
  destruct v as [x y z]. pose proof basis_a_pos as A. pose proof basis_b_pos as B. pose proof basis_square as Q.
  assert (BB : 0 < basis_b * basis_b) by (apply Rmult_lt_0_compat; assumption). assert (AB : 0 < basis_a * basis_b) by (apply Rmult_lt_0_compat; assumption).
  assert (Q' : forall t, basis_a * basis_a * t = basis_a * basis_b * t + basis_b * basis_b * t) by (intros t; rewrite Q; ring).
  pose proof (Q' x) as Qx. pose proof (Q' y) as Qy. pose proof (Q' z) as Qz. clear Q Q'.
  assert (SG : forall t, (0 <= basis_a * basis_b * t /\ 0 <= basis_b * basis_b * t) \/ (basis_a * basis_b * t <= 0 /\ basis_b * basis_b * t <= 0)).
  { intros t. destruct (Rle_dec 0 t); [left|right]; nra. }
  assert (F : forall i, (i < 20)%nat -> let t := nth i base_triangles {| t_id := 0; t_0 := 0; t_1 := 0; t_2 := 0 |} in let v := {| cx := x; cy := y; cz := z |} in
     let p0 := nth (t_0 t) base_points nowhere in let p1 := nth (t_1 t) base_points nowhere in let p2 := nth (t_2 t) base_points nowhere in
     dot v (cross p0 p1) <= 0 /\ dot v (cross p1 p2) <= 0 /\ dot v (cross p2 p0) <= 0 -> 
     exists i, (i < 20)%nat /\ within (triangle_corners top_rows (nth i base_triangles {| t_id := 0; t_0 := 0; t_1 := 0; t_2 := 0 |})) v = true).
  { intros i Hi t v p0 p1 p2 H. exists i. split; [exact Hi|]. apply within_iff. exact H. }
  assert (SX := SG x). assert (SY := SG y). assert (SZ := SG z). clear SG A B BB AB.
  destruct SX as [SX|SX], SY as [SY|SY], SZ as [SZ|SZ].
  - octant F x y z.
  - octant F x y (- z).
  - octant F x (- y) z.
  - octant F x (- y) (- z).
  - octant F (- x) y z.
  - octant F (- x) y (- z).
  - octant F (- x) (- y) z.
  - octant F (- x) (- y) (- z).
Qed.

(* ---- going down the levels *)
Definition unit3 (p : vec * vec * vec) : Prop := let '(p0, p1, p2) := p in norm p0 = 1 /\ norm p1 = 1 /\ norm p2 = 1.
Lemma det_part_normalised p s : (s < 4)%nat -> det p < 0 -> det (subtriangle p s) < 0 /\ unit3 (subtriangle p s).
Proof.
  intros H D. rewrite subtriangle_part by exact H. pose proof (det_part p s H) as Dp. destruct (part middle s p) as [[q0 q1] q2].
  assert (D' : det (q0, q1, q2) < 0) by lra. assert (D'' : det (q0, q1, q2) <> 0) by lra. destruct (det_nonzero _ _ _ D'') as (Q0 & Q1 & Q2 & _). split.
  - rewrite det_normalise by exact D''. apply norm_pos in Q0, Q1, Q2. pose proof (pos3 _ _ _ Q0 Q1 Q2) as P. apply Rinv_0_lt_compat in P. unfold Rdiv. nra.
  - cbn [unit3]. rewrite !norm_normalise by assumption. repeat split; reflexivity.
Qed.
Lemma subtriangle_sphere p s : (s < 4)%nat -> unit3 p -> subtriangle p s = part mid_sphere s p.
Proof.
  destruct p as [[p0 p1] p2]. intros H (U0 & U1 & U2). destruct s as [|[|[|[|s]]]]; [| | | |lia]; cbn; rewrite ?(normalise_unit p0), ?(normalise_unit p1), ?(normalise_unit p2) by assumption; reflexivity.
Qed.
Lemma mid_sphere_comm a b : mid_sphere a b = mid_sphere b a.
Proof. unfold mid_sphere. f_equal. apply vec_eq; cbn; ring. Qed.
Lemma descend_inside v : v <> nowhere -> forall todo i p number, det p <> 0 -> inside p v ->
  det (fst (descend v todo i p number)) <> 0 /\ inside (fst (descend v todo i p number)) v.
Proof.
  intros V. induction todo as [|todo IH]; intros i p number D I; [split; assumption|]. cbn [descend]. destruct (step_inside p v V D I) as [I' D']. apply IH; assumption.
Qed.
Section Located.
Context (sort : forall A, (A -> N) -> list A -> list A) (Hs : sorts sort).
Notation M := (sphere_mesh sort).
Definition none : triangle := {| t_id := 0; t_0 := 0; t_1 := 0; t_2 := 0 |}.
Definition row (l r : nat) : vec * vec * vec := triangle_corners (M l) (nth r (triangles (M l)) none).
Lemma row_part l r s : (S l <= 28)%nat -> (r < 20 * 4 ^ l)%nat -> (s < 4)%nat -> row (S l) (4 * r + s) = part mid_sphere s (row l r).
Proof. intros. apply (built_part mid_sphere nowhere sort Hs base_points eq_refl l r s none); try assumption. apply mid_sphere_comm. Qed.
Lemma row_zero r : (r < 20)%nat -> row 0 r = triangle_corners top_rows (nth r base_triangles none).
Proof. reflexivity. Qed.
Lemma row_good l : (l <= 28)%nat -> forall r, (r < 20 * 4 ^ l)%nat -> det (row l r) < 0 /\ unit3 (row l r).
Proof.
  induction l as [|l IH]; intros H r Hr.
  - assert (Hr' : (r < 20)%nat) by (cbn in Hr; lia). rewrite row_zero by exact Hr'. split.
    + pose proof base_det as F. rewrite Forall_forall in F. apply (F (nth r base_triangles none)). apply nth_In. exact Hr'.
    + pose proof base_points_unit as F. rewrite Forall_forall in F.
      assert (P : forall t, In t base_triangles -> (t_0 t < 12)%nat /\ (t_1 t < 12)%nat /\ (t_2 t < 12)%nat).
      { assert (E : forallb (fun t => (t_0 t <? 12)%nat && (t_1 t <? 12)%nat && (t_2 t <? 12)%nat) base_triangles = true) by (vm_compute; reflexivity).
        rewrite forallb_forall in E. intros t I. specialize (E t I). rewrite !andb_true_iff, !Nat.ltb_lt in E. tauto. }
      destruct (P (nth r base_triangles none)) as (P0 & P1 & P2); [apply nth_In; exact Hr'|].
      cbn [unit3 triangle_corners]. repeat split; apply F; apply nth_In; assumption.
  - cbn [Nat.pow] in Hr. rewrite (Nat.div_mod r 4) by lia. assert (Q : (r / 4 < 20 * 4 ^ l)%nat) by (apply Nat.div_lt_upper_bound; lia).
    assert (S4 : (r mod 4 < 4)%nat) by (apply Nat.mod_upper_bound; lia). rewrite row_part by (assumption || lia).
    destruct (IH ltac:(lia) _ Q) as [D U]. rewrite <- subtriangle_sphere by assumption. apply det_part_normalised; assumption.
Qed.
Lemma descend_row v : forall todo l r, (l + todo <= 28)%nat -> (r < 20 * 4 ^ l)%nat ->
  exists r', (r' < 20 * 4 ^ (l + todo))%nat /\ (r' / 4 ^ todo = r)%nat /\ descend v todo (S l) (row l r) (ident l r) = (row (l + todo) r', ident (l + todo) r').
Proof.
  induction todo as [|todo IH]; intros l r H Hr.
  - exists r. rewrite Nat.add_0_r. repeat split; [exact Hr|cbn; apply Nat.div_1_r].
  - cbn [descend]. set (s := subdivision_number (barycentric (row l r) v)). assert (S4 : (s < 4)%nat) by apply number_lt.
    destruct (row_good l ltac:(lia) r Hr) as [_ U]. rewrite subtriangle_sphere, <- row_part by (assumption || lia).
    change (base_hash_shift - 2 * N.of_nat (S l))%N with (hash_shift (S l)). rewrite child_ident by lia. rewrite Nat2N.id.
    destruct (IH (S l) (4 * r + s)%nat ltac:(lia)) as (r' & A & B & C); [cbn [Nat.pow]; lia|]. exists r'. rewrite Nat.add_succ_comm in *. repeat split; try assumption.
    rewrite Nat.pow_succ_r', Nat.mul_comm. rewrite <- Nat.div_div by (try apply Nat.pow_nonzero; lia). rewrite B.
    symmetry. apply (Nat.div_unique _ _ _ s); lia.
Qed.
Lemma first_index_found {A} (f : A -> bool) d l i : (i < length l)%nat -> f (nth i l d) = true ->
  exists j, first_index f l = Some j /\ (j < length l)%nat /\ f (nth j l d) = true /\ forall k, (k < j)%nat -> f (nth k l d) = false.
Proof.
  revert i. induction l as [|x l IH]; intros i Hi F; [cbn in Hi; lia|]. cbn [first_index]. destruct (f x) eqn:E.
  - exists 0%nat. repeat split; [cbn; lia|exact E|intros k Hk; lia].
  - destruct i as [|i]; [cbn in F; congruence|]. destruct (IH i ltac:(cbn in Hi; lia) F) as (j & A1 & B & C & D). exists (S j). rewrite A1. repeat split; [cbn; lia|exact C|].
    intros [|k] Hk; [exact E|]. cbn. apply D. lia.
Qed.
Lemma locate_row n v : (n <= 28)%nat -> v <> nowhere ->
  exists r, (r < 20 * 4 ^ n)%nat /\ weights (row n r) v (barycentric (row n r) v) /\ locate (M 0) n v = Some (ident n r, barycentric (row n r) v).
Proof.
  intros H V. destruct (covered v) as (i & Hi & W). destruct (first_index_found (fun t => within (triangle_corners (M 0) t) v) none (triangles (M 0)) i Hi W) as (j & E & Hj & Wj & _).
  change (j < 20)%nat in Hj. change (within (row 0 j) v = true) in Wj.
  destruct (row_good 0 ltac:(lia) j ltac:(cbn; lia)) as [D U]. pose proof (within_inside _ _ V D Wj) as I.
  destruct (descend_row v n 0 j ltac:(lia) ltac:(cbn; lia)) as (r & Hr & _ & Dr). cbn [Nat.add] in Hr, Dr. exists r. split; [exact Hr|].
  assert (Dz : det (row 0 j) <> 0) by lra. destruct (descend_inside v V n 1 (row 0 j) (ident 0 j) Dz I) as [D' I']. rewrite Dr in D', I'. cbn [fst] in D', I'.
  split; [apply inside_barycentric; assumption|]. unfold locate, locate_exhaustive. rewrite E.
  replace (N.shiftl (N.of_nat j) base_hash_shift) with (ident 0 j) by (unfold ident; rewrite N.shiftl_mul_pow2; reflexivity).
  change (triangle_corners (M 0) (nth j (triangles (M 0)) {| t_id := 0; t_0 := 0; t_1 := 0; t_2 := 0 |})) with (row 0 j). rewrite Dr. reflexivity.
Qed.
End Located.
Lemma polar_unit a b : norm (polar_to_cartesian a b) = 1.
Proof.
  unfold norm. replace (dot _ _) with 1; [apply sqrt_1|]. unfold dot, polar_to_cartesian. cbn [cx cy cz].
  pose proof (sin2_cos2 (radians a)) as A. pose proof (sin2_cos2 (radians b)) as B. unfold Rsqr in *.
  set (ca := cos (radians a)) in *. set (sa := sin (radians a)) in *. set (cb := cos (radians b)) in *. set (sb := sin (radians b)) in *. clearbody ca sa cb sb.
  replace (cb * ca * (cb * ca) + sb * ca * (sb * ca) + sa * sa) with ((sb * sb + cb * cb) * (ca * ca) + sa * sa) by ring. rewrite B. lra.
Qed.
Lemma unit_somewhere v : norm v = 1 -> v <> nowhere.
Proof. intros E ->. unfold norm, dot in E. cbn in E. replace (0 * 0 + 0 * 0 + 0 * 0) with 0 in E by ring. rewrite sqrt_0 in E. lra. Qed.
