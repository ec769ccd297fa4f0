(* Properties C47 and C84: location of points in the triangles of the icosahedral mesh.  Coordinates are real numbers. *)
From Coq Require Import NArith Reals Lia Lra.
From Verif Require Import Base Mesh_Model Mesh_Spec Mesh_Proofs Loc_Model Loc_Spec Loc_Proofs.
Local Open Scope R_scope.
Local Open Scope list_scope.

(* C47.  For a point of a triangle with barycentric coordinates [x]: one of the four parts is chosen, the coordinates within that part are not
   negative, have the same total, and give back the same point. *)
Theorem C47_subdivision : forall x p, nonnegative x ->
  let s := subdivision_number x in let y := barycentre_subdivide x s in
  (s < 4)%nat /\ nonnegative y /\ total y = total x /\ combination y (part half_way s p) = combination x p.
Proof.
  intros x p N s y. assert (S4 : (s < 4)%nat) by apply number_lt. split; [exact S4|]. split; [apply subdivide_nonnegative, N|]. split; [apply subdivide_total, S4|].
  unfold y. rewrite <- (subdivide_combination x p s S4). f_equal.
  assert (E : forall a b, half_way a b = middle a b) by (intros; apply vec_eq; cbn; field). destruct p as [[p0 p1] p2]. destruct s as [|[|[|[|s']]]]; cbn [part]; rewrite ?E; reflexivity.
Qed.
Print Assumptions C47_subdivision.
(* A different part contains the point only if it lies on a border between parts. *)
Theorem C47_only_part : forall x0 x1 x2 s, nonnegative (x0, x1, x2) -> (s < 4)%nat -> nonnegative (barycentre_subdivide (x0, x1, x2) s) ->
  s = subdivision_number (x0, x1, x2) \/ x0 = x1 + x2 \/ x1 = x2 + x0 \/ x2 = x0 + x1.
Proof.
  intros x0 x1 x2 s N S4 N'. destruct (Nat.eq_dec s (subdivision_number (x0, x1, x2))) as [E|E]; [left; exact E|right]. apply (subdivide_only (x0, x1, x2) s S4 N N' E).
Qed.
Print Assumptions C47_only_part.
(* The coordinates computed from areas are the weights of the corners whose mean is in the direction of the point. *)
Theorem C47_barycentric : forall p v x, det p <> 0 -> weights p v x -> barycentric p v = x.
Proof. exact barycentric_exact. Qed.
Print Assumptions C47_barycentric.
(* At every depth the point stays inside the chosen triangle, whose corners are projected onto the sphere, and the coordinates at the end are
   not negative, sum to 1 and give a positive multiple of the point. *)
Theorem C47_descent : forall v p depth i number, v <> nowhere -> det p <> 0 -> inside p v ->
  let q := fst (descend v depth i p number) in det q <> 0 /\ weights q v (barycentric q v).
Proof. intros v p depth i number V D I q. destruct (descend_inside v V depth i p number D I) as [D' I']. split; [exact D'|apply inside_barycentric; assumption]. Qed.
Print Assumptions C47_descent.
(* Being inside is not tested: coordinates are ratios of areas and never negative, also for points outside of the triangle. *)
Theorem C47_outside_not_detected : forall p v, nonnegative (barycentric p v) \/ (let '(p0, p1, p2) := p in cross (vsub p1 p0) (vsub p2 p0) = nowhere).
Proof.
  intros [[p0 p1] p2] v. set (n := cross (vsub p1 p0) (vsub p2 p0)).
  destruct (Req_dec (dot n n) 0) as [E|E]; [right; apply dot_zero, E|left]. unfold barycentric. fold n. set (k := dot p0 n / dot v n). set (vp := vscale k v).
  assert (A : forall a b c, 0 <= area a b c) by (intros; unfold area; pose proof (norm_nonneg (cross (vsub b a) (vsub c a))); lra).
  pose proof (A p1 p2 vp) as A0. pose proof (A p2 p0 vp) as A1. pose proof (A p0 p1 vp) as A2.
  assert (S : 0 < area p1 p2 vp + area p2 p0 vp + area p0 p1 vp).
  { destruct (Rle_lt_dec (area p1 p2 vp + area p2 p0 vp + area p0 p1 vp) 0) as [Z|Z]; [|exact Z]. exfalso. apply E.
    assert (Zs : forall a b c, area a b c = 0 -> cross (vsub b a) (vsub c a) = nowhere).
    { intros a b c H. destruct (Req_dec (dot (cross (vsub b a) (vsub c a)) (cross (vsub b a) (vsub c a))) 0) as [F|F]; [apply dot_zero, F|].
      assert (P : 0 < norm (cross (vsub b a) (vsub c a))) by (apply norm_pos; intros G; apply F; rewrite G; unfold dot; cbn; ring). unfold area in H. lra. }
    pose proof (Zs p1 p2 vp ltac:(lra)) as Z0. pose proof (Zs p2 p0 vp ltac:(lra)) as Z1. pose proof (Zs p0 p1 vp ltac:(lra)) as Z2.
    assert (F : n = nowhere).
    { pose proof (f_equal cx Z0). pose proof (f_equal cy Z0). pose proof (f_equal cz Z0). pose proof (f_equal cx Z1). pose proof (f_equal cy Z1). pose proof (f_equal cz Z1).
      pose proof (f_equal cx Z2). pose proof (f_equal cy Z2). pose proof (f_equal cz Z2). clear - H H0 H1 H2 H3 H4 H5 H6 H7. unfold n. clearbody vp. cbn in *. apply vec_eq; cbn; lra. }
    rewrite F. unfold dot. cbn. ring. }
  cbn [nonnegative]. repeat split; apply Rmult_le_pos; try assumption; apply Rlt_le, Rinv_0_lt_compat, S.
Qed.
Print Assumptions C47_outside_not_detected.
Definition px : vec := {| cx := 1; cy := 0; cz := 0 |}.
Definition py : vec := {| cx := 0; cy := 1; cz := 0 |}.
Definition pz : vec := {| cx := 0; cy := 0; cz := 1 |}.
Example C47_nonvacuous : det (px, py, pz) <> 0 /\ weights (px, py, pz) {| cx := 3; cy := 1; cz := 1 |} (3/5, 1/5, 1/5) /\ subdivision_number (3/5, 1/5, 1/5) = 0%nat /\
  subdivision_number (1/3, 1/3, 1/3) = 3%nat /\ barycentre_subdivide (3/5, 1/5, 1/5) 0 = (3/5 - 1/5 - 1/5, 1/5 * 2, 1/5 * 2).
Proof.
  repeat split; try (unfold det; cbn; lra).
  - exists (1/5). split; [lra|]. apply vec_eq; cbn; lra.
  - unfold subdivision_number. destruct Rle_dec; [reflexivity|lra].
  - unfold subdivision_number. repeat destruct Rle_dec; try lra; reflexivity.
Qed.

(* C84.  Every direction is found: at every level up to 28 the located number is the identifier of a triangle of the mesh of that level, the
   point lies inside that triangle of the mesh, and the coordinates are its weights for the corners of that triangle. *)
Theorem C84_located : forall sort n v, sorts sort -> (n <= 28)%nat -> v <> nowhere ->
  exists r x, (r < 20 * 4 ^ n)%nat /\ locate (sphere_mesh sort 0) n v = Some (N.shiftl (N.of_nat r) (58 - 2 * N.of_nat n), x) /\
    forall d, weights (corners (sphere_mesh sort n) nowhere (nth r (triangles (sphere_mesh sort n)) d)) v x.
Proof.
  intros sort n v Hs H V. destruct (locate_row sort Hs n v H V) as (r & Hr & W & E). exists r, (barycentric (row sort n r) v). split; [exact Hr|]. split.
  - rewrite E. do 2 f_equal. unfold ident. rewrite N.shiftl_mul_pow2. reflexivity.
  - intros d. destruct (built_counts mid_sphere nowhere sort Hs base_points eq_refl n H) as (_ & _ & T). rewrite (nth_indep _ d none) by (unfold sphere_mesh; rewrite T; exact Hr). exact W.
Qed.
Print Assumptions C84_located.
(* The row of the design matrix for a location: at the corners of the triangle of the mesh that contains the location stand its weights, which are
   not negative and sum to 1; every other element is zero. *)
Theorem C84_design_row : forall sort level latitude longitude, sorts sort -> (level <= 28)%nat ->
  exists A r, build_A_row sort level latitude longitude = Some A /\ (r < 20 * 4 ^ level)%nat /\ forall d,
    let m := sphere_mesh sort level in let t := nth r (triangles m) d in
    weights (corners m nowhere t) (polar_to_cartesian latitude longitude) (A (t_0 t), A (t_1 t), A (t_2 t)) /\
    forall j, j <> t_0 t -> j <> t_1 t -> j <> t_2 t -> A j = 0.
Proof.
  intros sort level a b Hs H. set (v := polar_to_cartesian a b). assert (V : v <> nowhere) by (apply unit_somewhere, polar_unit).
  destruct (locate_row sort Hs level v H V) as (r & Hr & W & E). unfold build_A_row. fold v. rewrite E. destruct (barycentric (row sort level r) v) as [[w0 w1] w2].
  destruct (built_counts mid_sphere nowhere sort Hs base_points eq_refl level H) as (_ & _ & T).
  assert (X : N.to_nat (N.shiftr (ident level r) (base_hash_shift - 2 * N.of_nat level)) = r).
  { change (base_hash_shift - 2 * N.of_nat level)%N with (hash_shift level). rewrite ident_shiftr by lia. rewrite Nat.sub_diag. cbn [Nat.pow]. rewrite Nat.div_1_r. apply Nat2N.id. }
  cbv zeta. rewrite X. eexists. exists r. split; [reflexivity|]. split; [exact Hr|]. intros d. rewrite (nth_indep _ d none) by (unfold sphere_mesh; rewrite T; exact Hr).
  change {| t_id := 0; t_0 := 0; t_1 := 0; t_2 := 0 |} with none. set (t := nth r (triangles (sphere_mesh sort level)) none).
  assert (It : In t (triangles (sphere_mesh sort level))) by (apply nth_In; unfold sphere_mesh; rewrite T; exact Hr).
  destruct (built_corners_distinct mid_sphere nowhere sort Hs base_points eq_refl level t H It) as (D0 & D1 & D2).
  cbn [fold_left]. unfold assign. cbn [fst snd]. rewrite !Nat.eqb_refl. apply Nat.eqb_neq in D0, D1, D2. rewrite Nat.eqb_sym in D2. rewrite D0, D1, D2. split; [exact W|].
  intros j J0 J1 J2. apply Nat.eqb_neq in J0, J1, J2. rewrite J0, J1, J2. reflexivity.
Qed.
Print Assumptions C84_design_row.
(* All triangles of the mesh keep their orientation, so none degenerates, and all their corners are on the unit sphere. *)
Theorem C84_sphere : forall sort n r d, sorts sort -> (n <= 28)%nat -> (r < 20 * 4 ^ n)%nat ->
  let '(p0, p1, p2) := corners (sphere_mesh sort n) nowhere (nth r (triangles (sphere_mesh sort n)) d) in
  det (p0, p1, p2) < 0 /\ norm p0 = 1 /\ norm p1 = 1 /\ norm p2 = 1.
Proof.
  intros sort n r d Hs H Hr. destruct (built_counts mid_sphere nowhere sort Hs base_points eq_refl n H) as (_ & _ & T).
  rewrite (nth_indep _ d none) by (unfold sphere_mesh; rewrite T; exact Hr). destruct (row_good sort Hs n H r Hr) as [D U].
  change (corners (sphere_mesh sort n) nowhere (nth r (triangles (sphere_mesh sort n)) none)) with (row sort n r). destruct (row sort n r) as [[p0 p1] p2]. split; [exact D|exact U].
Qed.
Print Assumptions C84_sphere.
(* The location does not depend on the level asked for, apart from the bits that it adds: the triangle found at a finer level lies in the one found
   at a coarser level. *)
Theorem C84_levels_agree : forall sort n k v id x id' x', sorts sort -> (k <= n)%nat -> (n <= 28)%nat -> v <> nowhere ->
  locate (sphere_mesh sort 0) n v = Some (id, x) -> locate (sphere_mesh sort 0) k v = Some (id', x') ->
  N.shiftr id (58 - 2 * N.of_nat k) = N.shiftr id' (58 - 2 * N.of_nat k).
Proof.
  intros sort n k v id x id' x' Hs Hk H V E E'. unfold locate in E, E'. destruct (locate_exhaustive (sphere_mesh sort 0) v) as [j|] eqn:J; [|discriminate].
  assert (Hj : (j < 20)%nat).
  { assert (G : forall A (f : A -> bool) l j, first_index f l = Some j -> (j < length l)%nat).
    { intros A f l. induction l as [|y l IH]; intros i Hi; [discriminate|]. cbn in Hi. destruct (f y); [injection Hi as <-; cbn; lia|]. destruct (first_index f l); [|discriminate].
      injection Hi as <-. specialize (IH _ eq_refl). cbn. lia. }
    apply (G _ _ _ _ J). }
  replace (N.shiftl (N.of_nat j) base_hash_shift) with (ident 0 j) in E, E' by (unfold ident; rewrite N.shiftl_mul_pow2; reflexivity).
  change (triangle_corners (sphere_mesh sort 0) (nth j (triangles (sphere_mesh sort 0)) {| t_id := 0; t_0 := 0; t_1 := 0; t_2 := 0 |})) with (row sort 0 j) in E, E'.
  destruct (descend_row sort Hs v k 0 j ltac:(lia) ltac:(cbn; lia)) as (q & Hq & _ & Dq). cbn [Nat.add] in Hq, Dq. rewrite Dq in E'. injection E' as <- _.
  assert (Sp : forall a b i p m, descend v (a + b) i p m = (let '(p', m') := descend v a i p m in descend v b (i + a) p' m')).
  { induction a as [|a IH]; intros b i p m; [cbn; rewrite Nat.add_0_r; reflexivity|]. cbn [Nat.add descend]. rewrite IH, Nat.add_succ_comm. reflexivity. }
  replace n with (k + (n - k))%nat in E by lia. rewrite Sp, Dq in E.
  destruct (descend_row sort Hs v (n - k) k q ltac:(lia) Hq) as (r & Hr & Q & Dr). change (1 + k)%nat with (S k) in E. rewrite Dr in E. injection E as <- _.
  change (58 - 2 * N.of_nat k)%N with (hash_shift k). rewrite !ident_shiftr by lia. replace (k + (n - k) - k)%nat with (n - k)%nat by lia. rewrite Q, Nat.sub_diag. cbn [Nat.pow].
  rewrite Nat.div_1_r. reflexivity.
Qed.
Print Assumptions C84_levels_agree.
Example C84_nonvacuous : sorts insertion_sort /\ polar_to_cartesian 0 0 = {| cx := 1; cy := 0; cz := 0 |} /\ polar_to_cartesian 0 0 <> nowhere.
Proof.
  split; [apply insertion_sorts|]. split; [|apply unit_somewhere, polar_unit].
  unfold polar_to_cartesian, radians. replace (0 * PI / 180) with 0 by lra. rewrite cos_0, sin_0. apply vec_eq; cbn; ring.
Qed.
