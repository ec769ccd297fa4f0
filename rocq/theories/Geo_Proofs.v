(* Lemmas for C162 and C163 *)
From Coq Require Import NArith Reals Lra Psatz String.
From Verif Require Import Base Mesh_Model Mesh_Spec Mesh_Proofs Mesh_Props Loc_Model Loc_Spec Loc_Proofs Geo_Model Geo_Spec.
Local Open Scope R_scope.
Local Open Scope list_scope.

(* ---- arctan2 *)
Lemma atan2_cos_sin y x r : 0 < r -> r * r = x * x + y * y -> r * cos (arctan2 y x) = x /\ r * sin (arctan2 y x) = y.
Proof.
  intros P E. unfold arctan2. destruct (Rlt_dec 0 x) as [X|X]; [|destruct (Rlt_dec x 0) as [X'|X']].
  - assert (S : sqrt (1 + (y / x)²) = r / x). { apply sqrt_lem_1; [unfold Rsqr; nra|apply Rlt_le, Rdiv_lt_0_compat; lra|]. unfold Rsqr. field_simplify; [|lra|lra]. f_equal. nra. }
    rewrite cos_atan, sin_atan, S. split; field; lra.
  - assert (S : sqrt (1 + (y / x)²) = r / - x). { apply sqrt_lem_1; [unfold Rsqr; nra|apply Rlt_le, Rdiv_lt_0_compat; lra|]. unfold Rsqr. field_simplify; [|lra|lra]. f_equal. nra. }
    destruct (Rle_dec 0 y).
    + rewrite neg_cos, neg_sin, cos_atan, sin_atan, S. split; field; lra.
    + replace (atan (y / x) - PI) with (- (PI - atan (y / x))) by ring. rewrite cos_neg, sin_neg. replace (PI - atan (y / x)) with (- atan (y / x) + PI) by ring.
      rewrite neg_cos, neg_sin, cos_neg, sin_neg, cos_atan, sin_atan, S. split; field; lra.
  - assert (x = 0) as -> by lra. destruct (Rlt_dec 0 y) as [Y|Y]; [|destruct (Rlt_dec y 0) as [Y'|Y']].
    + rewrite cos_PI2, sin_PI2. nra.
    + rewrite cos_neg, sin_neg, cos_PI2, sin_PI2. nra.
    + nra.
Qed.
Lemma atan2_range y x : - PI < arctan2 y x <= PI.
Proof.
  pose proof PI_RGT_0 as P. unfold arctan2. pose proof (atan_bound (y / x)) as B. destruct (Rlt_dec 0 x) as [X|X]; [lra|]. destruct (Rlt_dec x 0) as [X'|X'].
  - destruct (Rle_dec 0 y) as [Y|Y].
    + assert (Q : y / x <= 0). { unfold Rdiv. pose proof (Rinv_lt_0_compat x X'). nra. } destruct Q as [Q|Q].
      * apply atan_increasing in Q. rewrite atan_0 in Q. lra.
      * rewrite Q, atan_0. lra.
    + assert (Q : 0 < y / x). { unfold Rdiv. pose proof (Rinv_lt_0_compat x X'). nra. } apply atan_increasing in Q. rewrite atan_0 in Q. lra.
  - destruct (Rlt_dec 0 y); [lra|]. destruct (Rlt_dec y 0); lra.
Qed.
Lemma cos_one x : -2 * PI < x < 2 * PI -> cos x = 1 -> x = 0.
Proof.
  intros [A B] C. pose proof PI_RGT_0 as P. assert (S : sin (x / 2) = 0).
  { replace x with (2 * (x / 2)) in C by field. rewrite cos_2a_sin in C. assert (sin (x / 2) * sin (x / 2) = 0) by lra. nra. }
  apply sin_eq_0_0 in S. destruct S as [k K]. assert (k = 0)%Z. { assert (-1 < IZR k < 1) by (split; nra). destruct H as [H1 H2]. apply lt_IZR in H1. apply lt_IZR in H2. lia. } subst k. lra.
Qed.
Lemma same_angle a b : - PI < a <= PI -> - PI < b <= PI -> cos a = cos b -> sin a = sin b -> a = b.
Proof.
  intros A B C S. assert (Z : a - b = 0); [|lra]. apply cos_one; [lra|]. rewrite cos_minus, C, S. pose proof (sin2_cos2 b) as H. unfold Rsqr in H. lra.
Qed.
Lemma radians_degrees r : radians (degrees r) = r.
Proof. unfold radians, degrees. field. apply PI_neq0. Qed.
Lemma degrees_radians d : degrees (radians d) = d.
Proof. unfold radians, degrees. field. apply PI_neq0. Qed.
Lemma degrees_le a b : a <= b -> degrees a <= degrees b.
Proof. intros H. unfold degrees. apply Rmult_le_compat_r; [apply Rlt_le, Rinv_0_lt_compat, PI_RGT_0|lra]. Qed.
Lemma degrees_lt a b : a < b -> degrees a < degrees b.
Proof. intros H. unfold degrees. apply Rmult_lt_compat_r; [apply Rinv_0_lt_compat, PI_RGT_0|lra]. Qed.
Lemma degrees_PI : degrees PI = 180. Proof. unfold degrees. field. apply PI_neq0. Qed.
Lemma degrees_opp a : degrees (- a) = - degrees a. Proof. unfold degrees. field. apply PI_neq0. Qed.
Lemma degrees_PI2 : degrees (PI / 2) = 90. Proof. unfold degrees. field. apply PI_neq0. Qed.
Lemma degrees_0 : degrees 0 = 0. Proof. unfold degrees. field. apply PI_neq0. Qed.
Lemma radians_lt a b : a < b -> radians a < radians b.
Proof. intros H. unfold radians. pose proof PI_RGT_0. nra. Qed.
Lemma radians_180 : radians 180 = PI. Proof. unfold radians. field. Qed.
Lemma radians_90 : radians 90 = PI / 2. Proof. unfold radians. field. Qed.
Lemma radians_opp a : radians (- a) = - radians a. Proof. unfold radians. field. Qed.

Lemma norm_square v : norm v * norm v = dot v v.
Proof. unfold norm. apply sqrt_sqrt, dot_pos. Qed.
Lemma ratio_bound v : v <> nowhere -> -1 <= cz v / norm v <= 1.
Proof.
  intros N. pose proof (norm_pos v N) as P. pose proof (norm_square v) as S. unfold dot in S. set (q := cz v / norm v). assert (Q : q * norm v = cz v) by (unfold q; field; lra). clearbody q.
  assert (q * q <= 1). { apply (Rmult_le_reg_r (norm v * norm v)); [nra|]. replace (q * q * (norm v * norm v)) with (cz v * cz v) by (rewrite <- Q; ring). rewrite S. nra. }
  split; nra.
Qed.
Lemma to_polar v : v <> nowhere -> let '(lat, lon) := cartesian_to_polar v in polar_to_cartesian lat lon = normalise v.
Proof.
  intros N. unfold cartesian_to_polar, polar_to_cartesian. rewrite !radians_degrees. pose proof (norm_pos v N) as P. pose proof (ratio_bound v N) as B. pose proof (norm_square v) as S.
  rewrite sin_asin by exact B. rewrite cos_asin by exact B. set (h := cx v * cx v + cy v * cy v). assert (C : sqrt (1 - (cz v / norm v)²) = sqrt h / norm v).
  { rewrite <- (sqrt_Rsqr (norm v)) at 2 by lra. rewrite <- sqrt_div; [|unfold h; nra|unfold Rsqr; nra]. f_equal. unfold Rsqr, h. unfold dot in S. field_simplify; [|lra|lra]. f_equal. nra. }
  rewrite C. destruct (Req_dec h 0) as [H|H].
  - assert (X : cx v = 0) by (unfold h in H; nra). assert (Y : cy v = 0) by (unfold h in H; nra). rewrite H, sqrt_0. apply vec_eq; cbn [cx cy cz normalise vdivide]; rewrite ?X, ?Y; field; lra.
  - assert (HP : 0 < h) by (unfold h in *; nra). assert (R : sqrt h * sqrt h = h) by (apply sqrt_sqrt; lra). assert (RP : 0 < sqrt h) by now apply sqrt_lt_R0.
    destruct (atan2_cos_sin (cy v) (cx v) (sqrt h) RP R) as [A D]. apply vec_eq; cbn [cx cy cz normalise vdivide].
    + rewrite <- A at 2. field. lra.
    + rewrite <- D at 2. field. lra.
    + reflexivity.
Qed.
Lemma polar_range v : let '(lat, lon) := cartesian_to_polar v in -90 <= lat <= 90 /\ longitude_range lon.
Proof.
  unfold cartesian_to_polar, longitude_range. pose proof (asin_bound (cz v / norm v)) as [A B]. pose proof (atan2_range (cy v) (cx v)) as [C D].
  apply degrees_le in A, B, D. apply degrees_lt in C. rewrite ?degrees_opp, ?degrees_PI2, ?degrees_PI in *. lra.
Qed.
Lemma cos_strict a : - (PI / 2) < a < PI / 2 -> 0 < cos a.
Proof. intros [A B]. now apply cos_gt_0. Qed.
Lemma from_polar lat lon : -90 < lat < 90 -> longitude_range lon -> cartesian_to_polar (polar_to_cartesian lat lon) = (lat, lon).
Proof.
  intros [A B] [C D]. unfold cartesian_to_polar. rewrite polar_unit. cbn [polar_to_cartesian cx cy cz]. pose proof (radians_lt _ _ A) as A'. pose proof (radians_lt _ _ B) as B'.
  change (-90) with (- (90)) in A'. rewrite radians_opp in A'. rewrite radians_90 in *. f_equal.
  - unfold Rdiv. rewrite Rinv_1, Rmult_1_r, asin_sin by lra. apply degrees_radians.
  - set (k := cos (radians lat)). assert (K : 0 < k) by (apply cos_strict; lra). rewrite <- (degrees_radians lon) at 3. f_equal. pose proof (sin2_cos2 (radians lon)) as U. unfold Rsqr in U.
    destruct (atan2_cos_sin (sin (radians lon) * k) (cos (radians lon) * k) k K) as [E F]; [nra|]. apply same_angle.
    + apply atan2_range.
    + split.
      * rewrite <- radians_180, <- radians_opp. apply radians_lt. lra.
      * destruct D as [D| ->]; [apply Rlt_le; rewrite <- radians_180; now apply radians_lt|rewrite radians_180; lra].
    + nra.
    + nra.
Qed.

(* ---- angles *)
Lemma cauchy a b : dot a b * dot a b <= dot a a * dot b b.
Proof.
  unfold dot. pose proof (Rle_0_sqr (cx a * cy b - cy a * cx b)). pose proof (Rle_0_sqr (cy a * cz b - cz a * cy b)). pose proof (Rle_0_sqr (cz a * cx b - cx a * cz b)). unfold Rsqr in *. nra.
Qed.
Lemma angle_ratio a b : a <> nowhere -> b <> nowhere -> sqrt (dot a a * dot b b) = norm a * norm b /\ -1 <= dot a b / (norm a * norm b) <= 1.
Proof.
  intros A B. pose proof (norm_pos a A) as PA. pose proof (norm_pos b B) as PB. split; [unfold norm; apply sqrt_mult; apply dot_pos|].
  pose proof (cauchy a b) as C. rewrite <- (norm_square a), <- (norm_square b) in C. set (q := dot a b / (norm a * norm b)). assert (Q : q * (norm a * norm b) = dot a b) by (unfold q; field; lra). clearbody q.
  assert (N : 0 < norm a * norm b) by nra. set (n := norm a * norm b) in *. assert (q * q <= 1). { apply (Rmult_le_reg_r (n * n)); [nra|]. replace (q * q * (n * n)) with (dot a b * dot a b) by (rewrite <- Q; ring). rewrite Rmult_1_l. unfold n. lra. }
  split; nra.
Qed.

(* ---- rotation *)
Lemma rotate_dot t a b : dot (rotate_y t a) (rotate_y t b) = dot a b.
Proof.
  unfold dot, rotate_y. cbn [cx cy cz]. pose proof (sin2_cos2 t) as S. unfold Rsqr in S. set (s := sin t) in *. set (c := cos t) in *. clearbody s c.
  replace ((c * cx a - s * cz a) * (c * cx b - s * cz b) + cy a * cy b + (s * cx a + c * cz a) * (s * cx b + c * cz b)) with ((s * s + c * c) * (cx a * cx b + cz a * cz b) + cy a * cy b) by ring. rewrite S. ring.
Qed.
Lemma rotate_norm t a : norm (rotate_y t a) = norm a. Proof. unfold norm. now rewrite rotate_dot. Qed.
Lemma rotate_mid t a b : mid_sphere (rotate_y t a) (rotate_y t b) = rotate_y t (mid_sphere a b).
Proof.
  unfold mid_sphere. assert (E : vscale (/2) (vadd (rotate_y t a) (rotate_y t b)) = rotate_y t (vscale (/2) (vadd a b))) by (apply vec_eq; cbn; ring). rewrite E. unfold normalise. rewrite rotate_norm.
  apply vec_eq; cbn; unfold Rdiv; ring.
Qed.
Lemma rotate_nowhere t : rotate_y t nowhere = nowhere.
Proof. apply vec_eq; cbn; ring. Qed.
(* a mesh of mapped points is the mesh with its points mapped *)
Lemma build_map {P} (mid : P -> P -> P) nowhere sort (f : P -> P) base : (forall a b, mid (f a) (f b) = f (mid a b)) -> f nowhere = nowhere -> forall n,
  let m := build mid nowhere sort base n in let m' := build mid nowhere sort (map f base) n in
  points m' = map f (points m) /\ triangles m' = triangles m /\ edges m' = edges m /\ level m' = level m.
Proof.
  intros M N. induction n as [|n (A & B & C & D)]; cbv zeta.
  - cbn [build icosahedron points triangles edges level]. rewrite map_length. repeat split.
  - cbn [build]. unfold subdivide. cbn [points triangles edges level]. rewrite A, C, D, map_length, map_app. split; [|repeat split]. f_equal. rewrite map_map. apply map_ext. intros e. rewrite <- M. assert (K : forall i l, nth i (map f l) nowhere = f (nth i l nowhere)) by (intros i l; transitivity (nth i (map f l) (f nowhere)); [now rewrite N|apply map_nth]). now rewrite !K.
Qed.
Lemma angle_tan : let t := inter_vertex_angle in cos t * (2 * basis_a + basis_b) = sin t * basis_a /\ 0 < sin t /\ 0 < cos t.
Proof.
  cbv zeta. unfold inter_vertex_angle. pose proof basis_a_pos as A. pose proof basis_b_pos as B. pose proof basis_square as S. set (k := 1 - basis_b / basis_a).
  assert (K : k * basis_a = basis_a - basis_b) by (unfold k; field; lra). assert (BA : basis_b < basis_a) by nra. assert (KP : 0 < k) by nra.
  assert (RP : 0 < sqrt (1 + k * k)) by (apply sqrt_lt_R0; nra). assert (RR : sqrt (1 + k * k) * sqrt (1 + k * k) = 1 + k * k) by (apply sqrt_sqrt; nra). set (r := sqrt (1 + k * k)) in *.
  assert (R1 : 1 < r) by nra. assert (I : 0 < / r < 1). { split; [now apply Rinv_0_lt_compat|]. rewrite <- Rinv_1. apply Rinv_lt_contravar; lra. }
  unfold Rdiv. rewrite Rmult_1_l. rewrite sin_asin by lra. rewrite cos_asin by lra. assert (C : sqrt (1 - (/ r)²) = k * / r).
  { apply sqrt_lem_1; [unfold Rsqr; nra|nra|]. unfold Rsqr. replace (k * / r * (k * / r)) with (k * k * / (r * r)) by (field; lra). replace (/ r * / r) with (/ (r * r)) by (field; lra). rewrite RR. field. nra. }
  rewrite C. split; [|split; [lra|nra]]. replace (k * / r * (2 * basis_a + basis_b)) with (/ r * (k * (2 * basis_a + basis_b))) by ring. f_equal.
  apply (Rmult_eq_reg_r basis_a); [|lra]. replace (k * (2 * basis_a + basis_b) * basis_a) with (k * basis_a * (2 * basis_a + basis_b)) by ring. rewrite K. nra.
Qed.

(* ---- the circumcentre *)
Lemma cross_zero_dot a b : cross a b = nowhere -> dot (cross a b) (cross a b) = 0.
Proof. intros ->. unfold dot, nowhere. cbn. ring. Qed.
Lemma circum_equidistant a b d : d <> 0 -> dot (cross a b) (cross a b) = d ->
  let q := vdivide (cross (vsub (vscale (norm2 a) b) (vscale (norm2 b) a)) (cross a b)) (2 * d) in
  2 * dot q a = dot a a /\ 2 * dot q b = dot b b.
Proof.
  intros N E q. unfold q, norm2. unfold dot, cross, vsub, vscale, vdivide in *. cbn [cx cy cz] in *. destruct a as [a1 a2 a3], b as [b1 b2 b3]. cbn [cx cy cz] in *.
  split; apply (Rmult_eq_reg_r d); try exact N; field_simplify; try exact N; rewrite <- E; ring.
Qed.
Lemma circum_plane a b d : d <> 0 -> dot (cross a b) (cross a b) = d ->
  let q := vdivide (cross (vsub (vscale (norm2 a) b) (vscale (norm2 b) a)) (cross a b)) (2 * d) in
  q = vadd (vscale ((norm2 a * dot b b - norm2 b * dot a b) / (2 * d)) a) (vscale ((norm2 b * dot a a - norm2 a * dot a b) / (2 * d)) b).
Proof.
  intros N E q. unfold q, norm2. apply vec_eq; unfold dot, cross, vsub, vscale, vdivide, vadd in *; cbn [cx cy cz] in *; destruct a as [a1 a2 a3], b as [b1 b2 b3]; cbn [cx cy cz] in *; field; exact N.
Qed.
