(* C162: geometry on the sphere *)
From Coq Require Import NArith Reals Lra Psatz String Permutation.
From Verif Require Import Base Mesh_Model Mesh_Spec Mesh_Proofs Mesh_Props Loc_Model Loc_Spec Loc_Proofs Loc_Props Geo_Model Geo_Spec Geo_Proofs.
Local Open Scope R_scope.
Local Open Scope list_scope.

(* ==== C162 *)

(* The latitude and longitude of a vector give back its direction, and are in range. *)
Theorem C162_to_polar : forall v, v <> nowhere ->
  let '(latitude, longitude) := cartesian_to_polar v in
  polar_to_cartesian latitude longitude = normalise v /\ -90 <= latitude <= 90 /\ longitude_range longitude.
Proof. intros v N. pose proof (to_polar v N) as A. pose proof (polar_range v) as B. destruct (cartesian_to_polar v) as [lat lon]. split; [exact A|exact B]. Qed.
Print Assumptions C162_to_polar.
Example C162_to_polar_nonvacuous : {| cx := 1; cy := 2; cz := -3 |} <> nowhere.
Proof. intros H. apply (f_equal cx) in H. cbn in H. lra. Qed.
(* Away from the poles a place gives back its latitude and longitude. *)
Theorem C162_from_polar : forall latitude longitude, -90 < latitude < 90 -> longitude_range longitude ->
  cartesian_to_polar (polar_to_cartesian latitude longitude) = (latitude, longitude).
Proof. exact from_polar. Qed.
Print Assumptions C162_from_polar.
Example C162_from_polar_nonvacuous : -90 < 51 < 90 /\ longitude_range 180 /\ longitude_range (-179). Proof. unfold longitude_range. lra. Qed.
(* At the poles every longitude becomes zero. *)
Theorem C162_pole_refuted : forall longitude, snd (cartesian_to_polar (polar_to_cartesian 90 longitude)) = 0 /\ snd (cartesian_to_polar (polar_to_cartesian (-90) longitude)) = 0.
Proof.
  intros lon. assert (H : forall lat, cos (radians lat) = 0 -> snd (cartesian_to_polar (polar_to_cartesian lat lon)) = 0).
  { intros lat C. unfold cartesian_to_polar, polar_to_cartesian. cbn [snd cx cy]. rewrite C, !Rmult_0_r. unfold arctan2. destruct (Rlt_dec 0 0); [lra|]. destruct (Rlt_dec 0 0); [lra|]. destruct (Rlt_dec 0 0); [lra|]. apply degrees_0. }
  split; apply H; [rewrite radians_90; apply cos_PI2|]. change (-90) with (- (90)). rewrite radians_opp, radians_90, cos_neg. apply cos_PI2.
Qed.
Print Assumptions C162_pole_refuted.
Theorem C162_date_line : forall latitude, -90 < latitude < 90 -> cartesian_to_polar (polar_to_cartesian latitude (-180)) = (latitude, 180).
Proof.
  intros lat H. assert (E : polar_to_cartesian lat (-180) = polar_to_cartesian lat 180).
  { unfold polar_to_cartesian. change (-180) with (- (180)). rewrite radians_opp, radians_180, cos_neg, sin_neg, sin_PI. apply vec_eq; cbn; ring. }
  rewrite E. apply from_polar; [exact H|]. unfold longitude_range. lra.
Qed.
Print Assumptions C162_date_line.
Example C162_date_line_nonvacuous : -90 < 0 < 90. Proof. lra. Qed.

(* Angles between vectors: by the law of cosines, whatever their lengths and order, between 0 and 180 degrees, zero just for the
   same direction and 180 just for opposite ones. *)
Theorem C162_angle : forall a b, a <> nowhere -> b <> nowhere ->
  dot a b = norm a * norm b * cos (radians (vector_angle a b)) /\ 0 <= vector_angle a b <= 180 /\ vector_angle a b = vector_angle b a /\
  forall s t, 0 < s -> 0 < t -> vector_angle (vscale s a) (vscale t b) = vector_angle a b.
Proof.
  intros a b A B. destruct (angle_ratio a b A B) as [S R]. pose proof (norm_pos a A) as PA. pose proof (norm_pos b B) as PB. unfold vector_angle. rewrite S. split; [|split; [|split]].
  - rewrite radians_degrees, cos_acos by exact R. field. lra.
  - pose proof (acos_bound (dot a b / (norm a * norm b))) as [L U]. apply degrees_le in L, U. rewrite degrees_0 in L. rewrite degrees_PI in U. lra.
  - destruct (angle_ratio b a B A) as [S' _]. rewrite S'. replace (dot b a) with (dot a b) by (unfold dot; ring). now rewrite (Rmult_comm (norm b)).
  - intros s t PS PT. do 2 f_equal. replace (dot (vscale s a) (vscale s a) * dot (vscale t b) (vscale t b)) with (((s * t) * (s * t)) * (dot a a * dot b b)) by (unfold dot; cbn; ring).
    rewrite sqrt_mult_alt by nra. rewrite sqrt_square by nra. rewrite S. replace (dot (vscale s a) (vscale t b)) with (s * t * dot a b) by (unfold dot; cbn; ring). field. repeat split; nra || lra.
Qed.
Print Assumptions C162_angle.
Example C162_angle_nonvacuous : vector_angle {| cx := 1; cy := 0; cz := 0 |} {| cx := 0; cy := 2; cz := 0 |} = 90.
Proof. unfold vector_angle, dot. cbn [cx cy cz]. replace ((1 * 0 + 0 * 2 + 0 * 0) / sqrt ((1 * 1 + 0 * 0 + 0 * 0) * (0 * 0 + 2 * 2 + 0 * 0))) with 0 by (unfold Rdiv; ring). rewrite acos_0. apply degrees_PI2. Qed.
Theorem C162_same_direction : forall a b, a <> nowhere -> b <> nowhere -> (vector_angle a b = 0 <-> normalise a = normalise b) /\ (vector_angle a b = 180 <-> normalise a = vscale (-1) (normalise b)).
Proof.
  intros a b A B. destruct (C162_angle a b A B) as (D & _). pose proof (norm_pos a A) as PA. pose proof (norm_pos b B) as PB. destruct (angle_ratio a b A B) as [S R].
  assert (U : forall k, dot a b = k * (norm a * norm b) -> k * k = 1 -> normalise a = vscale k (normalise b)).
  { intros k E K. set (u := normalise a). set (v := normalise b). assert (UU : dot u u = 1) by (pose proof (norm_normalise a A) as H; fold u in H; rewrite <- norm_square, H; ring).
    assert (VV : dot v v = 1) by (pose proof (norm_normalise b B) as H; fold v in H; rewrite <- norm_square, H; ring).
    assert (UV : dot u v = k). { unfold u, v, normalise, vdivide. unfold dot in *. cbn [cx cy cz]. replace (cx a / norm a * (cx b / norm b) + cy a / norm a * (cy b / norm b) + cz a / norm a * (cz b / norm b)) with ((cx a * cx b + cy a * cy b + cz a * cz b) / (norm a * norm b)) by (field; lra). rewrite E. field. lra. }
    assert (Z : dot (vsub u (vscale k v)) (vsub u (vscale k v)) = 0). { replace (dot (vsub u (vscale k v)) (vsub u (vscale k v))) with (dot u u - 2 * k * dot u v + k * k * dot v v) by (unfold dot; cbn; ring). rewrite UU, VV, UV. lra. }
    apply dot_zero in Z. apply vec_eq; cbn [vscale cx cy cz]; [apply (f_equal cx) in Z|apply (f_equal cy) in Z|apply (f_equal cz) in Z]; cbn in Z; cbn; lra. }
  split; split.
  - intros E. rewrite E in D. unfold radians in D. replace (0 * PI / 180) with 0 in D by field. rewrite cos_0 in D. rewrite (U 1) by lra. apply vec_eq; cbn; ring.
  - intros E. unfold vector_angle. rewrite S. assert (Q : dot a b / (norm a * norm b) = 1).
    { rewrite <- (normalise_scale a A), <- (normalise_scale b B) at 1. rewrite E. set (v := normalise b). assert (VV : dot v v = 1) by (pose proof (norm_normalise b B) as H; fold v in H; rewrite <- norm_square, H; ring).
      replace (dot (vscale (norm a) v) (vscale (norm b) v)) with (norm a * norm b * dot v v) by (unfold dot; cbn; ring). rewrite VV. field. lra. }
    rewrite Q, acos_1. apply degrees_0.
  - intros E. rewrite E, radians_180, cos_PI in D. apply (U (-1)); lra.
  - intros E. unfold vector_angle. rewrite S. assert (Q : dot a b / (norm a * norm b) = - (1)).
    { rewrite <- (normalise_scale a A), <- (normalise_scale b B) at 1. rewrite E. set (v := normalise b). assert (VV : dot v v = 1) by (pose proof (norm_normalise b B) as H; fold v in H; rewrite <- norm_square, H; ring).
      replace (dot (vscale (norm a) (vscale (-1) v)) (vscale (norm b) v)) with (- (norm a * norm b * dot v v)) by (unfold dot; cbn; ring). rewrite VV. field. lra. }
    rewrite Q, acos_opp, acos_1, Rminus_0_r. apply degrees_PI.
Qed.
Print Assumptions C162_same_direction.
Example C162_same_direction_nonvacuous : {| cx := 0; cy := 0; cz := 1 |} <> nowhere. Proof. intros H. apply (f_equal cz) in H. cbn in H. lra. Qed.

(* The circumcentre of three points that are not on a line lies in their plane at the same distance from each, and is the only such
   point. *)
Theorem C162_circumcentre : forall p0 p1 p2 x, a_triangle p0 p1 p2 ->
  (x = circumcentre p0 p1 p2 <-> on_plane p0 p1 p2 x /\ distance x p0 = distance x p1 /\ distance x p0 = distance x p2).
Proof.
  intros p0 p1 p2 x T. unfold a_triangle in T. set (a := vsub p1 p0) in *. set (b := vsub p2 p0) in *. set (d := dot (cross a b) (cross a b)).
  assert (Dn : d <> 0) by (intros Z; apply T, dot_zero, Z).
  assert (DI : forall y, distance (vadd p0 y) p0 = distance (vadd p0 y) p1 <-> 2 * dot y a = dot a a).
  { intros y. unfold distance, norm. replace (vsub (vadd p0 y) p0) with y by (apply vec_eq; cbn; ring). replace (vsub (vadd p0 y) p1) with (vsub y a) by (apply vec_eq; unfold a; cbn; ring).
    assert (E : dot (vsub y a) (vsub y a) = dot y y - 2 * dot y a + dot a a) by (unfold dot; cbn; ring). split; intros H; [apply sqrt_inj in H; [lra|apply dot_pos|apply dot_pos]|]. f_equal. lra. }
  assert (DJ : forall y, distance (vadd p0 y) p0 = distance (vadd p0 y) p2 <-> 2 * dot y b = dot b b).
  { intros y. unfold distance, norm. replace (vsub (vadd p0 y) p0) with y by (apply vec_eq; cbn; ring). replace (vsub (vadd p0 y) p2) with (vsub y b) by (apply vec_eq; unfold b; cbn; ring).
    assert (E : dot (vsub y b) (vsub y b) = dot y y - 2 * dot y b + dot b b) by (unfold dot; cbn; ring). split; intros H; [apply sqrt_inj in H; [lra|apply dot_pos|apply dot_pos]|]. f_equal. lra. }
  set (q := vdivide (cross (vsub (vscale (norm2 a) b) (vscale (norm2 b) a)) (cross a b)) (2 * d)). destruct (circum_equidistant a b d Dn eq_refl) as [QA QB]. fold q in QA, QB.
  pose proof (circum_plane a b d Dn eq_refl) as PL. cbv zeta in PL. fold q in PL. assert (CC : circumcentre p0 p1 p2 = vadd p0 q) by reflexivity. rewrite CC. split.
  - intros ->. split; [|split; [now apply DI|now apply DJ]]. unfold on_plane. fold a b. eexists. eexists. rewrite PL. reflexivity.
  - intros ((s & t & ->) & EA & EB). fold a b in EA, EB |- *. set (y := vadd (vscale s a) (vscale t b)) in *. apply (proj1 (DI y)) in EA. apply (proj1 (DJ y)) in EB. f_equal.
    set (w := vsub y q). assert (WA : dot w a = 0). { replace (dot w a) with (dot y a - dot q a) by (unfold w, dot; cbn; ring). lra. }
    assert (WB : dot w b = 0). { replace (dot w b) with (dot y b - dot q b) by (unfold w, dot; cbn; ring). lra. }
    assert (WS : exists s' t', w = vadd (vscale s' a) (vscale t' b)).
    { match type of PL with _ = vadd (vscale ?u a) (vscale ?v b) => exists (s - u), (t - v); unfold w; rewrite PL; unfold y; apply vec_eq; cbn; ring end. }
    destruct WS as (s' & t' & W). assert (WW : dot w w = 0). { rewrite W at 2. replace (dot w (vadd (vscale s' a) (vscale t' b))) with (s' * dot w a + t' * dot w b) by (unfold dot; cbn; ring). rewrite WA, WB. ring. }
    apply dot_zero in WW. unfold w in WW. apply vec_eq; [apply (f_equal cx) in WW|apply (f_equal cy) in WW|apply (f_equal cz) in WW]; cbn in WW; cbn; lra.
Qed.
Print Assumptions C162_circumcentre.
Example C162_circumcentre_nonvacuous : a_triangle {| cx := 1; cy := 0; cz := 0 |} {| cx := 0; cy := 1; cz := 0 |} {| cx := 0; cy := 0; cz := 1 |}.
Proof. intros H. apply (f_equal cx) in H. cbn in H. lra. Qed.

(* Asked for, the centre of a face lies on each pole. *)
Theorem C162_face_at_poles : forall sort, let m := polar_mesh sort 0 in
  exists t t' z, In t (triangles m) /\ In t' (triangles m) /\ 0 < z /\
    centroid (triangle_corners m t) = {| cx := 0; cy := 0; cz := z |} /\ centroid (triangle_corners m t') = {| cx := 0; cy := 0; cz := - z |}.
Proof.
  intros sort m. unfold m, polar_mesh. cbn [build icosahedron triangles points triangle_corners]. destruct angle_tan as (T & S & C). set (th := inter_vertex_angle) in *.
  set (z := (sin th * (2 * basis_a + basis_b) + cos th * basis_a) / 3). pose proof basis_a_pos as A. pose proof basis_b_pos as B.
  exists (nth 4 base_triangles {| t_id := 0; t_0 := 0; t_1 := 0; t_2 := 0 |}), (nth 7 base_triangles {| t_id := 0; t_0 := 0; t_1 := 0; t_2 := 0 |}), z.
  split; [apply nth_In; cbn; lia|]. split; [apply nth_In; cbn; lia|]. split; [unfold z; nra|].
  set (s := sin th) in *. set (c := cos th) in *. split.
  - change (centroid (rotate_y th {| cx := basis_a; cy := basis_b; cz := 0 |}, rotate_y th {| cx := basis_a; cy := - basis_b; cz := 0 |}, rotate_y th {| cx := basis_b; cy := 0; cz := basis_a |}) = {| cx := 0; cy := 0; cz := z |}).
    apply vec_eq; cbn; fold s c; [|ring|unfold z; field]. replace (c * basis_a - s * 0 + (c * basis_a - s * 0 + (c * basis_b - s * basis_a))) with (c * (2 * basis_a + basis_b) - s * basis_a) by ring. rewrite T. ring.
  - change (centroid (rotate_y th {| cx := - basis_a; cy := - basis_b; cz := 0 |}, rotate_y th {| cx := - basis_b; cy := 0; cz := - basis_a |}, rotate_y th {| cx := - basis_a; cy := basis_b; cz := 0 |}) = {| cx := 0; cy := 0; cz := - z |}).
    apply vec_eq; cbn; fold s c; [|ring|unfold z; field]. replace (c * - basis_a - s * 0 + (c * - basis_b - s * - basis_a + (c * - basis_a - s * 0))) with (- (c * (2 * basis_a + basis_b) - s * basis_a)) by ring. rewrite T. ring.
Qed.
Print Assumptions C162_face_at_poles.
(* Apart from this rotation the mesh is the same at every level: the same triangles and edges, and all points rotated alike, so that
   lengths and angles are the same. *)
Theorem C162_rotated_mesh : forall sort n, let m := sphere_mesh sort n in let m' := polar_mesh sort n in
  triangles m' = triangles m /\ edges m' = edges m /\ level m' = level m /\ List.length (points m') = List.length (points m) /\
  forall i j, dot (nth i (points m') nowhere) (nth j (points m') nowhere) = dot (nth i (points m) nowhere) (nth j (points m) nowhere).
Proof.
  intros sort n. cbv zeta. destruct (build_map mid_sphere nowhere sort (rotate_y inter_vertex_angle) base_points (rotate_mid inter_vertex_angle) (rotate_nowhere inter_vertex_angle) n) as (A & B & C & D).
  fold (polar_mesh sort n) in A, B, C, D. fold (sphere_mesh sort n) in A, B, C, D. split; [exact B|]. split; [exact C|]. split; [exact D|]. rewrite A, map_length. split; [reflexivity|].
  assert (K : forall i l, nth i (map (rotate_y inter_vertex_angle) l) nowhere = rotate_y inter_vertex_angle (nth i l nowhere)) by (intros i l; rewrite <- (rotate_nowhere inter_vertex_angle) at 1; apply map_nth).
  intros i j. rewrite !K. apply rotate_dot.
Qed.
Print Assumptions C162_rotated_mesh.
