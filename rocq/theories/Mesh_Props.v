(* Properties C44-C46 and C83 of the icosahedral mesh.  Each holds for any sorting procedure, any midpoint function and any 12 corner points. *)
From Coq Require Import NArith Sorted.
From Verif Require Import Base Mesh_Model Mesh_Spec Mesh_Proofs.
Local Open Scope nat_scope.
Local Open Scope list_scope.

(* C44.  After [n] subdivisions: 10 * 4^n + 2 points, 30 * 4^n edges, 20 * 4^n triangles. *)
Theorem C44_sizes : forall P (mid : P -> P -> P) nowhere sort base_points, sorts sort -> length base_points = 12 -> forall n, n <= 28 ->
  let m := build mid nowhere sort base_points n in
  length (points m) = 10 * 4 ^ n + 2 /\ length (edges m) = 30 * 4 ^ n /\ length (triangles m) = 20 * 4 ^ n.
Proof. intros. apply built_counts; assumption. Qed.
Print Assumptions C44_sizes.
(* points - edges + triangles = 2 *)
Theorem C44_euler : forall P (mid : P -> P -> P) nowhere sort base_points, sorts sort -> length base_points = 12 -> forall n, n <= 28 ->
  let m := build mid nowhere sort base_points n in
  length (points m) + length (triangles m) = length (edges m) + 2.
Proof. intros P mid nowhere sort base_points Hs L n H m. destruct (built_counts mid nowhere sort Hs base_points L n H) as (A & B & C). unfold m. rewrite A, B, C. lia. Qed.
Print Assumptions C44_euler.
(* Points keep their numbers: those of a level come first in the next. *)
Theorem C44_points_kept : forall P (mid : P -> P -> P) nowhere sort base_points n,
  exists new, points (build mid nowhere sort base_points (S n)) = points (build mid nowhere sort base_points n) ++ new.
Proof. intros. eexists. reflexivity. Qed.
Print Assumptions C44_points_kept.
Example C44_nonvacuous : sorts insertion_sort /\
  let m := build (fun x y => x + y) 0 insertion_sort (seq 0 12) 1 in
  (length (points m), length (edges m), length (triangles m)) = (42, 120, 80) /\ nth 3 (triangles m) {| t_id := 0; t_0 := 0; t_1 := 0; t_2 := 0 |} <> nth 4 (triangles m) {| t_id := 0; t_0 := 0; t_1 := 0; t_2 := 0 |}.
Proof. split; [apply insertion_sorts|]. vm_compute. split; [reflexivity|discriminate]. Qed.

(* C45.  Row [r] of the triangles has the identifier r * 2^(58 - 2 level); shifting an identifier back gives the row. *)
Theorem C45_row_identifier : forall P (mid : P -> P -> P) nowhere sort base_points, sorts sort -> length base_points = 12 -> forall n, n <= 28 -> forall r d, r < 20 * 4 ^ n ->
  let t := nth r (triangles (build mid nowhere sort base_points n)) d in
  t_id t = N.shiftl (N.of_nat r) (58 - 2 * N.of_nat n) /\ N.shiftr (t_id t) (58 - 2 * N.of_nat n) = N.of_nat r /\ (t_id t < 2 ^ 63)%N.
Proof.
  intros P mid nowhere sort base_points Hs L n H r d Hr t. unfold t. rewrite (built_id mid nowhere sort Hs base_points L n r d H Hr).
  split; [unfold ident; rewrite N.shiftl_mul_pow2; reflexivity|]. split.
  - pose proof (ident_shiftr n n r ltac:(lia) ltac:(lia)) as E. rewrite Nat.sub_diag in E. cbn [Nat.pow] in E. rewrite Nat.div_1_r in E. exact E.
  - unfold ident. set (h := hash_shift n). assert (E : (2 ^ 58 = 2 ^ h * 4 ^ N.of_nat n)%N).
    { replace 58%N with (h + 2 * N.of_nat n)%N by (unfold h, hash_shift, base_hash_shift; lia). rewrite N.pow_add_r, N.pow_mul_r. reflexivity. }
    assert (R : (N.of_nat r < 20 * 4 ^ N.of_nat n)%N).
    { replace (4 ^ N.of_nat n)%N with (N.of_nat (4 ^ n)); [lia|]. clear. induction n as [|n IH]; [reflexivity|].
      rewrite Nat2N.inj_succ, N.pow_succ_r by lia. rewrite <- IH. cbn [Nat.pow]. lia. }
    assert (0 < 2 ^ h)%N by (apply N.neq_0_lt_0, N.pow_nonzero; discriminate). change (2 ^ 63)%N with (32 * 2 ^ 58)%N. rewrite E. nia.
Qed.
Print Assumptions C45_row_identifier.
(* The four parts of row [r] are rows 4r, 4r+1, 4r+2 and 4r+3 of the next level: the three corner triangles and the middle one, each with
   its corners in the order that the locator uses (C47). *)
Theorem C45_parts : forall P (mid : P -> P -> P) nowhere sort base_points, sorts sort -> length base_points = 12 -> (forall x y, mid x y = mid y x) ->
  forall n r s d, S n <= 28 -> r < 20 * 4 ^ n -> s < 4 ->
  let m := build mid nowhere sort base_points n in let m' := build mid nowhere sort base_points (S n) in
  corners m' nowhere (nth (4 * r + s) (triangles m') d) = part mid s (corners m nowhere (nth r (triangles m) d)).
Proof. intros. apply built_part; assumption. Qed.
Print Assumptions C45_parts.
(* So the parent of row [i] is row i / 4. *)
Theorem C45_parent : forall P (mid : P -> P -> P) nowhere sort base_points, sorts sort -> length base_points = 12 -> (forall x y, mid x y = mid y x) ->
  forall n i d, S n <= 28 -> i < 20 * 4 ^ S n ->
  let m := build mid nowhere sort base_points n in let m' := build mid nowhere sort base_points (S n) in
  corners m' nowhere (nth i (triangles m') d) = part mid (i mod 4) (corners m nowhere (nth (i / 4) (triangles m) d)).
Proof.
  intros P mid nowhere sort base_points Hs L Hc n i d H Hi m m'. cbn [Nat.pow] in Hi. rewrite (Nat.div_mod i 4) at 1 by lia. apply C45_parts; try assumption.
  - apply Nat.div_lt_upper_bound; lia.
  - apply Nat.mod_upper_bound. lia.
Qed.
Print Assumptions C45_parent.
Example C45_nonvacuous : (forall x y, x + y = y + x) /\
  let m := build (fun x y => x + y) 100 insertion_sort (seq 0 12) 1 in
  corners m 100 (nth 6 (triangles m) {| t_id := 0; t_0 := 0; t_1 := 0; t_2 := 0 |}) = (4 + 7, 9 + 7, 7) /\
  t_id (nth 6 (triangles m) {| t_id := 0; t_0 := 0; t_1 := 0; t_2 := 0 |}) = (6 * 2 ^ 56)%N.
Proof. split; [intros; lia|]. vm_compute. split; reflexivity. Qed.

(* C46.  The edges, each seen from its two triangles in opposite directions, are exactly the sides of all triangles, each once. *)
Theorem C46_closed : forall P (mid : P -> P -> P) nowhere sort base_points, sorts sort -> length base_points = 12 -> forall n, n <= 28 ->
  let m := build mid nowhere sort base_points n in
  Permutation (map first_view (edges m) ++ map second_view (edges m)) (flat_map sides (triangles m)).
Proof. intros P mid nowhere sort base_points Hs L n H m. apply (g_sides _ _ (built_good mid nowhere sort Hs base_points L n H)). Qed.
Print Assumptions C46_closed.
(* The two triangles of an edge are different, and the edge is a side of both. *)
Theorem C46_two_triangles : forall P (mid : P -> P -> P) nowhere sort base_points, sorts sort -> length base_points = 12 -> forall n, n <= 28 -> forall e,
  let m := build mid nowhere sort base_points n in In e (edges m) ->
  exists t t', In t (triangles m) /\ In t' (triangles m) /\ In (first_view e) (sides t) /\ In (second_view e) (sides t') /\ t_id t <> t_id t'.
Proof.
  intros P mid nowhere sort base_points Hs L n H e m He. pose proof (built_good mid nowhere sort Hs base_points L n H) as G. fold m in G.
  pose proof (g_two _ _ G) as F. rewrite Forall_forall in F. specialize (F e He).
  assert (V : forall h, In h (half_edges (edges m)) -> exists t, In t (triangles m) /\ In h (sides t) /\ t_id t = h_tri h).
  { intros h Hh. apply (Permutation_in _ (g_sides _ _ G)) in Hh. apply in_flat_map in Hh. destruct Hh as (t & It & Hh). exists t. repeat split; try assumption.
    destruct Hh as [<-|[<-|[<-|[]]]]; reflexivity. }
  destruct (V (first_view e)) as (t & I & J & K); [apply in_app_iff; left; apply (in_map forward), He|].
  destruct (V (second_view e)) as (t' & I' & J' & K'); [apply in_app_iff; right; apply (in_map backward), He|].
  exists t, t'. repeat split; try assumption. rewrite K, K'. exact F.
Qed.
Print Assumptions C46_two_triangles.
(* No (triangle, side) pair occurs twice in the edge table. *)
Theorem C46_sides_once : forall P (mid : P -> P -> P) nowhere sort base_points, sorts sort -> length base_points = 12 -> forall n, n <= 28 ->
  let m := build mid nowhere sort base_points n in
  NoDup (map (fun e => (e_tri0 e, e_side0 e)) (edges m) ++ map (fun e => (e_tri1 e, e_side1 e)) (edges m)).
Proof.
  intros P mid nowhere sort base_points Hs L n H m. pose proof (built_sides_once mid nowhere sort Hs base_points L n H) as N. fold m in N.
  unfold half_edges in N. rewrite map_app, !map_map in N. exact N.
Qed.
Print Assumptions C46_sides_once.
(* Every point number in the tables is that of a point; edges join, and triangles have, different points. *)
Theorem C46_points : forall P (mid : P -> P -> P) nowhere sort base_points, sorts sort -> length base_points = 12 -> forall n, n <= 28 ->
  let m := build mid nowhere sort base_points n in
  (forall e, In e (edges m) -> e_from e < length (points m) /\ e_to e < length (points m) /\ e_from e <> e_to e) /\
  (forall t, In t (triangles m) -> t_0 t < length (points m) /\ t_1 t < length (points m) /\ t_2 t < length (points m) /\ t_0 t <> t_1 t /\ t_1 t <> t_2 t /\ t_2 t <> t_0 t).
Proof.
  intros P mid nowhere sort base_points Hs L n H m. pose proof (built_good mid nowhere sort Hs base_points L n H) as G. fold m in G. split.
  - intros e He. pose proof (g_points _ _ G) as F. rewrite Forall_forall in F. specialize (F e He). pose proof (built_distinct mid nowhere sort Hs base_points L n H) as D.
    rewrite Forall_forall in D. specialize (D e He). tauto.
  - intros t Ht. destruct (triangle_points mid nowhere _ _ t G Ht) as (A & B & C). pose proof (built_corners_distinct mid nowhere sort Hs base_points L n t H Ht). tauto.
Qed.
Print Assumptions C46_points.
Example C46_nonvacuous : exists e, In e (edges (build (fun x y => x + y) 100 insertion_sort (seq 0 12) 1)) /\ e_from e = 0 /\ e_to e = 12.
Proof. eexists. split; [left; vm_compute; reflexivity|]. split; reflexivity. Qed.

(* C83.  The rows inside triangle [i] of level [k] are the block of 4^(n-k) rows that descend from it. *)
Theorem C83_super_triangle : forall P (mid : P -> P -> P) nowhere sort base_points, sorts sort -> length base_points = 12 -> forall n k i, n <= 28 -> k <= n -> i < 20 * 4 ^ k ->
  super_triangle_at_level (build mid nowhere sort base_points n) k i = seq (4 ^ (n - k) * i) (4 ^ (n - k)).
Proof. intros. apply super_block; assumption. Qed.
Print Assumptions C83_super_triangle.
(* They partition the rows: every row is in that of exactly one triangle of level [k]. *)
Theorem C83_partition : forall P (mid : P -> P -> P) nowhere sort base_points, sorts sort -> length base_points = 12 -> forall n k r, n <= 28 -> k <= n -> r < 20 * 4 ^ n ->
  exists i, i < 20 * 4 ^ k /\ In r (super_triangle_at_level (build mid nowhere sort base_points n) k i) /\
    forall j, In r (super_triangle_at_level (build mid nowhere sort base_points n) k j) -> j = i.
Proof.
  intros P mid nowhere sort base_points Hs L n k r H Hk Hr. exists (r / 4 ^ (n - k)). assert (B : 4 ^ (n - k) <> 0) by (apply Nat.pow_nonzero; lia).
  split; [|split].
  - apply Nat.div_lt_upper_bound; [exact B|]. replace (4 ^ (n - k) * (20 * 4 ^ k)) with (20 * (4 ^ k * 4 ^ (n - k))) by lia. rewrite <- Nat.pow_add_r. replace (k + (n - k)) with n by lia. exact Hr.
  - rewrite super_rows by assumption. apply filter_In. split; [apply in_seq; lia|apply Nat.eqb_refl].
  - intros j Hj. rewrite super_rows in Hj by assumption. apply filter_In in Hj. destruct Hj as [_ E]. apply Nat.eqb_eq in E. symmetry. exact E.
Qed.
Print Assumptions C83_partition.
(* [neighbours_at_level] gives, in order, the rows inside the triangles of level [k] that have a corner in common with the centre (the centre included). *)
Definition corner_of (t : triangle) (v : nat) : Prop := v = t_0 t \/ v = t_1 t \/ v = t_2 t.
Theorem C83_neighbours : forall P (mid : P -> P -> P) nowhere sort base_points, sorts sort -> length base_points = 12 -> forall n k c d, n <= 28 -> k <= n -> c < 20 * 4 ^ k ->
  let coarse := build mid nowhere sort base_points k in
  exists rows, neighbours_at_level (build mid nowhere sort base_points n) coarse c = Ok rows /\ StronglySorted lt rows /\
    forall r, In r rows <-> r < 20 * 4 ^ n /\ exists v, corner_of (nth c (triangles coarse) d) v /\ corner_of (nth (r / 4 ^ (n - k)) (triangles coarse) d) v.
Proof.
  intros P mid nowhere sort base_points Hs L n k c d H Hk Hc coarse.
  destruct (built_counts mid nowhere sort Hs base_points L k ltac:(lia)) as (_ & _ & T). fold coarse in T.
  destruct (built_counts mid nowhere sort Hs base_points L n H) as (_ & _ & T').
  unfold neighbours_at_level. rewrite (nth_error_nth' _ d) by lia. set (tc := nth c (triangles coarse) d). eexists. split; [reflexivity|].
  rewrite (where_eq _ d), T'. split; [apply filter_seq_sorted|]. intros r. rewrite filter_In, in_seq.
  pose proof (g_level _ _ (built_good mid nowhere sort Hs base_points L k ltac:(lia))) as Lk. fold coarse in Lk. rewrite Lk.
  assert (HV : forall t, has_vertex t (t_0 tc) || has_vertex t (t_1 tc) || has_vertex t (t_2 tc) = true <-> exists v, corner_of tc v /\ corner_of t v).
  { intros t. unfold has_vertex, corner_of. rewrite !orb_true_iff, !Nat.eqb_eq. split.
    - intros [[W|W]|W]; [exists (t_0 tc)|exists (t_1 tc)|exists (t_2 tc)]; (split; [auto|]); destruct W as [[W|W]|W]; rewrite <- W; auto.
    - intros (v & [-> | [-> | ->]] & W); destruct W as [W|[W|W]]; rewrite W; tauto. }
  assert (EX : r < 20 * 4 ^ n -> existsb (N.eqb (N.shiftr (t_id (nth r (triangles (build mid nowhere sort base_points n)) d)) (hash_shift k)))
      (map (fun t => N.shiftr (t_id t) (hash_shift k)) (filter (fun t => has_vertex t (t_0 tc) || has_vertex t (t_1 tc) || has_vertex t (t_2 tc)) (triangles coarse))) = true <->
      exists v, corner_of tc v /\ corner_of (nth (r / 4 ^ (n - k)) (triangles coarse) d) v).
  { intros Hr. rewrite (built_id mid nowhere sort Hs base_points L n r d H Hr), ident_shiftr by lia.
    assert (Hq : r / 4 ^ (n - k) < 20 * 4 ^ k).
    { apply Nat.div_lt_upper_bound; [apply Nat.pow_nonzero; lia|]. replace (4 ^ (n - k) * (20 * 4 ^ k)) with (20 * (4 ^ k * 4 ^ (n - k))) by lia. rewrite <- Nat.pow_add_r. replace (k + (n - k)) with n by lia. exact Hr. }
    assert (ID : forall q, q < 20 * 4 ^ k -> N.shiftr (t_id (nth q (triangles coarse) d)) (hash_shift k) = N.of_nat q).
    { intros q Q. unfold coarse. rewrite (built_id mid nowhere sort Hs base_points L k q d ltac:(lia) Q), ident_shiftr by lia. rewrite Nat.sub_diag. cbn [Nat.pow]. rewrite Nat.div_1_r. reflexivity. }
    rewrite existsb_exists. split.
    - intros (x & I & E). apply N.eqb_eq in E. subst x. apply in_map_iff in I. destruct I as (t & E & I). apply filter_In in I. destruct I as [I V].
      apply HV in V. destruct (In_nth _ _ d I) as (q & Q & <-). rewrite T in Q. rewrite (ID q Q) in E. apply Nat2N.inj in E. subst q. exact V.
    - intros V. exists (N.of_nat (r / 4 ^ (n - k))). split; [|apply N.eqb_refl]. rewrite <- (ID _ Hq). apply (in_map (fun t => N.shiftr (t_id t) (hash_shift k))). apply filter_In.
      split; [apply nth_In; rewrite T; exact Hq|]. apply HV, V. }
  split.
  - intros [A B]. split; [lia|]. apply EX; [lia|exact B].
  - intros [A B]. split; [lia|]. apply EX; [lia|exact B].
Qed.
Print Assumptions C83_neighbours.
(* The number of triangles of a level, which counts the local views that cover the sphere. *)
Theorem C83_number : forall P (mid : P -> P -> P) nowhere sort base_points, sorts sort -> length base_points = 12 -> forall n, n <= 28 ->
  n_triangles_at_level n = length (triangles (build mid nowhere sort base_points n)).
Proof. intros P mid nowhere sort base_points Hs L n H. destruct (built_counts mid nowhere sort Hs base_points L n H) as (_ & _ & ->). apply n_triangles_eq. Qed.
Print Assumptions C83_number.
Example C83_nonvacuous : let m := build (fun x y => x + y) 100 insertion_sort (seq 0 12) in
  super_triangle_at_level (m 1) 0 3 = [12; 13; 14; 15] /\ match neighbours_at_level (m 1) (m 0) 0 with Ok rows => length rows = 40 /\ In 1 rows /\ ~ In 8 rows | Err _ => False end.
Proof.
  cbv zeta. split; [vm_compute; reflexivity|]. vm_compute. split; [reflexivity|]. split; [tauto|]. intros H. decompose [or] H; try discriminate; contradiction.
Qed.
