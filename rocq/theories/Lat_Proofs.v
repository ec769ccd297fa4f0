From Coq Require Import QArith Qcanon Qround Lqa.
From Verif Require Import Base Grid_Model Grid_Proofs Lin Spde_Model Spde_Spec Spde_Proofs Lat_Model Lat_Spec.
Local Open Scope nat_scope.
Local Open Scope list_scope.

(* ---- numbering *)
Lemma map_plus_seq n c a : map (fun i => i + c) (seq a n) = seq (a + c) n.
Proof. revert a. induction n; intros a; cbn; [reflexivity|]. rewrite IHn. reflexivity. Qed.
Lemma flat_map_blocks n N a : flat_map (fun k => seq (n * k) n) (seq a N) = seq (n * a) (n * N).
Proof.
  revert a. induction N; intros a; cbn [seq flat_map]; [rewrite Nat.mul_0_r; reflexivity|].
  rewrite IHN. replace (n * S a) with (n * a + n) by lia. rewrite <- seq_app. f_equal. lia.
Qed.
Lemma map_flat_map {A B C} (f : B -> C) (g : A -> list B) l : map f (flat_map g l) = flat_map (fun a => map f (g a)) l.
Proof. induction l; cbn; [reflexivity|]. rewrite map_app, IHl. reflexivity. Qed.
Lemma flat_map_map {A B C} (f : B -> list C) (g : A -> B) l : flat_map f (map g l) = flat_map (fun a => f (g a)) l.
Proof. induction l; cbn; [reflexivity|]. rewrite IHl. reflexivity. Qed.
Lemma numbering ns : map (ravel_F ns) (grid (map (seq 0) ns)) = seq 0 (n_nodes ns).
Proof.
  induction ns as [|n ns IH]; [reflexivity|]. cbn [map grid]. rewrite map_flat_map.
  transitivity (flat_map (fun k => seq (n * k) n) (map (ravel_F ns) (grid (map (seq 0) ns)))).
  - rewrite flat_map_map. apply flat_map_ext. intros r. rewrite map_map. cbn [ravel_F].
    rewrite map_plus_seq. reflexivity.
  - rewrite IH, flat_map_blocks. rewrite Nat.mul_0_r. reflexivity.
Qed.
Lemma indices_sizes ds : indices ds = grid (map (seq 0) (sizes ds)).
Proof. unfold indices, sizes. rewrite map_map. reflexivity. Qed.
Lemma indices_numbering ds : map (ravel_F (sizes ds)) (indices ds) = seq 0 (n_nodes (sizes ds)).
Proof. rewrite indices_sizes. apply numbering. Qed.
Lemma in_indices ds is : In is (indices ds) <-> is_node ds is.
Proof.
  unfold indices, is_node. revert is. induction ds as [|d ds IH]; intros is; cbn [map grid].
  - split; [intros [<-|[]]; constructor|intros H; inversion H; left; reflexivity].
  - rewrite in_flat_map. split.
    + intros (r & Hr & H). apply in_map_iff in H. destruct H as (i & <- & Hi). apply in_seq in Hi. constructor; [lia|apply IH, Hr].
    + intros H. inversion H; subst. exists l'. split; [apply IH; assumption|]. apply in_map_iff. exists y. split; [reflexivity|]. apply in_seq. lia.
Qed.
Lemma ravel_F_inj ds is js : is_node ds is -> is_node ds js -> ravel_F (sizes ds) is = ravel_F (sizes ds) js -> is = js.
Proof.
  intros H. revert js. induction H as [|d i ds is Hi H IH]; intros js J; inversion J; subst; cbn; [reflexivity|]. intros E.
  destruct (Nat.div_mod_unique (d_n d) (ravel_F (sizes ds) is) (ravel_F (sizes ds) l') i y) as [E2 ->]; [assumption..|unfold sizes in *; lia|]. f_equal. apply IH; assumption.
Qed.
Lemma ravel_F_lt ds is : is_node ds is -> ravel_F (sizes ds) is < n_nodes (sizes ds).
Proof. intros H. apply in_indices in H. apply (in_map (ravel_F (sizes ds))) in H. rewrite indices_numbering in H. apply in_seq in H. lia. Qed.
Lemma nodes_length ds : length (nodes ds) = n_nodes (sizes ds).
Proof. unfold nodes. rewrite map_length, <- (map_length (ravel_F (sizes ds))), indices_numbering. apply seq_length. Qed.
Lemma nth_nodes ds is e : is_node ds is -> nth (ravel_F (sizes ds) is) (nodes ds) e = coordinates ds is.
Proof.
  intros H. unfold nodes.
  assert (K : nth (ravel_F (sizes ds) is) (indices ds) [] = is).
  { apply (ravel_F_inj ds).
    - apply in_indices, nth_In. rewrite <- (map_length (ravel_F (sizes ds))), indices_numbering, seq_length. apply ravel_F_lt, H.
    - exact H.
    - pose proof (ravel_F_lt ds is H) as L.
      assert (Hl : length (indices ds) = n_nodes (sizes ds)) by (rewrite <- (map_length (ravel_F (sizes ds))), indices_numbering; apply seq_length).
      rewrite <- (map_nth (ravel_F (sizes ds))).
      rewrite (nth_indep _ _ 0) by (rewrite map_length; lia). rewrite indices_numbering. apply seq_nth. exact L. }
  pose proof (ravel_F_lt ds is H) as L.
  assert (Hl : length (indices ds) = n_nodes (sizes ds)) by (rewrite <- (map_length (ravel_F (sizes ds))), indices_numbering; apply seq_length).
  rewrite (nth_indep _ _ (coordinates ds [])) by (rewrite map_length; lia). rewrite map_nth, K. reflexivity.
Qed.

(* ---- numbers *)
Lemma Qc_eq_iff (a b : Qc) : a = b <-> (this a == this b)%Q.
Proof. split; [intros ->; reflexivity|apply Qc_is_canon]. Qed.
Lemma qfloor_le q : (qz (qfloor q) <= q)%Qc.
Proof. unfold Qcle, qfloor. rewrite qz_this. apply Qfloor_le. Qed.
Lemma qfloor_lt q : (q < qz (qfloor q) + 1)%Qc.
Proof. rewrite <- qz_1, <- qz_plus. unfold Qclt, qfloor. rewrite qz_this. apply Qlt_floor. Qed.
Lemma qfloor_unique q z : (qz z <= q)%Qc -> (q < qz z + 1)%Qc -> qfloor q = z.
Proof.
  intros H1 H2. pose proof (qfloor_le q) as H3. pose proof (qfloor_lt q) as H4.
  assert (A : (qz z < qz (qfloor q) + 1)%Qc) by (eapply Qcle_lt_trans; eassumption).
  assert (B : (qz (qfloor q) < qz z + 1)%Qc) by (eapply Qcle_lt_trans; eassumption).
  rewrite <- qz_1, <- qz_plus in A, B. apply qz_lt_inv in A, B. lia.
Qed.
Lemma qfloor_max q z : (qz z <= q)%Qc -> (z <= qfloor q)%Z.
Proof.
  intros H. pose proof (qfloor_lt q) as K. assert (A : (qz z < qz (qfloor q) + 1)%Qc) by (eapply Qcle_lt_trans; eassumption).
  rewrite <- qz_1, <- qz_plus in A. apply qz_lt_inv in A. lia.
Qed.
Lemma qfloor_add q z : qfloor (q + qz z) = (qfloor q + z)%Z.
Proof.
  apply qfloor_unique; rewrite qz_plus; pose proof (qfloor_le q); pose proof (qfloor_lt q); qc.
Qed.
Lemma qn_plus a b : qn (a + b) = (qn a + qn b)%Qc.
Proof. unfold qn. rewrite Nat2Z.inj_add. apply qz_plus. Qed.
Lemma qn_S n : qn (S n) = (qn n + 1)%Qc.
Proof. unfold qn. rewrite Nat2Z.inj_succ, <- Z.add_1_r, qz_plus, qz_1. reflexivity. Qed.
Lemma qmul_lt a b c : (0 < c)%Qc -> (a < b)%Qc -> (a * c < b * c)%Qc.
Proof. intros H K. apply Qcmult_lt_compat_r; assumption. Qed.
Lemma qmul_lt_inv a b c : (0 < c)%Qc -> (a * c < b * c)%Qc -> (a < b)%Qc.
Proof.
  intros H K. destruct (Qclt_le_dec a b) as [L|L]; [exact L|]. exfalso. apply (Qclt_not_le _ _ K).
  apply Qcmult_le_compat_r; [exact L|apply Qclt_le_weak, H].
Qed.
Lemma qmul_le_inv a b c : (0 < c)%Qc -> (a * c <= b * c)%Qc -> (a <= b)%Qc.
Proof.
  intros H K. destruct (Qclt_le_dec b a) as [L|L]; [|exact L]. exfalso. apply (Qclt_not_le _ _ (qmul_lt _ _ _ H L) K).
Qed.
Lemma qmul_le a b c : (0 < c)%Qc -> (a <= b)%Qc -> (a * c <= b * c)%Qc.
Proof. intros H K. apply Qcmult_le_compat_r; [exact K|apply Qclt_le_weak, H]. Qed.
Lemma qpos_nonzero a : (0 < a)%Qc -> a <> 0%Qc.
Proof. intros H ->. apply (Qclt_not_eq _ _ H). reflexivity. Qed.
Lemma qpos_inv a : (0 < a)%Qc -> (0 < / a)%Qc.
Proof. intros H. apply (qmul_lt_inv _ _ a H). rewrite Qcmult_0_l, Qcmult_comm, Qcmult_inv_r by (apply qpos_nonzero, H). reflexivity. Qed.

(* ---- one dimension *)
Lemma den_pos d : proper d -> (0 < qn (d_n d) + wrap_one d - 1)%Qc /\ (0 < qn (d_n d) - 1)%Qc.
Proof.
  intros [_ H]. assert (K : (1 < qn (d_n d))%Qc) by (rewrite <- qz_1; apply qz_lt; lia).
  unfold wrap_one. destruct (d_wrap d); split; qc.
Qed.
Lemma spacing_pos d : proper d -> (0 < spacing d)%Qc.
Proof.
  intros P. destruct (den_pos d P) as [A _]. destruct P as [P _]. unfold spacing, Qcdiv.
  assert (K : (0 < d_hi d - d_lo d)%Qc) by qc.
  pose proof (qmul_lt _ _ _ (qpos_inv _ A) K) as Q. rewrite Qcmult_0_l in Q. exact Q.
Qed.
Lemma spacing_span d : proper d -> (spacing d * (qn (d_n d) + wrap_one d - 1) = d_hi d - d_lo d)%Qc.
Proof. intros P. destruct (den_pos d P) as [A _]. apply qpos_nonzero in A. unfold spacing. field. exact A. Qed.
Lemma coordinate_spaced d i : proper d -> coordinate d i = (d_lo d + qn i * spacing d)%Qc.
Proof.
  intros P. unfold coordinate. f_equal. f_equal. destruct (den_pos d P) as [A B]. apply qpos_nonzero in A, B.
  assert (E : (upper_node d - d_lo d = spacing d * (qn (d_n d) - 1))%Qc).
  { unfold upper_node. replace (d_hi d) with (d_lo d + spacing d * (qn (d_n d) + wrap_one d - 1))%Qc by (rewrite spacing_span by exact P; ring). ring. }
  rewrite E. field. exact B.
Qed.
Lemma period_spaced d : proper d -> d_wrap d = true -> (qn (d_n d) * spacing d)%Qc = period d.
Proof. intros P W. unfold period. rewrite <- (spacing_span d P). unfold wrap_one. rewrite W. ring. Qed.
Lemma qmod_range a b : (0 < b)%Qc -> exists k : Z, qmod a b = (a - qz k * b)%Qc /\ (0 <= qmod a b)%Qc /\ (qmod a b < b)%Qc.
Proof.
  intros H. exists (qfloor (a / b)). unfold qmod. split; [ring|].
  pose proof (qfloor_le (a / b)) as F1. pose proof (qfloor_lt (a / b)) as F2.
  apply (qmul_le _ _ _ H) in F1. apply (qmul_lt _ _ _ H) in F2.
  replace (a / b * b)%Qc with a in F1, F2 by (field; apply qpos_nonzero, H).
  rewrite Qcmult_plus_distr_l, Qcmult_1_l in F2. rewrite (Qcmult_comm b). split; qc.
Qed.
Lemma down_div a b : (0 < b)%Qc -> (a / - b * b)%Qc = (- a)%Qc.
Proof.
  intros P. apply qpos_nonzero in P. field. intros E. apply P. transitivity (- - b)%Qc; [ring|]. rewrite E. ring.
Qed.
Lemma qmod_down a b : (0 < a)%Qc -> (a < b)%Qc -> qmod a (- b) = (a - b)%Qc.
Proof.
  intros H K. assert (P : (0 < b)%Qc) by (eapply Qclt_trans; eassumption). unfold qmod.
  assert (E : qfloor (a / - b) = (-1)%Z).
  { apply qfloor_unique.
    - apply (qmul_le_inv _ _ b P). rewrite (down_div a b P). rewrite qz_m1.
      replace (- (1) * b)%Qc with (- b)%Qc by ring. qc.
    - apply (qmul_lt_inv _ _ b P). rewrite (down_div a b P). rewrite qz_m1.
      replace ((- (1) + 1) * b)%Qc with 0%Qc by ring. qc. }
  rewrite E, qz_m1. ring.
Qed.
Lemma half q : (q / qz 2 + q / qz 2)%Qc = q.
Proof. assert (E : (qz 2 = 1 + 1)%Qc) by (apply Qc_is_canon; vm_compute; reflexivity). assert (K : qz 2 <> 0%Qc) by (apply qz_nonzero; discriminate).
  replace (q / qz 2 + q / qz 2)%Qc with (q * (1 + 1) / qz 2)%Qc by (field; exact K). rewrite <- E. field. exact K. Qed.
Lemma period_pos d : proper d -> (0 < period d)%Qc.
Proof. intros [H _]. unfold period. qc. Qed.
Lemma displacement_wrapped d x c : proper d -> d_wrap d = true ->
  exists k : Z, displacement d x c = (x - c + qz k * period d)%Qc /\ (- (period d / qz 2) < displacement d x c)%Qc /\ (displacement d x c <= period d / qz 2)%Qc.
Proof.
  intros P W. unfold displacement. rewrite W. rewrite (period_spaced d P W). pose proof (period_pos d P) as Q.
  destruct (qmod_range (x - c)%Qc (period d) Q) as (k & E & L & U). pose proof (half (period d)) as Hh.
  set (h := (period d / qz 2)%Qc) in *. set (m := qmod (x - c) (period d)) in *. clearbody h m.
  destruct (Qclt_le_dec h m) as [G|G].
  - assert (0 < h)%Qc by (rewrite <- Hh in Q; qc). rewrite qmod_down by qc. exists (- k - 1)%Z. split; [|split].
    + rewrite E, qz_minus, qz_opp, qz_1. ring.
    + rewrite <- Hh. qc.
    + qc.
  - exists (- k)%Z. split; [rewrite E, qz_opp; ring|]. split; [|exact G]. rewrite <- Hh in Q. qc.
Qed.
Lemma displacement_plain d x c : d_wrap d = false -> displacement d x c = (x - c)%Qc.
Proof. intros W. unfold displacement. rewrite W. reflexivity. Qed.
Lemma displacement_unique d x c e : proper d -> d_wrap d = true -> (exists k : Z, e = (x - c + qz k * period d)%Qc) ->
  (- (period d / qz 2) < e)%Qc -> (e <= period d / qz 2)%Qc -> displacement d x c = e.
Proof.
  intros P W (k & E) L U. destruct (displacement_wrapped d x c P W) as (k' & E' & L' & U'). pose proof (period_pos d P) as Q. pose proof (half (period d)) as Hh.
  assert (k = k').
  { assert (A : (qz (k - k') * period d < 1 * period d)%Qc).
    { replace (qz (k - k') * period d)%Qc with (e - displacement d x c)%Qc by (rewrite E, E', qz_minus; ring). rewrite Qcmult_1_l, <- Hh. qc. }
    assert (B : (qz (k' - k) * period d < 1 * period d)%Qc).
    { replace (qz (k' - k) * period d)%Qc with (displacement d x c - e)%Qc by (rewrite E, E', qz_minus; ring). rewrite Qcmult_1_l, <- Hh. qc. }
    apply (qmul_lt_inv _ _ _ Q) in A, B. rewrite <- qz_1 in A, B. apply qz_lt_inv in A, B. lia. }
  subst k'. rewrite E, E'. reflexivity.
Qed.
Lemma displacement_periodic d x c (k : Z) : proper d -> d_wrap d = true -> displacement d (x + qz k * period d)%Qc c = displacement d x c.
Proof.
  intros P W. destruct (displacement_wrapped d x c P W) as (j & E & L & U). apply displacement_unique; try assumption.
  exists (j - k)%Z. rewrite E, qz_minus. ring.
Qed.

(* ---- the search finds every node within the span *)
Lemma in_zrange a b z : In z (zrange a b) <-> (a <= z < b)%Z.
Proof.
  unfold zrange. rewrite in_map_iff. split.
  - intros (k & <- & H). apply in_seq in H. lia.
  - intros H. exists (Z.to_nat (z - a)). split; [lia|]. apply in_seq. lia.
Qed.
Lemma nearest_bounds d x : proper d ->
  ((qz (nearest d x) - / qz 2) * spacing d <= x - d_lo d)%Qc /\ (x - d_lo d < (qz (nearest d x) + / qz 2) * spacing d)%Qc.
Proof.
  intros P. pose proof (spacing_pos d P) as S. unfold nearest. set (q := ((x - (d_lo d - spacing d / qz 2)) / spacing d)%Qc).
  pose proof (qfloor_le q) as L. pose proof (qfloor_lt q) as U. apply (qmul_le _ _ _ S) in L. apply (qmul_lt _ _ _ S) in U.
  assert (E : (q * spacing d = x - d_lo d + / qz 2 * spacing d)%Qc).
  { unfold q. assert (K : qz 2 <> 0%Qc) by (apply qz_nonzero; discriminate). field. split; [exact K|apply qpos_nonzero, S]. }
  rewrite E in L, U. pose proof (half (spacing d)) as Hh. unfold Qcdiv in Hh. rewrite Qcmult_comm in Hh.
  set (h := (/ qz 2 * spacing d)%Qc) in *. 
  replace ((qz (qfloor q) - / qz 2) * spacing d)%Qc with (qz (qfloor q) * spacing d - h)%Qc by (unfold h; ring).
  replace ((qz (qfloor q) + / qz 2) * spacing d)%Qc with (qz (qfloor q) * spacing d + h)%Qc by (unfold h; ring).
  rewrite Qcmult_plus_distr_l, Qcmult_1_l in U. set (w := (qz (qfloor q) * spacing d)%Qc) in *. clearbody h w. rewrite <- Hh in U. split; qc.
Qed.
(* an index within the span of the nearest one, before wrapping *)
Lemma within_range d span x z : proper d -> (- span < x - (d_lo d + qz z * spacing d))%Qc -> (x - (d_lo d + qz z * spacing d) < span)%Qc ->
  (Z.abs (z - nearest d x) <= search_range d span)%Z.
Proof.
  intros P L U. pose proof (spacing_pos d P) as S. destruct (nearest_bounds d x P) as [N1 N2]. unfold search_range.
  set (m := nearest d x) in *. clearbody m.
  assert (E : ((span / spacing d + / qz 2) * spacing d = span + / qz 2 * spacing d)%Qc).
  { assert (K : qz 2 <> 0%Qc) by (apply qz_nonzero; discriminate). field. split; [exact K|apply qpos_nonzero, S]. }
  assert (D1 : (qz (z - m) * spacing d < span + / qz 2 * spacing d)%Qc).
  { rewrite qz_minus. replace ((qz z - qz m) * spacing d)%Qc with (qz z * spacing d - (qz m + / qz 2) * spacing d + / qz 2 * spacing d)%Qc by ring.
    set (a := (qz z * spacing d)%Qc) in *. set (b := ((qz m + / qz 2) * spacing d)%Qc) in *. set (h := (/ qz 2 * spacing d)%Qc). clearbody a b h. qc. }
  assert (D2 : (qz (m - z) * spacing d < span + / qz 2 * spacing d)%Qc).
  { rewrite qz_minus. replace ((qz m - qz z) * spacing d)%Qc with ((qz m - / qz 2) * spacing d - qz z * spacing d + / qz 2 * spacing d)%Qc by ring.
    set (a := (qz z * spacing d)%Qc) in *. set (b := ((qz m - / qz 2) * spacing d)%Qc) in *. set (h := (/ qz 2 * spacing d)%Qc). clearbody a b h. qc. }
  rewrite <- E in D1, D2. apply (qmul_lt_inv _ _ _ S) in D1, D2. apply Qclt_le_weak in D1, D2. apply qfloor_max in D1, D2. lia.
Qed.
Lemma shifts_complete d span x i : proper d -> i < d_n d ->
  (- span < displacement d x (coordinate d i))%Qc -> (displacement d x (coordinate d i) < span)%Qc -> In (Z.of_nat i) (shifts d span x).
Proof.
  intros P Hi L U. unfold shifts. apply in_map_iff. rewrite (coordinate_spaced d i P) in L, U. destruct (d_wrap d) eqn:W.
  - destruct (displacement_wrapped d x (d_lo d + qn i * spacing d)%Qc P W) as (k & E & _ & _). rewrite E in L, U.
    set (z := (Z.of_nat i - k * Z.of_nat (d_n d))%Z).
    assert (Ez : (x - (d_lo d + qn i * spacing d) + qz k * period d = x - (d_lo d + qz z * spacing d))%Qc).
    { rewrite <- (period_spaced d P W). unfold z, qn. rewrite qz_minus, qz_mult. ring. }
    rewrite Ez in L, U. pose proof (within_range d span x z P L U) as R. exists (z - nearest d x)%Z. split.
    + replace (nearest d x + (z - nearest d x))%Z with (Z.of_nat i + (- k) * Z.of_nat (d_n d))%Z by (unfold z; lia).
      rewrite Z_mod_plus_full. apply Z.mod_small. lia.
    + apply in_zrange. lia.
  - rewrite (displacement_plain d _ _ W) in L, U. unfold qn in *. pose proof (within_range d span x (Z.of_nat i) P L U) as R.
    exists (Z.of_nat i - nearest d x)%Z. split; [lia|]. apply in_zrange. lia.
Qed.
Lemma in_cube ls is : In is (cube ls) <-> Forall2 (fun l i => In i l) ls is.
Proof.
  revert is. induction ls as [|l ls IH]; intros is; cbn.
  - split; [intros [<-|[]]; constructor|intros H; inversion H; left; reflexivity].
  - rewrite in_flat_map. split.
    + intros (i & Hi & H). apply in_map_iff in H. destruct H as (r & <- & Hr). constructor; [exact Hi|apply IH, Hr].
    + intros H. inversion H; subst. exists y. split; [assumption|]. apply in_map_iff. exists l'. split; [reflexivity|apply IH; assumption].
Qed.
Lemma in_nearby ds spans x k : In k (nearby ds spans x) -> length spans = length ds -> length x = length ds -> exists is, is_node ds is /\ k = ravel_F (sizes ds) is.
Proof.
  intros H Hs Hx. unfold nearby in H. apply in_map_iff in H. destruct H as (zs & <- & H). apply filter_In in H. destruct H as [H B].
  exists (map Z.to_nat zs). split; [|reflexivity]. apply in_cube in H. revert spans x zs Hs Hx H B.
  induction ds as [|d ds IH]; intros spans x zs Hs Hx H B; destruct spans as [|s spans]; try discriminate; destruct x as [|a x]; try discriminate; cbn [shift_lists] in H; inversion H; subst; [constructor|].
  unfold in_bounds in B. cbn [combine forallb fst snd] in B. apply andb_prop in B. destruct B as [B1 B2]. cbn [map]. constructor; [|eapply IH; cbn in Hs, Hx; [| |eassumption|]; [lia|lia|exact B2]].
  apply andb_prop in B1. destruct B1 as [B1 B3]. apply andb_prop in B1. destruct B1 as [B0 B1].
  apply Z.leb_le in B0, B3. apply Nat.leb_le in B1. lia.
Qed.
Fixpoint near_all (ds : list dimension) (spans x : list Qc) (is : list nat) : Prop :=
  match ds, spans, x, is with
  | d :: ds, s :: spans, a :: x, i :: is => (- s < displacement d a (coordinate d i))%Qc /\ (displacement d a (coordinate d i) < s)%Qc /\ near_all ds spans x is
  | _, _, _, _ => True
  end.
Lemma near_all_dec ds : forall spans x is, length spans = length ds -> length x = length ds -> length is = length ds ->
  near_all ds spans x is \/ Exists (fun p => (snd p <= fst p)%Qc \/ (fst p <= - snd p)%Qc) (combine (displacements ds x (coordinates ds is)) spans).
Proof.
  induction ds as [|d ds IH]; intros spans x is Hs Hx Hi; destruct spans as [|s spans], x as [|a x], is as [|i is]; try discriminate; [left; exact I|].
  cbn [near_all coordinates displacements combine]. cbn in Hs, Hx, Hi.
  destruct (IH spans x is) as [H|H]; [lia..| |right; right; exact H].
  destruct (Qclt_le_dec (- s) (displacement d a (coordinate d i))) as [L|L]; [|right; left; right; exact L].
  destruct (Qclt_le_dec (displacement d a (coordinate d i)) s) as [U|U]; [|right; left; left; exact U]. left. tauto.
Qed.
Lemma nearby_complete ds : forall spans x is, Forall proper ds -> length spans = length ds -> length x = length ds -> is_node ds is ->
  near_all ds spans x is -> In (map Z.of_nat is) (cube (shift_lists ds spans x)) /\ in_bounds ds (map Z.of_nat is) = true.
Proof.
  induction ds as [|d ds IH]; intros spans x is P Hs Hx Hi Hn; destruct spans as [|s spans], x as [|a x]; try discriminate; inversion Hi; subst.
  - split; [left; reflexivity|reflexivity].
  - cbn [near_all] in Hn. destruct Hn as (L & U & Hn). apply Forall_cons_iff in P. destruct P as [P1 P]. cbn in Hs, Hx.
    destruct (IH spans x l' P) as [A B]; [lia|lia|assumption..|]. split.
    + apply in_cube. cbn [shift_lists map]. constructor; [apply shifts_complete; assumption|apply in_cube, A].
    + unfold in_bounds in *. cbn [map combine forallb fst snd]. rewrite B, andb_true_r. destruct P1 as [_ P1].
      rewrite !andb_true_iff. repeat split; [apply Z.leb_le; lia|apply Nat.leb_le; exact P1|apply Z.leb_le; lia].
Qed.
Lemma entry_map (h : nat -> Qc) l k : forall v, fold_left (fun v p => if fst p =? k then snd p else v) (map (fun j => (j, h j)) l) v = if in_dec Nat.eq_dec k l then h k else v.
Proof.
  induction l as [|a l IH]; intros v; [reflexivity|]. cbn [map fold_left fst snd]. rewrite IH. destruct (Nat.eqb_spec a k) as [->|N].
  - destruct (in_dec Nat.eq_dec k l); destruct (in_dec Nat.eq_dec k (k :: l)) as [|n0]; try reflexivity; exfalso; apply n0; left; reflexivity.
  - destruct (in_dec Nat.eq_dec k l) as [i|n0]; destruct (in_dec Nat.eq_dec k (a :: l)) as [i1|n1]; try reflexivity.
    + exfalso. apply n1. right. exact i.
    + exfalso. destruct i1; [congruence|tauto].
Qed.
Lemma row_entry basis ds spans x is : Forall proper ds -> length spans = length ds -> length x = length ds -> compact basis spans -> is_node ds is ->
  build_A_row basis ds spans x (ravel_F (sizes ds) is) = basis (displacements ds x (coordinates ds is)).
Proof.
  intros P Hs Hx C Hi. unfold build_A_row, entry. rewrite entry_map.
  destruct (in_dec Nat.eq_dec (ravel_F (sizes ds) is) (nearby ds spans x)) as [H|H].
  - rewrite nth_nodes by exact Hi. reflexivity.
  - destruct (near_all_dec ds spans x is Hs Hx) as [K|K]; [symmetry; eapply Forall2_length; exact Hi| |symmetry; apply C; exact K].
    exfalso. apply H. destruct (nearby_complete ds spans x is P Hs Hx Hi K) as [A B]. unfold nearby. apply in_map_iff. exists (map Z.of_nat is).
    split; [|apply filter_In; split; assumption]. f_equal. rewrite map_map. rewrite (map_ext _ (fun i => i)) by (intros; lia). apply map_id.
Qed.

(* ---- piecewise linear basis functions *)
Definition hat (s d : Qc) : Qc := (1 - clip (qabs (d / s)))%Qc.
Lemma hat_at s f : (0 < s)%Qc -> hat s (f * s) = (1 - clip (qabs f))%Qc.
Proof. intros S. unfold hat. replace (f * s / s)%Qc with f by (field; apply qpos_nonzero, S). reflexivity. Qed.
Lemma clip_abs_far f : (1 <= f)%Qc \/ (f <= - (1))%Qc -> clip (qabs f) = 1%Qc.
Proof.
  intros H. unfold qabs. destruct (Qclt_le_dec f 0) as [N|N]; unfold clip.
  - destruct (Qclt_le_dec 1 (- f)) as [A|A]; [reflexivity|]. apply Qcle_antisym; [exact A|]. destruct H; qc.
  - destruct (Qclt_le_dec 1 f) as [A|A]; [reflexivity|]. apply Qcle_antisym; [exact A|]. destruct H; qc.
Qed.
Lemma clip_abs_pos f : (0 <= f)%Qc -> (f <= 1)%Qc -> clip (qabs f) = f.
Proof.
  intros H K. unfold qabs. destruct (Qclt_le_dec f 0) as [N|N]; [exfalso; apply (Qclt_not_le _ _ N H)|]. unfold clip.
  destruct (Qclt_le_dec 1 f) as [A|A]; [exfalso; apply (Qclt_not_le _ _ A K)|reflexivity].
Qed.
Lemma clip_abs_neg f : (f <= 0)%Qc -> (- (1) <= f)%Qc -> clip (qabs f) = (- f)%Qc.
Proof.
  intros H K. unfold qabs. destruct (Qclt_le_dec f 0) as [N|N]; unfold clip.
  - destruct (Qclt_le_dec 1 (- f)) as [A|A]; [exfalso; apply (Qclt_not_le _ _ A); qc|reflexivity].
  - assert (f = 0)%Qc as -> by (apply Qcle_antisym; assumption). destruct (Qclt_le_dec 1 0) as [A|A]; [discriminate|ring].
Qed.
Lemma hat_far s d : (0 < s)%Qc -> (s <= d)%Qc \/ (d <= - s)%Qc -> hat s d = 0%Qc.
Proof.
  intros S H. replace d with (d / s * s)%Qc by (field; apply qpos_nonzero, S). rewrite (hat_at _ _ S). rewrite clip_abs_far; [ring|].
  destruct H as [H|H]; [left|right]; apply (qmul_le_inv _ _ s S); replace (d / s * s)%Qc with d by (field; apply qpos_nonzero, S); [rewrite Qcmult_1_l; exact H|].
  replace (- (1) * s)%Qc with (- s)%Qc by ring. exact H.
Qed.
Lemma pl_cons s ss d ds : piecewise_linear (s :: ss) (d :: ds) = (hat s d * piecewise_linear ss ds)%Qc.
Proof. reflexivity. Qed.
Lemma pl_compact spans : Forall (fun s => 0 < s)%Qc spans -> compact (piecewise_linear spans) spans.
Proof.
  intros P ds. revert ds. induction P as [|s ss S P IH]; intros ds H; destruct ds as [|d ds]; cbn [combine] in H; try (inversion H; fail).
  rewrite pl_cons. inversion H; subst; cbn [fst snd] in *.
  - rewrite hat_far by assumption. ring.
  - rewrite (IH ds) by assumption. ring.
Qed.
Lemma sumQ_sumn n f : sumQ (map f (seq 0 n)) = sumn n f.
Proof.
  induction n; [reflexivity|]. rewrite seq_S, map_app, sumQ_app, IHn. cbn [map sumn]. rewrite sumQ_cons. change (sumQ []) with 0%Qc. rewrite Nat.add_0_l. ring.
Qed.
Lemma sumn_two n i j f : i < n -> j < n -> i <> j -> (forall k, k < n -> k <> i -> k <> j -> f k = 0%Qc) -> sumn n f = (f i + f j)%Qc.
Proof.
  intros Hi Hj N Z. rewrite (sumn_ext n f (fun k => (if k =? i then f k else 0) + (if k =? i then 0 else f k))%Qc)
    by (intros k _; destruct (k =? i); ring).
  rewrite sumn_add. rewrite (sumn_one n i), (sumn_one n j); try assumption.
  - rewrite Nat.eqb_refl. destruct (Nat.eqb_spec j i); [congruence|reflexivity].
  - intros k K1 K2. destruct (Nat.eqb_spec k i); [reflexivity|]. apply Z; assumption.
  - intros k K1 K2. destruct (Nat.eqb_spec k i); [congruence|reflexivity].
Qed.
Lemma hat_int d z f : proper d -> (0 <= f)%Qc -> (f <= 1)%Qc -> hat (spacing d) ((qz z + f) * spacing d) = if (z =? 0)%Z then (1 - f)%Qc else if (z =? -1)%Z then f else 0%Qc.
Proof.
  intros P F0 F1. rewrite (hat_at _ _ (spacing_pos d P)). destruct (Z.eqb_spec z 0) as [->|N0].
  - rewrite qz_0, Qcplus_0_l, clip_abs_pos by assumption. reflexivity.
  - destruct (Z.eqb_spec z (-1)) as [->|N1].
    + rewrite qz_m1, clip_abs_neg; [ring|qc|qc].
    + rewrite clip_abs_far; [ring|]. destruct (Z_lt_le_dec z 0) as [K|K].
      * right. assert (A : (qz z <= qz (-2))%Qc) by (apply qz_le; lia). replace (qz (-2)) with (- (1) - 1)%Qc in A by (apply Qc_is_canon; vm_compute; reflexivity). qc.
      * left. assert (A : (qz 1 <= qz z)%Qc) by (apply qz_le; lia). rewrite qz_1 in A. qc.
Qed.

Definition weight (d : dimension) (x : Qc) (k : nat) : Qc := hat (spacing d) (displacement d x (coordinate d k)).
Lemma next_lt d x i f : proper d -> in_cell d x i f -> i < d_n d /\ next d i < d_n d /\ i <> next d i.
Proof.
  intros [_ P] (_ & _ & C). unfold next. destruct (d_wrap d); destruct C as [C _]; [|lia]. destruct (Nat.eqb_spec (S i) (d_n d)); lia.
Qed.
Lemma two_q : qz 2 = (1 + 1)%Qc.
Proof. apply Qc_is_canon; vm_compute; reflexivity. Qed.
Lemma small_multiple T n a : (Z.abs a < n)%Z -> (T * n = a)%Z -> a = 0%Z.
Proof. intros H E. assert (T = 0)%Z by nia. subst T. lia. Qed.
Lemma weight_cell d x i f k : proper d -> in_cell d x i f -> k < d_n d -> weight d x k = if k =? i then (1 - f)%Qc else if k =? next d i then f else 0%Qc.
Proof.
  intros P C Hk. pose proof (next_lt d x i f P C) as (Hi & Hn & Hd). destruct C as (F0 & F1 & C). unfold weight, next in *. destruct (d_wrap d) eqn:W.
  - destruct C as (_ & t0 & ->). pose proof (spacing_pos d P) as Sp.
    match goal with |- context [displacement d ?x ?c] => destruct (displacement_wrapped d x c P W) as (t & E & L & U) end.
    set (z := (Z.of_nat i - Z.of_nat k + (t0 + t) * Z.of_nat (d_n d))%Z).
    assert (Ez : displacement d (coordinate d i + f * spacing d + qz t0 * period d)%Qc (coordinate d k) = ((qz z + f) * spacing d)%Qc).
    { rewrite E, <- (period_spaced d P W), !(coordinate_spaced d _ P). unfold z, qn. rewrite qz_plus, qz_minus, qz_mult, qz_plus. ring. }
    rewrite Ez in *. rewrite (hat_int d z f P F0 F1).
    assert (Hz : (qz z + f + (qz z + f) <= qz (Z.of_nat (d_n d)))%Qc /\ (- qz (Z.of_nat (d_n d)) < qz z + f + (qz z + f))%Qc).
    { pose proof (half (period d)) as Hh. rewrite <- (period_spaced d P W) in *. set (h := (qn (d_n d) * spacing d / qz 2)%Qc) in *. split.
      - apply (qmul_le_inv _ _ _ Sp). change (qz (Z.of_nat (d_n d))) with (qn (d_n d)). rewrite <- Hh, Qcmult_plus_distr_l.
        set (w := ((qz z + f) * spacing d)%Qc) in *. clearbody w h. qc.
      - apply (qmul_lt_inv _ _ _ Sp). replace (- qz (Z.of_nat (d_n d)) * spacing d)%Qc with (- (qn (d_n d) * spacing d))%Qc by (unfold qn; ring). rewrite <- Hh, Qcmult_plus_distr_l.
        set (w := ((qz z + f) * spacing d)%Qc) in *. clearbody w h. qc. }
    clear E Ez L U. destruct Hz as [U L]. destruct P as [_ P].
    assert (U1 : (2 * z <= Z.of_nat (d_n d))%Z) by (apply qz_le; rewrite qz_mult, two_q; replace ((1 + 1) * qz z)%Qc with (qz z + qz z)%Qc by ring; qc).
    assert (L1 : (- Z.of_nat (d_n d) < 2 * z + 2)%Z).
    { apply qz_lt. rewrite qz_plus, qz_mult, qz_opp, two_q. replace ((1 + 1) * qz z)%Qc with (qz z + qz z)%Qc by ring. qc. }
    assert (Kx : z = 1%Z -> d_n d = 2 -> f = 0%Qc).
    { intros -> E2. rewrite E2 in U. change (Z.of_nat 2) with 2%Z in U. rewrite two_q, qz_1 in U. apply Qcle_antisym; [qc|exact F0]. }
    set (T := (t0 + t)%Z) in *. clearbody T.
    destruct (Nat.eqb_spec k i) as [->|N].
    + replace z with (T * Z.of_nat (d_n d))%Z in * by (unfold z; lia). assert (T = 0)%Z by nia. subst T. reflexivity.
    + destruct (Nat.eqb_spec (S i) (d_n d)) as [El|Nl].
      * destruct (Nat.eqb_spec k 0) as [->|N2].
        -- assert (Ez : z = (-1 + (T + 1) * Z.of_nat (d_n d))%Z) by (unfold z; lia). clearbody z.
           assert (T = -1 \/ (T = 0 /\ z = 1 /\ d_n d = 2%nat))%Z as [->|(-> & Z1 & N2)] by nia.
           ++ replace z with (-1)%Z by lia. reflexivity.
           ++ rewrite (Kx Z1 N2). rewrite Z1. reflexivity.
        -- destruct (Z.eqb_spec z 0) as [Q0|_]; [unfold z in *; exfalso; pose proof (small_multiple (- T) (Z.of_nat (d_n d)) (Z.of_nat i - Z.of_nat k) ltac:(lia) ltac:(lia)); lia|].
           destruct (Z.eqb_spec z (-1)) as [Q0|_]; [unfold z in *; exfalso; pose proof (small_multiple (- T) (Z.of_nat (d_n d)) (Z.of_nat i - Z.of_nat k + 1) ltac:(lia) ltac:(lia)); lia|]. reflexivity.
      * destruct (Nat.eqb_spec k (S i)) as [->|N2].
        -- assert (Ez : z = (-1 + T * Z.of_nat (d_n d))%Z) by (unfold z; lia). clearbody z.
           assert (T = 0 \/ (T = 1 /\ z = 1 /\ d_n d = 2%nat))%Z as [->|(-> & Z1 & N2)] by nia.
           ++ replace z with (-1)%Z by lia. reflexivity.
           ++ rewrite (Kx Z1 N2). rewrite Z1. reflexivity.
        -- destruct (Z.eqb_spec z 0) as [Q0|_]; [unfold z in *; exfalso; pose proof (small_multiple (- T) (Z.of_nat (d_n d)) (Z.of_nat i - Z.of_nat k) ltac:(lia) ltac:(lia)); lia|].
           destruct (Z.eqb_spec z (-1)) as [Q0|_]; [unfold z in *; exfalso; pose proof (small_multiple (- T) (Z.of_nat (d_n d)) (Z.of_nat i - Z.of_nat k + 1) ltac:(lia) ltac:(lia)); lia|]. reflexivity.
  - destruct C as (_ & ->). rewrite (displacement_plain d _ _ W), !(coordinate_spaced d _ P).
    replace (d_lo d + qn i * spacing d + f * spacing d - (d_lo d + qn k * spacing d))%Qc with ((qz (Z.of_nat i - Z.of_nat k) + f) * spacing d)%Qc by (rewrite qz_minus; unfold qn; ring).
    rewrite (hat_int d _ f P F0 F1). destruct (Nat.eqb_spec k i) as [->|N]; [rewrite Z.sub_diag; reflexivity|].
    destruct (Z.eqb_spec (Z.of_nat i - Z.of_nat k) 0); [lia|]. destruct (Nat.eqb_spec k (S i)) as [->|N2].
    + replace (Z.of_nat i - Z.of_nat (S i))%Z with (-1)%Z by lia. reflexivity.
    + destruct (Z.eqb_spec (Z.of_nat i - Z.of_nat k) (-1)); [lia|reflexivity].
Qed.
Lemma weight_sum d x i f (v : nat -> Qc) : proper d -> in_cell d x i f ->
  sumQ (map (fun k => weight d x k * v k)%Qc (seq 0 (d_n d))) = ((1 - f) * v i + f * v (next d i))%Qc.
Proof.
  intros P C. destruct (next_lt d x i f P C) as (Hi & Hn & Hd). rewrite sumQ_sumn, (sumn_two _ i (next d i)); try assumption.
  - rewrite !(weight_cell d x i f) by assumption. rewrite !Nat.eqb_refl. destruct (Nat.eqb_spec (next d i) i); [congruence|]. reflexivity.
  - intros k Hk N1 N2. rewrite (weight_cell d x i f) by assumption. destruct (Nat.eqb_spec k i); [congruence|]. destruct (Nat.eqb_spec k (next d i)); [congruence|]. ring.
Qed.
Lemma sumQ_flat_map {A} (g : A -> list Qc) l : sumQ (flat_map g l) = sumQ (map (fun a => sumQ (g a)) l).
Proof. induction l; cbn [flat_map map]; [reflexivity|]. rewrite sumQ_app, sumQ_cons, IHl. reflexivity. Qed.
Lemma grid_sum ds : forall x cell v, Forall proper ds -> in_cells ds x cell ->
  sumQ (map (fun is => piecewise_linear (map spacing ds) (displacements ds x (coordinates ds is)) * v is)%Qc (indices ds)) = multilinear ds cell v.
Proof.
  induction ds as [|d ds IH]; intros x cell v P C.
  - cbn. unfold sumQ. cbn. ring.
  - destruct x as [|a x]; [contradiction|]. destruct cell as [|[i f] cell]; [contradiction|]. cbn [in_cells] in C. destruct C as [C Cs].
    apply Forall_cons_iff in P. destruct P as [P Ps]. unfold indices. cbn [map grid]. fold (indices ds). rewrite map_flat_map, sumQ_flat_map.
    rewrite (map_ext _ (fun r => ((1 - f) * (piecewise_linear (map spacing ds) (displacements ds x (coordinates ds r)) * v (i :: r))
       + f * (piecewise_linear (map spacing ds) (displacements ds x (coordinates ds r)) * v (next d i :: r)))%Qc)).
    + rewrite sumQ_plus. cbn [multilinear]. rewrite <- (IH x cell (fun is => v (i :: is)) Ps Cs), <- (IH x cell (fun is => v (next d i :: is)) Ps Cs).
      rewrite <- !sumQ_scale, !map_map. reflexivity.
    + intros r. rewrite map_map. cbn [coordinates displacements].
      set (Q := piecewise_linear (map spacing ds) (displacements ds x (coordinates ds r))).
      transitivity (sumQ (map (fun k => weight d a k * (Q * v (k :: r)))%Qc (seq 0 (d_n d)))).
      * apply sumQ_ext. intros k. rewrite pl_cons. fold Q. unfold weight. ring.
      * rewrite (weight_sum d a i f (fun k => Q * v (k :: r))%Qc P C). ring.
Qed.
Lemma spacings_pos ds : Forall proper ds -> Forall (fun s => 0 < s)%Qc (map spacing ds).
Proof. intros P. apply Forall_map. eapply Forall_impl; [|exact P]. intros d. apply spacing_pos. Qed.
Lemma in_cells_length ds : forall x cell, in_cells ds x cell -> length x = length ds.
Proof. induction ds; intros [|b x] [|[i f] cell]; cbn; try tauto. intros [_ C]. f_equal. eapply IHds, C. Qed.
Lemma row_sum ds x cell (v : nat -> Qc) : Forall proper ds -> in_cells ds x cell ->
  sumn (n_nodes (sizes ds)) (fun k => build_A_row (piecewise_linear (map spacing ds)) ds (map spacing ds) x k * v k)%Qc = multilinear ds cell (fun is => v (ravel_F (sizes ds) is)).
Proof.
  intros P C. rewrite <- (grid_sum ds x cell _ P C), <- sumQ_sumn, <- indices_numbering, map_map. f_equal. apply map_ext_in. intros is Hi.
  rewrite row_entry; [reflexivity|exact P|apply map_length|eapply in_cells_length, C|apply pl_compact, spacings_pos, P|apply in_indices, Hi].
Qed.

(* ---- consequences *)
Lemma multilinear_const ds : forall cell x c, in_cells ds x cell -> multilinear ds cell (fun _ => c) = c.
Proof.
  induction ds as [|d ds IH]; intros [|[i f] cell] [|a x] c C; cbn in C; try tauto. cbn [multilinear]. destruct C as [_ C]. rewrite (IH cell x c C). ring.
Qed.
Lemma multilinear_ext ds : forall cell u v, (forall is, u is = v is) -> multilinear ds cell u = multilinear ds cell v.
Proof.
  induction ds as [|d ds IH]; intros [|[i f] cell] u v E; cbn [multilinear]; try apply E. rewrite (IH cell _ (fun is => v (i :: is))), (IH cell (fun is => u (next d i :: is)) (fun is => v (next d i :: is))) by (intros; apply E). reflexivity.
Qed.
Lemma multilinear_coordinate ds : forall cell x m, Forall proper ds -> in_cells ds x cell -> m < length ds -> d_wrap (nth m ds {| d_lo := 0; d_hi := 0; d_n := 0; d_wrap := false |}) = false ->
  multilinear ds cell (fun is => nth m (coordinates ds is) 0%Qc) = nth m x 0%Qc.
Proof.
  induction ds as [|d ds IH]; intros [|[i f] cell] [|a x] m P C Hm W; cbn in C, Hm; try tauto; try lia. destruct C as [C Cs].
  apply Forall_cons_iff in P. destruct P as [P Ps]. destruct m as [|m]; cbn [nth] in W.
  - cbn [multilinear coordinates nth]. rewrite !(multilinear_const ds cell x) by exact Cs. unfold in_cell in C. unfold next. rewrite W in *. destruct C as (_ & _ & _ & ->).
    rewrite !(coordinate_spaced d _ P), qn_S. ring.
  - cbn [multilinear coordinates nth]. rewrite (IH cell x m Ps Cs) by (try lia; exact W). ring.
Qed.
Lemma cell_inside d x : proper d -> d_wrap d = false -> (d_lo d <= x)%Qc -> (x <= d_hi d)%Qc -> exists i f, in_cell d x i f.
Proof.
  intros P W L U. pose proof (spacing_pos d P) as Sp. pose proof (spacing_span d P) as Ss. unfold wrap_one in Ss. rewrite W, Qcplus_0_r in Ss. pose proof P as [_ P2].
  set (q := ((x - d_lo d) / spacing d)%Qc). assert (Eq : (q * spacing d = x - d_lo d)%Qc) by (unfold q; field; apply qpos_nonzero, Sp).
  assert (Q0 : (0 <= q)%Qc) by (apply (qmul_le_inv _ _ _ Sp); rewrite Eq, Qcmult_0_l; qc).
  assert (Q1 : (q <= qn (d_n d) - 1)%Qc) by (apply (qmul_le_inv _ _ _ Sp); rewrite Eq, (Qcmult_comm _ (spacing d)), Ss; qc).
  assert (F0 : (0 <= qfloor q)%Z) by (apply qfloor_max; rewrite qz_0; exact Q0).
  pose proof (qfloor_le q) as Fl. pose proof (qfloor_lt q) as Fu.
  assert (F1 : (qfloor q <= Z.of_nat (d_n d) - 1)%Z). { apply qz_le. rewrite qz_minus, qz_1. fold (qn (d_n d)). qc. }
  unfold in_cell. rewrite W. destruct (Z_lt_le_dec (qfloor q) (Z.of_nat (d_n d) - 1)) as [K|K].
  - exists (Z.to_nat (qfloor q)), (q - qz (qfloor q))%Qc. split; [qc|]. split; [qc|]. split; [lia|].
    rewrite (coordinate_spaced d _ P). unfold qn. rewrite Z2Nat.id by exact F0.
    replace (d_lo d + qz (qfloor q) * spacing d + (q - qz (qfloor q)) * spacing d)%Qc with (d_lo d + q * spacing d)%Qc by ring. rewrite Eq. ring.
  - exists (d_n d - 2), 1%Qc. split; [discriminate|]. split; [apply Qcle_refl|]. split; [lia|].
    assert (q = qn (d_n d) - 1)%Qc.
    { apply Qcle_antisym; [exact Q1|]. replace (qn (d_n d) - 1)%Qc with (qz (qfloor q)); [exact Fl|]. replace (qfloor q) with (Z.of_nat (d_n d) - 1)%Z by lia. rewrite qz_minus, qz_1. reflexivity. }
    rewrite (coordinate_spaced d _ P). replace (qn (d_n d - 2)) with (q - 1)%Qc.
    + replace (d_lo d + (q - 1) * spacing d + 1 * spacing d)%Qc with (d_lo d + q * spacing d)%Qc by ring. rewrite Eq. ring.
    + rewrite H. unfold qn. rewrite Nat2Z.inj_sub by lia. rewrite qz_minus. change (Z.of_nat 2) with 2%Z. rewrite two_q. ring.
Qed.
Lemma cell_wrapped d x : proper d -> d_wrap d = true -> exists i f, in_cell d x i f.
Proof.
  intros P W. pose proof (spacing_pos d P) as Sp. pose proof (period_spaced d P W) as Ps. pose proof P as [_ P2].
  set (q := ((x - d_lo d) / spacing d)%Qc). assert (Eq : (q * spacing d = x - d_lo d)%Qc) by (unfold q; field; apply qpos_nonzero, Sp).
  pose proof (qfloor_le q) as Fl. pose proof (qfloor_lt q) as Fu.
  pose proof (Z.mod_pos_bound (qfloor q) (Z.of_nat (d_n d)) ltac:(lia)) as Mb. pose proof (Z.div_mod (qfloor q) (Z.of_nat (d_n d)) ltac:(lia)) as Dm.
  exists (Z.to_nat (qfloor q mod Z.of_nat (d_n d))), (q - qz (qfloor q))%Qc. unfold in_cell. rewrite W. split; [qc|]. split; [qc|]. split; [lia|].
  exists (qfloor q / Z.of_nat (d_n d))%Z. rewrite (coordinate_spaced d _ P), <- Ps. unfold qn. rewrite Z2Nat.id by lia.
  set (m := (qfloor q mod Z.of_nat (d_n d))%Z) in *. set (w := (qfloor q / Z.of_nat (d_n d))%Z) in *. clearbody m w.
  transitivity (d_lo d + q * spacing d)%Qc; [rewrite Eq; ring|]. rewrite Dm, qz_plus, qz_mult. ring.
Qed.
Lemma cells_exist ds : forall x, Forall proper ds -> Forall2 (fun d a => d_wrap d = true \/ (d_lo d <= a /\ a <= d_hi d)%Qc) ds x -> exists cell, in_cells ds x cell.
Proof.
  intros x P H. induction H as [|d a ds x H Hs IH]; [exists []; exact I|]. apply Forall_cons_iff in P. destruct P as [P Ps]. destruct (IH Ps) as (cell & C).
  assert (exists i f, in_cell d a i f) as (i & f & C1).
  { destruct (d_wrap d) eqn:W; [apply cell_wrapped; assumption|]. destruct H as [H|H]; [discriminate|]. apply cell_inside; tauto. }
  exists ((i, f) :: cell). split; assumption.
Qed.
(* a node is in a cell of which it is the first corner, or the last *)
Lemma weight_node d i k : proper d -> i < d_n d -> k < d_n d -> weight d (coordinate d i) k = if k =? i then 1%Qc else 0%Qc.
Proof.
  intros P Hi Hk. pose proof P as [_ P2].
  assert (C : in_cell d (coordinate d i) i 0 \/ (d_wrap d = false /\ S i = d_n d)).
  { unfold in_cell. destruct (d_wrap d) eqn:W.
    - left. split; [apply Qcle_refl|]. split; [discriminate|]. split; [exact Hi|]. exists 0%Z. rewrite qz_0. ring.
    - destruct (Nat.eq_dec (S i) (d_n d)); [right; tauto|left]. split; [apply Qcle_refl|]. split; [discriminate|]. split; [lia|]. ring. }
  destruct C as [C|[W E]].
  - rewrite (weight_cell d _ i 0 k P C Hk). destruct (k =? i); [ring|]. destruct (k =? next d i); reflexivity.
  - assert (C : in_cell d (coordinate d i) (i - 1) 1).
    { unfold in_cell. rewrite W. split; [discriminate|]. split; [apply Qcle_refl|]. split; [lia|]. rewrite !(coordinate_spaced d _ P).
      replace i with (S (i - 1)) at 1 by lia. rewrite qn_S. ring. }
    rewrite (weight_cell d _ (i - 1) 1 k P C Hk). unfold next. rewrite W. replace (S (i - 1)) with i by lia.
    destruct (Nat.eqb_spec k (i - 1)); destruct (Nat.eqb_spec k i); try lia; try reflexivity.
Qed.
Lemma pl_nodes ds : forall is js, Forall proper ds -> is_node ds is -> is_node ds js ->
  piecewise_linear (map spacing ds) (displacements ds (coordinates ds is) (coordinates ds js)) = if list_eq_dec Nat.eq_dec js is then 1%Qc else 0%Qc.
Proof.
  intros is js P Hi Hj. revert js Hj. induction Hi as [|d i ds is Hi His IH]; intros js Hj; inversion Hj as [|? j ? js' Hj1 Hjs]; subst; [reflexivity|].
  apply Forall_cons_iff in P. destruct P as [P Ps]. cbn [map coordinates displacements]. rewrite pl_cons. fold (weight d (coordinate d i) j).
  rewrite (weight_node d i j P Hi Hj1), (IH Ps js' Hjs). destruct (Nat.eqb_spec j i) as [->|N].
  - destruct (list_eq_dec Nat.eq_dec js' is) as [->|N2]; destruct (list_eq_dec Nat.eq_dec (i :: _) (i :: is)); try congruence; ring.
  - destruct (list_eq_dec Nat.eq_dec (j :: js') (i :: is)); [congruence|]. ring.
Qed.
Lemma hat_range s d : (0 <= hat s d)%Qc /\ (hat s d <= 1)%Qc.
Proof.
  unfold hat, clip, qabs. destruct (Qclt_le_dec (d / s) 0) as [A|A];
  match goal with |- context [Qclt_le_dec 1 ?e] => destruct (Qclt_le_dec 1 e) as [B|B] end; split; qc.
Qed.
Lemma pl_range ss : forall ds, (0 <= piecewise_linear ss ds)%Qc /\ (piecewise_linear ss ds <= 1)%Qc.
Proof.
  induction ss as [|s ss IH]; intros [|d ds]; cbn [piecewise_linear]; try (split; discriminate). fold (hat s d).
  destruct (hat_range s d) as [A B]. destruct (IH ds) as [C E]. split.
  - rewrite <- (Qcmult_0_l (piecewise_linear ss ds)). apply Qcmult_le_compat_r; assumption.
  - apply Qcle_trans with (1 * piecewise_linear ss ds)%Qc; [apply Qcmult_le_compat_r; assumption|]. rewrite Qcmult_1_l. exact E.
Qed.

(* ---- the geographical covariate *)
Lemma fold_min l : forall a, let m := fold_left (fun m x => if Qclt_le_dec x m then x else m) l a in In m (a :: l) /\ (forall x, In x (a :: l) -> (m <= x)%Qc).
Proof.
  induction l as [|b l IH]; intros a; cbn [fold_left].
  - split; [left; reflexivity|]. intros x [<-|[]]. apply Qcle_refl.
  - destruct (IH (if Qclt_le_dec b a then b else a)) as [A B]. split.
    + destruct A as [A|A]; [|right; right; exact A]. rewrite <- A. destruct (Qclt_le_dec b a); [right; left; reflexivity|left; reflexivity].
    + assert (K : (fold_left (fun m x => if Qclt_le_dec x m then x else m) l (if Qclt_le_dec b a then b else a) <= (if Qclt_le_dec b a then b else a))%Qc) by (apply B; left; reflexivity).
      intros x [<-|[<-|H]]; [| |apply B; right; exact H]; (eapply Qcle_trans; [exact K|]); destruct (Qclt_le_dec b a) as [C|C]; try apply Qcle_refl; [apply Qclt_le_weak, C|exact C].
Qed.
Lemma fold_max l : forall a, let m := fold_left (fun m x => if Qclt_le_dec m x then x else m) l a in In m (a :: l) /\ (forall x, In x (a :: l) -> (x <= m)%Qc).
Proof.
  induction l as [|b l IH]; intros a; cbn [fold_left].
  - split; [left; reflexivity|]. intros x [<-|[]]. apply Qcle_refl.
  - destruct (IH (if Qclt_le_dec a b then b else a)) as [A B]. split.
    + destruct A as [A|A]; [|right; right; exact A]. rewrite <- A. destruct (Qclt_le_dec a b); [right; left; reflexivity|left; reflexivity].
    + assert (K : ((if Qclt_le_dec a b then b else a) <= fold_left (fun m x => if Qclt_le_dec m x then x else m) l (if Qclt_le_dec a b then b else a))%Qc) by (apply B; left; reflexivity).
      intros x [<-|[<-|H]]; [| |apply B; right; exact H]; (eapply Qcle_trans; [|exact K]); destruct (Qclt_le_dec a b) as [C|C]; try apply Qcle_refl; [apply Qclt_le_weak, C|exact C].
Qed.
Lemma qmin_is l m : In m l -> (forall x, In x l -> (m <= x)%Qc) -> qmin l = m.
Proof.
  destruct l as [|a l]; [intros []|]. intros H K. destruct (fold_min l a) as [A B]. unfold qmin. apply Qcle_antisym; [apply B, H|apply K, A].
Qed.
Lemma qmax_is l m : In m l -> (forall x, In x l -> (x <= m)%Qc) -> qmax l = m.
Proof.
  destruct l as [|a l]; [intros []|]. intros H K. destruct (fold_max l a) as [A B]. unfold qmax. apply Qcle_antisym; [apply K, A|apply B, H].
Qed.
Lemma qmin_perm l l' : Permutation l l' -> qmin l = qmin l'.
Proof.
  intros P. destruct l as [|a l]; [apply Permutation_nil in P; subst; reflexivity|]. symmetry. destruct (fold_min l a) as [A B]. apply qmin_is.
  - eapply Permutation_in; [exact P|exact A].
  - intros x H. apply B. eapply Permutation_in; [apply Permutation_sym, P|exact H].
Qed.
Lemma qmax_perm l l' : Permutation l l' -> qmax l = qmax l'.
Proof.
  intros P. destruct l as [|a l]; [apply Permutation_nil in P; subst; reflexivity|]. symmetry. destruct (fold_max l a) as [A B]. apply qmax_is.
  - eapply Permutation_in; [exact P|exact A].
  - intros x H. apply B. eapply Permutation_in; [apply Permutation_sym, P|exact H].
Qed.
Lemma qn_le a b : a <= b -> (qn a <= qn b)%Qc.
Proof. intros H. apply qz_le. lia. Qed.
Lemma qn_0 : qn 0 = 0%Qc.
Proof. exact qz_0. Qed.
Lemma regular_min a s n : (0 < s)%Qc -> 1 <= n -> qmin (regular a s n) = a.
Proof.
  intros Sp H. apply qmin_is.
  - apply in_map_iff. exists 0. split; [rewrite qn_0; ring|apply in_seq; lia].
  - intros x K. apply in_map_iff in K. destruct K as (i & <- & _). pose proof (qmul_le _ _ _ Sp (qn_le 0 i ltac:(lia))) as K. rewrite qn_0, Qcmult_0_l in K. qc.
Qed.
Lemma regular_max a s n : (0 < s)%Qc -> 1 <= n -> qmax (regular a s n) = (a + (qn n - 1) * s)%Qc.
Proof.
  intros Sp H. assert (E : (qn n - 1)%Qc = qn (n - 1)) by (replace n with (S (n - 1)) at 1 by lia; rewrite qn_S; ring). rewrite E. apply qmax_is.
  - apply in_map_iff. exists (n - 1). split; [reflexivity|apply in_seq; lia].
  - intros x K. apply in_map_iff in K. destruct K as (i & <- & I). apply in_seq in I. pose proof (qmul_le _ _ _ Sp (qn_le i (n - 1) ltac:(lia))) as K. qc.
Qed.
Lemma regular_length a s n : length (regular a s n) = n.
Proof. unfold regular. rewrite map_length. apply seq_length. Qed.
Lemma qn_gt1 n : 2 <= n -> (0 < qn n - 1)%Qc.
Proof. intros H. assert (K : (1 < qn n)%Qc) by (rewrite <- qz_1; apply qz_lt; lia). qc. Qed.
Lemma regular_spacing a s n : (0 < s)%Qc -> 2 <= n -> array_spacing (regular a s n) = round2 s.
Proof.
  intros Sp H. unfold array_spacing. rewrite regular_min, regular_max, regular_length by (assumption || lia). f_equal.
  pose proof (qpos_nonzero _ (qn_gt1 n H)). field. exact H0.
Qed.
Lemma geo_proper s a n : (0 < s)%Qc -> 2 <= n -> proper (geo_dimension s (regular a s n)) /\ spacing (geo_dimension s (regular a s n)) = s /\
  forall k, coordinate (geo_dimension s (regular a s n)) k = (a - s + qn k * s)%Qc.
Proof.
  intros Sp H. pose proof (qn_gt1 n H) as Q.
  assert (P : proper (geo_dimension s (regular a s n))).
  { split; cbn [geo_dimension d_lo d_hi d_n]; [|rewrite regular_length; lia]. rewrite regular_min, regular_max by (assumption || lia).
    pose proof (qmul_lt _ _ _ Sp Q) as K. rewrite Qcmult_0_l in K. qc. }
  assert (E : spacing (geo_dimension s (regular a s n)) = s).
  { unfold spacing, wrap_one. cbn [geo_dimension d_lo d_hi d_n d_wrap]. rewrite regular_min, regular_max, regular_length by (assumption || lia).
    rewrite qn_plus. replace (qn 2) with (1 + 1)%Qc by (symmetry; apply two_q).
    assert (K : (qn n + (1 + 1) + 0 - 1)%Qc <> 0%Qc) by (apply qpos_nonzero; qc).
    rewrite <- (Qcdiv_mult_l s _ K) at 4. f_equal. ring. }
  split; [exact P|]. split; [exact E|]. intros k. rewrite (coordinate_spaced _ k P), E. cbn [geo_dimension d_lo]. rewrite regular_min by (assumption || lia). reflexivity.
Qed.
(* in terms of the extended array *)
Lemma bilinear_extended a b s rows cols c i j f g : (0 < s)%Qc -> round2 s = s -> 2 <= rows -> 2 <= cols -> i <= rows -> j <= cols ->
  (0 <= f)%Qc -> (f <= 1)%Qc -> (0 <= g)%Qc -> (g <= 1)%Qc ->
  bilinear (regular a s rows) (regular b s cols) c (a - s + (qn i + f) * s)%Qc (b - s + (qn j + g) * s)%Qc =
  Ok (let e := extended rows cols c in (1 - f) * ((1 - g) * e i j + g * e i (S j)) + f * ((1 - g) * e (S i) j + g * e (S i) (S j)))%Qc.
Proof.
  intros Sp R Hr Hc Hi Hj F0 F1 G0 G1. unfold bilinear. rewrite !regular_spacing, R by assumption. destruct (Qc_eq_dec s s) as [_|N]; [|congruence].
  rewrite !regular_length. destruct (geo_proper s a rows Sp Hr) as (P1 & E1 & C1). destruct (geo_proper s b cols Sp Hc) as (P2 & E2 & C2).
  set (d1 := geo_dimension s (regular a s rows)) in *. set (d2 := geo_dimension s (regular b s cols)) in *.
  pose proof (row_sum [d1; d2] [(a - s + (qn i + f) * s)%Qc; (b - s + (qn j + g) * s)%Qc] [(i, f); (j, g)] (ravelled (rows + 2) (extended rows cols c))) as RS.
  cbn [map] in RS. rewrite E1, E2 in RS. replace (n_nodes (sizes [d1; d2])) with ((rows + 2) * (cols + 2)) in RS
    by (cbn; rewrite !regular_length; lia).
  f_equal. rewrite RS.
  - cbn [multilinear]. change (next d1 i) with (S i). change (next d2 j) with (S j).
    assert (V : forall p q, p < rows + 2 -> ravelled (rows + 2) (extended rows cols c) (ravel_F (sizes [d1; d2]) [p; q]) = extended rows cols c p q).
    { intros p q Hp. unfold ravelled. cbn [sizes map ravel_F]. replace (d_n d1) with (rows + 2) by (cbn; rewrite regular_length; reflexivity).
      rewrite Nat.mul_0_r, Nat.add_0_r, (Nat.mul_comm (rows + 2) q), Nat.mod_add, Nat.div_add by lia. rewrite Nat.mod_small, Nat.div_small by lia. reflexivity. }
    rewrite !V by lia. reflexivity.
  - constructor; [exact P1|]. constructor; [exact P2|constructor].
  - cbn [in_cells]. split; [|split; [|exact I]].
    + unfold in_cell. change (d_wrap d1) with false. cbn [d_n]. split; [exact F0|]. split; [exact F1|]. split; [cbn; rewrite regular_length; lia|]. rewrite C1, E1. ring.
    + unfold in_cell. change (d_wrap d2) with false. split; [exact G0|]. split; [exact G1|]. split; [cbn; rewrite regular_length; lia|]. rewrite C2, E2. ring.
Qed.

Lemma number_ravel ns : forall is c, number c ns is = c * ravel_F ns is.
Proof.
  induction ns as [|n ns IH]; intros [|i is] c; cbn [number ravel_F]; try lia. rewrite IH. lia.
Qed.
Lemma number_F ns is : number 1 ns is = ravel_F ns is.
Proof. rewrite number_ravel. lia. Qed.
Lemma node_of_number ds k : k < n_nodes (sizes ds) -> exists is, is_node ds is /\ number 1 (sizes ds) is = k.
Proof.
  intros H. assert (In k (map (ravel_F (sizes ds)) (indices ds))) as K by (rewrite indices_numbering; apply in_seq; lia).
  apply in_map_iff in K. destruct K as (is & E & K). exists is. split; [apply in_indices, K|]. rewrite number_F. exact E.
Qed.
Lemma within_near ds : forall spans x is, length spans = length ds -> length x = length ds -> length is = length ds ->
  within spans (displacements ds x (coordinates ds is)) -> near_all ds spans x is.
Proof.
  induction ds as [|d ds IH]; intros [|s spans] [|a x] [|i is] H1 H2 H3; try discriminate; cbn; [tauto|]. intros (A & B & C). cbn in *.
  split; [exact A|]. split; [exact B|]. apply IH; try lia. exact C.
Qed.
Lemma nearby_all ds spans x is : Forall proper ds -> length spans = length ds -> length x = length ds -> is_node ds is ->
  within spans (displacements ds x (coordinates ds is)) -> In (number 1 (sizes ds) is) (nearby ds spans x).
Proof.
  intros P Hs Hx Hi W. assert (N : near_all ds spans x is) by (apply within_near; try assumption; symmetry; eapply Forall2_length, Hi).
  destruct (nearby_complete ds spans x is P Hs Hx Hi N) as [A B]. unfold nearby. apply in_map_iff. exists (map Z.of_nat is).
  split; [|apply filter_In; split; assumption]. rewrite number_F. f_equal. rewrite map_map. rewrite (map_ext _ (fun i => i)) by (intros; lia). apply map_id.
Qed.
Lemma displacements_periodic ds : forall x node ks, Forall proper ds -> length ks = length ds -> length x = length ds ->
  displacements ds (map (fun p => let '(d, (a, k)) := p in if d_wrap d then a + qz k * period d else a)%Qc (combine ds (combine x ks))) node = displacements ds x node.
Proof.
  induction ds as [|d ds IH]; intros [|a x] node [|k ks] P H1 H2; try discriminate; [reflexivity|]. apply Forall_cons_iff in P. destruct P as [P Ps].
  cbn in H1, H2. cbn [combine map displacements]. destruct node as [|b node]; [reflexivity|]. rewrite IH by (assumption || lia). f_equal.
  destruct (d_wrap d) eqn:W; [apply displacement_periodic; assumption|reflexivity].
Qed.
Ltac eqbs := repeat match goal with |- context [?a =? ?b] => destruct (Nat.eqb_spec a b); [try lia|try lia] end.
Lemma extended_inside rows cols c i j : i < rows -> j < cols -> extended rows cols c (S i) (S j) = c i j.
Proof. intros Hi Hj. unfold extended, extend_rows, extend_columns. eqbs. f_equal; lia. Qed.
Lemma extended_east rows cols c i : i < rows -> extended rows cols c (S i) (S cols) = c i 0.
Proof. intros Hi. unfold extended, extend_rows, extend_columns. eqbs. f_equal; lia. Qed.
Lemma extended_west rows cols c i : i < rows -> extended rows cols c (S i) 0 = c i (cols - 1).
Proof. intros Hi. unfold extended, extend_rows, extend_columns. eqbs. f_equal; lia. Qed.
Lemma extended_next rows cols c i j : i < rows -> j < cols -> extended rows cols c (S i) (S (S j)) = c i (east cols j).
Proof.
  intros Hi Hj. unfold east. destruct (Nat.eqb_spec (S j) cols) as [E|E]; [rewrite E; apply extended_east, Hi|apply extended_inside; lia].
Qed.
Lemma mean_row rows cols c i : 1 <= cols -> mean (map (extend_columns rows cols c i) (seq 0 (cols + 2))) = ((sumn cols (c i) + c i 0%nat + c i (cols - 1)%nat) / qn (cols + 2))%Qc.
Proof.
  intros H. unfold mean. rewrite map_length, seq_length. f_equal. rewrite sumQ_sumn. replace (cols + 2) with (1 + (cols + 1)) by lia. rewrite sumn_plus, sumn_plus.
  rewrite (sumn_ext cols (fun k => extend_columns rows cols c i (1 + k)) (c i)).
  - cbn [sumn]. rewrite !Nat.add_0_r. unfold extend_columns. eqbs. ring.
  - intros k Hk. unfold extend_columns. eqbs. f_equal; lia.
Qed.
Lemma bilinear_perm lats lats' lons c x y : Permutation lats lats' -> bilinear lats lons c x y = bilinear lats' lons c x y.
Proof.
  intros P. unfold bilinear, array_spacing, geo_dimension. rewrite (qmin_perm _ _ P), (qmax_perm _ _ P), (Permutation_length P). reflexivity.
Qed.
