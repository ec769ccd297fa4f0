(* Lemmas about the spatial checks. *)
From Coq Require Import QArith Qcanon Permutation Sorted.
From Verif Require Import Base Time_Model Time_Spec Time_Proofs Grid_Model Grid_Proofs Flag_Model Flag_Spec Flag_Proofs Win_Model Win_Spec.
Local Open Scope Z_scope.
Local Open Scope list_scope.

(* ------------------------------------------------------------------ padding and windows *)
Lemma mirror_range h k : 1 <= h -> - (h - 1) <= k <= 2 * (h - 1) -> 0 <= mirror h k < h.
Proof. intros H K. unfold mirror. destruct (k <? 0) eqn:A; [lia|]. destruct (h <=? k) eqn:B; lia. Qed.
Lemma reflect_mirror h k : 1 <= h -> - (h - 1) <= k <= 2 * (h - 1) -> reflect h k = mirror h k.
Proof.
  intros H K. unfold reflect, mirror. destruct (h =? 1) eqn:E1.
  - destruct (k <? 0) eqn:A; [lia|]. destruct (h <=? k) eqn:B; lia.
  - cbv zeta. destruct (k <? 0) eqn:A.
    + assert (M : k mod (2 * (h - 1)) = k + 2 * (h - 1)) by (symmetry; apply Z.mod_unique with (q := -1); lia). rewrite M.
      destruct (k + 2 * (h - 1) <? h) eqn:B; lia.
    + destruct (Z.eq_dec k (2 * (h - 1))) as [->|N].
      * rewrite Z.mod_same by lia. replace (0 <? h) with true by lia. replace (h <=? 2 * (h - 1)) with true by lia. lia.
      * rewrite Z.mod_small by lia. destruct (k <? h) eqn:B; destruct (h <=? k) eqn:C; lia.
Qed.
Lemma zrange_centre r : 0 <= r -> zrange (- r) (r + 1) = map (fun a => a - r) (zrange 0 (2 * r + 1)).
Proof. intros R. replace (- r) with (0 + - r) at 1 by lia. replace (r + 1) with (2 * r + 1 + - r) by lia. rewrite zrange_shift. apply map_ext. intros a. lia. Qed.
Lemma half_odd r : (2 * r + 1) / 2 = r.
Proof. replace (2 * r + 1) with (1 + r * 2) by lia. rewrite Z.div_add by lia. reflexivity. Qed.
Lemma flat_map_map' {A B C} (f : A -> B) (g : B -> list C) l : flat_map g (map f l) = flat_map (fun x => g (f x)) l.
Proof. induction l as [|x l IH]; [reflexivity|]. cbn. rewrite IH. reflexivity. Qed.
Lemma flat_map_ext' {A B} (f g : A -> list B) l : (forall x, In x l -> f x = g x) -> flat_map f l = flat_map g l.
Proof. induction l as [|x l IH]; intros H; [reflexivity|]. cbn. rewrite (H x (or_introl eq_refl)), IH; [reflexivity|]. intros y Y. apply H. right. exact Y. Qed.
Lemma strided_window {A} (image : array A) r s : 1 <= rows image -> 1 <= cols image -> 0 <= r <= rows image - 1 -> 0 <= s ->
  exists ws, strided (2 * r + 1) (2 * s + 1) image = Ok ws /\ rows ws = rows image /\ cols ws = cols image /\ forall i j, inside image i j -> at_ ws i j = window image r s i j.
Proof.
  intros R C HR HS. unfold strided. replace ((2 * r + 1 <? 0) || (2 * s + 1 <? 0)) with false by lia. replace ((rows image <? 1) || (cols image <? 1)) with false by lia.
  cbv zeta. rewrite !half_odd. eexists. split; [reflexivity|]. cbn [rows cols at_ pad_latitude pad_longitude]. split; [lia|]. split; [lia|].
  intros i j [I J]. unfold window. rewrite !zrange_centre by lia. rewrite flat_map_map'. apply flat_map_ext'. intros a Ha. apply in_zrange in Ha. rewrite map_map. apply map_ext. intros b.
  rewrite reflect_mirror by lia. do 2 f_equal; lia.
Qed.
Lemma strided_even {A} (image : array A) wl wo : 1 <= rows image -> 1 <= cols image -> 0 <= wl -> 0 <= wo ->
  exists ws, strided wl wo image = Ok ws /\ rows ws = rows image + (if Z.even wl then 1 else 0) /\ cols ws = cols image + (if Z.even wo then 1 else 0).
Proof.
  intros R C W1 W2. unfold strided. replace ((wl <? 0) || (wo <? 0)) with false by lia. replace ((rows image <? 1) || (cols image <? 1)) with false by lia.
  cbv zeta. eexists. split; [reflexivity|]. cbn [rows cols pad_latitude pad_longitude].
  assert (E : forall w, 2 * (w / 2) - w + 1 = if Z.even w then 1 else 0).
  { intros w. destruct (Z.even w) eqn:E.
    - apply Z.even_spec in E. destruct E as (k & ->). rewrite (Z.mul_comm 2 k), Z.div_mul by lia. lia.
    - assert (O : Z.odd w = true) by (rewrite <- Z.negb_even, E; reflexivity). apply Z.odd_spec in O. destruct O as (k & ->). rewrite half_odd. lia. }
  pose proof (E wl). pose proof (E wo). split; lia.
Qed.

(* ------------------------------------------------------------------ blocks *)
Definition block_end (size steps n m : Z) : Z := if m =? steps then n else m * size.
Lemma block_range size steps n step : 1 <= size -> 0 <= step < steps -> (steps - 1) * size <= n ->
  slice_range n (block_slice size steps step) = (step * size, block_end size steps n (step + 1)) /\ step * size <= block_end size steps n (step + 1) <= n /\ block_end size steps n (step + 1) = (if step =? steps - 1 then n else (step + 1) * size).
Proof.
  intros S T N. unfold slice_range, block_slice, block_end. cbn [fst snd]. assert (step * size <= (steps - 1) * size) by nia.
  replace (step + 1 =? steps) with (step =? steps - 1) by lia. destruct (step =? steps - 1) eqn:E.
  - split; [f_equal; lia|]. split; [lia|reflexivity].
  - assert ((step + 1) * size <= (steps - 1) * size) by nia. split; [f_equal; lia|]. split; [nia|reflexivity].
Qed.
Lemma foldM_snoc {A B} (f : A -> B -> result A) l x a : foldM f a (l ++ [x]) = do a' <- foldM f a l; f a' x.
Proof. rewrite Flag_Proofs.foldM_app. destruct (foldM f a l); [|reflexivity]. cbn. destruct (f a0 x); reflexivity. Qed.
Section Blocks.
Context {A B : Type} (stat : list A -> B).
Variables (size lat lon R C : Z) (ws : array (list A)).
Hypothesis size1 : 1 <= size.
Hypothesis lat_fit : (lat - 1) * size <= R.
Hypothesis lon_fit : (lon - 1) * size <= C.
Hypothesis ws_rows : rows ws = R.
Hypothesis ws_cols : cols ws = C.
Let F i j := stat (at_ ws i j).
Definition inner_step (a : Z) (out : array B) (longitude_step : Z) : result (array B) :=
  let latitude_slice := block_slice size lat a in let longitude_slice := block_slice size lon longitude_step in
  assign out latitude_slice longitude_slice (amap stat (subarray ws latitude_slice longitude_slice)).
Lemma one_block a b out : 0 <= a < lat -> 0 <= b < lon -> rows out = R -> cols out = C ->
  exists out', inner_step a out b = Ok out' /\ rows out' = R /\ cols out' = C /\
    forall i j, at_ out' i j = if (a * size <=? i) && (i <? block_end size lat R (a + 1)) && (b * size <=? j) && (j <? block_end size lon C (b + 1)) then F i j else at_ out i j.
Proof.
  intros HA HB HR HC. unfold inner_step, assign, subarray. rewrite HR, HC, ws_rows, ws_cols.
  destruct (block_range size lat R a size1 HA lat_fit) as [E1 [B1 _]]. destruct (block_range size lon C b size1 HB lon_fit) as [E2 [B2 _]]. rewrite E1, E2.
  cbn [rows cols amap at_]. rewrite !Z.eqb_refl. cbn [andb]. eexists. split; [reflexivity|]. cbn [rows cols at_]. split; [reflexivity|]. split; [reflexivity|].
  intros i j. destruct (_ && _ && _ && _); [|reflexivity]. unfold F. do 2 f_equal; lia.
Qed.
Lemma inner_blocks a out : 1 <= lon -> 0 <= a < lat -> rows out = R -> cols out = C -> forall m : nat, Z.of_nat m <= lon ->
  exists out', foldM (inner_step a) out (zrange 0 (Z.of_nat m)) = Ok out' /\ rows out' = R /\ cols out' = C /\
    forall i j, 0 <= i -> 0 <= j < C -> at_ out' i j = if (a * size <=? i) && (i <? block_end size lat R (a + 1)) && (j <? block_end size lon C (Z.of_nat m)) then F i j else at_ out i j.
Proof.
  intros LO HA HR HC. induction m as [|m IH]; intros Hm.
  - exists out. split; [reflexivity|]. split; [exact HR|]. split; [exact HC|]. intros i j I J. unfold block_end. replace (Z.of_nat 0 =? lon) with false by lia. replace (j <? Z.of_nat 0 * size) with false by lia. rewrite andb_false_r. reflexivity.
  - destruct IH as (o1 & E1 & R1 & C1 & P1); [lia|]. replace (Z.of_nat (S m)) with (Z.of_nat m + 1) by lia. rewrite zrange_snoc by lia. rewrite foldM_snoc, E1. cbn [bind].
    destruct (one_block a (Z.of_nat m) o1 HA ltac:(lia) R1 C1) as (o2 & E2 & R2 & C2 & P2). exists o2. split; [exact E2|]. split; [exact R2|]. split; [exact C2|].
    intros i j I J. rewrite P2, P1 by lia. destruct (block_range size lon C (Z.of_nat m) size1 ltac:(lia) lon_fit) as [_ [B2 _]].
    assert (BM : block_end size lon C (Z.of_nat m) = Z.of_nat m * size) by (unfold block_end; replace (Z.of_nat m =? lon) with false by lia; reflexivity). rewrite BM.
    destruct ((a * size <=? i) && (i <? block_end size lat R (a + 1))); cbn [andb]; [|reflexivity].
    destruct (Z.of_nat m * size <=? j) eqn:L1; cbn [andb].
    + destruct (j <? block_end size lon C (Z.of_nat m + 1)); [reflexivity|]. replace (j <? Z.of_nat m * size) with false by lia. reflexivity.
    + replace (j <? Z.of_nat m * size) with true by lia. replace (j <? block_end size lon C (Z.of_nat m + 1)) with true by lia. reflexivity.
Qed.
Lemma outer_blocks out : 1 <= lat -> 1 <= lon -> rows out = R -> cols out = C -> forall m : nat, Z.of_nat m <= lat ->
  exists out', foldM (fun o a => foldM (inner_step a) o (zrange 0 lon)) out (zrange 0 (Z.of_nat m)) = Ok out' /\ rows out' = R /\ cols out' = C /\
    forall i j, 0 <= i < R -> 0 <= j < C -> at_ out' i j = if i <? block_end size lat R (Z.of_nat m) then F i j else at_ out i j.
Proof.
  intros LA LO HR HC. induction m as [|m IH]; intros Hm.
  - exists out. split; [reflexivity|]. split; [exact HR|]. split; [exact HC|]. intros i j I J. unfold block_end. replace (Z.of_nat 0 =? lat) with false by lia. replace (i <? Z.of_nat 0 * size) with false by lia. reflexivity.
  - destruct IH as (o1 & E1 & R1 & C1 & P1); [lia|]. replace (Z.of_nat (S m)) with (Z.of_nat m + 1) by lia. rewrite zrange_snoc by lia. rewrite foldM_snoc, E1. cbn [bind].
    destruct (inner_blocks (Z.of_nat m) o1 LO ltac:(lia) R1 C1 (Z.to_nat lon) ltac:(lia)) as (o2 & E2 & R2 & C2 & P2). rewrite Z2Nat.id in E2, P2 by lia. exists o2. split; [exact E2|]. split; [exact R2|]. split; [exact C2|].
    intros i j I J. rewrite P2, P1 by lia. destruct (block_range size lat R (Z.of_nat m) size1 ltac:(lia) lat_fit) as [_ [B2 _]].
    assert (BM : block_end size lat R (Z.of_nat m) = Z.of_nat m * size) by (unfold block_end; replace (Z.of_nat m =? lat) with false by lia; reflexivity). rewrite BM.
    assert (BL : block_end size lon C lon = C) by (unfold block_end; rewrite Z.eqb_refl; reflexivity). rewrite BL. replace (j <? C) with true by lia. rewrite andb_true_r.
    destruct (Z.of_nat m * size <=? i) eqn:L1; cbn [andb].
    + destruct (i <? block_end size lat R (Z.of_nat m + 1)); [reflexivity|]. replace (i <? Z.of_nat m * size) with false by lia. reflexivity.
    + replace (i <? Z.of_nat m * size) with true by lia. replace (i <? block_end size lat R (Z.of_nat m + 1)) with true by lia. reflexivity.
Qed.
Lemma blocks_spec out : 1 <= lat -> 1 <= lon -> rows out = R -> cols out = C ->
  exists out', compute_blocks stat size lat lon ws out = Ok out' /\ rows out' = R /\ cols out' = C /\ forall i j, 0 <= i < R -> 0 <= j < C -> at_ out' i j = stat (at_ ws i j).
Proof.
  intros LA LO HR HC. destruct (outer_blocks out LA LO HR HC (Z.to_nat lat) ltac:(lia)) as (o & E & R' & C' & P). rewrite Z2Nat.id in E, P by lia.
  exists o. split; [exact E|]. split; [exact R'|]. split; [exact C'|]. intros i j I J. rewrite P by lia. unfold block_end. rewrite Z.eqb_refl. replace (i <? R) with true by lia. reflexivity.
Qed.
End Blocks.
Lemma foldM_id {A B} (f : A -> B -> result A) l a : (forall a b, f a b = Ok a) -> foldM f a l = Ok a.
Proof. intros H. induction l as [|x l IH]; [reflexivity|]. cbn. rewrite H. exact IH. Qed.
Lemma no_blocks {A B} (stat : list A -> B) size lat lon ws out : lat <= 0 \/ lon <= 0 -> compute_blocks stat size lat lon ws out = Ok out.
Proof.
  intros [H|H]; unfold compute_blocks.
  - rewrite (zrange_empty 0 lat) by lia. reflexivity.
  - rewrite (zrange_empty 0 lon) by lia. apply foldM_id. reflexivity.
Qed.
Lemma foldM_each {A B} (f : A -> B -> result A) (I : A -> Prop) l : (forall a b a', I a -> f a b = Ok a' -> I a') -> forall a t, I a -> foldM f a l = Ok t -> I t /\ forall x, In x l -> exists s s', I s /\ f s x = Ok s'.
Proof.
  intros H. induction l as [|y l IH]; intros a t Ia E.
  - cbn in E. injection E as <-. split; [exact Ia|intros x []].
  - cbn in E. destruct (f a y) as [a'|] eqn:F; [|discriminate]. cbn in E. destruct (IH a' t (H _ _ _ Ia F) E) as [It J]. split; [exact It|]. intros x [<-|X]; [exists a, a'; auto|apply J, X].
Qed.
Lemma foldM_error {A B} (f : A -> B -> result A) e0 l : (forall a b e, f a b = Err e -> e = e0) -> forall a e, foldM f a l = Err e -> e = e0.
Proof. intros H. induction l as [|y l IH]; intros a e E; [discriminate|]. cbn in E. destruct (f a y) as [a'|e'] eqn:F; cbn in E; [apply (IH _ _ E)|injection E as <-; apply (H _ _ _ F)]. Qed.
Lemma assign_shape {A} (a : array A) r c b a' : assign a r c b = Ok a' -> rows a' = rows a /\ cols a' = cols a.
Proof. unfold assign. destruct (slice_range (rows a) r), (slice_range (cols a) c). destruct (_ && _); [|discriminate]. intros E. injection E as <-. split; reflexivity. Qed.
Lemma assign_error {A} (a : array A) r c b e : assign a r c b = Err e -> e = ValueError.
Proof. unfold assign. destruct (slice_range (rows a) r), (slice_range (cols a) c). destruct (_ && _); [discriminate|]. intros E. injection E as <-. reflexivity. Qed.
Lemma blocks_mismatch {A B} (stat : list A -> B) size lat lon (ws : array (list A)) (out : array B) : 1 <= size -> 1 <= lat -> 1 <= lon -> (lat - 1) * size <= rows out -> (lon - 1) * size <= cols out ->
  rows ws = rows out + 1 \/ cols ws = cols out + 1 -> rows out <= rows ws -> cols out <= cols ws -> compute_blocks stat size lat lon ws out = Err ValueError.
Proof.
  intros S LA LO FA FO M GR GC. destruct (compute_blocks stat size lat lon ws out) as [t|e] eqn:E.
  - exfalso. unfold compute_blocks in E. set (I := fun a : array B => rows a = rows out /\ cols a = cols out).
    set (f := inner_step stat size lat lon ws). change (foldM (fun o a => foldM (f a) o (zrange 0 lon)) out (zrange 0 lat) = Ok t) in E.
    assert (ST : forall x a b a', I a -> f x a b = Ok a' -> I a') by (intros x a b a' [I1 I2] H; apply assign_shape in H; destruct H; split; congruence).
    assert (ST2 : forall a b a', I a -> foldM (f b) a (zrange 0 lon) = Ok a' -> I a') by (intros a b a' Ia H; exact (proj1 (foldM_each (f b) I _ (ST b) a a' Ia H))).
    destruct (foldM_each (fun o a => foldM (f a) o (zrange 0 lon)) I _ ST2 out t (conj eq_refl eq_refl) E) as [_ J].
    destruct (J (lat - 1)) as (s & s' & Is & H); [apply in_zrange; lia|].
    destruct (foldM_each (f (lat - 1)) I _ (ST (lat - 1)) s s' Is H) as [_ K].
    destruct (K (lon - 1)) as (u & u' & [U1 U2] & H'); [apply in_zrange; lia|]. revert H'. unfold f, inner_step, assign, subarray, slice_range, block_slice. cbn [fst snd]. rewrite !Z.eqb_refl, U1, U2. cbn [amap rows cols].
    set (cnd := (_ =? _) && _). assert (CF : cnd = false); [|rewrite CF; discriminate]. unfold cnd. apply andb_false_iff. destruct M as [M|M]; [left|right]; lia.
  - f_equal. unfold compute_blocks in E. eapply foldM_error; [|exact E]. cbn beta. intros a b e' H. eapply foldM_error; [|exact H]. cbn beta. intros a1 b1 e1 H1. eapply assign_error, H1.
Qed.

(* ------------------------------------------------------------------ windowed statistics *)
Theorem window_mean_spec image r s : 10 <= rows image -> 10 <= cols image -> 0 <= r <= rows image - 1 -> 0 <= s ->
  exists out, compute_window_mean image (2 * r + 1) (2 * s + 1) = Ok out /\ same_shape_as out image /\ forall i j, inside image i j -> at_ out i j = mean (window image r s i j).
Proof.
  intros R C HR HS. unfold compute_window_mean. destruct (strided_window image r s ltac:(lia) ltac:(lia) HR HS) as (ws & E & RW & CW & P). rewrite E. cbn [bind].
  assert (D1 : 1 <= rows image / 10 /\ (rows image / 10 - 1) * 10 <= rows image) by (pose proof (Z.div_mod (rows image) 10); pose proof (Z.mod_pos_bound (rows image) 10); lia).
  assert (D2 : 1 <= cols image / 10 /\ (cols image / 10 - 1) * 10 <= cols image) by (pose proof (Z.div_mod (cols image) 10); pose proof (Z.mod_pos_bound (cols image) 10); lia).
  destruct (blocks_spec mean 10 (rows image / 10) (cols image / 10) (rows image) (cols image) ws ltac:(lia) ltac:(lia) ltac:(lia) RW CW (filled (rows image) (cols image) 0%Qc) ltac:(lia) ltac:(lia) eq_refl eq_refl) as (o & EO & RO & CO & PO).
  exists o. split; [exact EO|]. split; [split; assumption|]. intros i j [I J]. rewrite PO by assumption. rewrite P by (split; assumption). reflexivity.
Qed.
Lemma ceil10 n : 1 <= n -> 1 <= - (- n / 10) /\ (- (- n / 10) - 1) * 10 <= n.
Proof. intros N. pose proof (Z.div_mod (- n) 10). pose proof (Z.mod_pos_bound (- n) 10). lia. Qed.
Theorem window_quartiles_spec image r s : 1 <= rows image -> 1 <= cols image -> 0 <= r <= rows image - 1 -> 0 <= s ->
  exists out, compute_window_median_quartiles image (2 * r + 1) (2 * s + 1) = Ok out /\ same_shape_as out image /\ forall i j, inside image i j -> at_ out i j = percentiles (window image r s i j).
Proof.
  intros R C HR HS. unfold compute_window_median_quartiles, COMPUTATION_BLOCKSIZE. destruct (strided_window image r s ltac:(lia) ltac:(lia) HR HS) as (ws & E & RW & CW & P). rewrite E. cbn [bind]. cbv zeta.
  destruct (ceil10 (rows image) R) as [D1 F1]. destruct (ceil10 (cols image) C) as [D2 F2].
  destruct (blocks_spec percentiles 10 _ _ (rows image) (cols image) ws ltac:(lia) F1 F2 RW CW (filled (rows image) (cols image) {| lower := 0%Qc; median := 0%Qc; upper := 0%Qc |}) D1 D2 eq_refl eq_refl) as (o & EO & RO & CO & PO).
  exists o. split; [exact EO|]. split; [split; assumption|]. intros i j [I J]. rewrite PO by assumption. rewrite P by (split; assumption). reflexivity.
Qed.
Theorem window_even image wl wo : 1 <= rows image -> 1 <= cols image -> 0 <= wl -> 0 <= wo -> Z.even wl = true \/ Z.even wo = true ->
  compute_window_median_quartiles image wl wo = Err ValueError /\ (10 <= rows image -> 10 <= cols image -> compute_window_mean image wl wo = Err ValueError).
Proof.
  intros R C W1 W2 EV. destruct (strided_even image wl wo R C W1 W2) as (ws & E & RW & CW). unfold compute_window_median_quartiles, compute_window_mean, COMPUTATION_BLOCKSIZE. rewrite E. cbn [bind]. cbv zeta.
  assert (M : rows ws = rows image + 1 \/ cols ws = cols image + 1) by (destruct EV as [V|V]; rewrite V in *; auto). assert (GR : rows image <= rows ws) by (destruct (Z.even wl); lia). assert (GC : cols image <= cols ws) by (destruct (Z.even wo); lia).
  destruct (ceil10 (rows image) R) as [D1 F1]. destruct (ceil10 (cols image) C) as [D2 F2]. split.
  - apply blocks_mismatch; cbn [filled rows cols]; assumption || lia.
  - intros R10 C10. pose proof (Z.div_mod (rows image) 10). pose proof (Z.mod_pos_bound (rows image) 10). pose proof (Z.div_mod (cols image) 10). pose proof (Z.mod_pos_bound (cols image) 10). apply blocks_mismatch; cbn [filled rows cols]; assumption || lia.
Qed.
Theorem window_mean_small image wl wo : 1 <= rows image -> 1 <= cols image -> 0 <= wl -> 0 <= wo -> rows image < 10 \/ cols image < 10 ->
  compute_window_mean image wl wo = Ok (filled (rows image) (cols image) 0%Qc).
Proof.
  intros R C W1 W2 S. destruct (strided_even image wl wo R C W1 W2) as (ws & E & RW & CW). unfold compute_window_mean. rewrite E. cbn [bind]. apply no_blocks.
  destruct S as [S|S]; [left|right]; rewrite Z.div_small by lia; lia.
Qed.

(* ------------------------------------------------------------------ percentiles *)
Lemma insertQ_perm x l : Permutation (insertQ x l) (x :: l).
Proof. induction l as [|y l IH]; cbn; [reflexivity|]. destruct (Qclt_bool y x); [|reflexivity]. rewrite IH. apply perm_swap. Qed.
Lemma sortQ_perm l : Permutation (sortQ l) l.
Proof. induction l as [|x l IH]; cbn; [reflexivity|]. rewrite insertQ_perm, IH. reflexivity. Qed.
Lemma insertQ_sorted x l : StronglySorted Qcle l -> StronglySorted Qcle (insertQ x l).
Proof.
  induction l as [|y l IH]; intros S; cbn; [repeat constructor|]. destruct (Qclt_bool y x) eqn:E.
  - apply StronglySorted_inv in S. destruct S as [S F]. constructor; [apply IH, S|]. apply Qclt_bool_iff in E. eapply Permutation_Forall; [symmetry; apply insertQ_perm|]. constructor; [apply Qclt_le_weak, E|exact F].
  - apply Qclt_bool_false in E. constructor; [exact S|]. apply StronglySorted_inv in S. destruct S as [_ F]. constructor; [exact E|]. eapply Forall_impl; [|exact F]. intros a A. eapply Qcle_trans; eassumption.
Qed.
Lemma sortQ_sorted l : StronglySorted Qcle (sortQ l).
Proof. induction l as [|x l IH]; cbn; [constructor|apply insertQ_sorted, IH]. Qed.
Lemma sortQ_zlen l : zlen (sortQ l) = zlen l.
Proof. unfold zlen. rewrite (Permutation_length (sortQ_perm l)). reflexivity. Qed.
Lemma sorted_nth l : StronglySorted Qcle l -> forall a b, (a <= b < length l)%nat -> (nth a l 0 <= nth b l 0)%Qc.
Proof.
  induction l as [|x l IH]; intros S a b H; [cbn in H; lia|]. apply StronglySorted_inv in S. destruct S as [S F]. destruct a as [|a].
  - destruct b as [|b]; [apply Qcle_refl|]. cbn. rewrite Forall_forall in F. apply F, nth_In. cbn in H. lia.
  - destruct b as [|b]; [lia|]. cbn. apply IH; [exact S|cbn in H; lia].
Qed.
(* the value at a position counted in hundredths *)
Definition value_at (s : list Qc) (n position : Z) : Qc :=
  let v k := nth (Z.to_nat k) s 0%Qc in
  (v (position / 100)%Z * (1 - qz (position mod 100) / qz 100) + v (Z.min (position / 100 + 1) (n - 1)) * (qz (position mod 100) / qz 100))%Qc.
Lemma percentile_value q l : percentile q l = value_at (sortQ l) (zlen l) (q * (zlen l - 1)).
Proof. reflexivity. Qed.
Lemma hundredth p : (0 <= qz (p mod 100) / qz 100)%Qc /\ (qz (p mod 100) / qz 100 < 1)%Qc.
Proof.
  pose proof (Z.mod_pos_bound p 100 ltac:(lia)) as B. assert (I : (0 < / qz 100)%Qc) by (vm_compute; reflexivity). split; unfold Qcdiv.
  - replace 0%Qc with (qz 0 * / qz 100)%Qc by (rewrite qz_0; ring). apply Qcmult_le_compat_r; [apply qz_le; lia|apply Qclt_le_weak, I].
  - replace 1%Qc with (qz 100 * / qz 100)%Qc by (apply Qcmult_inv_r; discriminate). apply Qcmult_lt_compat_r; [exact I|apply qz_lt; lia].
Qed.
Lemma mix a b w : (a <= b)%Qc -> (0 <= w)%Qc -> (w <= 1)%Qc -> (a <= a * (1 - w) + b * w)%Qc /\ (a * (1 - w) + b * w <= b)%Qc.
Proof.
  intros AB W0 W1. assert (D : (0 <= b - a)%Qc) by (apply Qcle_minus_iff in AB; exact AB). assert (D1 : (0 <= 1 - w)%Qc) by (apply Qcle_minus_iff in W1; exact W1). split; apply Qcle_minus_iff.
  - replace (a * (1 - w) + b * w + - a)%Qc with (w * (b - a))%Qc by ring. replace 0%Qc with (w * 0)%Qc by ring. rewrite (Qcmult_comm w 0), (Qcmult_comm w). apply Qcmult_le_compat_r; assumption.
  - replace (b + - (a * (1 - w) + b * w))%Qc with ((1 - w) * (b - a))%Qc by ring. replace 0%Qc with (0 * (b - a))%Qc by ring. apply Qcmult_le_compat_r; assumption.
Qed.
Lemma value_between s n p : StronglySorted Qcle s -> zlen s = n -> 0 <= p <= 100 * (n - 1) -> 1 <= n ->
  (nth (Z.to_nat (p / 100)) s 0 <= value_at s n p)%Qc /\ (value_at s n p <= nth (Z.to_nat (Z.min (p / 100 + 1) (n - 1))) s 0)%Qc.
Proof.
  intros S L P N. destruct (hundredth p) as [W0 W1]. unfold zlen in L. assert (K : 0 <= p / 100 <= n - 1) by (split; [apply Z.div_pos; lia|apply Z.div_le_upper_bound; lia]).
  apply mix; [|exact W0|apply Qclt_le_weak, W1]. apply sorted_nth; [exact S|lia].
Qed.
Lemma value_monotone s n p p' : StronglySorted Qcle s -> zlen s = n -> 0 <= p <= p' -> p' <= 100 * (n - 1) -> 1 <= n -> (value_at s n p <= value_at s n p')%Qc.
Proof.
  intros S L P P' N. unfold zlen in L. assert (K : 0 <= p / 100 <= n - 1) by (split; [apply Z.div_pos; lia|apply Z.div_le_upper_bound; lia]). assert (K' : 0 <= p' / 100 <= n - 1) by (split; [apply Z.div_pos; lia|apply Z.div_le_upper_bound; lia]).
  assert (KK : p / 100 <= p' / 100) by (apply Z.div_le_mono; lia). destruct (Z.eq_dec (p / 100) (p' / 100)) as [E|E].
  - unfold value_at. rewrite <- E. set (a := nth (Z.to_nat (p / 100)) s 0%Qc). set (b := nth _ s 0%Qc). assert (AB : (a <= b)%Qc) by (apply sorted_nth; [exact S|lia]).
    assert (W : (qz (p mod 100) / qz 100 <= qz (p' mod 100) / qz 100)%Qc). { apply Qcmult_le_compat_r; [apply qz_le; pose proof (Z.div_mod p 100); pose proof (Z.div_mod p' 100); lia|]. vm_compute. discriminate. }
    set (w := (qz (p mod 100) / qz 100)%Qc) in *. set (w' := (qz (p' mod 100) / qz 100)%Qc) in *. apply Qcle_minus_iff. replace (a * (1 - w') + b * w' + - (a * (1 - w) + b * w))%Qc with ((w' - w) * (b - a))%Qc by ring.
    replace 0%Qc with (0 * (b - a))%Qc by ring. apply Qcmult_le_compat_r; [apply Qcle_minus_iff in W; exact W|apply Qcle_minus_iff in AB; exact AB].
  - destruct (value_between s n p S L ltac:(lia) N) as [_ H1]. destruct (value_between s n p' S L ltac:(lia) N) as [H2 _]. eapply Qcle_trans; [exact H1|]. eapply Qcle_trans; [|exact H2]. apply sorted_nth; [exact S|lia].
Qed.
Lemma percentile_monotone q q' l : l <> [] -> 0 <= q <= q' -> q' <= 100 -> (percentile q l <= percentile q' l)%Qc.
Proof.
  intros NE Q Q'. rewrite !percentile_value. assert (N : 1 <= zlen l) by (destruct l; [congruence|unfold zlen; cbn; lia]). apply value_monotone; [apply sortQ_sorted|apply sortQ_zlen|nia|nia|exact N].
Qed.
Lemma percentile_between q l : l <> [] -> 0 <= q <= 100 -> exists a b, In a l /\ In b l /\ (a <= percentile q l)%Qc /\ (percentile q l <= b)%Qc.
Proof.
  intros NE Q. rewrite percentile_value. assert (N : 1 <= zlen l) by (destruct l; [congruence|unfold zlen; cbn; lia]). set (n := zlen l) in *.
  assert (P : 0 <= q * (n - 1) <= 100 * (n - 1)) by nia. destruct (value_between (sortQ l) n _ (sortQ_sorted l) (sortQ_zlen l) P N) as [H1 H2].
  assert (K : 0 <= q * (n - 1) / 100 <= n - 1) by (split; [apply Z.div_pos; lia|apply Z.div_le_upper_bound; lia]). assert (LS := sortQ_zlen l). unfold zlen in LS. unfold n, zlen in *.
  eexists. eexists. split; [|split; [|split; [exact H1|exact H2]]]; (eapply Permutation_in; [apply sortQ_perm|apply nth_In; lia]).
Qed.
Lemma percentile_constant q l c : l <> [] -> 0 <= q <= 100 -> (forall x, In x l -> x = c) -> percentile q l = c.
Proof.
  intros NE Q H. destruct (percentile_between q l NE Q) as (a & b & A & B & H1 & H2). rewrite (H a A) in H1. rewrite (H b B) in H2. apply Qcle_antisym; assumption.
Qed.
Lemma nth_error_nth'' (s : list Qc) k : (k < length s)%nat -> nth_error s k = Some (nth k s 0%Qc).
Proof. apply nth_error_nth'. Qed.
Lemma percentile_is q l : l <> [] -> 0 <= q <= 100 -> is_percentile q l (percentile q l).
Proof.
  intros NE Q. rewrite percentile_value. assert (N : 1 <= zlen l) by (destruct l; [congruence|unfold zlen; cbn; lia]). set (n := zlen l) in *.
  assert (P : 0 <= q * (n - 1) <= 100 * (n - 1)) by nia. set (p := q * (n - 1)) in *. assert (K : 0 <= p / 100 <= n - 1) by (split; [apply Z.div_pos; lia|apply Z.div_le_upper_bound; lia]). assert (LS := sortQ_zlen l). fold n in LS. unfold zlen in LS.
  destruct (hundredth p) as [W0 W1]. exists (sortQ l), (p / 100), (qz (p mod 100) / qz 100)%Qc. fold n. split; [apply sortQ_perm|]. split; [apply sortQ_sorted|]. split; [lia|]. split; [exact W0|]. split; [exact W1|].
  split. { replace (qz q * (qz n - 1))%Qc with (qz p) by (unfold p; rewrite qz_mult, qz_minus, qz_1; reflexivity). rewrite (Z.div_mod p 100) at 3 by lia. rewrite qz_plus, qz_mult. field. intros H. discriminate. }
  split. { rewrite nth_error_nth'' by lia. discriminate. }
  destruct (Z.eq_dec (p mod 100) 0) as [E|E].
  - left. rewrite E. split; [vm_compute; reflexivity || (apply Qc_is_canon; vm_compute; reflexivity)|]. rewrite nth_error_nth'' by lia. f_equal. unfold value_at. rewrite E. replace (qz 0 / qz 100)%Qc with 0%Qc by (apply Qc_is_canon; vm_compute; reflexivity). ring.
  - right. pose proof (Z.mod_pos_bound p 100). pose proof (Z.div_mod p 100). assert (p / 100 + 1 <= n - 1) by lia. exists (nth (Z.to_nat (p / 100)) (sortQ l) 0%Qc), (nth (S (Z.to_nat (p / 100))) (sortQ l) 0%Qc).
    rewrite !nth_error_nth'' by lia. split; [reflexivity|]. split; [reflexivity|]. unfold value_at. rewrite Z.min_l by lia. replace (Z.to_nat (p / 100 + 1)) with (S (Z.to_nat (p / 100))) by lia. ring.
Qed.
Lemma sortedQ_unique l1 : forall l2, StronglySorted Qcle l1 -> StronglySorted Qcle l2 -> Permutation l1 l2 -> l1 = l2.
Proof.
  induction l1 as [|x l1 IH]; intros l2 S1 S2 P; [apply Permutation_nil in P; congruence|]. destruct l2 as [|y l2]; [apply Permutation_sym, Permutation_nil in P; discriminate|].
  apply StronglySorted_inv in S1, S2. destruct S1 as [S1 F1], S2 as [S2 F2]. assert (x = y); [|subst y; f_equal; apply IH; [exact S1|exact S2|apply Permutation_cons_inv in P; exact P]].
  rewrite Forall_forall in F1, F2. assert (IX : In x (y :: l2)) by (apply (Permutation_in _ P); left; reflexivity). assert (IY : In y (x :: l1)) by (apply (Permutation_in _ (Permutation_sym P)); left; reflexivity).
  destruct IX as [<-|IX]; [reflexivity|]. destruct IY as [->|IY]; [reflexivity|]. apply F2 in IX. apply F1 in IY. apply Qcle_antisym; assumption.
Qed.
Lemma is_percentile_unique q l x y : is_percentile q l x -> is_percentile q l y -> x = y.
Proof.
  intros (s & k & f & P & S & K & F0 & F1 & E & _ & X) (s' & k' & f' & P' & S' & K' & F0' & F1' & E' & _ & Y).
  assert (s' = s) by (apply sortedQ_unique; [exact S'|exact S|rewrite P'; symmetry; exact P]). subst s'. rewrite <- E in E'.
  assert (LE : forall k k' f f', (qz k' + f' = qz k + f)%Qc -> (0 <= f)%Qc -> (f' < 1)%Qc -> k <= k').
  { clear. intros k k' f f' E F F'. apply (qz_lt_plus1 k k' (qz k + f)%Qc); [|rewrite <- E].
    - replace (qz k) with (qz k + 0)%Qc at 1 by ring. apply Qcplus_le_compat; [apply Qcle_refl|exact F].
    - apply Qclt_minus_iff. apply Qclt_minus_iff in F'. replace (qz k' + 1 + - (qz k' + f'))%Qc with (1 + - f')%Qc by ring. exact F'. }
  assert (k' = k) by (apply Z.le_antisymm; [apply (LE k' k f' f (eq_sym E') F0' F1)|apply (LE k k' f f' E' F0 F1')]). subst k'.
  assert (f' = f). { apply (f_equal (fun z => z - qz k)%Qc) in E'. replace (qz k + f' - qz k)%Qc with f' in E' by ring. replace (qz k + f - qz k)%Qc with f in E' by ring. exact E'. } subst f'.
  destruct X as [[Z1 X]|(a & b & A & B & X)], Y as [[Z2 Y]|(a' & b' & A' & B' & Y)].
  - congruence.
  - rewrite X in A'. injection A' as <-. rewrite Y, Z1. ring.
  - rewrite Y in A. injection A as <-. rewrite X, Z2. ring.
  - rewrite A in A'. rewrite B in B'. injection A' as <-. injection B' as <-. congruence.
Qed.

(* ------------------------------------------------------------------ extension of regions *)
Lemma window_In {A} (a : array A) r s i j x : In x (window a r s i j) <-> exists di dj, - r <= di <= r /\ - s <= dj <= s /\ x = at_ a (mirror (rows a) (i + di)) ((j + dj) mod cols a).
Proof.
  unfold window. rewrite in_flat_map. split.
  - intros (di & D & I). apply in_map_iff in I. destruct I as (dj & <- & J). apply in_zrange in D, J. exists di, dj. split; [lia|]. split; [lia|reflexivity].
  - intros (di & dj & D & J & ->). exists di. split; [apply in_zrange; lia|]. apply in_map_iff. exists dj. split; [reflexivity|apply in_zrange; lia].
Qed.
Lemma window_nearby {A} (a : array A) r s i j (P : A -> Prop) : 0 <= r <= rows a - 1 -> 0 <= s -> inside a i j ->
  (exists x, In x (window a r s i j) /\ P x) <-> nearby a r s i j (fun i' j' => P (at_ a i' j')).
Proof.
  intros R S [I J]. split.
  - intros (x & X & PX). apply window_In in X. destruct X as (di & dj & D & DJ & ->). exists (mirror (rows a) (i + di)), ((j + dj) mod cols a).
    split; [apply mirror_range; lia|]. split; [unfold mirror; destruct (i + di <? 0) eqn:A1; [lia|destruct (rows a <=? i + di) eqn:A2; lia]|]. split; [exists dj; auto|exact PX].
  - intros (i' & j' & I' & D & (dj & DJ & ->) & PX). eexists. split; [|exact PX]. apply window_In. exists (i' - i), dj. split; [lia|]. split; [exact DJ|]. replace (i + (i' - i)) with i' by lia.
    unfold mirror. replace (i' <? 0) with false by lia. replace (rows a <=? i') with false by lia. reflexivity.
Qed.
Lemma window_nonempty {A} (a : array A) r s i j : 0 <= r -> 0 <= s -> window a r s i j <> [].
Proof. intros R S E. assert (I : In (at_ a (mirror (rows a) (i + 0)) ((j + 0) mod cols a)) (window a r s i j)) by (apply window_In; exists 0, 0; split; [lia|split; [lia|reflexivity]]). rewrite E in I. destruct I. Qed.
Lemma sum_numbers l : (0 <= sumQ (map as_number l))%Qc /\ (sumQ (map as_number l) <= qz (zlen l))%Qc /\ (sumQ (map as_number l) = 0%Qc <-> ~ In true l).
Proof.
  induction l as [|b l (H0 & H1 & H2)]; [cbn; split; [apply Qcle_refl|split; [vm_compute; discriminate|split; [intros _ []|reflexivity]]]|].
  cbn [map sumQ fold_right]. fold (sumQ (map as_number l)). replace (zlen (b :: l)) with (1 + zlen l) by (unfold zlen; cbn [length]; lia). rewrite qz_plus, qz_1. destruct b; cbn [as_number].
  - assert (P : (0 < 1 + sumQ (map as_number l))%Qc). { apply Qclt_le_trans with (1 + 0)%Qc; [vm_compute; reflexivity|]. apply Qcplus_le_compat; [apply Qcle_refl|exact H0]. }
    split; [apply Qclt_le_weak, P|]. split; [apply Qcplus_le_compat; [apply Qcle_refl|exact H1]|]. split; [intros E; rewrite E in P; discriminate|]. intros N. exfalso. apply N. left. reflexivity.
  - replace (0 + sumQ (map as_number l))%Qc with (sumQ (map as_number l)) by ring. split; [exact H0|]. split.
    + eapply Qcle_trans; [exact H1|]. replace (qz (zlen l)) with (0 + qz (zlen l))%Qc at 1 by ring. apply Qcplus_le_compat; [vm_compute; discriminate|apply Qcle_refl].
    + rewrite H2. cbn. split; [intros N [E|T]; [discriminate|exact (N T)]|tauto].
Qed.
Lemma mean_positive l : l <> [] -> (trunc (1 - mean (map as_number l))%Qc =? 0) = true <-> In true l.
Proof.
  intros NE. destruct (sum_numbers l) as (H0 & H1 & H2). unfold mean. assert (L : 1 <= zlen l) by (destruct l; [congruence|unfold zlen; cbn; lia]).
  replace (zlen (map as_number l)) with (zlen l) by (unfold zlen; rewrite map_length; reflexivity). set (sm := sumQ (map as_number l)) in *. set (n := zlen l) in *.
  assert (NP : (0 < qz n)%Qc) by (rewrite <- qz_0; apply qz_lt; lia). assert (IP : (0 < / qz n)%Qc). { unfold Qclt in *. cbn. rewrite Qred_correct. apply Qinv_lt_0_compat. exact NP. }
  assert (M1 : (0 <= 1 - sm / qz n)%Qc). { apply Qcle_minus_iff. replace (1 - sm / qz n + - 0)%Qc with (1 + - (sm / qz n))%Qc by ring. apply -> Qcle_minus_iff. replace 1%Qc with (qz n * / qz n)%Qc by (apply Qcmult_inv_r; intros E; rewrite E in NP; discriminate). apply Qcmult_le_compat_r; [exact H1|apply Qclt_le_weak, IP]. }
  rewrite Z.eqb_eq, (trunc_nonneg _ 0 M1), qz_0. split.
  - intros [_ H]. destruct (in_dec Bool.bool_dec true l) as [I|I]; [exact I|]. exfalso. apply H2 in I. rewrite I in H. replace (1 - 0 / qz n)%Qc with 1%Qc in H by (unfold Qcdiv; ring). discriminate.
  - intros I. split; [exact M1|]. assert (SP : (0 < sm)%Qc). { destruct (Qcle_lt_or_eq _ _ H0) as [|E]; [assumption|]. exfalso. apply H2; [symmetry; exact E|exact I]. }
    replace (0 + 1)%Qc with 1%Qc by ring. apply Qclt_minus_iff. replace (1 + - (1 - sm / qz n))%Qc with (sm / qz n)%Qc by ring. unfold Qcdiv. replace 0%Qc with (0 * / qz n)%Qc by ring. apply Qcmult_lt_compat_r; assumption.
Qed.
Lemma window_amap {A B} (f : A -> B) a r s i j : window (amap f a) r s i j = map f (window a r s i j).
Proof.
  unfold window. cbn [amap rows cols at_]. generalize (zrange (- r) (r + 1)) as l. induction l as [|x l IH]; [reflexivity|]. cbn [flat_map]. rewrite map_app, IH, map_map. reflexivity.
Qed.
Theorem extend_region_spec ex : 10 <= rows ex -> 10 <= cols ex -> exists out, extend_region ex = Ok out /\ same_shape_as out ex /\
  forall i j, inside ex i j -> at_ out i j = true <-> nearby ex 2 2 i j (fun i' j' => at_ ex i' j' = true).
Proof.
  intros R C. unfold extend_region. change OUTLIER_MASK_WINDOW with (2 * 2 + 1).
  destruct (window_mean_spec (amap as_number ex) 2 2) as (m & E & [S1 S2] & P); try (cbn [amap rows cols]; lia). rewrite E. cbn [bind]. eexists. split; [reflexivity|]. split; [split; assumption|].
  intros i j I. cbn [amap at_]. rewrite P by exact I. rewrite window_amap, mean_positive by (apply window_nonempty; lia). rewrite <- (window_nearby ex 2 2 i j (fun b => b = true)) by (lia || exact I).
  split; [intros T; exists true; auto|intros (x & X & ->); exact X].
Qed.

(* ------------------------------------------------------------------ quartiles by latitude blocks *)
Lemma subrows {A} (a : array A) p q : 0 <= p <= q -> q <= rows a -> 0 <= cols a ->
  rows (subarray a (p, Some q) (0, None)) = q - p /\ cols (subarray a (p, Some q) (0, None)) = cols a /\ forall i j, at_ (subarray a (p, Some q) (0, None)) i j = at_ a (p + i) j.
Proof.
  intros P Q C. unfold subarray, slice_range. cbn [fst snd rows cols at_]. split; [lia|]. split; [lia|]. intros i j. f_equal; lia.
Qed.
Lemma assign_rows {A} (a b : array A) p q : 0 <= p <= q -> q <= rows a -> 0 <= cols a -> rows b = q - p -> cols b = cols a ->
  exists a', assign a (p, Some q) (0, None) b = Ok a' /\ same_shape_as a' a /\ forall i j, 0 <= j < cols a -> at_ a' i j = if (p <=? i) && (i <? q) then at_ b (i - p) j else at_ a i j.
Proof.
  intros P Q C RB CB. unfold assign, slice_range. cbn [fst snd]. replace (Z.min p (rows a)) with p by lia. replace (Z.min q (rows a)) with q by lia. replace (Z.min 0 (cols a)) with 0 by lia.
  replace (rows b =? Z.max 0 (q - p)) with true by lia. replace (cols b =? Z.max 0 (cols a - 0)) with true by lia. cbn [andb]. eexists. split; [reflexivity|]. split; [split; reflexivity|].
  intros i j J. cbn [at_]. replace (0 <=? j) with true by lia. replace (j <? cols a) with true by lia. rewrite !andb_true_r. rewrite Z.sub_0_r. reflexivity.
Qed.
(* the window of a cell of a block extended by the range of the window is that in the whole field *)
Lemma window_block {A} (a : array A) r s p q lo hi i j : 0 <= r <= rows a - 1 -> 0 <= lo < hi -> hi <= rows a -> 0 <= cols a -> p = Z.max (lo - r) 0 -> q = Z.min (hi + r) (rows a) -> lo <= i < hi ->
  window (subarray a (p, Some q) (0, None)) r s (i - p) j = window a r s i j.
Proof.
  intros R L H C -> -> I. destruct (subrows a (Z.max (lo - r) 0) (Z.min (hi + r) (rows a)) ltac:(lia) ltac:(lia) C) as (RS & CS & AT). unfold window. rewrite CS, RS.
  apply flat_map_ext'. intros di D. apply in_zrange in D. apply map_ext. intros dj. rewrite AT. f_equal. unfold mirror.
  repeat match goal with |- context [if ?c then _ else _] => destruct c eqn:?; try lia end.
Qed.
Section Iqr.
Variables (lat_cells max_lat max_lon bs : Z) (lon_cells : Z -> Z) (data : array Qc).
Let r := Z.min lat_cells max_lat.
Let s k := Z.min (lon_cells k) max_lon.
Hypothesis bs1 : 1 <= bs.
Hypothesis r_range : 0 <= r <= rows data - 1.
Hypothesis s_range : forall k, 0 <= s k.
Hypothesis cols1 : 1 <= cols data.
Definition iqr_step (out : array (option quartiles)) (block_ind : Z) : result (array (option quartiles)) :=
    let n := rows data in
    let lat_ind_0 := block_ind * bs in
    let lat_ind_1 := Z.min ((block_ind + 1) * bs) n in
    let latitude_range_grid := Z.min lat_cells max_lat in
    let window_latitude := 2 * latitude_range_grid + 1 in
    let longitude_range_grid := Z.min (lon_cells block_ind) max_lon in
    let window_longitude := 2 * longitude_range_grid + 1 in
    let extended_lat_ind_0 := Z.max (lat_ind_0 - latitude_range_grid) 0 in
    let extended_lat_ind_1 := Z.min ((block_ind + 1) * bs + latitude_range_grid) n in
    let block_data_array := subarray data (extended_lat_ind_0, Some extended_lat_ind_1) (0, None) in
    do block <- compute_window_median_quartiles block_data_array window_latitude window_longitude;
    let extract_lat_ind_0 := lat_ind_0 - extended_lat_ind_0 in
    let extract_lat_ind_1 := extract_lat_ind_0 + (lat_ind_1 - lat_ind_0) in
    assign out (lat_ind_0, Some lat_ind_1) (0, None) (amap Some (subarray block (extract_lat_ind_0, Some extract_lat_ind_1) (0, None))).
Lemma iqr_one out k : 0 <= k -> (k + 1) * bs <= rows data -> rows out = rows data -> cols out = cols data ->
  exists out', iqr_step out k = Ok out' /\ rows out' = rows data /\ cols out' = cols data /\
    forall i j, inside data i j -> at_ out' i j = if (k * bs <=? i) && (i <? (k + 1) * bs) then Some (percentiles (window data r (s k) i j)) else at_ out i j.
Proof.
  intros K F RO CO. unfold iqr_step. cbv zeta. fold r. fold (s k). set (lo := k * bs). set (hi := (k + 1) * bs) in *. assert (LH : 0 <= lo < hi) by (unfold lo, hi; nia).
  replace (Z.min hi (rows data)) with hi by lia. set (p := Z.max (lo - r) 0). set (q := Z.min (hi + r) (rows data)). set (blk := subarray data (p, Some q) (0, None)).
  destruct (subrows data p q ltac:(lia) ltac:(lia) ltac:(lia)) as (RB & CB & AB). fold blk in RB, CB, AB.
  destruct (window_quartiles_spec blk r (s k)) as (st & E & [S1 S2] & P); [lia|lia|lia|apply s_range|]. rewrite E. cbn [bind].
  destruct (subrows st (lo - p) (lo - p + (hi - lo)) ltac:(lia) ltac:(lia) ltac:(lia)) as (RS & CS & AS).
  destruct (assign_rows out (amap Some (subarray st (lo - p, Some (lo - p + (hi - lo))) (0, None))) lo hi) as (o & EO & [R1 R2] & AO); [lia|lia|lia|cbn [amap rows]; lia|cbn [amap cols]; lia|].
  exists o. split; [exact EO|]. split; [lia|]. split; [lia|]. intros i j [I J]. rewrite AO by lia. destruct ((lo <=? i) && (i <? hi)) eqn:B; [|reflexivity]. apply andb_true_iff in B. destruct B as [B1 B2].
  cbn [amap at_]. rewrite AS, P by (split; lia). do 2 f_equal. replace (lo - p + (i - lo)) with (i - p) by lia. apply (window_block data r (s k) p q lo hi); lia || reflexivity.
Qed.
Theorem block_iqr_spec : exists out, block_iqr_by_range lat_cells lon_cells max_lat max_lon bs data = Ok out /\ same_shape_as out data /\
  forall i j, inside data i j -> at_ out i j = if i <? rows data / bs * bs then Some (percentiles (window data r (s (i / bs)) i j)) else None.
Proof.
  unfold block_iqr_by_range. cbv zeta. change (fun out block_ind => _) with iqr_step.
  assert (G : forall m : nat, Z.of_nat m <= rows data / bs -> exists out, foldM iqr_step (filled (rows data) (cols data) None) (zrange 0 (Z.of_nat m)) = Ok out /\ same_shape_as out data /\
    forall i j, inside data i j -> at_ out i j = if i <? Z.of_nat m * bs then Some (percentiles (window data r (s (i / bs)) i j)) else None).
  { induction m as [|m IH]; intros M.
    - eexists. split; [reflexivity|]. split; [split; reflexivity|]. intros i j [I J]. replace (i <? Z.of_nat 0 * bs) with false by lia. reflexivity.
    - destruct IH as (o & E & [RO CO] & P); [lia|]. replace (Z.of_nat (S m)) with (Z.of_nat m + 1) by lia. rewrite zrange_snoc by lia. rewrite foldM_snoc, E. cbn [bind].
      assert (FIT : (Z.of_nat m + 1) * bs <= rows data). { pose proof (Z.mul_div_le (rows data) bs ltac:(lia)). nia. }
      destruct (iqr_one o (Z.of_nat m) ltac:(lia) FIT RO CO) as (o' & E' & RO' & CO' & P'). exists o'. split; [exact E'|]. split; [split; assumption|]. intros i j I. rewrite P', P by exact I.
      destruct (Z.of_nat m * bs <=? i) eqn:L1; cbn [andb].
      + destruct (i <? (Z.of_nat m + 1) * bs) eqn:L2; [|replace (i <? Z.of_nat m * bs) with false by lia; reflexivity].
        assert (i / bs = Z.of_nat m) as ->; [|reflexivity]. symmetry. apply Z.div_unique with (r := i - Z.of_nat m * bs); lia.
      + replace (i <? Z.of_nat m * bs) with true by lia. replace (i <? (Z.of_nat m + 1) * bs) with true by lia. reflexivity. }
  assert (0 <= rows data / bs) by (apply Z.div_pos; lia). destruct (G (Z.to_nat (rows data / bs))) as (o & E & S & P); [lia|]. rewrite Z2Nat.id in E, P by lia. exists o. auto.
Qed.
End Iqr.

(* ------------------------------------------------------------------ flags *)
Lemma raise_spec mask n fl : same_shape_as mask fl -> 0 <= n -> exists out, raise_flag mask (bit n) fl = Ok out /\ same_shape_as out fl /\
  forall i j b, flag (at_ out i j) b <-> flag (at_ fl i j) b \/ (b = n /\ at_ mask i j = true).
Proof.
  intros [R C] N. unfold raise_flag, azip. assert (same_size mask fl = true) as -> by (unfold same_size; rewrite R, C, !Z.eqb_refl; reflexivity). eexists. split; [reflexivity|]. split; [split; assumption|]. intros i j b. cbn [at_].
  destruct (at_ mask i j); unfold flag; [rewrite Z.lor_spec, orb_true_iff; fold (flag (bit n) b); rewrite (bit_flag n b N); tauto|]. split; [tauto|]. intros [H|[_ H]]; [exact H|discriminate].
Qed.
Lemma no_flag i j b : ~ flag (at_ no_flags i j) b.
Proof. unfold flag. cbn. rewrite Z.testbit_0_l. discriminate. Qed.
Lemma raise_two m1 n1 m2 n2 : global m1 -> global m2 -> 0 <= n1 -> 0 <= n2 -> exists out, (do f <- raise_flag m1 (bit n1) no_flags; raise_flag m2 (bit n2) f) = Ok out /\ global out /\
  forall i j b, flag (at_ out i j) b <-> (b = n1 /\ at_ m1 i j = true) \/ (b = n2 /\ at_ m2 i j = true).
Proof.
  intros [R1 C1] [R2 C2] N1 N2. destruct (raise_spec m1 n1 no_flags) as (f1 & E1 & [S1 S1'] & F1); [split; assumption|exact N1|]. rewrite E1. cbn [bind]. change (rows f1 = 720) in S1. change (cols f1 = 1440) in S1'.
  destruct (raise_spec m2 n2 f1) as (f2 & E2 & [S2 S2'] & F2); [split; congruence|exact N2|]. exists f2. split; [exact E2|]. split; [split; congruence|]. intros i j b. rewrite F2, F1. pose proof (no_flag i j b). tauto.
Qed.
Lemma raise_one m n : global m -> 0 <= n -> exists out, raise_flag m (bit n) no_flags = Ok out /\ global out /\ forall i j b, flag (at_ out i j) b <-> b = n /\ at_ m i j = true.
Proof. intros [R C] N. destruct (raise_spec m n no_flags) as (f & E & [S S'] & F); [split; assumption|exact N|]. exists f. split; [exact E|]. split; [split; assumption|]. intros i j b. rewrite F. pose proof (no_flag i j b). tauto. Qed.
Lemma zip_lor a b : global a -> global b -> exists out, azip Z.lor a b = Ok out /\ global out /\ forall i j x, flag (at_ out i j) x <-> flag (at_ a i j) x \/ flag (at_ b i j) x.
Proof.
  intros [R C] [R' C']. unfold azip, same_size. rewrite R, C, R', C'. cbn [Z.eqb Pos.eqb andb]. eexists. split; [reflexivity|]. split; [split; reflexivity|]. intros i j x. cbn [at_]. unfold flag. rewrite Z.lor_spec, orb_true_iff. reflexivity.
Qed.
Lemma zip_spec {A B C} (f : A -> B -> C) a b : same_shape_as a b -> exists out, azip f a b = Ok out /\ same_shape_as out a /\ forall i j, at_ out i j = f (at_ a i j) (at_ b i j).
Proof. intros [R S]. unfold azip. assert (same_size a b = true) as -> by (unfold same_size; rewrite R, S, !Z.eqb_refl; reflexivity). eexists. split; [reflexivity|]. split; [split; reflexivity|reflexivity]. Qed.
Lemma nearby_ext {A B} (a : array A) (b : array B) r s i j (P Q : Z -> Z -> Prop) : rows a = rows b -> cols a = cols b -> 1 <= cols a -> (forall i' j', inside a i' j' -> P i' j' <-> Q i' j') -> nearby a r s i j P <-> nearby b r s i j Q.
Proof.
  intros R C C1 H. unfold nearby. rewrite <- R, <- C. split; intros (i' & j' & I & D & N & X); exists i', j'; (split; [exact I|]); (split; [exact D|]); (split; [exact N|]); apply H; auto; split; auto; destruct N as (d & _ & ->); apply Z.mod_pos_bound; lia.
Qed.
Lemma extremes_spec a lo hi : global a -> exists out, extremes_checks (Some a) lo hi = Ok out /\ global out /\ forall i j b, inside a i j -> flag (at_ out i j) b <->
  (b = 9 /\ nearby a 2 2 i j (fun i' j' => (at_ a i' j' < lo)%Qc)) \/ (b = 10 /\ nearby a 2 2 i j (fun i' j' => (hi < at_ a i' j')%Qc)).
Proof.
  intros [R C]. unfold extremes_checks.
  destruct (extend_region_spec (amap (fun v => Qclt_bool v lo) a)) as (l & EL & [RL CL] & PL); [cbn [amap rows]; lia|cbn [amap cols]; lia|].
  destruct (extend_region_spec (amap (fun v => Qclt_bool hi v) a)) as (h & EH & [RH CH] & PH); [cbn [amap rows]; lia|cbn [amap cols]; lia|]. rewrite EL. cbn [bind]. rewrite EH. cbn [bind]. cbn [amap rows cols] in *.
  destruct (raise_two l 9 h 10) as (o & E & G & F); [split; congruence|split; congruence|lia|lia|]. exists o. split; [exact E|]. split; [exact G|]. intros i j b I. rewrite F, PL, PH by exact I. cbn [amap at_].
  rewrite (nearby_ext (amap (fun v => Qclt_bool v lo) a) a 2 2 i j _ (fun i' j' => (at_ a i' j' < lo)%Qc)), (nearby_ext (amap (fun v => Qclt_bool hi v) a) a 2 2 i j _ (fun i' j' => (hi < at_ a i' j')%Qc)); [reflexivity| | | | | | | |]; try (cbn [amap rows cols]; reflexivity || lia); intros i' j' _; apply Qclt_bool_iff.
Qed.
Lemma quartiles_are l : l <> [] -> is_percentile 25 l (lower (percentiles l)) /\ is_percentile 50 l (median (percentiles l)) /\ is_percentile 75 l (upper (percentiles l)).
Proof. intros N. cbn [percentiles lower median upper]. split; [|split]; apply percentile_is; lia || exact N. Qed.
Lemma below_far limit l v : l <> [] -> below_limit limit v (Some (percentiles l)) = true <-> far_below limit l v.
Proof.
  intros N. destruct (quartiles_are l N) as (Q1 & Q2 & Q3). unfold below_limit. rewrite Qclt_bool_iff. split.
  - intros H. exists (lower (percentiles l)), (median (percentiles l)). auto.
  - intros (q1 & q2 & P1 & P2 & H). rewrite (is_percentile_unique _ _ _ _ Q1 P1), (is_percentile_unique _ _ _ _ Q2 P2). exact H.
Qed.
Lemma above_far limit l v : l <> [] -> above_limit limit v (Some (percentiles l)) = true <-> far_above limit l v.
Proof.
  intros N. destruct (quartiles_are l N) as (Q1 & Q2 & Q3). unfold above_limit. rewrite Qclt_bool_iff. split.
  - intros H. exists (median (percentiles l)), (upper (percentiles l)). auto.
  - intros (q2 & q3 & P2 & P3 & H). rewrite (is_percentile_unique _ _ _ _ Q3 P3), (is_percentile_unique _ _ _ _ Q2 P2). exact H.
Qed.
Lemma window_ext {A} (a b : array A) r s i j : 1 <= cols a -> 0 <= r <= rows a - 1 -> 0 <= i < rows a -> rows a = rows b -> cols a = cols b -> (forall i j, inside a i j -> at_ a i j = at_ b i j) -> window a r s i j = window b r s i j.
Proof.
  intros C1 R I E1 E2 H. unfold window. rewrite <- E1, <- E2. apply flat_map_ext'. intros di D. apply in_zrange in D. apply map_ext. intros dj. apply H. split; [apply mirror_range; lia|apply Z.mod_pos_bound; lia].
Qed.
Lemma areal_spec lat_cells lon_cells altitude a limit : global a -> global altitude -> 0 <= lat_cells -> (forall k, 0 <= lon_cells k) ->
  exists out, areal_checks lat_cells lon_cells altitude (Some a) limit = Ok out /\ global out /\ forall i j b, inside a i j -> flag (at_ out i j) b <->
  let around i' j' := window (sea_level altitude a) (Z.min lat_cells 50) (Z.min (lon_cells (i' / 20)) 50) i' j' in
  (b = 7 /\ nearby a 2 2 i j (fun i' j' => far_below limit (around i' j') (at_ (sea_level altitude a) i' j'))) \/
  (b = 8 /\ nearby a 2 2 i j (fun i' j' => far_above limit (around i' j') (at_ (sea_level altitude a) i' j'))).
Proof.
  intros [R C] [RA CA] L S. unfold areal_checks, altitude_adjustment.
  destruct (zip_spec (fun al v => v - LAPSE_RATE * (al * METRES_TO_KM))%Qc altitude a) as (adj & EA & [R1 C1] & PA); [split; congruence|]. rewrite EA. cbn [bind].
  assert (AE : forall i j, at_ adj i j = at_ (sea_level altitude a) i j).
  { intros i j. rewrite PA. unfold sea_level. cbn [at_]. change LAPSE_RATE with (- Q2Qc (9 # 2))%Qc. replace METRES_TO_KM with (/ qz 1000)%Qc by (apply Qc_is_canon; vm_compute; reflexivity). unfold Qcdiv. ring. }
  unfold MAX_LATITUDE_SEARCH_RANGE_GRID_CELLS, MAX_LONGITUDE_SEARCH_RANGE_GRID_CELLS, LATITUDE_BLOCK_SIZE.
  destruct (block_iqr_spec lat_cells 50 50 20 lon_cells adj) as (st & ES & [R2 C2] & PS); [lia|lia|intros k; specialize (S k); lia|lia|]. rewrite ES. cbn [bind].
  destruct (zip_spec (below_limit limit) adj st) as (l & EL & [R3 C3] & PL); [split; congruence|]. destruct (zip_spec (above_limit limit) adj st) as (h & EH & [R4 C4] & PH); [split; congruence|]. rewrite EL. cbn [bind]. rewrite EH. cbn [bind].
  destruct (extend_region_spec l) as (xl & XL & [R5 C5] & PXL); [lia|lia|]. destruct (extend_region_spec h) as (xh & XH & [R6 C6] & PXH); [lia|lia|]. rewrite XL. cbn [bind]. rewrite XH. cbn [bind].
  destruct (raise_two xl 7 xh 8) as (o & E & G & F); [split; lia|split; lia|lia|lia|]. exists o. split; [exact E|]. split; [exact G|]. intros i j b [I J]. cbv zeta. rewrite F, PXL, PXH by (split; lia).
  assert (WE : forall i' j', inside a i' j' -> at_ st i' j' = Some (percentiles (window (sea_level altitude a) (Z.min lat_cells 50) (Z.min (lon_cells (i' / 20)) 50) i' j'))).
  { intros i' j' [I' J']. rewrite PS by (split; lia). replace (rows adj / 20 * 20) with 720 by (rewrite R1, RA; reflexivity). replace (i' <? 720) with true by lia. do 2 f_equal. apply window_ext; cbn [sea_level rows cols]; try lia. intros; apply AE. }
  rewrite (nearby_ext l a 2 2 i j _ (fun i' j' => far_below limit (window (sea_level altitude a) (Z.min lat_cells 50) (Z.min (lon_cells (i' / 20)) 50) i' j') (at_ (sea_level altitude a) i' j'))); try lia.
  - rewrite (nearby_ext h a 2 2 i j _ (fun i' j' => far_above limit (window (sea_level altitude a) (Z.min lat_cells 50) (Z.min (lon_cells (i' / 20)) 50) i' j') (at_ (sea_level altitude a) i' j'))); try lia; [reflexivity|].
    intros i' j' [I' J']. rewrite PH, AE, WE by (split; lia). apply above_far. apply window_nonempty; [lia|specialize (S (i' / 20)); lia].
  - intros i' j' [I' J']. rewrite PL, AE, WE by (split; lia). apply below_far. apply window_nonempty; [lia|specialize (S (i' / 20)); lia].
Qed.
(* the statistics move with the values *)
Lemma shift_nth (s : list Qc) k c a : nth_error s k = Some a -> nth_error (map (fun x => x + c)%Qc s) k = Some (a + c)%Qc.
Proof. intros H. apply map_nth_error with (f := fun x => (x + c)%Qc) in H. exact H. Qed.
Lemma is_percentile_shift q l x c : is_percentile q l x -> is_percentile q (map (fun v => v + c)%Qc l) (x + c)%Qc.
Proof.
  intros (s & k & f & P & S & K & F0 & F1 & E & NN & X). exists (map (fun v => v + c)%Qc s), k, f. replace (zlen (map (fun v => (v + c)%Qc) l)) with (zlen l) by (unfold zlen; rewrite map_length; reflexivity).
  split; [apply Permutation_map, P|]. split.
  { clear - S. induction S as [|y s S IH H]; [constructor|]. cbn. constructor; [exact IH|]. rewrite Forall_forall in *. intros z Z0. apply in_map_iff in Z0. destruct Z0 as (w & <- & W). apply Qcplus_le_compat; [apply H, W|apply Qcle_refl]. }
  split; [exact K|]. split; [exact F0|]. split; [exact F1|]. split; [exact E|]. split.
  { destruct (nth_error s (Z.to_nat k)) as [y|] eqn:Y; [|congruence]. rewrite (shift_nth _ _ c _ Y). discriminate. }
  destruct X as [[Z1 X]|(a & b & A & B & X)]; [left|right].
  - split; [exact Z1|apply shift_nth, X].
  - exists (a + c)%Qc, (b + c)%Qc. split; [apply shift_nth, A|]. split; [apply shift_nth, B|]. rewrite X. ring.
Qed.
Lemma is_percentile_perm q l l' x : Permutation l l' -> is_percentile q l x -> is_percentile q l' x.
Proof.
  intros P (s & k & f & PS & H). assert (zlen l' = zlen l) by (unfold zlen; rewrite (Permutation_length P); reflexivity). exists s, k, f. rewrite H0. split; [rewrite PS; exact P|exact H].
Qed.
Lemma far_below_shift limit l v c : far_below limit l v -> far_below limit (map (fun v => v + c)%Qc l) (v + c)%Qc.
Proof.
  intros (q1 & q2 & P1 & P2 & H). exists (q1 + c)%Qc, (q2 + c)%Qc. split; [apply is_percentile_shift, P1|]. split; [apply is_percentile_shift, P2|]. apply (proj2 (Qclt_minus_iff _ _)). apply (proj1 (Qclt_minus_iff _ _)) in H.
  replace (q1 + c - limit * (q2 + c - (q1 + c)) + - (v + c))%Qc with (q1 - limit * (q2 - q1) + - v)%Qc by ring. exact H.
Qed.
Lemma far_above_shift limit l v c : far_above limit l v -> far_above limit (map (fun v => v + c)%Qc l) (v + c)%Qc.
Proof.
  intros (q1 & q2 & P1 & P2 & H). exists (q1 + c)%Qc, (q2 + c)%Qc. split; [apply is_percentile_shift, P1|]. split; [apply is_percentile_shift, P2|]. apply (proj2 (Qclt_minus_iff _ _)). apply (proj1 (Qclt_minus_iff _ _)) in H.
  replace (v + c + - (q2 + c + limit * (q2 + c - (q1 + c))))%Qc with (v + - (q2 + limit * (q2 - q1)))%Qc by ring. exact H.
Qed.
(* ------------------------------------------------------------------ thresholds *)
Lemma mean_check (P : Qc -> bool) a w r n : global a -> w = 2 * r + 1 -> 0 <= r <= 719 -> 0 <= n ->
  exists out, (do m <- compute_window_mean a w w; raise_flag (amap P m) (bit n) no_flags) = Ok out /\ global out /\ forall i j b, inside a i j -> flag (at_ out i j) b <-> b = n /\ P (average (window a r r i j)) = true.
Proof.
  intros [R C] -> W N. destruct (window_mean_spec a r r) as (m & E & [RM CM] & P'); try lia. rewrite E. cbn [bind].
  destruct (raise_one (amap P m) n) as (o & EO & G & F); [split; cbn [amap rows cols]; lia|exact N|]. exists o. split; [exact EO|]. split; [exact G|]. intros i j b I. rewrite F. cbn [amap at_]. rewrite P' by exact I. reflexivity.
Qed.
Lemma coast_spec coast i j : global coast -> inside coast i j -> at_ (corrected_coast coast) i j = qz 100 <-> sea coast i j.
Proof.
  intros [R C] [I J]. unfold corrected_coast, sea. cbn [at_ rows cols]. rewrite R, C in *. assert (NZ : 0%Qc <> qz 100) by (intros E; discriminate).
  destruct (i =? 719) eqn:I1; [replace (i =? 720 - 1) with true by lia|replace (i =? 720 - 1) with false by lia].
  - assert (X : forall b1 b2 : bool, (if b1 then if b2 then qz 100 else qz 100 else if b2 then qz 100 else qz 100) = qz 100) by (intros [] []; reflexivity).
    split; [intros _; left; lia|intros _]. destruct (j =? 1440 - 1); destruct (1440 - 2 =? 0); destruct (j =? 0); reflexivity.
  - destruct (i =? 0) eqn:I0.
    + split; [|intros [H|[H _]]; lia]. intros H. exfalso. apply NZ. rewrite <- H. destruct (j =? 1440 - 1); destruct (1440 - 2 =? 0); destruct (j =? 0); reflexivity.
    + change (1440 - 2 =? 0) with false. change (1440 - 1) with 1439 in *. change (1440 - 2) with 1438. cbv iota.
      assert (E : (if j =? 1439 then at_ coast i 1438 else if j =? 0 then at_ coast i 1 else at_ coast i j) = at_ coast i (if j =? 0 then 1 else if j =? 1439 then 1438 else j)).
      { destruct (j =? 1439) eqn:J1; [replace (j =? 0) with false by lia; reflexivity|]. destruct (j =? 0); reflexivity. }
      rewrite E. split; [intros H; right; split; [lia|exact H]|intros [H|[_ H]]; [lia|exact H]].
Qed.
Lemma threshold_spec clim large infl coast l1 l2 l3 : global clim -> global large -> global infl -> global coast ->
  exists out, threshold_flags (Some clim) (Some large) (Some infl) coast l1 l2 l3 = Ok out /\ global out /\ forall i j b, inside clim i j -> flag (at_ out i j) b <->
  (b = 5 /\ (l1 < average (window clim 6 6 i j))%Qc) \/ (b = 6 /\ (l2 < average (window large 8 8 i j))%Qc) \/ (b = 0 /\ (average (window infl 2 2 i j) < l3)%Qc) \/ (b = 12 /\ sea coast i j).
Proof.
  intros G1 G2 G3 G4. unfold threshold_flags, climatology_uncertainty_checks, large_scale_uncertainty_checks, local_influence_checks, get_marine_flag.
  destruct (mean_check (fun v => Qclt_bool l1 v) clim CLIMATOLOGY_UNC_SMOOTH_WINDOW 6 5 G1 eq_refl) as (f1 & E1 & H1 & F1); [lia|lia|].
  destruct (mean_check (fun v => Qclt_bool l2 v) large LARGE_SCALE_UNC_SMOOTH_WINDOW 8 6 G2 eq_refl) as (f2 & E2 & H2 & F2); [lia|lia|].
  destruct (mean_check (fun v => Qclt_bool v l3) infl LOCAL_INFLUENCE_SMOOTH_WINDOW 2 0 G3 eq_refl) as (f3 & E3 & H3 & F3); [lia|lia|].
  fold CLIMATOLOGY_UNC_FLAG in E1. fold LARGE_SCALE_UNC_FLAG in E2. fold DAY_FLAG in E3. rewrite E1. cbn [bind]. rewrite E2. cbn [bind]. rewrite E3. cbn [bind].
  destruct G4 as [R4 C4]. replace (rows coast <? 1) with false by lia. replace (cols coast <? 2) with false by lia. cbn [orb].
  destruct (raise_one (amap (fun v => if Qc_eq_dec v (qz 100) then true else false) (corrected_coast coast)) 12) as (f4 & E4 & H4 & F4); [split; cbn [amap corrected_coast rows cols]; assumption|lia|]. fold MISSING_MARINE_FLAG in E4. rewrite E4. cbn [bind].
  destruct (zip_lor f1 f2 H1 H2) as (g1 & Z1 & K1 & L1). rewrite Z1. cbn [bind]. destruct (zip_lor g1 f3 K1 H3) as (g2 & Z2 & K2 & L2). rewrite Z2. cbn [bind]. destruct (zip_lor g2 f4 K2 H4) as (g3 & Z3 & K3 & L3).
  exists g3. split; [exact Z3|]. split; [exact K3|]. intros i j b I. assert (I2 : inside large i j /\ inside infl i j /\ inside coast i j). { destruct G1, G2, G3, I. repeat split; lia. } destruct I2 as (I2 & I3 & I4).
  rewrite L3, L2, L1, F1, F2, F3, F4, !Qclt_bool_iff by assumption. cbn [amap at_]. rewrite <- (coast_spec coast i j (conj R4 C4) I4). destruct (Qc_eq_dec (at_ (corrected_coast coast) i j) (qz 100)); intuition congruence.
Qed.
Lemma location_spec a st : global a -> global st -> exists out, location_threshold_checks (Some a) st = Ok out /\ global out /\ forall i j b, flag (at_ out i j) b <->
  let s := at_ st i j in (b = 13 /\ (at_ a i j < median s - qz 8 * (median s - lower s))%Qc) \/ (b = 14 /\ (median s + qz 8 * (upper s - median s) < at_ a i j)%Qc).
Proof.
  intros [R C] [RS CS]. unfold location_threshold_checks.
  destruct (zip_spec (fun v s => Qclt_bool v (median s - LOCATION_QUARTILE_LIMIT * (median s - lower s))%Qc) a st) as (l & EL & [R1 C1] & PL); [split; congruence|].
  destruct (zip_spec (fun v s => Qclt_bool (median s + LOCATION_QUARTILE_LIMIT * (upper s - median s))%Qc v) a st) as (h & EH & [R2 C2] & PH); [split; congruence|]. rewrite EL. cbn [bind]. rewrite EH. cbn [bind].
  destruct (raise_two l 13 h 14) as (o & E & G & F); [split; congruence|split; congruence|lia|lia|]. exists o. split; [exact E|]. split; [exact G|]. intros i j b. cbv zeta. rewrite F, PL, PH, !Qclt_bool_iff. reflexivity.
Qed.

(* ------------------------------------------------------------------ every index in one block *)
Lemma one_slice size steps n i : 1 <= size -> 1 <= steps -> (steps - 1) * size <= n -> 0 <= i < n ->
  exists! step, 0 <= step < steps /\ (let (a, b) := slice_range n (block_slice size steps step) in a <= i < b).
Proof.
  intros S T N I. exists (Z.min (i / size) (steps - 1)). assert (D0 : 0 <= i / size) by (apply Z.div_pos; lia). pose proof (Z.mul_div_le i size ltac:(lia)). pose proof (Z.mul_succ_div_gt i size ltac:(lia)). split.
  - split; [lia|]. destruct (block_range size steps n (Z.min (i / size) (steps - 1)) S ltac:(lia) N) as (-> & _ & ->). destruct (Z.min (i / size) (steps - 1) =? steps - 1) eqn:E; nia.
  - intros k [K H1]. destruct (block_range size steps n k S K N) as (E & _ & B). rewrite E in H1. rewrite B in H1. destruct (k =? steps - 1) eqn:L.
    + assert (k <= i / size) by (apply Z.div_le_lower_bound; lia). lia.
    + assert (k = i / size) by (apply Z.div_unique with (r := i - k * size); nia). lia.
Qed.

(* ------------------------------------------------------------------ calendar days *)
Lemma calendar_reference_ok c : 0 <= c <= 365 -> calendar_reference c = Ok ((ymd2ord 2000 1 1 + c) * DAY).
Proof.
  intros C. unfold calendar_reference, reference_leap_year, dt_add. cbv zeta. assert (valid_datetime (ymd2ord 2000 1 1 * DAY + c * DAY) = true) as ->; [|f_equal; lia].
  apply valid_datetime_iff. change (ymd2ord 2000 1 1) with 730120. unfold DAY. lia.
Qed.
Lemma month_days_spec m : 1 <= m <= 12 -> month_days m = Ok (zrange (ymd2ord 2000 m 1 - ymd2ord 2000 1 1) (ymd2ord 2000 m (days_in_month 2000 m) - ymd2ord 2000 1 1 + 1)) /\ 0 <= ymd2ord 2000 m 1 - ymd2ord 2000 1 1 /\ ymd2ord 2000 m (days_in_month 2000 m) - ymd2ord 2000 1 1 <= 365.
Proof.
  intros M. assert (A : In m (zrange 1 13)) by (apply in_zrange; lia). clear M. change (zrange 1 13) with [1;2;3;4;5;6;7;8;9;10;11;12] in A. repeat destruct A as [<-|A]; try destruct A; (split; [vm_compute; reflexivity|split; vm_compute; discriminate]).
Qed.
Lemma ymd2ord_day y m d : ymd2ord y m d = ymd2ord y m 1 + (d - 1).
Proof. unfold ymd2ord. lia. Qed.
Lemma percentile_file_day m d : 1 <= m <= 12 -> 1 <= d <= days_in_month 2000 m -> percentile_file (ymd2ord 2000 m d - ymd2ord 2000 1 1) = Ok (m, d).
Proof.
  intros M D. destruct (month_days_spec m M) as (_ & L & U). unfold percentile_file. pose proof (ymd2ord_day 2000 m d). pose proof (ymd2ord_day 2000 m (days_in_month 2000 m)). rewrite calendar_reference_ok by lia. cbn [bind].
  replace (ymd2ord 2000 1 1 + (ymd2ord 2000 m d - ymd2ord 2000 1 1)) with (ymd2ord 2000 m d) by lia. unfold dt_month, dt_day. rewrite Z.div_mul by (unfold DAY; lia). rewrite ord2ymd_ymd2ord by assumption. reflexivity.
Qed.
Lemma days_leap y m : days_in_month y m <= days_in_month 2000 m.
Proof. unfold days_in_month. change (is_leap 2000) with true. repeat destruct (_ =? _); cbn; try destruct (is_leap y); lia. Qed.
Lemma month_days_all m d : 1 <= m <= 12 -> 1 <= d <= days_in_month 2000 m -> exists! c, (exists l, month_days m = Ok l /\ In c l) /\ percentile_file c = Ok (m, d).
Proof.
  intros M D. destruct (month_days_spec m M) as (E & L & U). exists (ymd2ord 2000 m d - ymd2ord 2000 1 1). pose proof (ymd2ord_day 2000 m d). pose proof (ymd2ord_day 2000 m (days_in_month 2000 m)). split.
  - split; [|apply percentile_file_day; assumption]. eexists. split; [exact E|]. apply in_zrange. lia.
  - intros c [(l & EL & I) P]. rewrite E in EL. injection EL as <-. apply in_zrange in I. set (d' := c + ymd2ord 2000 1 1 - ymd2ord 2000 m 1 + 1). assert (D' : 1 <= d' <= days_in_month 2000 m) by lia.
    pose proof (percentile_file_day m d' M D') as P'. pose proof (ymd2ord_day 2000 m d'). replace (ymd2ord 2000 m d' - ymd2ord 2000 1 1) with c in P' by lia. rewrite P in P'. injection P' as P'. subst d'. lia.
Qed.
Lemma mapM_snoc {A B} (f : A -> result B) l x ys y : mapM f l = Ok ys -> f x = Ok y -> mapM f (l ++ [x]) = Ok (ys ++ [y]).
Proof.
  revert ys. induction l as [|a l IH]; intros ys E X; cbn in *; [injection E as <-; rewrite X; reflexivity|]. destruct (f a) as [b|]; [|discriminate]. cbn in *. destruct (mapM f l) as [bs|]; [|discriminate]. cbn in *. injection E as <-. rewrite (IH bs eq_refl X). reflexivity.
Qed.
Lemma training_dates s e c m d : 0 <= c <= 365 -> 1 <= s -> e <= 9999 -> percentile_file c = Ok (m, d) -> exists l, dates_to_load s e c = Ok l /\ map date_of l = map (fun y => (y, m, Z.min d (days_in_month y m))) (zrange s (e + 1)).
Proof.
  intros C S E P. unfold percentile_file in P. unfold dates_to_load. rewrite calendar_reference_ok in * by exact C. cbn [bind] in *. set (t := (ymd2ord 2000 1 1 + c) * DAY) in *. injection P as PM PD.
  assert (Y : dt_year t = 2000). { pose proof (date_fields t) as (M & D & O). unfold t in O at 4. rewrite Z.div_mul in O by (unfold DAY; lia). assert (A : In c (zrange 0 366)) by (apply in_zrange; lia).
    assert (V : forallb (fun c => dt_year ((ymd2ord 2000 1 1 + c) * DAY) =? 2000) (zrange 0 366) = true) by (vm_compute; reflexivity). rewrite forallb_forall in V. apply V in A. apply Z.eqb_eq in A. exact A. }
  unfold reference_leap_year. set (k := e + 1 - s).
  destruct (Z_le_dec k 0) as [K|K]. { rewrite !zrange_empty by lia. exists []. split; reflexivity. }
  assert (G : forall n : nat, Z.of_nat n <= k -> exists l, mapM (fun yearshift => add_months t (12 * yearshift)) (zrange (s - 2000) (s - 2000 + Z.of_nat n)) = Ok l /\ map date_of l = map (fun y => (y, m, Z.min d (days_in_month y m))) (zrange s (s + Z.of_nat n))).
  { induction n as [|n IH]; intros N. { rewrite !zrange_empty by lia. exists []. split; reflexivity. }
    destruct IH as (l & EL & ML); [lia|]. replace (s - 2000 + Z.of_nat (Datatypes.S n)) with (s - 2000 + Z.of_nat n + 1) by lia. replace (s + Z.of_nat (Datatypes.S n)) with (s + Z.of_nat n + 1) by lia. rewrite !zrange_snoc by lia.
    set (z := s - 2000 + Z.of_nat n). destruct (add_years_ok t z) as (t' & T); [unfold z; lia|]. destruct (add_years t z t' ltac:(unfold z; lia) T) as [TD TY].
    exists (l ++ [t']). split; [apply mapM_snoc; assumption|]. rewrite !map_app, ML. f_equal. cbn [map]. f_equal. rewrite date_of_ord, TD. unfold day_in_year. rewrite Y, PM, PD. replace (2000 + z) with (s + Z.of_nat n) by (unfold z; lia).
    pose proof (date_fields t) as (M1 & D1 & _). rewrite PM, PD in *. pose proof (days_in_month_range (s + Z.of_nat n) m). apply ord2ymd_ymd2ord; lia. }
  destruct (G (Z.to_nat k)) as (l & EL & ML); [lia|]. rewrite Z2Nat.id in EL, ML by lia. exists l. replace (e - 2000 + 1) with (s - 2000 + k) by lia. replace (e + 1) with (s + k) by lia. auto.
Qed.

Lemma percentile_extremes l x : In x l -> (percentile 0 l <= x)%Qc /\ (x <= percentile 100 l)%Qc.
Proof.
  intros I. assert (N : l <> []) by (intros ->; destruct I). assert (L : 1 <= zlen l) by (destruct l; [congruence|unfold zlen; cbn; lia]).
  apply (Permutation_in x (Permutation_sym (sortQ_perm l))) in I. destruct (In_nth _ _ 0%Qc I) as (k & K & <-). assert (LS : length (sortQ l) = Z.to_nat (zlen l)) by (unfold zlen; rewrite (Permutation_length (sortQ_perm l)); lia).
  unfold percentile. cbv zeta. replace (0 * (zlen l - 1)) with 0 by lia. replace (100 * (zlen l - 1)) with ((zlen l - 1) * 100) by lia. rewrite Z.div_mul, Z_mod_mult by lia. change (0 / 100) with 0. change (0 mod 100) with 0. rewrite qz_0.
  split.
  - replace (_ + _)%Qc with (nth (Z.to_nat 0) (sortQ l) 0%Qc) by (unfold Qcdiv; ring). apply sorted_nth; [apply sortQ_sorted|]. lia.
  - replace (_ + _)%Qc with (nth (Z.to_nat (zlen l - 1)) (sortQ l) 0%Qc) by (unfold Qcdiv; ring). apply sorted_nth; [apply sortQ_sorted|]. lia.
Qed.
Lemma is_percentile_nonempty q l x : is_percentile q l x -> l <> [].
Proof. intros (s & k & f & _ & _ & K & _) ->. unfold zlen in K. cbn in K. lia. Qed.
Lemma is_percentile_value q l x : 0 <= q <= 100 -> is_percentile q l x -> x = percentile q l.
Proof. intros Q P. apply (is_percentile_unique q l); [exact P|]. apply percentile_is; [apply (is_percentile_nonempty q l x P)|exact Q]. Qed.
Lemma nonneg_mult a b : (0 <= a)%Qc -> (0 <= b)%Qc -> (0 <= a * b)%Qc.
Proof. intros A B. replace 0%Qc with (0 * b)%Qc by ring. apply Qcmult_le_compat_r; assumption. Qed.
Lemma le_diff a b : (a <= b)%Qc -> (0 <= b - a)%Qc.
Proof. intros H. apply (proj1 (Qcle_minus_iff _ _)) in H. exact H. Qed.
Lemma far_exclusive limit l v : (0 <= limit)%Qc -> far_below limit l v -> ~ far_above limit l v.
Proof.
  intros L (q1 & q2 & P1 & P2 & B) (q2' & q3 & P2' & P3 & A). pose proof (is_percentile_nonempty _ _ _ P1) as N.
  apply is_percentile_value in P1; [|lia]. apply is_percentile_value in P2; [|lia]. apply is_percentile_value in P2'; [|lia]. apply is_percentile_value in P3; [|lia]. subst.
  assert (M1 : (percentile 25 l <= percentile 50 l)%Qc) by (apply percentile_monotone; lia || exact N). assert (M2 : (percentile 50 l <= percentile 75 l)%Qc) by (apply percentile_monotone; lia || exact N).
  set (q1 := percentile 25 l) in *. set (q2 := percentile 50 l) in *. set (q3 := percentile 75 l) in *.
  pose proof (nonneg_mult limit (q2 - q1)%Qc L (le_diff _ _ M1)) as K1. pose proof (nonneg_mult limit (q3 - q2)%Qc L (le_diff _ _ M2)) as K2.
  pose proof (Qclt_trans _ _ _ A B) as C. apply (Qclt_not_le _ _ C). apply (proj2 (Qcle_minus_iff _ _)).
  replace (q3 + limit * (q3 - q2) + - (q1 - limit * (q2 - q1)))%Qc with ((q3 - q2) + (q2 - q1) + (limit * (q3 - q2) + limit * (q2 - q1)))%Qc by ring.
  replace 0%Qc with (0 + 0 + (0 + 0))%Qc by ring. repeat apply Qcplus_le_compat; try assumption; apply le_diff; assumption.
Qed.
Lemma window_cells {A} (a : array A) r s i j x : 1 <= cols a -> 0 <= r <= rows a - 1 -> 0 <= i < rows a -> In x (window a r s i j) -> exists i' j', inside a i' j' /\ x = at_ a i' j'.
Proof. intros C R I H. apply window_In in H. destruct H as (di & dj & D & _ & ->). eexists _, _. split; [|reflexivity]. split; [apply mirror_range; lia|apply Z.mod_pos_bound; lia]. Qed.
Lemma areal_uniform lat_cells lon_cells altitude a limit c : global a -> global altitude -> 0 <= lat_cells -> (forall k, 0 <= lon_cells k) ->
  (forall i j, inside a i j -> at_ (sea_level altitude a) i j = c) ->
  exists out, areal_checks lat_cells lon_cells altitude (Some a) limit = Ok out /\ forall i j b, inside a i j -> ~ flag (at_ out i j) b.
Proof.
  intros G GA L S U. destruct (areal_spec lat_cells lon_cells altitude a limit G GA L S) as (o & E & GO & P). exists o. split; [exact E|]. intros i j b I F. apply P in F; [|exact I]. cbv zeta in F. destruct G as [R C].
  assert (K : forall i' r s q x, 0 <= r <= 719 -> 0 <= i' < 720 -> 0 <= q <= 100 -> forall j', is_percentile q (window (sea_level altitude a) r s i' j') x -> x = c).
  { intros i' r s q x R' I' Q j' H. rewrite (is_percentile_value q _ x Q H). apply percentile_constant; [apply (is_percentile_nonempty _ _ _ H)|exact Q|]. intros y Y. apply window_cells in Y; cbn [sea_level rows cols]; try lia. destruct Y as (i2 & j2 & I2 & ->). apply U. exact I2. }
  destruct F as [[_ (i' & j' & I' & D & N & q1 & q2 & P1 & P2 & B)]|[_ (i' & j' & I' & D & N & q2 & q3 & P2 & P3 & B)]]; rewrite U in B by (split; [exact I'|destruct N as (d & _ & ->); apply Z.mod_pos_bound; lia]).
  - apply K in P1; [|lia|lia|lia]. apply K in P2; [|lia|lia|lia]. subst. replace (c - limit * (c - c))%Qc with c in B by ring. exact (Qclt_not_eq _ _ B eq_refl).
  - apply K in P2; [|lia|lia|lia]. apply K in P3; [|lia|lia|lia]. subst. replace (c + limit * (c - c))%Qc with c in B by ring. exact (Qclt_not_eq _ _ B eq_refl).
Qed.
Lemma shift_back (l : list Qc) c : map (fun v => v + - c)%Qc (map (fun v => v + c)%Qc l) = l.
Proof. rewrite map_map. rewrite <- (map_id l) at 2. apply map_ext. intros v. ring. Qed.
Lemma far_below_iff limit l v c : far_below limit l v <-> far_below limit (map (fun v => v + c)%Qc l) (v + c)%Qc.
Proof. split; [apply far_below_shift|]. intros H. apply (far_below_shift _ _ _ (- c)%Qc) in H. rewrite shift_back in H. replace (v + c + - c)%Qc with v in H by ring. exact H. Qed.
Lemma far_above_iff limit l v c : far_above limit l v <-> far_above limit (map (fun v => v + c)%Qc l) (v + c)%Qc.
Proof. split; [apply far_above_shift|]. intros H. apply (far_above_shift _ _ _ (- c)%Qc) in H. rewrite shift_back in H. replace (v + c + - c)%Qc with v in H by ring. exact H. Qed.
Lemma areal_shift lat_cells lon_cells altitude a limit c : global a -> global altitude -> 0 <= lat_cells -> (forall k, 0 <= lon_cells k) ->
  exists out out', areal_checks lat_cells lon_cells altitude (Some a) limit = Ok out /\ areal_checks lat_cells lon_cells altitude (Some (amap (fun v => v + c)%Qc a)) limit = Ok out' /\
    forall i j b, inside a i j -> flag (at_ out i j) b <-> flag (at_ out' i j) b.
Proof.
  intros G GA L S. destruct (areal_spec lat_cells lon_cells altitude a limit G GA L S) as (o & E & GO & P). assert (G' : global (amap (fun v => v + c)%Qc a)) by exact G.
  destruct (areal_spec lat_cells lon_cells altitude _ limit G' GA L S) as (o' & E' & GO' & P'). exists o, o'. split; [exact E|]. split; [exact E'|]. intros i j b I. rewrite P, P' by exact I. cbv zeta. destruct G as [R C].
  assert (AT : forall i j, at_ (sea_level altitude (amap (fun v => v + c)%Qc a)) i j = (at_ (sea_level altitude a) i j + c)%Qc) by (intros; cbn [sea_level amap at_]; ring).
  assert (W : forall i' j', inside a i' j' -> window (sea_level altitude (amap (fun v => v + c)%Qc a)) (Z.min lat_cells 50) (Z.min (lon_cells (i' / 20)) 50) i' j' = map (fun v => v + c)%Qc (window (sea_level altitude a) (Z.min lat_cells 50) (Z.min (lon_cells (i' / 20)) 50) i' j')).
  { intros i' j' [I' J']. rewrite <- window_amap. apply window_ext; cbn [sea_level amap rows cols]; try lia. intros i2 j2 _. apply AT. }
  rewrite (nearby_ext a (amap (fun v => v + c)%Qc a) 2 2 i j (fun i' j' => far_below _ _ _) (fun i' j' => far_below limit (window (sea_level altitude (amap (fun v => v + c)%Qc a)) (Z.min lat_cells 50) (Z.min (lon_cells (i' / 20)) 50) i' j') (at_ (sea_level altitude (amap (fun v => v + c)%Qc a)) i' j'))); [|reflexivity|reflexivity|lia|].
  - rewrite (nearby_ext a (amap (fun v => v + c)%Qc a) 2 2 i j (fun i' j' => far_above _ _ _) (fun i' j' => far_above limit (window (sea_level altitude (amap (fun v => v + c)%Qc a)) (Z.min lat_cells 50) (Z.min (lon_cells (i' / 20)) 50) i' j') (at_ (sea_level altitude (amap (fun v => v + c)%Qc a)) i' j'))); [reflexivity|reflexivity|reflexivity|lia|].
    intros i' j' I'. rewrite AT, W by exact I'. apply far_above_iff.
  - intros i' j' I'. rewrite AT, W by exact I'. apply far_below_iff.
Qed.
