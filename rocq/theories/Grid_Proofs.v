(* Proofs about binning. *)
From Coq Require Import QArith Qcanon Lqa Permutation Sorting.Sorted.
From Verif Require Import Base Grid_Model Grid_Spec.
From Verif Require Work_Proofs Cat_Proofs.
Local Open Scope Z_scope.
Local Open Scope list_scope.

(* ---- rationals *)

Lemma Qclt_bool_iff a b : Qclt_bool a b = true <-> (a < b)%Qc.
Proof. unfold Qclt_bool, Qclt. destruct (Qle_bool b a) eqn:E; cbn.
  - split; [discriminate |]. intros H. apply Qle_bool_iff in E. exfalso. apply (Qlt_not_le _ _ H E).
  - split; [| reflexivity]. intros _. apply Qnot_le_lt. intros H. apply Qle_bool_iff in H. congruence.
Qed.
Lemma Qclt_bool_false a b : Qclt_bool a b = false <-> (b <= a)%Qc.
Proof. unfold Qclt_bool, Qcle. rewrite Bool.negb_false_iff. apply Qle_bool_iff. Qed.
Lemma Qc_eq_bool_iff a b : Qc_eq_bool a b = true <-> a = b.
Proof. unfold Qc_eq_bool. destruct (Qc_eq_dec a b); split; congruence. Qed.

Lemma qz_this a : this (qz a) = inject_Z a.
Proof. change (this (qz a)) with (Qred (inject_Z a)). apply Qred_identity. cbn. apply Z.gcd_1_r. Qed.
Lemma qz_eq (q : Qc) a : (this q == inject_Z a)%Q -> q = qz a.
Proof. intros H. apply Qc_is_canon. rewrite qz_this. exact H. Qed.
Lemma qz_plus a b : qz (a + b) = (qz a + qz b)%Qc.
Proof. symmetry. apply qz_eq. change (this (qz a + qz b)%Qc) with (Qred (this (qz a) + this (qz b))). rewrite Qred_correct, !qz_this, inject_Z_plus. reflexivity. Qed.
Lemma qz_mult a b : qz (a * b) = (qz a * qz b)%Qc.
Proof. symmetry. apply qz_eq. change (this (qz a * qz b)%Qc) with (Qred (this (qz a) * this (qz b))). rewrite Qred_correct, !qz_this, inject_Z_mult. reflexivity. Qed.
Lemma qz_opp a : qz (- a) = (- qz a)%Qc.
Proof. symmetry. apply qz_eq. change (this (- qz a)%Qc) with (Qred (- this (qz a))). rewrite Qred_correct, !qz_this, inject_Z_opp. reflexivity. Qed.
Lemma qz_minus a b : qz (a - b) = (qz a - qz b)%Qc.
Proof. unfold Z.sub, Qcminus. rewrite qz_plus, qz_opp. reflexivity. Qed.
Lemma qz_le a b : (qz a <= qz b)%Qc <-> a <= b.
Proof. unfold Qcle. rewrite !qz_this. rewrite <- Zle_Qle. reflexivity. Qed.
Lemma qz_lt a b : (qz a < qz b)%Qc <-> a < b.
Proof. unfold Qclt. rewrite !qz_this. rewrite <- Zlt_Qlt. reflexivity. Qed.
Lemma qz_lt_inv a b : (qz a < qz b)%Qc -> a < b.
Proof. apply (proj1 (qz_lt a b)). Qed.
Lemma qz_inj a b : qz a = qz b -> a = b.
Proof. intros H. apply Z.le_antisymm; apply qz_le; rewrite H; apply Qcle_refl. Qed.
Lemma qz_0 : qz 0 = 0%Qc.
Proof. reflexivity. Qed.
Lemma qz_1 : qz 1 = 1%Qc.
Proof. apply Qc_is_canon. reflexivity. Qed.
Lemma qz_m1 : qz (-1) = (- (1))%Qc.
Proof. apply Qc_is_canon. reflexivity. Qed.
Lemma qz_nonzero a : a <> 0 -> qz a <> 0%Qc.
Proof. intros H E. apply H. apply qz_inj. rewrite E. reflexivity. Qed.

(* truncation *)
Lemma trunc_nonneg q i : (0 <= q)%Qc -> trunc q = i <-> (qz i <= q)%Qc /\ (q < qz i + 1)%Qc.
Proof.
  intros P. unfold trunc. unfold Qcle in P. cbn in P. unfold Qle in P. cbn in P. rewrite Z.mul_1_r in P.
  rewrite Z.quot_div_nonneg by lia.
  rewrite <- qz_1, <- qz_plus. unfold Qcle, Qclt. rewrite !qz_this. unfold Qle, Qlt, inject_Z. cbn [Qnum Qden].
  split.
  - intros <-. pose proof (Z.mul_div_le (Qnum q) (QDen q)). pose proof (Z.mul_succ_div_gt (Qnum q) (QDen q)). lia.
  - intros [A B]. symmetry. apply Z.div_unique with (r := Qnum q - i * QDen q); lia.
Qed.
Lemma Qc_opp_this q : this (- q)%Qc = (- this q)%Q.
Proof. destruct q as [q H]. change (this (- {| this := q; canon := H |})%Qc) with (Qred (- q)). rewrite Qred_opp. cbn [this]. rewrite H. reflexivity. Qed.
Lemma trunc_opp q : trunc (- q)%Qc = - trunc q.
Proof. unfold trunc. rewrite Qc_opp_this. cbn. apply Z.quot_opp_l. discriminate. Qed.

(* ---- axes *)

Definition place (a : axis) (v : Qc) : Qc := ((v - a_start a) / a_increment a)%Qc.

Lemma place_value a v : a_increment a <> 0%Qc -> v = (a_start a + place a v * a_increment a)%Qc.
Proof. intros H. unfold place. field. exact H. Qed.
Lemma place_of a q : a_increment a <> 0%Qc -> place a (a_start a + q * a_increment a)%Qc = q.
Proof. intros H. unfold place. field. exact H. Qed.

Lemma Qcplus_le_minus a b c : (a <= b)%Qc -> (a - c <= b - c)%Qc.
Proof. intros H. unfold Qcminus. apply Qcplus_le_compat; [exact H | apply Qcle_refl]. Qed.

Ltac qc := unfold Qcle, Qclt, Qcminus, Qcplus, Qcopp in *; cbn [this Q2Qc] in *; rewrite ?Qred_correct in *; lra.

Lemma within_place a i v : a_increment a <> 0%Qc -> within a i v <-> (qz i <= place a v)%Qc /\ (place a v < qz i + 1)%Qc.
Proof.
  intros N. split.
  - intros (t & A & B & ->). rewrite place_of by exact N. split; qc.
  - intros [A B]. exists (place a v - qz i)%Qc. split; [qc | split; [qc |]].
    rewrite (place_value a v) at 1 by exact N. ring.
Qed.

Lemma trunc_cases q : ((0 <= q)%Qc /\ (qz (trunc q) <= q)%Qc /\ (q < qz (trunc q) + 1)%Qc /\ 0 <= trunc q) \/
                      ((q < 0)%Qc /\ (qz (trunc q) - 1 < q)%Qc /\ (q <= qz (trunc q))%Qc /\ trunc q <= 0).
Proof.
  destruct (Qclt_le_dec q 0%Qc) as [N | P].
  - right. assert (0 <= - q)%Qc as P by qc. destruct (proj1 (trunc_nonneg (- q)%Qc (trunc (- q)%Qc) P) eq_refl) as [A B].
    rewrite trunc_opp in A, B. rewrite qz_opp in A, B. split; [exact N | split; [qc | split; [qc |]]].
    assert (qz (trunc q) < qz 1)%Qc; [| apply qz_lt_inv in H; lia]. rewrite qz_1. qc.
  - left. destruct (proj1 (trunc_nonneg q (trunc q) P) eq_refl) as [A B]. split; [exact P | split; [exact A | split; [exact B |]]].
    assert (qz (-1) < qz (trunc q))%Qc; [| apply qz_lt_inv in H; lia]. rewrite qz_m1. qc.
Qed.

Lemma qz_lt_plus1 i j (q : Qc) : (qz i <= q)%Qc -> (q < qz j + 1)%Qc -> i <= j.
Proof. intros A B. assert (qz i < qz (j + 1))%Qc as H by (rewrite qz_plus, qz_1; qc). apply qz_lt_inv in H. lia. Qed.

Lemma just_before_place a v : a_increment a <> 0%Qc -> just_before a v <-> (- (1) < place a v)%Qc /\ (place a v < 0)%Qc.
Proof.
  intros N. split.
  - intros (t & A & B & ->). replace (a_start a - t * a_increment a)%Qc with (a_start a + (- t) * a_increment a)%Qc by ring.
    rewrite place_of by exact N. split; qc.
  - intros [A B]. exists (- place a v)%Qc. split; [qc | split; [qc |]].
    rewrite (place_value a v) at 1 by exact N. ring.
Qed.

Lemma axis_index_iff a v i : a_increment a <> 0%Qc ->
  axis_index a v = Ok i <->
  0 <= i < a_length a /\ (within a i v \/ (i = 0 /\ just_before a v) \/ (a_wrap a = true /\ i = 0 /\ within a (a_length a) v)).
Proof.
  intros N. unfold axis_index. destruct (Qc_eq_bool (a_increment a) 0%Qc) eqn:E0; [apply Qc_eq_bool_iff in E0; contradiction |].
  fold (place a v). rewrite just_before_place, !within_place by exact N.
  set (n := a_length a). set (k := trunc (place a v)).
  pose proof (trunc_cases (place a v)) as T. fold k in T.
  assert (forall j, (qz j <= place a v)%Qc /\ (place a v < qz j + 1)%Qc -> 0 <= j -> k = j) as U.
  { intros j [A B] J. apply trunc_nonneg; [| split; assumption]. apply (proj2 (qz_le _ _)) in J. rewrite qz_0 in J. eapply Qcle_trans; eassumption. }
  assert ((- (1) < place a v)%Qc -> (place a v < 0)%Qc -> k = 0) as W.
  { intros A B. destruct T as [(P & _) | (P & C & D & F)]; [exfalso; apply (Qclt_not_le _ _ B P) |].
    assert (qz (-1) < qz k)%Qc as L by (rewrite qz_m1; eapply Qclt_le_trans; eassumption). apply qz_lt_inv in L. lia. }
  split.
  - intros H.
    assert (0 <= i < n /\ i = (if a_wrap a && (k =? n) then 0 else k)) as [R I].
    { destruct (a_wrap a && (k =? n)); cbv zeta in H.
      - destruct (0 <? 0) eqn:A; [discriminate |]. destruct (0 >=? n) eqn:B; [discriminate |]. assert (i = 0) by congruence. lia.
      - destruct (k <? 0) eqn:A; [discriminate |]. destruct (k >=? n) eqn:B; [discriminate |]. assert (i = k) by congruence. lia. }
    split; [exact R |]. destruct (a_wrap a) eqn:Wr; cbn [andb] in I.
    + destruct (k =? n) eqn:B.
      * assert (k = n) as Bk by lia. rewrite <- Bk. destruct T as [(P & C & D & F) | (P & C & D & F)]; [| lia]. right. right. auto.
      * subst i. destruct T as [(P & C & D & F) | (P & C & D & F)]; [left; auto |].
        right. left. assert (k = 0) as K0 by lia. split; [exact K0 |]. rewrite K0, qz_0 in C. split; [qc | exact P].
    + subst i. destruct T as [(P & C & D & F) | (P & C & D & F)]; [left; auto |].
        right. left. assert (k = 0) as K0 by lia. split; [exact K0 |]. rewrite K0, qz_0 in C. split; [qc | exact P].
  - intros [R D].
    assert ((if a_wrap a && (k =? n) then 0 else k) = i) as I.
    { destruct D as [D | [(I0 & A & B) | (Wr & I0 & D)]].
      - rewrite (U _ D) by lia. destruct (i =? n) eqn:Q; [lia |]. now rewrite Bool.andb_false_r.
      - rewrite (W A B). subst i. now destruct (_ && _).
      - rewrite (U _ D) by lia. rewrite Wr, Z.eqb_refl. cbn. now rewrite I0. }
    cbv zeta. rewrite I. destruct (i <? 0) eqn:A; [lia |]. destruct (i >=? n) eqn:B; [lia | reflexivity].
Qed.

Lemma within_unique a i j v : a_increment a <> 0%Qc -> within a i v -> within a j v -> i = j.
Proof. intros N. rewrite !within_place by exact N. intros [A B] [C D]. pose proof (qz_lt_plus1 _ _ _ A D). pose proof (qz_lt_plus1 _ _ _ C B). lia. Qed.

Lemma axis_index_range a v i : axis_index a v = Ok i -> 0 <= i < a_length a.
Proof.
  intros H. unfold axis_index in H. destruct (Qc_eq_bool _ _); [discriminate |]. cbv zeta in H.
  match type of H with (if ?k <? 0 then _ else _) = _ => set (m := k) in H end.
  destruct (m <? 0) eqn:A; [discriminate |]. destruct (m >=? a_length a) eqn:B; [discriminate |]. assert (m = i) by congruence. lia.
Qed.

Lemma half_range : (0 <= 1 / qz 2)%Qc /\ (1 / qz 2 < 1)%Qc.
Proof. split; [intros H; vm_compute in H; discriminate | vm_compute; reflexivity]. Qed.
Lemma centre_within a i : a_increment a <> 0%Qc -> within a i (axis_centre a i).
Proof.
  intros N. exists (1 / qz 2)%Qc. destruct half_range as [A B]. split; [exact A | split; [exact B |]].
  unfold axis_centre. generalize (1 / qz 2)%Qc as h. intros h. ring.
Qed.

(* ---- cells *)

Lemma mapM_ok_iff {A B} (f : A -> result B) l r : mapM f l = Ok r <-> Forall2 (fun a b => f a = Ok b) l r.
Proof.
  split; [apply mapM_ok_Forall2 |]. intros F. induction F as [| a b l r E F IH]; cbn; [reflexivity |]. now rewrite E, IH.
Qed.

Lemma grid_indices_cells g (ps : list pixel) cs :
  grid_indices g (map px_lat ps) (map px_lon ps) = Ok cs <-> Forall2 (fun p c => cell g p = Some c) ps cs.
Proof.
  unfold grid_indices, axis_indices. revert cs. induction ps as [| p ps IH]; intros cs; cbn.
  - split; [intros E | intros F; inversion F; reflexivity]. assert (cs = []) by congruence. subst. constructor.
  - destruct (axis_index (g_lat g) (px_lat p)) as [i | e] eqn:Ei; cbn.
    2:{ split; [discriminate |]. intros F. inversion F as [| ? ? ? ? C]; subst. unfold cell in C. rewrite Ei in C. discriminate. }
    destruct (mapM (axis_index (g_lat g)) (map px_lat ps)) as [is | e] eqn:Eis; cbn in *.
    2:{ split; [discriminate |]. intros F. inversion F as [| ? c ? cs' C F']; subst. apply IH in F'. discriminate. }
    destruct (axis_index (g_lon g) (px_lon p)) as [j | e] eqn:Ej; cbn.
    2:{ split; [discriminate |]. intros F. inversion F as [| ? ? ? ? C]; subst. unfold cell in C. rewrite Ei, Ej in C. discriminate. }
    destruct (mapM (axis_index (g_lon g)) (map px_lon ps)) as [js | e] eqn:Ejs; cbn in *.
    2:{ split; [discriminate |]. intros F. inversion F as [| ? c ? cs' C F']; subst. apply IH in F'. discriminate. }
    split.
    + intros E. destruct cs as [| c cs]; [discriminate |]. assert (i * a_length (g_lon g) + j = c /\ map (fun ij => fst ij * a_length (g_lon g) + snd ij) (combine is js) = cs) as [C1 C2] by (split; congruence).
      constructor; [unfold cell; rewrite Ei, Ej, C1; reflexivity |]. apply IH. congruence.
    + intros F. inversion F as [| ? c ? cs' C F']; subst. apply IH in F'. unfold cell in C. rewrite Ei, Ej in C. congruence.
Qed.

Lemma cell_range g p c : cell g p = Some c -> 0 <= c < a_length (g_lat g) * a_length (g_lon g).
Proof.
  unfold cell. destruct (axis_index (g_lat g) _) as [i |] eqn:Ei; [| discriminate]. destruct (axis_index (g_lon g) _) as [j |] eqn:Ej; [| discriminate].
  intros E. assert (i * a_length (g_lon g) + j = c) as <- by congruence. apply axis_index_range in Ei, Ej. nia.
Qed.

(* ---- choosing pixels *)

Lemma at_indices_filter_gen {A} (P : A -> bool) (ps pre : list A) n : zlen pre = n -> 0 <= n ->
  forall (B : Type) (f : A -> B),
  at_indices (map f (pre ++ ps)) (map fst (filter (fun ip => P (snd ip)) (combine (zrange n (n + zlen ps)) ps))) = map f (filter P ps).
Proof.
  revert pre n. induction ps as [| p ps IH]; intros pre n L N B f; [cbn; destruct (zrange _ _); reflexivity |].
  rewrite zlen_cons. rewrite zrange_cons by (pose proof (zlen_nonneg ps); lia). cbn [combine filter snd].
  assert (at_indices (map f (pre ++ p :: ps)) (map fst (filter (fun ip => P (snd ip)) (combine (zrange (n + 1) (n + (1 + zlen ps))) ps))) = map f (filter P ps)) as T.
  { replace (n + (1 + zlen ps)) with ((n + 1) + zlen ps) by lia. replace (pre ++ p :: ps) with ((pre ++ [p]) ++ ps) by now rewrite <- app_assoc.
    apply IH; [rewrite zlen_app; cbn; lia | lia]. }
  destruct (P p); cbn [map fst]; [| exact T]. unfold at_indices in *. cbn [flat_map]. rewrite T.
  rewrite map_app, nth_error_app2; rewrite map_length; unfold zlen in L; [| lia].
  replace (Z.to_nat n - length pre)%nat with 0%nat by lia. reflexivity.
Qed.
Lemma at_indices_filter {A B} (P : A -> bool) (f : A -> B) (ps : list A) :
  at_indices (map f ps) (map fst (filter (fun ip => P (snd ip)) (combine (zrange 0 (zlen ps)) ps))) = map f (filter P ps).
Proof. exact (at_indices_filter_gen P ps [] 0 eq_refl ltac:(lia) B f). Qed.

Lemma filter_combine_map {A B} (f : A -> B) (P : B -> bool) ks (ps : list A) :
  map fst (filter (fun iq : Z * B => P (snd iq)) (combine ks (map f ps))) = map fst (filter (fun ip : Z * A => P (f (snd ip))) (combine ks ps)).
Proof. revert ks. induction ps as [| p ps IH]; intros [| k ks]; cbn; try reflexivity. destruct (P (f p)); cbn; now rewrite IH. Qed.

Lemma get_chosen f field mask flt :
  get f field (find_qc_flag_indices (map px_qc (sf_pixels f)) mask flt) = map field (filter (passes mask flt) (sf_pixels f)).
Proof.
  unfold get, find_qc_flag_indices. unfold zlen at 1. rewrite map_length. fold (zlen (sf_pixels f)).
  rewrite (filter_combine_map px_qc (fun q => Z.land q mask =? flt)). apply (at_indices_filter (passes mask flt)).
Qed.

(* ---- the loops, cell by cell *)

Definition sel {A} (c : Z) (l : list (Z * A)) : list A := map snd (filter (fun iv => fst iv =? c) l).

Lemma sel_cons {A} c i (v : A) l : sel c ((i, v) :: l) = if i =? c then v :: sel c l else sel c l.
Proof. unfold sel. cbn. now destruct (i =? c). Qed.
Lemma upd_at {A} (f : Z -> A) i a c : upd f i a c = if i =? c then a else f c.
Proof. unfold upd. now rewrite Z.eqb_sym. Qed.

Lemma aggregate_sum_cell_gen (l : list (Z * Qc)) bins c :
  fold_left (fun b iv => upd b (fst iv) (b (fst iv) + snd iv)%Qc) l bins c = (bins c + sumQ (sel c l))%Qc.
Proof.
  revert bins. induction l as [| [i v] l IH]; intros bins; [cbn; ring |]. rewrite sel_cons. cbn [fold_left]. rewrite IH, upd_at. cbn [fst snd].
  destruct (i =? c) eqn:E; [| reflexivity]. apply Z.eqb_eq in E. subst i. cbn [sumQ fold_right]. fold (sumQ (sel c l)). ring.
Qed.
Lemma count_cell_gen {A} (l : list (Z * A)) bins c :
  fold_left (fun b iv => upd b (fst iv) (b (fst iv) + 1)) l bins c = bins c + zlen (sel c l).
Proof.
  revert bins. induction l as [| [i v] l IH]; intros bins; [cbn; lia |]. rewrite sel_cons. cbn [fold_left]. rewrite IH, upd_at. cbn [fst snd].
  destruct (i =? c) eqn:E; [| reflexivity]. apply Z.eqb_eq in E. subst i. rewrite zlen_cons. lia.
Qed.
Lemma sum_dev_cell_gen (mean : Z -> Qc) (l : list (Z * Qc)) bins c :
  fold_left (fun b iv => let dev := (snd iv - mean (fst iv))%Qc in upd b (fst iv) (b (fst iv) + dev * dev)%Qc) l bins c =
  (bins c + sumQ (map (fun x => (x - mean c) * (x - mean c)) (sel c l)))%Qc.
Proof.
  revert bins. induction l as [| [i v] l IH]; intros bins; [cbn; ring |]. rewrite sel_cons. cbn [fold_left]. rewrite IH. cbv zeta. rewrite upd_at. cbn [fst snd].
  destruct (i =? c) eqn:E; [| reflexivity]. apply Z.eqb_eq in E. subst i. cbn [map sumQ fold_right]. fold (sumQ (map (fun x => (x - mean c) * (x - mean c))%Qc (sel c l))). ring.
Qed.

Lemma bins_cell (l : list (Z * Qc)) b c :
  b_count (fold_left bin_one l b) c = b_count b c + zlen (sel c l) /\
  b_sum (fold_left bin_one l b) c = (b_sum b c + sumQ (sel c l))%Qc /\
  b_min (fold_left bin_one l b) c = fold_left pymin (sel c l) (b_min b c) /\
  b_max (fold_left bin_one l b) c = fold_left pymax (sel c l) (b_max b c).
Proof.
  revert b. induction l as [| [i v] l IH]; intros b; [cbn; repeat split; try ring; lia |]. rewrite sel_cons. cbn [fold_left].
  destruct (IH (bin_one b (i, v))) as (A & B & C & D). rewrite A, B, C, D. cbn [bin_one b_count b_sum b_min b_max]. rewrite !upd_at.
  assert ((if Qclt_bool v (b_min b i) then upd (b_min b) i v else b_min b) c = if i =? c then pymin (b_min b c) v else b_min b c) as Em.
  { unfold pymin. destruct (i =? c) eqn:E; destruct (Qclt_bool v (b_min b i)) eqn:F; rewrite ?upd_at, ?E; try reflexivity; apply Z.eqb_eq in E; subst i; now rewrite F. }
  assert ((if Qclt_bool (b_max b i) v then upd (b_max b) i v else b_max b) c = if i =? c then pymax (b_max b c) v else b_max b c) as Ex.
  { unfold pymax. destruct (i =? c) eqn:E; destruct (Qclt_bool (b_max b i) v) eqn:F; rewrite ?upd_at, ?E; try reflexivity; apply Z.eqb_eq in E; subst i; now rewrite F. }
  rewrite Em, Ex. destruct (i =? c) eqn:E; [| auto]. apply Z.eqb_eq in E. subst i. rewrite zlen_cons. cbn [sumQ fold_right fold_left]. fold (sumQ (sel c l)).
  repeat split; [lia | ring].
Qed.

Lemma op_sum_count_cell (l : list (Z * Qc)) b c : let r := fold_left (fun b iv => let (i, v) := (iv : Z * Qc) in
     {| b_count := upd (b_count b) i (b_count b i + 1); b_sum := upd (b_sum b) i (b_sum b i + v)%Qc;
        b_min := upd (b_min b) i (pymin (b_min b i) v); b_max := upd (b_max b) i (pymax (b_max b i) v) |}) l b in
  b_count r c = b_count b c + zlen (sel c l) /\ b_sum r c = (b_sum b c + sumQ (sel c l))%Qc /\
  b_min r c = fold_left pymin (sel c l) (b_min b c) /\ b_max r c = fold_left pymax (sel c l) (b_max b c).
Proof.
  revert b. induction l as [| [i v] l IH]; intros b; [cbn; repeat split; try ring; lia |]. cbv zeta. rewrite sel_cons. cbn [fold_left].
  match goal with |- context [fold_left ?f l ?b'] => destruct (IH b') as (A & B & C & D) end. rewrite A, B, C, D. cbn [b_count b_sum b_min b_max]. rewrite !upd_at.
  destruct (i =? c) eqn:E; [| auto]. apply Z.eqb_eq in E. subst i. rewrite zlen_cons. cbn [sumQ fold_right fold_left]. fold (sumQ (sel c l)).
  repeat split; [lia | ring].
Qed.

Lemma sel_pixels g (field : pixel -> Qc) ps cs c : Forall2 (fun p d => cell g p = Some d) ps cs ->
  sel c (combine cs (map field ps)) = map field (filter (in_cell g c) ps).
Proof.
  intros F. induction F as [| p d ps cs E F IH]; [reflexivity |]. cbn [map combine filter]. rewrite sel_cons.
  unfold in_cell at 1. rewrite E. destruct (d =? c); cbn [map]; now rewrite IH.
Qed.
Lemma sel_cells g ps cs c : Forall2 (fun p d => cell g p = Some d) ps cs ->
  sel c (map (fun i => (i, tt)) cs) = map (fun _ => tt) (filter (in_cell g c) ps).
Proof.
  intros F. induction F as [| p d ps cs E F IH]; [reflexivity |]. cbn [map filter]. rewrite sel_cons.
  unfold in_cell at 1. rewrite E. destruct (d =? c); cbn [map]; now rewrite IH.
Qed.
Lemma fold_left_map {A B C} (f : C -> B -> C) (h : A -> B) l c : fold_left f (map h l) c = fold_left (fun x a => f x (h a)) l c.
Proof. revert c. induction l; cbn; auto. Qed.
Lemma aggregate_count_cell bins cs c : aggregate_count bins cs c = bins c + zlen (sel c (map (fun i => (i, tt)) cs)).
Proof. unfold aggregate_count. rewrite <- (count_cell_gen (map (fun i => (i, tt)) cs) bins c), fold_left_map. reflexivity. Qed.
Lemma aggregate_constant_cell bins k cs c : aggregate_constant bins k cs c = (bins c + sumQ (map (fun _ => k) (sel c (map (fun i => (i, tt)) cs))))%Qc.
Proof.
  unfold aggregate_constant. revert bins. induction cs as [| i cs IH]; intros bins; [cbn; ring |]. cbn [fold_left map]. rewrite IH, upd_at, sel_cons.
  destruct (i =? c) eqn:E; [| reflexivity]. apply Z.eqb_eq in E. subst i. cbn [map sumQ fold_right]. 
  fold (sumQ (map (fun _ : unit => k) (sel c (map (fun i => (i, tt)) cs)))). ring.
Qed.

(* ---- what the sums hold after some files; tv and ti are the tests of the pixels used and of those of interest *)

Definition holds (g : grid) (tv ti : pixel -> bool) (lo hi : Qc) (files : list satfile) (s : sums) : Prop := forall c,
  let V := chosen g tv files c in
  b_count (s_bins s) c = zlen V /\ b_sum (s_bins s) c = total value_of V /\
  b_min (s_bins s) c = fold_left pymin (map value_of V) hi /\ b_max (s_bins s) c = fold_left pymax (map value_of V) lo /\
  s_ran s c = total (fun ps => sq (px_ran (fst ps))) V /\ s_atm s c = total (fun ps => sq (px_atm (fst ps))) V /\
  s_sfc s c = total (fun ps => sq (px_sfc (fst ps))) V /\ s_sys s c = total (fun ps => sq (snd ps)) V /\
  s_obs s c = zlen (chosen g ti files c).

Lemma all_pixels_app fs gs : all_pixels (fs ++ gs) = all_pixels fs ++ all_pixels gs.
Proof. apply flat_map_app. Qed.
Lemma filter_app' {A} (P : A -> bool) l m : filter P (l ++ m) = filter P l ++ filter P m.
Proof. induction l as [| a l IH]; cbn; [reflexivity |]. destruct (P a); cbn; now rewrite IH. Qed.
Lemma chosen_app g t fs gs c : chosen g t (fs ++ gs) c = chosen g t fs c ++ chosen g t gs c.
Proof. unfold chosen. now rewrite all_pixels_app, filter_app'. Qed.
Lemma chosen_one g t f c : chosen g t [f] c = map (fun p => (p, sf_sys f)) (filter (in_cell g c) (filter t (sf_pixels f))).
Proof.
  unfold chosen, all_pixels. cbn. rewrite app_nil_r. induction (sf_pixels f) as [| p ps IH]; cbn; [reflexivity |].
  destruct (t p); cbn; [| exact IH]. destruct (in_cell g c p); cbn; now rewrite IH.
Qed.
Lemma sumQ_app l m : sumQ (l ++ m) = (sumQ l + sumQ m)%Qc.
Proof. unfold sumQ. induction l as [| a l IH]; cbn [app fold_right]; [ring |]. rewrite IH. ring. Qed.
Lemma total_app f l m : total f (l ++ m) = (total f l + total f m)%Qc.
Proof. unfold total. now rewrite map_app, sumQ_app. Qed.

(* one file, given the cells of its pixels *)
Record step_of (g : grid) (tv ti : pixel -> bool) (f : satfile) (s s' : sums) : Prop := {
  so_cell : forall c, let V := chosen g tv [f] c in
    b_count (s_bins s') c = b_count (s_bins s) c + zlen V /\ b_sum (s_bins s') c = (b_sum (s_bins s) c + total value_of V)%Qc /\
    b_min (s_bins s') c = fold_left pymin (map value_of V) (b_min (s_bins s) c) /\ b_max (s_bins s') c = fold_left pymax (map value_of V) (b_max (s_bins s) c) /\
    s_ran s' c = (s_ran s c + total (fun ps => sq (px_ran (fst ps))) V)%Qc /\ s_atm s' c = (s_atm s c + total (fun ps => sq (px_atm (fst ps))) V)%Qc /\
    s_sfc s' c = (s_sfc s c + total (fun ps => sq (px_sfc (fst ps))) V)%Qc /\ s_sys s' c = (s_sys s c + total (fun ps => sq (snd ps)) V)%Qc /\
    s_obs s' c = s_obs s c + zlen (chosen g ti [f] c) }.

Lemma holds_step g tv ti lo hi fs f s s' : holds g tv ti lo hi fs s -> step_of g tv ti f s s' -> holds g tv ti lo hi (fs ++ [f]) s'.
Proof.
  intros H [T] c. specialize (H c). specialize (T c). cbv zeta in *. rewrite !chosen_app, !zlen_app, !total_app, !map_app, !fold_left_app.
  destruct H as (A1 & A2 & A3 & A4 & A5 & A6 & A7 & A8 & A9). destruct T as (B1 & B2 & B3 & B4 & B5 & B6 & B7 & B8 & B9).
  rewrite B1, B2, B3, B4, B5, B6, B7, B8, B9, A1, A2, A3, A4, A5, A6, A7, A8, A9. auto 10.
Qed.

Definition located (g : grid) (t : pixel -> bool) (f : satfile) : Prop := forall p, In p (sf_pixels f) -> t p = true -> on_grid g p.

Lemma cells_exist g ps : (forall p, In p ps -> on_grid g p) <-> exists cs, Forall2 (fun p d => cell g p = Some d) ps cs.
Proof.
  split.
  - induction ps as [| p ps IH]; intros H; [exists []; constructor |]. destruct IH as [cs F]; [intros; apply H; now right |].
    destruct (cell g p) as [d |] eqn:E; [| destruct (H p (or_introl eq_refl) E)]. exists (d :: cs). now constructor.
  - intros [cs F]. induction F as [| p d ps cs E F IH]; [intros ? [] |]. intros q [<- | I]; [unfold on_grid; congruence | auto].
Qed.
Lemma located_filter g t f : located g t f <-> forall p, In p (filter t (sf_pixels f)) -> on_grid g p.
Proof.
  unfold located. split; intros H p; [rewrite filter_In; intros [A B]; auto | intros A B; apply H; rewrite filter_In; auto].
Qed.

Lemma zlen_map {A B} (f : A -> B) l : zlen (map f l) = zlen l.
Proof. unfold zlen. now rewrite map_length. Qed.

Lemma sq_sums f (field : pixel -> Qc) g cs c ps (bins : Z -> Qc) : Forall2 (fun p d => cell g p = Some d) ps cs ->
  aggregate_sum bins (map sq (map field ps)) cs c = (bins c + total (fun x => sq (field (fst x))) (map (fun p => (p, sf_sys f)) (filter (in_cell g c) ps)))%Qc.
Proof.
  intros F. unfold aggregate_sum. rewrite aggregate_sum_cell_gen, map_map. rewrite (sel_pixels g (fun p => sq (field p)) _ _ _ F).
  unfold total. now rewrite map_map.
Qed.
Lemma total_const f g cs c ps : Forall2 (fun p d => cell g p = Some d) ps cs ->
  sumQ (map (fun _ : unit => sq (sf_sys f)) (sel c (map (fun i => (i, tt)) cs))) = total (fun x => sq (snd x)) (map (fun p => (p, sf_sys f)) (filter (in_cell g c) ps)).
Proof. intros F. rewrite (sel_cells g ps cs c F). unfold total. now rewrite !map_map. Qed.

Lemma aggregate_file_step g ch s f s' : aggregate_file g ch s f = Ok s' -> step_of g (valid ch) (of_interest ch) f s s'.
Proof.
  unfold aggregate_file. rewrite !get_chosen.
  destruct (grid_indices g (map px_lat (filter (passes (qc_mask_valid ch) (qc_filter_valid ch)) (sf_pixels f))) _) as [cs |] eqn:E1; cbn [bind]; [| discriminate].
  destruct (grid_indices g (map px_lat (filter (passes (qc_mask_obs ch) (qc_filter_obs ch)) (sf_pixels f))) _) as [co |] eqn:E2; cbn [bind]; [| discriminate].
  intros E. apply grid_indices_cells in E1, E2. assert (forall A (a b : A), Ok a = Ok b -> a = b) as SI by congruence. apply SI in E. subst s'.
  constructor. intros c. cbv zeta. rewrite !chosen_one. fold (valid ch) in *. fold (of_interest ch) in *. cbn [s_bins s_ran s_atm s_sfc s_sys s_obs].
  unfold aggregate_count_sum_min_max. destruct (bins_cell (combine cs (map px_value (filter (valid ch) (sf_pixels f)))) (s_bins s) c) as (A & B & C & D).
  rewrite A, B, C, D. rewrite (sel_pixels g px_value _ _ _ E1). rewrite !(sq_sums f _ g) by exact E1.
  rewrite aggregate_constant_cell, aggregate_count_cell. rewrite (total_const f g _ _ _ E1), (sel_cells g _ _ _ E2). unfold total. rewrite !map_map, !zlen_map. auto 10.
Qed.

Lemma aggregate_file_ok g ch s f : (exists s', aggregate_file g ch s f = Ok s') <-> located g (valid ch) f /\ located g (of_interest ch) f.
Proof.
  unfold aggregate_file. rewrite !get_chosen, !located_filter, !cells_exist. unfold valid, of_interest. split.
  - intros [s' E].
    destruct (grid_indices g (map px_lat (filter (passes (qc_mask_valid ch) (qc_filter_valid ch)) (sf_pixels f))) _) as [cs |] eqn:E1; cbn [bind] in E; [| discriminate].
    destruct (grid_indices g (map px_lat (filter (passes (qc_mask_obs ch) (qc_filter_obs ch)) (sf_pixels f))) _) as [co |] eqn:E2; cbn [bind] in E; [| discriminate].
    apply grid_indices_cells in E1, E2. eauto.
  - intros [[cs F] [co G]]. apply grid_indices_cells in F, G. rewrite F. cbn [bind]. rewrite G. cbn [bind]. eauto.
Qed.

(* ---- all files *)

Lemma foldM_app {A B} (f : A -> B -> result A) a l m : foldM f a (l ++ m) = (do x <- foldM f a l; foldM f x m).
Proof. revert a. induction l as [| b l IH]; intros a; cbn; [reflexivity |]. destruct (f a b); cbn; auto. Qed.

Lemma foldM_holds (step : sums -> satfile -> result sums) g tv ti lo hi :
  (forall s f s', step s f = Ok s' -> step_of g tv ti f s s') ->
  forall files done s s', holds g tv ti lo hi done s -> foldM step s files = Ok s' -> holds g tv ti lo hi (done ++ files) s'.
Proof.
  intros St files. induction files as [| f files IH]; intros done s s' H E; cbn in E.
  - assert (s' = s) by congruence. subst. now rewrite app_nil_r.
  - destruct (step s f) as [s1 |] eqn:E1; cbn in E; [| discriminate].
    replace (done ++ f :: files) with ((done ++ [f]) ++ files) by now rewrite <- app_assoc. apply (IH _ s1); [| exact E].
    eapply holds_step; [exact H |]. now apply St.
Qed.
Lemma foldM_ok {A} (step : A -> satfile -> result A) (P : satfile -> Prop) :
  (forall s f, (exists s', step s f = Ok s') <-> P f) ->
  forall files s, (exists s', foldM step s files = Ok s') <-> Forall P files.
Proof.
  intros St files. induction files as [| f files IH]; intros s; cbn; [split; eauto |]. split.
  - intros [s' E]. destruct (step s f) as [s1 |] eqn:E1; cbn in E; [| discriminate]. constructor; [apply (St s); eauto | apply (IH s1); eauto].
  - intros F. inversion F as [| ? ? Pf Fs]; subst. apply (St s) in Pf. destruct Pf as [s1 E1]. rewrite E1. cbn. now apply IH.
Qed.

Lemma no_sums_holds g tv ti : holds g tv ti (- FLT_MAX)%Qc FLT_MAX [] no_sums.
Proof. intros c. unfold chosen, all_pixels, total. cbn [flat_map filter map no_sums s_bins s_sq s_ran s_atm s_sfc s_sys s_obs b_count b_sum b_min b_max fold_left]. unfold zlen, sumQ. cbn. auto 10. Qed.

(* second pass *)
Definition devs (m : Qc) (V : list (pixel * Qc)) : Qc := total (fun ps => (value_of ps - m) * (value_of ps - m))%Qc V.
Definition holds2 (g : grid) (tv : pixel -> bool) (m : Z -> Qc) (files : list satfile) (d : Z -> Qc) : Prop :=
  forall c, d c = devs (m c) (chosen g tv files c).

Lemma second_step g tv m f cs (d : Z -> Qc) c : Forall2 (fun p e => cell g p = Some e) (filter tv (sf_pixels f)) cs ->
  aggregate_sum_dev_sq d m (map px_value (filter tv (sf_pixels f))) cs c = (d c + devs (m c) (chosen g tv [f] c))%Qc.
Proof.
  intros F. unfold aggregate_sum_dev_sq. rewrite sum_dev_cell_gen, (sel_pixels g px_value _ _ _ F), chosen_one. unfold devs, total. now rewrite !map_map.
Qed.
Lemma aggregate_second_step g ch m d f d' : aggregate_file_second_order g ch m d f = Ok d' ->
  forall c, d' c = (d c + devs (m c) (chosen g (valid ch) [f] c))%Qc.
Proof.
  unfold aggregate_file_second_order. rewrite !get_chosen. intros E c. fold (valid ch) in E.
  destruct (grid_indices g (map px_lat (filter (valid ch) (sf_pixels f))) _) as [cs |] eqn:E1; cbn [bind] in E; [| discriminate].
  apply grid_indices_cells in E1. assert (forall A (a b : A), Ok a = Ok b -> a = b) as SI by congruence. apply SI in E. subst d'. now apply second_step.
Qed.
Lemma foldM_holds2 (step : (Z -> Qc) -> satfile -> result (Z -> Qc)) g tv m :
  (forall d f d', step d f = Ok d' -> forall c, d' c = (d c + devs (m c) (chosen g tv [f] c))%Qc) ->
  forall files done d d', holds2 g tv m done d -> foldM step d files = Ok d' -> holds2 g tv m (done ++ files) d'.
Proof.
  intros St files. induction files as [| f files IH]; intros done d d' H E; cbn in E.
  - assert (d' = d) by congruence. subst. now rewrite app_nil_r.
  - destruct (step d f) as [d1 |] eqn:E1; cbn in E; [| discriminate].
    replace (done ++ f :: files) with ((done ++ [f]) ++ files) by now rewrite <- app_assoc. apply (IH _ d1); [| exact E].
    intros c. rewrite (St _ _ _ E1), chosen_app. unfold devs in *. rewrite total_app. f_equal. apply H.
Qed.
Lemma aggregate_second_ok g ch m d f : (exists d', aggregate_file_second_order g ch m d f = Ok d') <-> located g (valid ch) f.
Proof.
  unfold aggregate_file_second_order. rewrite !get_chosen, located_filter, cells_exist. unfold valid. split.
  - intros [d' E]. destruct (grid_indices _ _ _) as [cs |] eqn:E1; cbn [bind] in E; [| discriminate]. apply grid_indices_cells in E1. eauto.
  - intros [cs F]. apply grid_indices_cells in F. rewrite F. cbn [bind]. eauto.
Qed.

(* what run returns *)
Lemma run_inv g ch files F : run g ch files = Ok (Some F) ->
  exists s d, files <> [] /\ F = compute_fields s d /\ holds g (valid ch) (of_interest ch) (- FLT_MAX)%Qc FLT_MAX files s /\
              holds2 g (valid ch) (mean_field s) files d.
Proof.
  unfold run. destruct files as [| f files]; [discriminate |]. intros E.
  destruct (foldM (aggregate_file g ch) no_sums (f :: files)) as [s |] eqn:E1; [| discriminate]. cbn [bind] in E.
  destruct (foldM (aggregate_file_second_order g ch (mean_field s)) _ (f :: files)) as [d |] eqn:E2; [| discriminate]. cbn [bind] in E.
  exists s, d. split; [discriminate |]. split; [congruence |]. split.
  - exact (foldM_holds _ g _ _ _ _ (aggregate_file_step g ch) (f :: files) [] no_sums s (no_sums_holds g _ _) E1).
  - refine (foldM_holds2 _ g _ _ (aggregate_second_step g ch (mean_field s)) (f :: files) [] _ d _ E2). intros c. reflexivity.
Qed.
Lemma run_ok g ch files : files <> [] ->
  ((exists F, run g ch files = Ok (Some F)) <-> Forall (fun f => located g (valid ch) f /\ located g (of_interest ch) f) files).
Proof.
  intros N. split.
  - intros [F E]. unfold run in E. destruct files as [| f files]; [congruence |].
    destruct (foldM (aggregate_file g ch) no_sums (f :: files)) as [s |] eqn:E1; [| discriminate].
    apply (foldM_ok (aggregate_file g ch) _ (aggregate_file_ok g ch) _ no_sums). eauto.
  - intros F. unfold run. destruct files as [| f files]; [congruence |].
    destruct (proj2 (foldM_ok (aggregate_file g ch) _ (aggregate_file_ok g ch) (f :: files) no_sums) F) as [s E1]. rewrite E1. cbn [bind].
    destruct (proj2 (foldM_ok (aggregate_file_second_order g ch (mean_field s)) _ (aggregate_second_ok g ch (mean_field s)) (f :: files) (fun _ => 0%Qc))) as [d E2].
    { eapply Forall_impl; [| exact F]. cbn. tauto. }
    rewrite E2. cbn [bind]. eauto.
Qed.

(* ---- smallest and largest *)

Lemma pymin_le a b : (pymin a b <= a)%Qc /\ (pymin a b <= b)%Qc /\ (pymin a b = a \/ pymin a b = b).
Proof.
  unfold pymin. destruct (Qclt_bool b a) eqn:E.
  - apply Qclt_bool_iff in E. split; [now apply Qclt_le_weak | split; [apply Qcle_refl | now right]].
  - apply Qclt_bool_false in E. split; [apply Qcle_refl | split; [exact E | now left]].
Qed.
Lemma pymax_ge a b : (a <= pymax a b)%Qc /\ (b <= pymax a b)%Qc /\ (pymax a b = a \/ pymax a b = b).
Proof.
  unfold pymax. destruct (Qclt_bool a b) eqn:E.
  - apply Qclt_bool_iff in E. split; [now apply Qclt_le_weak | split; [apply Qcle_refl | now right]].
  - apply Qclt_bool_false in E. split; [apply Qcle_refl | split; [exact E | now left]].
Qed.
Lemma fold_pymin l a : is_min (fold_left pymin l a) (a :: l).
Proof.
  revert a. induction l as [| x l IH]; intros a; cbn [fold_left].
  - split; [now left |]. intros y [<- | []]. apply Qcle_refl.
  - destruct (IH (pymin a x)) as [I L]. destruct (pymin_le a x) as (A & B & C). split.
    + destruct I as [<- | I]; [| cbn; auto]. destruct C as [-> | ->]; cbn; auto.
    + intros y [<- | [<- | Y]]; [| | apply L; now right]; (eapply Qcle_trans; [apply L; left; reflexivity |]); assumption.
Qed.
Lemma fold_pymax l a : is_max (fold_left pymax l a) (a :: l).
Proof.
  revert a. induction l as [| x l IH]; intros a; cbn [fold_left].
  - split; [now left |]. intros y [<- | []]. apply Qcle_refl.
  - destruct (IH (pymax a x)) as [I L]. destruct (pymax_ge a x) as (A & B & C). split.
    + destruct I as [<- | I]; [| cbn; auto]. destruct C as [-> | ->]; cbn; auto.
    + intros y [<- | [<- | Y]]; [| | apply L; now right]; (eapply Qcle_trans; [| apply L; left; reflexivity]); assumption.
Qed.
Lemma min_of_all l a : l <> [] -> (forall x, In x l -> (x <= a)%Qc) -> is_min (fold_left pymin l a) l.
Proof.
  intros N B. destruct (fold_pymin l a) as [[E | I] L].
  - destruct l as [| x l]; [congruence |]. assert (x = a) as <-.
    { apply Qcle_antisym; [apply B; now left |]. rewrite E. apply L. right. now left. }
    split; [rewrite <- E; now left |]. intros y Y. apply L. now right.
  - split; [exact I |]. intros y Y. apply L. now right.
Qed.
Lemma max_of_all l a : l <> [] -> (forall x, In x l -> (a <= x)%Qc) -> is_max (fold_left pymax l a) l.
Proof.
  intros N B. destruct (fold_pymax l a) as [[E | I] L].
  - destruct l as [| x l]; [congruence |]. assert (x = a) as <-.
    { apply Qcle_antisym; [| apply B; now left]. rewrite E. apply L. right. now left. }
    split; [rewrite <- E; now left |]. intros y Y. apply L. now right.
  - split; [exact I |]. intros y Y. apply L. now right.
Qed.
Lemma is_min_unique l a b : is_min a l -> is_min b l -> a = b.
Proof. intros [A A'] [B B']. apply Qcle_antisym; auto. Qed.
Lemma is_max_unique l a b : is_max a l -> is_max b l -> a = b.
Proof. intros [A A'] [B B']. apply Qcle_antisym; auto. Qed.
Lemma is_min_perm l m a : Permutation l m -> is_min a l -> is_min a m.
Proof. intros P [A B]. split; [eapply Permutation_in; eauto |]. intros x X. apply B. eapply Permutation_in; [apply Permutation_sym |]; eauto. Qed.
Lemma is_max_perm l m a : Permutation l m -> is_max a l -> is_max a m.
Proof. intros P [A B]. split; [eapply Permutation_in; eauto |]. intros x X. apply B. eapply Permutation_in; [apply Permutation_sym |]; eauto. Qed.

(* ---- order does not matter *)

Lemma sumQ_perm l m : Permutation l m -> sumQ l = sumQ m.
Proof. unfold sumQ. induction 1; cbn [fold_right]; try congruence. ring. Qed.
Lemma total_perm f l m : Permutation l m -> total f l = total f m.
Proof. intros P. apply sumQ_perm, Permutation_map, P. Qed.
Lemma filter_perm {A} (P : A -> bool) l m : Permutation l m -> Permutation (filter P l) (filter P m).
Proof.
  induction 1 as [| x l m H IH | x y l | l m n H1 IH1 H2 IH2]; cbn; [constructor | destruct (P x); auto | | eauto using Permutation_trans].
  destruct (P x), (P y); auto using perm_swap, Permutation_refl.
Qed.
Lemma chosen_perm g t fs gs c : Permutation (all_pixels fs) (all_pixels gs) -> Permutation (chosen g t fs c) (chosen g t gs c).
Proof. apply filter_perm. Qed.
Lemma zlen_perm {A} (l m : list A) : Permutation l m -> zlen l = zlen m.
Proof. intros P. unfold zlen. now rewrite (Permutation_length P). Qed.
Lemma fold_pymin_perm l m a : Permutation l m -> fold_left pymin l a = fold_left pymin m a.
Proof. intros P. apply (is_min_unique (a :: m)); [| apply fold_pymin]. apply (is_min_perm (a :: l)); [now constructor | apply fold_pymin]. Qed.
Lemma fold_pymax_perm l m a : Permutation l m -> fold_left pymax l a = fold_left pymax m a.
Proof. intros P. apply (is_max_unique (a :: m)); [| apply fold_pymax]. apply (is_max_perm (a :: l)); [now constructor | apply fold_pymax]. Qed.

Lemma mean_field_holds g tv ti lo hi files s c : holds g tv ti lo hi files s ->
  mean_field s c = where_counted (zlen (chosen g tv files c)) (mean (map value_of (chosen g tv files c))).
Proof. intros H. destruct (H c) as (A & B & _). unfold mean_field. rewrite A, B. unfold mean, total. now rewrite zlen_map. Qed.

Lemma located_all g t files : Forall (located g t) files <-> forall p s, In (p, s) (all_pixels files) -> t p = true -> on_grid g p.
Proof.
  rewrite Forall_forall. unfold all_pixels. split.
  - intros H p s I T. apply in_flat_map in I. destruct I as (f & If & Ip). apply in_map_iff in Ip. destruct Ip as (q & E & Iq).
    assert (q = p) by congruence. subst. now apply (H f If).
  - intros H f If p Ip T. apply (H p (sf_sys f)); [| exact T]. apply in_flat_map. exists f. split; [exact If |]. now apply (in_map (fun p => (p, sf_sys f))).
Qed.

(* ---- variances *)

Lemma sumQ_cons x l : sumQ (x :: l) = (x + sumQ l)%Qc.
Proof. reflexivity. Qed.
Lemma sumQ_scale k l : sumQ (map (fun x => k * x)%Qc l) = (k * sumQ l)%Qc.
Proof. unfold sumQ. induction l as [| x l IH]; cbn [map fold_right]; [ring |]. rewrite IH. ring. Qed.
Lemma sumQ_plus {A} (f h : A -> Qc) l : sumQ (map (fun x => f x + h x)%Qc l) = (sumQ (map f l) + sumQ (map h l))%Qc.
Proof. unfold sumQ. induction l as [| x l IH]; cbn [map fold_right]; [ring |]. rewrite IH. ring. Qed.
Lemma sumQ_const {A} k (l : list A) : sumQ (map (fun _ => k) l) = (qz (zlen l) * k)%Qc.
Proof.
  induction l as [| x l IH]; [unfold sumQ, zlen; cbn; rewrite qz_0; ring |]. rewrite zlen_cons, qz_plus, qz_1. unfold sumQ in *. cbn [map fold_right]. rewrite IH. ring.
Qed.
Lemma sumQ_ext {A} (f h : A -> Qc) l : (forall x, f x = h x) -> sumQ (map f l) = sumQ (map h l).
Proof. intros E. unfold sumQ. induction l as [| x l IH]; cbn [map fold_right]; [reflexivity |]. now rewrite E, IH. Qed.

Lemma sum_about m l : sumQ (map (fun x => (x - m) * (x - m))%Qc l) = (sumQ (map sq l) - (1 + 1) * m * sumQ l + qz (zlen l) * (m * m))%Qc.
Proof.
  unfold sq, sumQ. induction l as [| x l IH]; [unfold zlen; cbn [map fold_right length Z.of_nat]; rewrite qz_0; ring |].
  rewrite zlen_cons, qz_plus, qz_1. cbn [map fold_right]. rewrite IH. ring.
Qed.
Lemma pair_sums l : sumQ (map (fun x => sumQ (map (fun y => (x - y) * (x - y)) l)) l)%Qc =
  ((1 + 1) * (qz (zlen l) * sumQ (map sq l) - sumQ l * sumQ l))%Qc.
Proof.
  assert (forall k : list Qc, sumQ (map (fun x => sumQ (map (fun y => (x - y) * (x - y)) l)) k)%Qc =
     (qz (zlen l) * sumQ (map sq k) - (1 + 1) * sumQ k * sumQ l + qz (zlen k) * sumQ (map sq l))%Qc) as H.
  { induction k as [| x k IH]; [unfold zlen, sumQ; cbn [map fold_right length Z.of_nat]; rewrite qz_0; ring |].
    rewrite (zlen_cons x k), qz_plus, qz_1. cbn [map]. rewrite !sumQ_cons, IH.
    rewrite (sumQ_ext (fun y => (x - y) * (x - y)) (fun y => (y - x) * (y - x)))%Qc by (intros; ring). rewrite sum_about. change (sq x) with (x * x)%Qc. generalize (qz (zlen l)) (qz (zlen k)) (sumQ l) (sumQ k) (sumQ (map sq l)) (sumQ (map sq k)). intros. ring. }
  rewrite H. ring.
Qed.

Lemma variances_agree l : 2 <= zlen l -> sample_variance l = pair_variance l.
Proof.
  intros N. unfold sample_variance, pair_variance. rewrite sum_about, pair_sums. unfold mean.
  assert (qz (zlen l) <> 0%Qc) as A by (apply qz_nonzero; lia). assert (qz (zlen l - 1) <> 0%Qc) as B by (apply qz_nonzero; lia).
  assert (qz 2 = 1 + 1)%Qc as T by (apply Qc_is_canon; reflexivity). assert (1 + 1 <> 0)%Qc as T' by (rewrite <- T; now apply qz_nonzero). rewrite T. field. auto.
Qed.

(* ---- slots *)

Lemma sel_app {A} c (l m : list (Z * A)) : sel c (l ++ m) = sel c l ++ sel c m.
Proof. unfold sel. now rewrite filter_app', map_app. Qed.

Definition slots_hold (cells max : Z) (done : list (Z * Qc)) (s : slots) : Prop :=
  sl_max s = max /\ sl_cells s = cells /\
  forall c, 0 <= c < cells -> sl_count s c = zlen (sel c done) /\
    forall k, 0 <= k < max -> sl_values s (c * max + k) = nth (Z.to_nat k) (sel c done) 0%Qc.

Lemma slots_run cells max l : forall done s, slots_hold cells max done s ->
  (forall i v, In (i, v) (done ++ l) -> 0 <= i < cells) -> (forall c, zlen (sel c (done ++ l)) <= max) ->
  exists s', foldM slot_one s l = Ok s' /\ slots_hold cells max (done ++ l) s'.
Proof.
  induction l as [| [i v] l IH]; intros done s H R B; [exists s; rewrite app_nil_r; auto |].
  destruct H as (M & C & H). cbn [foldM]. unfold slot_one at 1. cbv zeta. rewrite M, C.
  assert (0 <= i < cells) as Ri by (apply (R i v), in_or_app; right; now left). destruct (H i Ri) as [Ct _]. rewrite Ct.
  assert (zlen (sel i done) < max) as Lt.
  { pose proof (B i) as Bi. rewrite sel_app, zlen_app, sel_cons, Z.eqb_refl, zlen_cons in Bi. pose proof (zlen_nonneg (sel i l)). lia. }
  pose proof (zlen_nonneg (sel i done)) as Nn.
  destruct (i * max + zlen (sel i done) <? cells * max) eqn:E; [| nia]. cbn [bind].
  replace (done ++ (i, v) :: l) with ((done ++ [(i, v)]) ++ l) in * by now rewrite <- app_assoc.
  apply IH; [| exact R | exact B]. unfold slots_hold. cbn [sl_max sl_cells sl_count sl_values]. split; [reflexivity |]. split; [reflexivity |].
  intros c Rc. destruct (H c Rc) as [Cc Vc]. rewrite sel_app, sel_cons, upd_at. replace (sel c []) with (@nil Qc) by reflexivity. split.
  - destruct (i =? c) eqn:Ec; [apply Z.eqb_eq in Ec; subst c; rewrite zlen_app; cbn; lia | rewrite app_nil_r; exact Cc].
  - intros k Rk. rewrite upd_at. destruct (i =? c) eqn:Ec.
    + apply Z.eqb_eq in Ec. subst c. destruct (i * max + zlen (sel i done) =? i * max + k) eqn:Ek.
      * assert (k = zlen (sel i done)) as -> by lia. unfold zlen. rewrite Nat2Z.id, nth_middle. reflexivity.
      * rewrite Vc by exact Rk. destruct (Z.lt_ge_cases k (zlen (sel i done))) as [L | G]; unfold zlen in *.
        -- rewrite app_nth1 by lia. reflexivity.
        -- rewrite !nth_overflow; [reflexivity | rewrite app_length; cbn; lia | lia].
    + rewrite app_nil_r. destruct (i * max + zlen (sel i done) =? c * max + k) eqn:Ek; [| now apply Vc].
      apply Z.eqb_neq in Ec. apply Z.eqb_eq in Ek. exfalso. apply Ec. nia.
Qed.

Lemma nth_zrange (l : list Qc) : forall n, zlen l <= n ->
  map (fun k => nth (Z.to_nat k) l 0%Qc) (zrange 0 n) = l ++ map (fun _ => 0%Qc) (zrange (zlen l) n).
Proof.
  intros n L. pose proof (zlen_nonneg l). rewrite <- (zrange_app 0 (zlen l) n) by lia. rewrite map_app. f_equal.
  - clear L. apply Work_Proofs.nth_error_ext. intros j. rewrite nth_error_map. destruct (Nat.lt_ge_cases j (length l)) as [Lt | Ge].
    + rewrite Cat_Proofs.zrange_nth by (unfold zlen; lia). cbn. rewrite Nat2Z.id. symmetry. now apply nth_error_nth'.
    + rewrite (proj2 (nth_error_None l j)) by lia. rewrite (proj2 (nth_error_None (zrange 0 (zlen l)) j)); [reflexivity |]. rewrite zrange_length. unfold zlen. lia.
  - apply map_ext_in. intros k K. apply zrange_In in K. apply nth_overflow. unfold zlen in *. lia.
Qed.
Lemma sumQ_zeros {A} (l : list A) : sumQ (map (fun _ => 0%Qc) l) = 0%Qc.
Proof. rewrite sumQ_const. ring. Qed.

Lemma fold_zero_mask l m : fold_left (fun m v => if Qc_eq_bool v 0%Qc then m else match m with None => Some v | Some x => Some (max2 x v) end) l m =
  match m, filter (fun v => negb (Qc_eq_bool v 0%Qc)) l with
  | None, [] => None
  | None, v :: r => Some (fold_left pymax r v)
  | Some x, r => Some (fold_left pymax r x)
  end.
Proof.
  revert m. induction l as [| v l IH]; intros m; cbn [fold_left filter]; [now destruct m |]. rewrite IH.
  destruct (Qc_eq_bool v 0%Qc); cbn [negb]; [reflexivity |]. destruct m; reflexivity.
Qed.

(* ---- the second program *)

Lemma iris_axis_index a v : field_axis_index (iris_axis a) v = axis_index a v.
Proof.
  unfold field_axis_index, axis_index, iris_axis. cbn [fa_step fa_zeroth fa_count fa_circular]. destruct (Qc_eq_bool (a_increment a) 0%Qc) eqn:E; [reflexivity |].
  assert (a_increment a <> 0%Qc) as N by (intros Z; apply Qc_eq_bool_iff in Z; congruence).
  generalize (1 / qz 2)%Qc as h. intros h. replace ((v - (a_start a - h * a_increment a)) / a_increment a - h)%Qc with ((v - a_start a) / a_increment a)%Qc by (field; exact N). reflexivity.
Qed.

Definition iris_valid (ch : choice) (p : pixel) : bool := negb (px_masked p || qc_left_out (qc_mask_valid ch) (qc_filter_valid ch) p).
Definition iris_interest (ch : choice) (p : pixel) : bool := negb (qc_left_out (qc_mask_obs ch) (qc_filter_obs ch) p).

Lemma input_map_spec g ps out from to :
  compute_input_map (iris_axis (g_lat g)) (iris_axis (g_lon g)) ps out = Ok (from, to) ->
  Forall2 (fun p d => cell g p = Some d) (filter (fun p => negb (out p)) ps) to /\
  forall f field, sf_pixels f = ps -> get f field from = map field (filter (fun p => negb (out p)) ps).
Proof.
  unfold compute_input_map. cbv zeta. rewrite !(at_indices_filter (fun p => negb (out p))). intros E.
  set (fr := map fst _) in E. assert (fr = map fst (filter (fun ip : Z * pixel => negb (out (snd ip))) (combine (zrange 0 (zlen ps)) ps))) as Fr by reflexivity. clearbody fr.
  assert (from = fr /\ grid_indices g (map px_lat (filter (fun p => negb (out p)) ps)) (map px_lon (filter (fun p => negb (out p)) ps)) = Ok to) as [-> G].
  { unfold grid_indices, axis_indices.
    assert (forall a l, mapM (field_axis_index (iris_axis a)) l = mapM (axis_index a) l) as X.
    { intros a l. induction l as [| x l IH]; cbn; [reflexivity |]. now rewrite iris_axis_index, IH. }
    rewrite !X in E. destruct (mapM (axis_index (g_lat g)) _) as [is |]; cbn [bind] in *; [| discriminate].
    destruct (mapM (axis_index (g_lon g)) _) as [js |]; cbn [bind iris_axis fa_count] in *; [| discriminate]. split; congruence. }
  split; [now apply grid_indices_cells |]. intros f field <-. unfold get. subst fr. apply (at_indices_filter (fun p => negb (out p))).
Qed.
Lemma input_map_ok g ps out : (exists from to, compute_input_map (iris_axis (g_lat g)) (iris_axis (g_lon g)) ps out = Ok (from, to)) <->
  exists cs, Forall2 (fun p d => cell g p = Some d) (filter (fun p => negb (out p)) ps) cs.
Proof.
  split.
  - intros (from & to & E). apply input_map_spec in E. destruct E. eauto.
  - intros [cs F]. apply grid_indices_cells in F. unfold compute_input_map. cbv zeta. rewrite !(at_indices_filter (fun p => negb (out p))).
    unfold grid_indices, axis_indices in F.
    assert (forall a l, mapM (field_axis_index (iris_axis a)) l = mapM (axis_index a) l) as X.
    { intros a l. induction l as [| x l IH]; cbn; [reflexivity |]. now rewrite iris_axis_index, IH. }
    rewrite !X. destruct (mapM (axis_index (g_lat g)) _) as [is |]; cbn [bind] in *; [| discriminate].
    destruct (mapM (axis_index (g_lon g)) _) as [js |]; cbn [bind] in *; [| discriminate]. eauto.
Qed.

Lemma op_sum_sq_eq bins to vs c : op_sum_sq bins to vs c = aggregate_sum bins (map sq vs) to c.
Proof.
  unfold op_sum_sq, aggregate_sum. revert bins to. induction vs as [| v vs IH]; intros bins [| t to]; cbn [combine map fold_left]; try reflexivity. apply IH.
Qed.
Lemma op_const_eq bins to k c : op_sum_const_sq bins to k c = aggregate_constant bins (sq k) to c.
Proof. reflexivity. Qed.

Lemma iris_file_step g ch s f s' : iris_file g ch s f = Ok s' -> step_of g (iris_valid ch) (iris_interest ch) f s s'.
Proof.
  unfold iris_file, iris_obs_map, iris_input_map. intros E.
  destruct (compute_input_map _ _ _ (qc_left_out (qc_mask_obs ch) _)) as [[ofrom oto] |] eqn:E2; cbn [bind] in E; [| discriminate].
  destruct (compute_input_map _ _ _ (fun p => px_masked p || _)) as [[from to] |] eqn:E1; cbn [bind] in E; [| discriminate].
  apply input_map_spec in E1, E2. destruct E1 as [E1 G1]. destruct E2 as [E2 _].
  rewrite !(G1 f) in E by reflexivity. fold (iris_valid ch) in E, E1. fold (iris_interest ch) in E2. clear G1. cbn [snd] in E.
  assert (forall A (a b : A), Ok a = Ok b -> a = b) as SI by congruence. apply SI in E. subst s'.
  constructor. intros c. cbv zeta. rewrite !chosen_one. cbn [s_bins s_ran s_atm s_sfc s_sys s_obs].
  rewrite !op_sum_sq_eq, op_const_eq. unfold op_sum_count.
  destruct (op_sum_count_cell (combine to (map px_value (filter (iris_valid ch) (sf_pixels f)))) (s_bins s) c) as (A & B & C & D).
  rewrite A, B, C, D. rewrite (sel_pixels g px_value _ _ _ E1). rewrite !(sq_sums f _ g) by exact E1.
  rewrite aggregate_constant_cell. change (op_count (s_obs s) oto c) with (aggregate_count (s_obs s) oto c).
  rewrite aggregate_count_cell. rewrite (total_const f g _ _ _ E1), (sel_cells g _ _ _ E2). unfold total. rewrite !map_map, !zlen_map. auto 10.
Qed.
Lemma iris_file_ok g ch s f : (exists s', iris_file g ch s f = Ok s') <-> located g (iris_valid ch) f /\ located g (iris_interest ch) f.
Proof.
  rewrite !located_filter, !cells_exist. unfold iris_file, iris_obs_map, iris_input_map. split.
  - intros [s' E].
    destruct (compute_input_map _ _ _ (qc_left_out (qc_mask_obs ch) _)) as [[ofrom oto] |] eqn:E2; cbn [bind] in E; [| discriminate].
    destruct (compute_input_map _ _ _ (fun p => px_masked p || _)) as [[from to] |] eqn:E1; cbn [bind] in E; [| discriminate].
    apply input_map_spec in E1, E2. destruct E1 as [E1 G1]. destruct E2 as [E2 _]. unfold iris_valid, iris_interest. eauto.
  - intros [F G]. apply input_map_ok in F, G. destruct F as (from & to & F). destruct G as (ofrom & oto & G). rewrite G. cbn [bind]. rewrite F. cbn [bind]. eauto.
Qed.
Lemma iris_second_step g ch m d f d' : iris_file_second g ch m d f = Ok d' ->
  forall c, d' c = (d c + devs (m c) (chosen g (iris_valid ch) [f] c))%Qc.
Proof.
  unfold iris_file_second, iris_input_map. intros E c.
  destruct (compute_input_map _ _ _ _) as [[from to] |] eqn:E1; cbn [bind fst snd] in E; [| discriminate].
  apply input_map_spec in E1. destruct E1 as [E1 G1]. rewrite (G1 f) in E by reflexivity. fold (iris_valid ch) in E, E1.
  assert (forall A (a b : A), Ok a = Ok b -> a = b) as SI by congruence. apply SI in E. subst d'. exact (second_step g _ m f _ d c E1).
Qed.
Lemma iris_second_ok g ch m d f : (exists d', iris_file_second g ch m d f = Ok d') <-> located g (iris_valid ch) f.
Proof.
  rewrite located_filter, cells_exist. unfold iris_file_second, iris_input_map. split.
  - intros [d' E]. destruct (compute_input_map _ _ _ _) as [[from to] |] eqn:E1; cbn [bind] in E; [| discriminate].
    apply input_map_spec in E1. destruct E1 as [E1 _]. unfold iris_valid. eauto.
  - intros F. apply input_map_ok in F. destruct F as (from & to & F). rewrite F. cbn [bind]. eauto.
Qed.

Definition iris_mean0 (s : sums) (c : Z) : Qc := match iris_mean s c with Some v => v | None => 0%Qc end.
Lemma iris_no_sums_holds g tv ti : holds g tv ti (- INITIAL)%Qc INITIAL [] iris_no_sums.
Proof. intros c. unfold chosen, all_pixels, total. cbn [flat_map filter map iris_no_sums s_bins s_sq s_ran s_atm s_sfc s_sys s_obs b_count b_sum b_min b_max fold_left]. unfold zlen, sumQ. cbn [fold_right length Z.of_nat]. auto 10. Qed.

Lemma iris_run_inv g ch files F : iris_run g ch files = Ok (Some F) ->
  exists s d, files <> [] /\ F = iris_compute s d /\ holds g (iris_valid ch) (iris_interest ch) (- INITIAL)%Qc INITIAL files s /\
              holds2 g (iris_valid ch) (iris_mean0 s) files d.
Proof.
  unfold iris_run. destruct files as [| f files]; [discriminate |]. intros E.
  destruct (foldM (iris_file g ch) iris_no_sums (f :: files)) as [s |] eqn:E1; [| discriminate]. cbn [bind] in E. cbv zeta in E. fold (iris_mean0 s) in E.
  destruct (foldM (iris_file_second g ch (iris_mean0 s)) _ (f :: files)) as [d |] eqn:E2; [| discriminate]. cbn [bind] in E.
  exists s, d. split; [discriminate |]. split; [congruence |]. split.
  - exact (foldM_holds _ g _ _ _ _ (iris_file_step g ch) (f :: files) [] iris_no_sums s (iris_no_sums_holds g _ _) E1).
  - refine (foldM_holds2 _ g _ _ (iris_second_step g ch (iris_mean0 s)) (f :: files) [] _ d _ E2). intros c. reflexivity.
Qed.
Lemma iris_run_ok g ch files : files <> [] ->
  ((exists F, iris_run g ch files = Ok (Some F)) <-> Forall (fun f => located g (iris_valid ch) f /\ located g (iris_interest ch) f) files).
Proof.
  intros N. split.
  - intros [F E]. unfold iris_run in E. destruct files as [| f files]; [congruence |].
    destruct (foldM (iris_file g ch) iris_no_sums (f :: files)) as [s |] eqn:E1; [| discriminate].
    apply (foldM_ok (iris_file g ch) _ (iris_file_ok g ch) _ iris_no_sums). eauto.
  - intros F. unfold iris_run. destruct files as [| f files]; [congruence |].
    destruct (proj2 (foldM_ok (iris_file g ch) _ (iris_file_ok g ch) (f :: files) iris_no_sums) F) as [s E1]. rewrite E1. cbn [bind]. cbv zeta. fold (iris_mean0 s).
    destruct (proj2 (foldM_ok (iris_file_second g ch (iris_mean0 s)) _ (iris_second_ok g ch (iris_mean0 s)) (f :: files) (fun _ => 0%Qc))) as [d E2].
    { eapply Forall_impl; [| exact F]. cbn. tauto. }
    rewrite E2. cbn [bind]. eauto.
Qed.
