From Coq Require Import String.
From Verif Require Import Base Work_Model Work_Spec Work_Proofs Cat_Model Cat_Spec.
Local Open Scope Z_scope.
Local Open Scope list_scope.

(* ------------------------------------------------------------ lists *)

Lemma combine_seq_nth {A} (l : list A) a n :
  nth_error (combine (map Z.of_nat (seq a (length l))) l) n = option_map (fun x => (Z.of_nat (a + n), x)) (nth_error l n).
Proof.
  revert a n; induction l as [|x l IH]; intros a [|n]; cbn [length seq map combine nth_error option_map]; auto.
  - f_equal. f_equal. lia.
  - rewrite IH. destruct (nth_error l n); cbn; [|reflexivity]. do 2 f_equal. lia.
Qed.

Lemma nth_enumerate {A} (l : list A) n : nth_error (enumerate l) n = option_map (fun x => (Z.of_nat n, x)) (nth_error l n).
Proof. unfold enumerate. rewrite combine_seq_nth. reflexivity. Qed.

Lemma enumerate_length {A} (l : list A) : length (enumerate l) = length l.
Proof. unfold enumerate. rewrite combine_length, map_length, seq_length. lia. Qed.

Lemma In_enumerate {A} (l : list A) i x : In (i, x) (enumerate l) <-> 0 <= i /\ nth_error l (Z.to_nat i) = Some x.
Proof.
  split.
  - intros H. apply In_nth_error in H. destruct H as [n H]. rewrite nth_enumerate in H.
    destruct (nth_error l n) eqn:E; [|discriminate]. cbn in H. injection H as <- <-. split; [lia|].
    now replace (Z.to_nat (Z.of_nat n)) with n by lia.
  - intros [H1 H2]. apply nth_error_In with (n := Z.to_nat i). rewrite nth_enumerate, H2. cbn. do 2 f_equal. lia.
Qed.

Lemma enumerate_fst_NoDup {A} (l : list A) : NoDup (map fst (enumerate l)).
Proof.
  unfold enumerate. assert (map fst (combine (map Z.of_nat (seq 0 (length l))) l) = map Z.of_nat (seq 0 (length l))) as ->.
  { generalize 0%nat. induction l as [|x l IH]; intros a; cbn; [reflexivity|]. now rewrite IH. }
  apply FinFun.Injective_map_NoDup; [intros x y; lia|apply seq_NoDup].
Qed.

(* Positions of the elements satisfying f. *)
Definition positions {A} (f : A -> bool) (l : list A) : list nat :=
  filter (fun i => match nth_error l i with Some x => f x | None => false end) (seq 0 (length l)).

Lemma filter_enumerate {A} (f : A -> bool) (l : list A) :
  map fst (filter (fun ix => f (snd ix)) (enumerate l)) = map Z.of_nat (positions f l).
Proof.
  unfold enumerate, positions.
  assert (forall a, map fst (filter (fun ix => f (snd ix)) (combine (map Z.of_nat (seq a (length l))) l)) =
    map Z.of_nat (filter (fun i => match nth_error l (i - a) with Some x => f x | None => false end) (seq a (length l)))) as H.
  { induction l as [|x l IH]; intros a; [reflexivity|]. cbn [length seq map combine filter snd].
    rewrite Nat.sub_diag. cbn [nth_error].
    assert (filter (fun i => match nth_error (x :: l) (i - a) with Some x0 => f x0 | None => false end) (seq (S a) (length l))
            = filter (fun i => match nth_error l (i - S a) with Some x0 => f x0 | None => false end) (seq (S a) (length l))) as E.
    { apply filter_ext_in. intros i Hi. apply in_seq in Hi. replace (i - a)%nat with (S (i - S a)) by lia. reflexivity. }
    rewrite E. destruct (f x); cbn [map fst]; rewrite IH; reflexivity. }
  rewrite H. f_equal. apply filter_ext. intros i. now rewrite Nat.sub_0_r.
Qed.

Lemma In_positions {A} (f : A -> bool) l i : In i (positions f l) <-> exists x, nth_error l i = Some x /\ f x = true.
Proof.
  unfold positions. rewrite filter_In. split.
  - intros [_ H]. destruct (nth_error l i); [eauto|discriminate].
  - intros (x & E & F). rewrite E. split; [|assumption]. apply in_seq.
    assert (nth_error l i <> None) by congruence. apply nth_error_Some in H. lia.
Qed.

Lemma StronglySorted_filter {A} (R : A -> A -> Prop) f l : StronglySorted R l -> StronglySorted R (filter f l).
Proof.
  induction 1 as [|x l S IH F]; cbn; [constructor|]. destruct (f x); [|assumption].
  constructor; [assumption|]. rewrite Forall_forall in *. intros y Hy. apply filter_In in Hy. now apply F.
Qed.

Lemma seq_sorted a n : StronglySorted lt (seq a n).
Proof.
  revert a; induction n as [|n IH]; intros a; cbn; constructor; [apply IH|].
  apply Forall_forall. intros x Hx. apply in_seq in Hx. lia.
Qed.

Lemma positions_sorted {A} (f : A -> bool) l : StronglySorted lt (positions f l).
Proof. apply StronglySorted_filter, seq_sorted. Qed.

Lemma sorted_unique (l m : list nat) :
  StronglySorted lt l -> StronglySorted lt m -> (forall x, In x l <-> In x m) -> l = m.
Proof.
  intros S; revert m; induction S as [|x l S IH F]; intros m T H.
  - destruct m as [|y m]; [reflexivity|]. exfalso. apply (H y). now left.
  - destruct T as [|y m T G]; [exfalso; apply (H x); now left|].
    rewrite Forall_forall in F, G.
    assert (x = y) as ->.
    { destruct (proj1 (H x) (or_introl eq_refl)) as [E|E]; [congruence|].
      destruct (proj2 (H y) (or_introl eq_refl)) as [E'|E']; [congruence|].
      apply G in E. apply F in E'. lia. }
    f_equal. apply IH; [assumption|]. intros z. split; intros Hz.
    + destruct (proj1 (H z) (or_intror Hz)) as [E|E]; [|assumption]. subst z. apply F in Hz. lia.
    + destruct (proj2 (H z) (or_intror Hz)) as [E|E]; [|assumption]. subst z. apply G in Hz. lia.
Qed.

(* ------------------------------------------------------------ dictionaries *)

Lemma dict_get_app {K V} (eqb : K -> K -> bool) (l m : list (K * V)) k :
  dict_get eqb (l ++ m) k = match dict_get eqb m k with Some v => Some v | None => dict_get eqb l k end.
Proof.
  unfold dict_get. rewrite fold_left_app. generalize (fold_left (fun acc p => if eqb (fst p) k then Some (snd p) else acc) l None).
  intros o. revert o. induction m as [|p m IH] using rev_ind; intros o; [reflexivity|].
  rewrite !fold_left_app. cbn. destruct (eqb (fst p) k); [reflexivity|apply IH].
Qed.

Lemma dict_get_one {K V} (eqb : K -> K -> bool) (p : K * V) k : dict_get eqb [p] k = if eqb (fst p) k then Some (snd p) else None.
Proof. reflexivity. Qed.

Lemma dict_get_In {K V} (eqb : K -> K -> bool) (Heq : forall a b, eqb a b = true <-> a = b) (l : list (K * V)) k v :
  dict_get eqb l k = Some v -> In (k, v) l.
Proof.
  induction l as [|p l IH] using rev_ind; [discriminate|]. rewrite dict_get_app, dict_get_one.
  intros H. apply in_or_app. destruct (eqb (fst p) k) eqn:E.
  - right. apply Heq in E. destruct p as [k' v']. cbn in *. left. congruence.
  - left. auto.
Qed.

Lemma dict_get_None {K V} (eqb : K -> K -> bool) (Heq : forall a b, eqb a b = true <-> a = b) (l : list (K * V)) k :
  dict_get eqb l k = None <-> ~ In k (map fst l).
Proof.
  induction l as [|p l IH] using rev_ind; [split; [intros _ []|reflexivity]|].
  rewrite dict_get_app, dict_get_one, map_app, in_app_iff. cbn. destruct (eqb (fst p) k) eqn:E.
  - apply Heq in E. split; [discriminate|]. intros H; exfalso; auto.
  - rewrite IH. split.
    + intros H [C|[C|[]]]; [auto|]. apply Heq in C. congruence.
    + auto.
Qed.

Lemma dict_get_NoDup {K V} (eqb : K -> K -> bool) (Heq : forall a b, eqb a b = true <-> a = b) (l : list (K * V)) k v :
  NoDup (map fst l) -> In (k, v) l -> dict_get eqb l k = Some v.
Proof.
  intros ND HI. destruct (dict_get eqb l k) as [w|] eqn:E.
  - apply dict_get_In in E; [|assumption]. f_equal.
    clear -ND HI E. induction l as [|[a b] l IH]; [contradiction|].
    cbn in ND. inversion ND as [|? ? N1 N2]; subst. destruct HI as [HI|HI], E as [E|E].
    + congruence.
    + injection HI as -> ->. exfalso; apply N1. apply in_map_iff. now exists (k, w).
    + injection E as -> ->. exfalso; apply N1. apply in_map_iff. now exists (k, v).
    + auto.
  - apply dict_get_None in E; [|assumption]. exfalso; apply E. apply in_map_iff. now exists (k, v).
Qed.

(* The value found is at the last position holding the key. *)
Lemma dict_get_last {V} (names : list (string * V)) k v :
  dict_get String.eqb names k = Some v <->
  exists e, nth_error names e = Some (k, v) /\ forall e' k' v', (e < e')%nat -> nth_error names e' = Some (k', v') -> k' <> k.
Proof.
  revert v. induction names as [|p l IH] using rev_ind; intros v.
  - split; [discriminate|]. intros (e & E & _). destruct e; discriminate.
  - rewrite dict_get_app, dict_get_one. destruct p as [k0 v0]. cbn [fst snd]. destruct (String.eqb_spec k0 k) as [Ek|Ek].
    + subst k0. split.
      * intros E; injection E as ->. exists (length l). split.
        { rewrite nth_error_app2 by lia. rewrite Nat.sub_diag. reflexivity. }
        intros e' k' v' Hlt En. assert (nth_error (l ++ [(k, v)]) e' <> None) by congruence.
        apply nth_error_Some in H. rewrite app_length in H. cbn in H. lia.
      * intros (e & E & Hl). destruct (Nat.lt_ge_cases e (length l)) as [Hlt|Hge].
        { exfalso. apply (Hl (length l) k v0 Hlt); [|reflexivity]. rewrite nth_error_app2 by lia. rewrite Nat.sub_diag. reflexivity. }
        rewrite nth_error_app2 in E by lia. destruct (e - length l)%nat as [|[|n]]; cbn in E; try discriminate.
        congruence.
    + rewrite IH. split.
      * intros (e & E & Hl). exists e. assert (e < length l)%nat by (apply nth_error_Some; congruence).
        split; [rewrite nth_error_app1 by lia; assumption|].
        intros e' k' v' Hlt En. destruct (Nat.lt_ge_cases e' (length l)) as [H1|H1].
        { rewrite nth_error_app1 in En by lia. eauto. }
        rewrite nth_error_app2 in En by lia. destruct (e' - length l)%nat as [|[|n]]; cbn in En; try discriminate.
        congruence.
      * intros (e & E & Hl). destruct (Nat.lt_ge_cases e (length l)) as [H1|H1].
        { rewrite nth_error_app1 in E by lia. exists e. split; [assumption|]. intros e' k' v' Hlt En.
          apply (Hl e' k' v' Hlt). rewrite nth_error_app1; [assumption|]. apply nth_error_Some. congruence. }
        rewrite nth_error_app2 in E by lia. destruct (e - length l)%nat as [|[|n]]; cbn in E; try discriminate. congruence.
Qed.

(* ------------------------------------------------------------ sorting and grouping *)

Lemma filter_insert s x l :
  filter (fun p => snd p =? s) (insert_by_step x l) =
  if snd x =? s then x :: filter (fun p => snd p =? s) l else filter (fun p => snd p =? s) l.
Proof.
  induction l as [|y l IH]; [reflexivity|]. cbn [insert_by_step]. destruct (snd x <=? snd y) eqn:E; [reflexivity|].
  cbn [filter]. rewrite IH. destruct (snd x =? s) eqn:E1, (snd y =? s) eqn:E2; try reflexivity. lia.
Qed.

Lemma filter_sorted s l : filter (fun p => snd p =? s) (sorted_by_step l) = filter (fun p => snd p =? s) l.
Proof.
  induction l as [|x l IH]; [reflexivity|]. cbn [sorted_by_step fold_right]. fold (sorted_by_step l).
  rewrite filter_insert, IH. reflexivity.
Qed.

Lemma insert_In x l p : In p (insert_by_step x l) <-> p = x \/ In p l.
Proof.
  induction l as [|y l IH]; cbn [insert_by_step]; [cbn; intuition|].
  destruct (snd x <=? snd y); cbn; [intuition|]. rewrite IH. intuition.
Qed.

Lemma insert_sorted x l :
  StronglySorted (fun a b => snd a <= snd b) l -> StronglySorted (fun a b : Z * Z => snd a <= snd b) (insert_by_step x l).
Proof.
  induction 1 as [|y l S IH F]; cbn [insert_by_step]; [repeat constructor|].
  destruct (snd x <=? snd y) eqn:E.
  - constructor; [constructor; assumption|]. constructor; [lia|]. rewrite Forall_forall in *. intros z Hz. specialize (F z Hz). lia.
  - constructor; [assumption|]. rewrite Forall_forall in *. intros z Hz. apply insert_In in Hz. destruct Hz as [->|Hz]; [lia|auto].
Qed.

Lemma sorted_by_step_sorted l : StronglySorted (fun a b => snd a <= snd b) (sorted_by_step l).
Proof. induction l as [|x l IH]; [constructor|]. apply insert_sorted. exact IH. Qed.

Lemma groupby_keys l s : In s (map fst (groupby_step l)) -> exists i, In (i, s) l.
Proof.
  induction l as [|[i k] l IH]; [intros []|]. cbn [groupby_step].
  destruct (groupby_step l) as [|[k' g] more].
  - intros [<-|[]]. exists i. now left.
  - destruct (k =? k') eqn:E; cbn [map fst].
    + intros [<-|H]; [exists i; now left|]. destruct IH as [j Hj]; [now right|]. exists j; now right.
    + intros [<-|H]; [exists i; now left|]. destruct (IH H) as [j Hj]. exists j; now right.
Qed.

Lemma groupby_spec l :
  StronglySorted (fun a b => snd a <= snd b) l ->
  NoDup (map fst (groupby_step l)) /\
  forall s g, In (s, g) (groupby_step l) <-> g <> [] /\ g = map fst (filter (fun p => snd p =? s) l).
Proof.
  induction 1 as [|[i k] l S (ND & IH) F].
  { split; [constructor|]. intros s g. cbn. split; [intros []|intros [H ->]; now apply H]. }
  rewrite Forall_forall in F. cbn [groupby_step].
  assert (forall s j, In (j, s) l -> k <= s) as Fk by (intros s j H; apply (F _ H)).
  destruct (groupby_step l) as [|[k' g'] more] eqn:E.
  - assert (l = []) as ->.
    { destruct l as [|[j s] l]; [reflexivity|]. exfalso.
      assert (In (s, map fst (filter (fun p => snd p =? s) ((j, s) :: l))) []) as C; [|exact C].
      apply IH. split; [|reflexivity]. cbn. rewrite Z.eqb_refl. discriminate. }
    split; [repeat constructor; intros []|]. intros s g. cbn. split.
    + intros [H|[]]. injection H as <- <-. rewrite Z.eqb_refl. split; [discriminate|reflexivity].
    + intros [H1 H2]. destruct (k =? s) eqn:Es; [|now subst g]. left. f_equal; [lia|]. now subst g.
  - assert (exists j, In (j, k') l) as [j Hj]. { apply groupby_keys. rewrite E. now left. }
    pose proof (Fk _ _ Hj) as Hle.
    assert (forall s g, In (s, g) more -> k' < s) as Hmore.
    { (* keys are increasing: follows from the sortedness of l *)
      clear -E S. revert k' g' more E. induction S as [|[i0 k0] l S IHS F0]; [discriminate|]. intros k' g' more E s g Hin.
      cbn [groupby_step] in E. rewrite Forall_forall in F0.
      destruct (groupby_step l) as [|[k1 g1] m1] eqn:E1.
      - injection E as <- <- <-. destruct Hin.
      - assert (exists j, In (j, k1) l) as [j Hj]. { apply groupby_keys. rewrite E1. now left. }
        pose proof (F0 _ Hj) as Hle; cbn in Hle.
        destruct (k0 =? k1) eqn:Ek.
        + injection E as <- <- <-. assert (k0 = k1) by lia. subst k1. eapply IHS; [reflexivity|exact Hin].
        + injection E as <- <- <-. destruct Hin as [Hin|Hin]; [injection Hin as <- <-; lia|].
          pose proof (IHS _ _ _ eq_refl _ _ Hin). lia. }
    destruct (k =? k') eqn:Ek.
    + assert (k = k') by lia. subst k'. split; [exact ND|]. intros s g. split.
      * intros [H|H].
        { injection H as <- <-. split; [discriminate|]. cbn [filter snd]. rewrite Z.eqb_refl. cbn [map fst]. f_equal.
          apply (IH k g'). now left. }
        { pose proof (Hmore _ _ H). cbn [filter snd]. destruct (k =? s) eqn:Es; [lia|]. apply IH. now right. }
      * cbn [filter snd]. destruct (k =? s) eqn:Es.
        { assert (k = s) by lia. subst s. intros [H1 H2]. left. f_equal. rewrite H2. cbn [map fst]. f_equal.
          apply (IH k g'). now left. }
        { intros H. apply IH in H. destruct H as [H|H]; [injection H as -> ->; lia|]. now right. }
    + split.
      * cbn [map fst]. constructor; [|exact ND]. cbn. intros [C|C]; [lia|].
        apply in_map_iff in C. destruct C as ([s g] & Es & C). cbn in Es. subst s. pose proof (Hmore _ _ C). lia.
      * intros s g. split.
        { intros [H|H].
          - injection H as <- <-. cbn [filter snd]. rewrite Z.eqb_refl. split; [discriminate|]. cbn [map fst]. f_equal.
            destruct (filter (fun p => snd p =? k) l) as [|[j0 s0] r] eqn:Ef; [reflexivity|].
            exfalso. assert (In (j0, s0) (filter (fun p => snd p =? k) l)) as Hin by (rewrite Ef; now left).
            apply filter_In in Hin. destruct Hin as [Hin Hs]. cbn in Hs. assert (s0 = k) by lia. subst s0.
            assert (In (k, map fst (filter (fun p => snd p =? k) l)) ((k', g') :: more)) as C.
            { apply IH. split; [|reflexivity]. rewrite Ef. discriminate. }
            destruct C as [C|C]; [injection C as -> _; lia|]. apply Hmore in C. lia.
          - cbn [filter snd]. destruct (k =? s) eqn:Es.
            + exfalso. assert (k = s) by lia. subst s. destruct H as [H|H]; [injection H as -> _; lia|]. apply Hmore in H. lia.
            + now apply IH. }
        { cbn [filter snd]. destruct (k =? s) eqn:Es.
          - assert (k = s) by lia. subst s. intros [H1 H2]. left. f_equal. rewrite H2. cbn [map fst]. f_equal.
            destruct (filter (fun p => snd p =? k) l) as [|[j0 s0] r] eqn:Ef; [reflexivity|].
            exfalso. assert (In (k, map fst (filter (fun p => snd p =? k) l)) ((k', g') :: more)) as C.
            { apply IH. split; [|reflexivity]. rewrite Ef. discriminate. }
            destruct C as [C|C]; [injection C as -> _; lia|]. apply Hmore in C. lia.
          - intros H. right. now apply IH. }
Qed.

Lemma group_lookup l s :
  dict_get Z.eqb (groupby_step (sorted_by_step l)) s =
  match map fst (filter (fun p => snd p =? s) l) with [] => None | g => Some g end.
Proof.
  destruct (groupby_spec _ (sorted_by_step_sorted l)) as [ND H].
  assert (forall a b, (a =? b) = true <-> a = b) as Heq by (intros; lia).
  pose proof (filter_sorted s l) as Hf.
  destruct (map fst (filter (fun p => snd p =? s) l)) as [|x g] eqn:E.
  - apply dict_get_None; [assumption|]. intros C. apply in_map_iff in C. destruct C as ([s' g] & Es & C). cbn in Es. subst s'.
    apply H in C. rewrite Hf in C. destruct C as [C1 C2]. rewrite E in C2. contradiction.
  - apply dict_get_NoDup; [assumption|assumption|]. apply H. rewrite Hf, E. split; [discriminate|reflexivity].
Qed.

(* ------------------------------------------------------------ names of data sets *)

Lemma find_pos_spec {A} (f : A -> bool) l i :
  find_pos f l = Some i <->
  exists x, nth_error l i = Some x /\ f x = true /\ forall j y, (j < i)%nat -> nth_error l j = Some y -> f y = false.
Proof.
  revert i; induction l as [|x l IH]; intros i.
  - split; [discriminate|]. intros (x & E & _). destruct i; discriminate.
  - cbn [find_pos]. destruct (f x) eqn:Fx.
    + split.
      * intros E; injection E as <-. exists x. repeat split; auto. intros; lia.
      * intros (y & E & Fy & Hb). destruct i as [|i]; [reflexivity|]. specialize (Hb 0%nat x ltac:(lia) eq_refl). congruence.
    + split.
      * destruct (find_pos f l) as [j|] eqn:Ej; [|discriminate]. cbn. intros E; injection E as <-.
        destruct (proj1 (IH j) eq_refl) as (y & E & Fy & Hb). exists y. repeat split; auto.
        intros [|k] z Hk Ez; [now injection Ez as <-|]. eapply Hb; [|exact Ez]. lia.
      * intros (y & E & Fy & Hb). destruct i as [|i]; [cbn in E; congruence|].
        rewrite (proj2 (IH i)); [reflexivity|]. exists y. repeat split; auto. intros j z Hj Ez. apply (Hb (S j)); [lia|exact Ez].
Qed.

Lemma find_via_pos {A} (f : A -> bool) l : find f l = match find_pos f l with Some i => nth_error l i | None => None end.
Proof.
  induction l as [|x l IH]; [reflexivity|]. cbn. destruct (f x); [reflexivity|]. rewrite IH.
  destruct (find_pos f l); reflexivity.
Qed.

Lemma datasetindex_spec ds name i : datasetindex ds name = Some i <-> exists d, refers_to ds name i d.
Proof.
  unfold datasetindex. rewrite find_pos_spec. split.
  - intros (d & E & F & Hb). exists d. split; [assumption|]. split; [now apply String.eqb_eq|].
    intros j d' Hj Ej C. specialize (Hb _ _ Hj Ej). apply String.eqb_neq in Hb. contradiction.
  - intros (d & E & F & Hb). exists d. split; [assumption|]. split; [now apply String.eqb_eq|].
    intros j d' Hj Ej. apply String.eqb_neq. eauto.
Qed.

Lemma datasubset_spec ds name k ss :
  datasubset ds name k = Some ss <-> exists i d, subset_of ds name k i d ss.
Proof.
  unfold datasubset, dataset_named. rewrite find_via_pos. fold (datasetindex ds name).
  destruct (datasetindex ds name) as [i|] eqn:E.
  - pose proof (proj1 (datasetindex_spec ds name i) E) as [d R]. pose proof R as (En & _). rewrite En.
    unfold dataset_subset. split.
    + destruct ((0 <=? k) && (k <? zlen (ds_subsets d))) eqn:Eb; [|discriminate]. intros H. exists i, d. repeat split; auto; try apply R; lia.
    + intros (i' & d' & R' & Hk & Hn).
      assert (datasetindex ds name = Some i') as E' by (apply datasetindex_spec; eauto).
      assert (i' = i) by congruence. subst i'. pose proof R' as (En' & _). assert (d' = d) by congruence. subst d'.
      assert (Z.to_nat k < length (ds_subsets d))%nat by (apply nth_error_Some; congruence).
      replace ((0 <=? k) && (k <? zlen (ds_subsets d))) with true by (unfold zlen; lia). assumption.
  - split; [discriminate|]. intros (i & d & R & _).
    assert (datasetindex ds name = Some i) by (apply datasetindex_spec; eauto). congruence.
Qed.

Lemma refers_to_fun ds name i d i' d' : refers_to ds name i d -> refers_to ds name i' d' -> i = i' /\ d = d'.
Proof.
  intros R R'. assert (datasetindex ds name = Some i) by (apply datasetindex_spec; eauto).
  assert (datasetindex ds name = Some i') by (apply datasetindex_spec; eauto).
  assert (i = i') by congruence. subst i'. destruct R as (E & _), R' as (E' & _). split; congruence.
Qed.

Lemma subset_of_fun ds name k i d ss i' d' ss' :
  subset_of ds name k i d ss -> subset_of ds name k i' d' ss' -> i = i' /\ d = d' /\ ss = ss'.
Proof.
  intros (R & _ & E) (R' & _ & E'). destruct (refers_to_fun _ _ _ _ _ _ R R') as [-> ->]. repeat split. congruence.
Qed.

(* ------------------------------------------------------------ matching of steps *)

Lemma mapM_nth {A B} (f : A -> result B) l r n :
  mapM f l = Ok r -> forall y, nth_error r n = Some y <-> exists x, nth_error l n = Some x /\ f x = Ok y.
Proof.
  intros E y. apply mapM_ok_Forall2 in E. revert n; induction E as [|x y' l r H F IH]; intros n.
  - destruct n; split; try discriminate; intros (x & C & _); discriminate.
  - destruct n as [|n]; cbn.
    + split; [intros E; injection E as ->; eauto|]. intros (x' & E & Hx). congruence.
    + apply IH.
Qed.

Lemma mapM_enumerate {A B} (f : A -> result B) l r :
  mapM (fun im => do s <- f (snd im); Ok (fst im, s)) (enumerate l) = Ok r ->
  exists ss, mapM f l = Ok ss /\ r = enumerate ss.
Proof.
  unfold enumerate. generalize 0%nat as a. revert r. induction l as [|x l IH]; intros r a.
  - cbn. intros E; injection E as <-. exists []. split; reflexivity.
  - cbn [length seq map combine mapM fst snd]. intros E. bind_ok E. bind_ok E. injection E as <-.
    bind_ok E0. injection E0 as <-. destruct (IH _ _ E1) as (ss & Es & ->). exists (x2 :: ss).
    cbn [bind]. rewrite Es. split; reflexivity.
Qed.

Lemma step_to_matchgroup_spec st pats files groups :
  step_to_matchgroup st pats files = Ok groups ->
  forall s, 0 <= s < st_count st ->
  exists es, files_of_step st pats files s es /\
    dict_get Z.eqb groups s = match es with [] => None | _ => Some (map Z.of_nat es) end.
Proof.
  unfold step_to_matchgroup. intros E s Hs. destruct (st_unique st pats) eqn:U.
  - bind_ok E. injection E as <-.
    apply (mapM_enumerate (fun m => st_index_at_time st (en_time m))) in E0. destruct E0 as (ss & Es & ->).
    exists (positions (fun k => k =? s) ss). split.
    + split; [apply positions_sorted|]. intros e. rewrite In_positions. unfold belongs. rewrite U. split.
      * intros (k & Ek & Eq). assert (k = s) by lia. subst k.
        apply (mapM_nth _ _ _ e Es s) in Ek. destruct Ek as (f & Ef & Hf). eauto.
      * intros (f & Ef & Hf). exists s. split; [|lia]. apply (mapM_nth _ _ _ e Es s). eauto.
    + rewrite group_lookup. rewrite (filter_enumerate (fun k => k =? s) ss).
      destruct (positions (fun k => k =? s) ss); reflexivity.
  - bind_ok E. injection E as <-.
    set (names := map (fun im => (en_name (snd im), fst im)) (enumerate files)) in *.
    destruct (nth_error x (Z.to_nat s)) as [om|] eqn:En.
    2:{ exfalso. apply nth_error_None in En. apply mapM_length in E0. rewrite E0, zrange_length in En. lia. }
    pose proof En as En'. apply (mapM_nth _ _ _ _ E0 om) in En'. destruct En' as (s' & Es' & Hs').
    assert (s' = s) as ->.
    { unfold zrange in Es'. rewrite nth_error_map in Es'. destruct (nth_error (seq 0 (Z.to_nat (st_count st - 0))) (Z.to_nat s)) as [k|] eqn:Ek; [|discriminate].
      cbn in Es'. injection Es' as <-. assert (k = Z.to_nat s).
      { rewrite (nth_error_nth' _ 0%nat) in Ek by (rewrite seq_length; lia). rewrite seq_nth in Ek by lia. injection Ek as <-. lia. }
      lia. }
    bind_ok Hs'. rename x0 into o. injection Hs' as Hom.
    assert (forall e, In e (match om with Some m => [Z.to_nat m] | None => [] end) <-> belongs st pats files s e) as Hbel.
    { intros e. unfold belongs. rewrite U.
      assert (forall n k v, nth_error names n = Some (k, v) <-> exists f, nth_error files n = Some f /\ k = en_name f /\ v = Z.of_nat n) as Hn.
      { intros n k v. unfold names. rewrite nth_error_map, nth_enumerate. destruct (nth_error files n) as [f|]; cbn.
        - split; [intros C; injection C as <- <-; eauto|]. intros (f' & C & -> & ->). congruence.
        - split; [discriminate|]. intros (f' & C & _). discriminate. }
      destruct om as [m|].
      - apply dict_get_last in Hom. destruct Hom as (e0 & He0 & Hl). apply Hn in He0. destruct He0 as (f0 & Ef0 & En0 & ->).
        cbn [In]. replace (Z.to_nat (Z.of_nat e0)) with e0 by lia. split.
        + intros [<-|[]]. exists f0. split; [assumption|]. exists o. repeat split; auto.
          intros e' f' Hlt Ef' C. apply (Hl e' (en_name f') (Z.of_nat e') Hlt); [apply Hn; eauto|exact C].
        + intros (f & Ef & o' & Eo' & Hname & Hlast). rewrite E in Eo'. injection Eo' as <-. left.
          destruct (Nat.lt_trichotomy e0 e) as [H|[H|H]]; [exfalso|assumption|exfalso].
          * apply (Hl e (en_name f) (Z.of_nat e) H); [apply Hn; eauto|exact Hname].
          * eapply Hlast; [exact H|exact Ef0|]. symmetry. exact En0.
      - apply dict_get_None in Hom; [|apply String.eqb_eq]. cbn [In]. split; [intros []|].
        intros (f & Ef & o' & Eo' & Hname & _). rewrite E in Eo'. injection Eo' as <-. apply Hom.
        apply in_map_iff. exists (en_name f, Z.of_nat e). split; [exact Hname|].
        apply nth_error_In with (n := e). apply Hn. eauto. }
    exists (match om with Some m => [Z.to_nat m] | None => [] end). split.
    { split; [destruct om; repeat constructor|exact Hbel]. }
    assert (forall a b, (a =? b) = true <-> a = b) as Heq by (intros; lia).
    assert (forall k g, In (k, g) (flat_map (fun sm => match snd sm with Some m => [(fst sm, [m])] | None => [] end) (enumerate x))
              <-> exists m, g = [m] /\ In (k, Some m) (enumerate x)) as Hin.
    { intros k g. rewrite in_flat_map. split.
      - intros ([k' [m|]] & H1 & H2); cbn in H2; [|contradiction]. destruct H2 as [H2|[]]. injection H2 as <- <-. eauto.
      - intros (m & -> & H). exists (k, Some m). split; [assumption|]. now left. }
    destruct om as [m|].
    + assert (0 <= m) as Hm.
      { apply dict_get_In in Hom; [|apply String.eqb_eq]. unfold names in Hom. apply in_map_iff in Hom.
        destruct Hom as ([i f] & Hif & Hi). cbn in Hif. injection Hif as _ <-. apply In_enumerate in Hi. lia. }
      cbn [map]. replace (Z.of_nat (Z.to_nat m)) with m by lia.
      apply dict_get_NoDup; [assumption| |].
      * assert (forall l, NoDup (map fst l) -> NoDup (map fst (flat_map (fun sm : Z * option Z => match snd sm with Some m => [(fst sm, [m])] | None => [] end) l))) as HND.
        { induction l as [|[k [m'|]] l IH]; intros ND; cbn; [constructor| |]; inversion ND as [|? ? N1 N2]; subst.
          - constructor; [|now apply IH]. intros C. apply N1. apply in_map_iff in C. destruct C as ([k' g] & Ek & C). cbn in Ek. subst k'.
            apply in_flat_map in C. destruct C as ([k2 [m2|]] & C1 & C2); cbn in C2; [|contradiction]. destruct C2 as [C2|[]].
            injection C2 as <- <-. apply in_map_iff. now exists (k2, Some m2).
          - now apply IH. }
        apply HND, enumerate_fst_NoDup.
      * apply Hin. exists m. split; [reflexivity|]. apply In_enumerate. split; [lia|assumption].
    + apply dict_get_None; [assumption|]. intros C. apply in_map_iff in C. destruct C as ([k g] & Ek & C). cbn in Ek. subst k.
      apply Hin in C. destruct C as (m & _ & C). apply In_enumerate in C. destruct C as [_ C]. congruence.
Qed.

Lemma files_of_step_fun st pats files s es es' :
  files_of_step st pats files s es -> files_of_step st pats files s es' -> es = es'.
Proof. intros [S H] [S' H']. apply sorted_unique; auto. intros x. rewrite H, H'. reflexivity. Qed.

Lemma zrange_nth a b n : (n < Z.to_nat (b - a))%nat -> nth_error (zrange a b) n = Some (a + Z.of_nat n).
Proof.
  intros H. unfold zrange. rewrite nth_error_map. rewrite (nth_error_nth' _ 0%nat) by (rewrite seq_length; lia).
  rewrite seq_nth by lia. reflexivity.
Qed.

Lemma zrange_nth_inv a b n s : nth_error (zrange a b) n = Some s -> s = a + Z.of_nat n /\ (n < Z.to_nat (b - a))%nat.
Proof.
  intros H. assert (n < Z.to_nat (b - a))%nat as Hl by (rewrite <- zrange_length; apply nth_error_Some; congruence).
  rewrite zrange_nth in H by assumption. split; [congruence|assumption].
Qed.

(* ------------------------------------------------------------ find_references *)

Lemma fold_set_nth (missing : list Z) (skip : list bool) n :
  (forall i, In i missing -> 0 <= i) ->
  nth_error (fold_left (fun l i => update_nth (Z.to_nat i) (fun _ => true) l) missing skip) n =
  if in_dec Z.eq_dec (Z.of_nat n) missing then option_map (fun _ => true) (nth_error skip n) else nth_error skip n.
Proof.
  revert skip; induction missing as [|i l IH]; intros skip Hp; cbn [fold_left].
  - destruct in_dec as [[]|]; reflexivity.
  - rewrite IH by (intros; apply Hp; now right). rewrite nth_error_update_nth. assert (0 <= i) by (apply Hp; now left).
    destruct (in_dec Z.eq_dec (Z.of_nat n) l) as [H1|H1]; destruct (in_dec Z.eq_dec (Z.of_nat n) (i :: l)) as [H2|H2];
      destruct (Nat.eqb_spec (Z.to_nat i) n) as [E|E]; try reflexivity.
    + destruct (nth_error skip n); reflexivity.
    + exfalso; apply H2; now right.
    + exfalso; apply H2; now right.
    + exfalso. destruct H2 as [H2|H2]; [lia|contradiction].
    + exfalso. apply H2. left. lia.
Qed.

Lemma fold_set_length (missing : list Z) (skip : list bool) :
  length (fold_left (fun l i => update_nth (Z.to_nat i) (fun _ => true) l) missing skip) = length skip.
Proof. revert skip; induction missing as [|i l IH]; intros skip; cbn; [reflexivity|]. now rewrite IH, update_nth_length. Qed.

(* The references of one step. *)
Definition step_refs (i : nat) (k : Z) (policy : missing_policy) (es : list nat) : list Z :=
  flat_map (fun e => [Z.of_nat i; k; e])
    (match es with [] => if policy_eqb policy Allowed then [-1] else [] | _ => map Z.of_nat es end).

Definition input_ok (ds : list dataset) (st : step) (inp : input_file) (refs : list (list Z)) : Prop :=
  exists i d ss pats,
    subset_of ds (in_dataset inp) (in_subset inp) i d ss /\ ss_patterns ss = Some pats /\
    zlen refs = Z.max 0 (st_count st) /\
    forall s, 0 <= s < st_count st -> exists es, files_of_step st pats (ss_matches ss) s es /\
      nth_error refs (Z.to_nat s) = Some (step_refs i (in_subset inp) (in_missing inp) es) /\
      (in_missing inp = NotAllowed -> es <> []).

Definition skip_ok (ds : list dataset) (st : step) (inp : input_file) (skip skip' : list bool) : Prop :=
  length skip' = length skip /\
  forall n, (n < length skip)%nat ->
    (nth_error skip' n = Some true <->
     nth_error skip n = Some true \/
     (in_missing inp = SkipMissing /\ exists i d ss pats, subset_of ds (in_dataset inp) (in_subset inp) i d ss /\
        ss_patterns ss = Some pats /\ files_of_step st pats (ss_matches ss) (Z.of_nat n) [])).

Lemma step_refs_nil i k policy es : zlen (step_refs i k policy es) = 0 <-> es = [] /\ policy_eqb policy Allowed = false.
Proof.
  unfold step_refs. destruct es as [|e es]; cbn [map].
  - destruct (policy_eqb policy Allowed); cbn; intuition discriminate.
  - cbn [flat_map app]. rewrite !zlen_cons. split; [|intros [C _]; discriminate].
    pose proof (zlen_nonneg (flat_map (fun e0 => [Z.of_nat i; k; e0]) (map Z.of_nat es))). lia.
Qed.

Lemma find_references_spec ds st inp skip refs skip' :
  length skip = Z.to_nat (st_count st) ->
  find_references ds st inp skip = Ok (refs, skip') ->
  input_ok ds st inp refs /\ skip_ok ds st inp skip skip'.
Proof.
  intros Hlen. unfold find_references.
  destruct (datasubset ds (in_dataset inp) (in_subset inp)) as [ss|] eqn:Ess; [|discriminate].
  apply datasubset_spec in Ess. destruct Ess as (i & d & Hsub).
  destruct (datasetindex ds (in_dataset inp)) as [i'|] eqn:Ei; [|discriminate].
  assert (i' = i) as ->.
  { pose proof Hsub as (R & _). assert (datasetindex ds (in_dataset inp) = Some i) by (apply datasetindex_spec; eauto). congruence. }
  destruct (ss_patterns ss) as [pats|] eqn:Ep; [|discriminate].
  destruct (step_to_matchgroup st pats (ss_matches ss)) as [groups|] eqn:Eg; cbn [bind]; [|discriminate].
  pose proof (step_to_matchgroup_spec _ _ _ _ Eg) as Hg.
  set (references := map (fun s => flat_map (fun e => [Z.of_nat i; in_subset inp; e])
          (match dict_get Z.eqb groups s with Some g => g | None => if policy_eqb (in_missing inp) Allowed then [-1] else [] end))
          (zrange 0 (st_count st))).
  assert (forall s, 0 <= s < st_count st -> exists es, files_of_step st pats (ss_matches ss) s es /\
            nth_error references (Z.to_nat s) = Some (step_refs i (in_subset inp) (in_missing inp) es)) as Hrefs.
  { intros s Hs. destruct (Hg s Hs) as (es & Hes & Hd). exists es. split; [assumption|].
    unfold references. rewrite nth_error_map, zrange_nth by lia. cbn [option_map].
    replace (0 + Z.of_nat (Z.to_nat s)) with s by lia. rewrite Hd. unfold step_refs. destruct es; reflexivity. }
  assert (length references = Z.to_nat (st_count st)) as Hlr.
  { unfold references. rewrite map_length, zrange_length. lia. }
  set (missing := flat_map (fun sr => if zlen (snd sr) =? 0 then [fst sr] else []) (enumerate references)).
  assert (forall s, In s missing <-> 0 <= s < st_count st /\ files_of_step st pats (ss_matches ss) s [] /\ policy_eqb (in_missing inp) Allowed = false) as Hmiss.
  { intros s. unfold missing. rewrite in_flat_map. split.
    - intros ([s' r] & H1 & H2). cbn in H2. destruct (zlen r =? 0) eqn:Ez; [|contradiction]. destruct H2 as [<-|[]].
      apply In_enumerate in H1. destruct H1 as [H1 H2].
      assert (Z.to_nat s' < length references)%nat by (apply nth_error_Some; congruence).
      assert (0 <= s' < st_count st) as Hb by lia. split; [assumption|].
      destruct (Hrefs s' Hb) as (es & Hes & Hn). rewrite H2 in Hn. injection Hn as ->.
      assert (zlen (step_refs i (in_subset inp) (in_missing inp) es) = 0) as Hz by lia.
      apply step_refs_nil in Hz. destruct Hz as [-> ?]. split; assumption.
    - intros (Hb & Hes & Hpol). destruct (Hrefs s Hb) as (es & Hes' & Hn).
      rewrite (files_of_step_fun _ _ _ _ _ _ Hes' Hes) in Hn.
      exists (s, step_refs i (in_subset inp) (in_missing inp) []). split; [apply In_enumerate; split; [lia|assumption]|].
      cbn [fst snd]. replace (zlen _ =? 0) with true; [now left|]. symmetry. apply Z.eqb_eq. apply step_refs_nil. auto. }
  assert (forall refs0, refs0 = references -> (in_missing inp = NotAllowed -> missing = []) -> input_ok ds st inp refs0) as Hok.
  { intros refs0 -> Hna. exists i, d, ss, pats. split; [assumption|]. split; [assumption|]. split; [unfold zlen; rewrite Hlr; lia|].
    intros s Hs. destruct (Hrefs s Hs) as (es & Hes & Hn). exists es. split; [assumption|]. split; [assumption|].
    intros Hp ->. assert (In s missing) as C; [|rewrite (Hna Hp) in C; exact C]. apply Hmiss. rewrite Hp. auto. }
  assert (in_missing inp <> SkipMissing -> skip_ok ds st inp skip skip) as Hnoskip.
  { intros Hp. split; [reflexivity|]. intros n Hn. split; [auto|]. intros [H|[C _]]; [assumption|contradiction]. }
  fold references. fold missing.
  destruct (in_missing inp) eqn:Epol.
  - destruct (0 <? zlen missing) eqn:Em; [discriminate|]. intros E; injection E as <- <-. split.
    + apply Hok; [reflexivity|]. intros _. destruct missing as [|m0 ms]; [reflexivity|]. rewrite zlen_cons in Em. pose proof (zlen_nonneg ms). lia.
    + apply Hnoskip. discriminate.
  - intros E; injection E as <- <-. split; [apply Hok; [reflexivity|discriminate]|apply Hnoskip; discriminate].
  - intros E; injection E as <- <-. split; [apply Hok; [reflexivity|discriminate]|].
    split; [apply fold_set_length|]. intros n Hn. rewrite fold_set_nth by (intros s Hs; apply Hmiss in Hs; lia).
    destruct (in_dec Z.eq_dec (Z.of_nat n) missing) as [Hin|Hout].
    + split; [intros _|].
      * right. split; [assumption|]. exists i, d, ss, pats. split; [assumption|]. split; [assumption|]. now apply Hmiss.
      * intros _. destruct (nth_error skip n) eqn:En; [reflexivity|]. apply nth_error_None in En. lia.
    + split; [auto|]. intros [H|(_ & i2 & d2 & ss2 & pats2 & Hs2 & Hp2 & Hf2)]; [assumption|]. exfalso. apply Hout. apply Hmiss.
      destruct (subset_of_fun _ _ _ _ _ _ _ _ _ Hs2 Hsub) as (-> & -> & ->). assert (pats2 = pats) by congruence. subst pats2.
      split; [lia|]. auto.
  - intros E; injection E as <- <-. split; [apply Hok; [reflexivity|discriminate]|apply Hnoskip; discriminate].
Qed.

(* Not allowed and some step without files: an exception. *)
Lemma find_references_not_allowed ds st inp skip i d ss pats groups s :
  subset_of ds (in_dataset inp) (in_subset inp) i d ss -> ss_patterns ss = Some pats ->
  step_to_matchgroup st pats (ss_matches ss) = Ok groups ->
  in_missing inp = NotAllowed -> 0 <= s < st_count st ->
  files_of_step st pats (ss_matches ss) s [] ->
  find_references ds st inp skip = Err OperationException.
Proof.
  intros Hsub Hp Hg Hpol Hs Hf.
  destruct (find_references ds st inp skip) as [[refs skip']|e] eqn:E.
  - exfalso. (* every step has files *)
    assert (length (map (fun _ : Z => false) (zrange 0 (st_count st))) = Z.to_nat (st_count st)) as Hl by (rewrite map_length, zrange_length; lia).
    assert (exists skip2, find_references ds st inp (map (fun _ => false) (zrange 0 (st_count st))) = Ok (refs, skip2)) as [skip2 E2].
    { revert E. unfold find_references.
      assert (datasubset ds (in_dataset inp) (in_subset inp) = Some ss) as -> by (apply datasubset_spec; eauto).
      assert (datasetindex ds (in_dataset inp) = Some i) as -> by (apply datasetindex_spec; exists d; apply Hsub).
      rewrite Hp, Hg. cbn [bind]. rewrite Hpol. cbv zeta iota beta.
      match goal with |- context [0 <? ?b] => destruct (0 <? b) end; [discriminate|]. intros E; injection E as <- <-. eexists; reflexivity. }
    apply find_references_spec in E2; [|assumption]. destruct E2 as [(i2 & d2 & ss2 & pats2 & Hs2 & Hp2 & _ & Hall) _].
    destruct (subset_of_fun _ _ _ _ _ _ _ _ _ Hs2 Hsub) as (-> & -> & ->). assert (pats2 = pats) by congruence. subst pats2.
    destruct (Hall s Hs) as (es & Hes & _ & Hne). apply (Hne Hpol). eapply files_of_step_fun; eauto.
  - revert E. unfold find_references.
    assert (datasubset ds (in_dataset inp) (in_subset inp) = Some ss) as -> by (apply datasubset_spec; eauto).
    assert (datasetindex ds (in_dataset inp) = Some i) as -> by (apply datasetindex_spec; exists d; apply Hsub).
    rewrite Hp, Hg. cbn [bind]. rewrite Hpol. cbv zeta iota beta. match goal with |- context [0 <? ?b] => destruct (0 <? b) end; [congruence|discriminate].
Qed.

(* ------------------------------------------------------------ keeping data sets *)

Lemma subset_kept_refl s : subset_kept s s.
Proof. split; auto. Qed.

Lemma subset_kept_trans a b c : subset_kept a b -> subset_kept b c -> subset_kept a c.
Proof.
  intros [P1 M1] [P2 M2]. split; [congruence|]. destruct M1 as [M1|M1]; [auto|]. rewrite M1 in M2.
  destruct M2 as [M2|M2]; auto.
Qed.

Lemma Forall2_refl {A} (R : A -> A -> Prop) l : (forall x, R x x) -> Forall2 R l l.
Proof. intros H. induction l; constructor; auto. Qed.

Lemma Forall2_trans {A} (R : A -> A -> Prop) : (forall a b c, R a b -> R b c -> R a c) ->
  forall l1 l2 l3, Forall2 R l1 l2 -> Forall2 R l2 l3 -> Forall2 R l1 l3.
Proof.
  intros T l1 l2 l3 H; revert l3. induction H as [|a b l1 l2 H F IH]; intros l3 G; inversion G; subst; constructor; eauto.
Qed.

Lemma dataset_kept_refl d : dataset_kept d d.
Proof. repeat split; auto. apply Forall2_refl, subset_kept_refl. Qed.

Lemma dataset_kept_trans a b c : dataset_kept a b -> dataset_kept b c -> dataset_kept a c.
Proof.
  intros (N1 & P1 & S1) (N2 & P2 & S2). split; [congruence|]. split; [congruence|].
  eapply Forall2_trans; [apply subset_kept_trans|eassumption|eassumption].
Qed.

Lemma datasets_kept_refl l : datasets_kept l l.
Proof. exists l, []. split; [now rewrite app_nil_r|]. apply Forall2_refl, dataset_kept_refl. Qed.

Lemma datasets_kept_trans a b c : datasets_kept a b -> datasets_kept b c -> datasets_kept a c.
Proof.
  intros (s1 & a1 & -> & F1) (s2 & a2 & -> & F2). apply Forall2_app_inv_l in F2. destruct F2 as (m1 & m2 & G1 & G2 & ->).
  exists m1, (m2 ++ a2). split; [now rewrite app_assoc|]. eapply Forall2_trans; [apply dataset_kept_trans|eassumption|eassumption].
Qed.

Lemma datasets_kept_app l m : datasets_kept l (l ++ m).
Proof. exists l, m. split; [reflexivity|]. apply Forall2_refl, dataset_kept_refl. Qed.

Lemma Forall2_nth_l {A B} (R : A -> B -> Prop) l m n a : Forall2 R l m -> nth_error l n = Some a -> exists b, nth_error m n = Some b /\ R a b.
Proof.
  intros F; revert n; induction F as [|x y l m H F IH]; intros [|n]; cbn; try discriminate.
  - intros E; injection E as <-. eauto.
  - apply IH.
Qed.

Lemma Forall2_nth_r {A B} (R : A -> B -> Prop) l m n b : Forall2 R l m -> nth_error m n = Some b -> exists a, nth_error l n = Some a /\ R a b.
Proof.
  intros F; revert n; induction F as [|x y l m H F IH]; intros [|n]; cbn; try discriminate.
  - intros E; injection E as <-. eauto.
  - apply IH.
Qed.

Lemma Forall2_len {A B} (R : A -> B -> Prop) l m : Forall2 R l m -> length l = length m.
Proof. induction 1; cbn; congruence. Qed.

Lemma datasets_kept_nth old new i d : datasets_kept old new -> nth_error old i = Some d ->
  exists d', nth_error new i = Some d' /\ dataset_kept d d'.
Proof.
  intros (same & added & -> & F) E. destruct (Forall2_nth_l _ _ _ _ _ F E) as (d' & E' & K). exists d'. split; [|assumption].
  rewrite nth_error_app1; [assumption|]. apply nth_error_Some. congruence.
Qed.

Lemma refers_to_kept old new name i d : datasets_kept old new -> refers_to old name i d ->
  exists d', refers_to new name i d' /\ dataset_kept d d'.
Proof.
  intros K (E & N & Hb). destruct (datasets_kept_nth _ _ _ _ K E) as (d' & E' & Kd). exists d'. split; [|assumption].
  split; [assumption|]. split; [destruct Kd as [-> _]; assumption|]. intros j e Hj Ej.
  destruct (nth_error old j) as [e0|] eqn:Eo.
  - destruct (datasets_kept_nth _ _ _ _ K Eo) as (e' & Ee' & (Kn & _)). assert (e' = e) by congruence. subst e'. rewrite Kn. eauto.
  - exfalso. apply nth_error_None in Eo. assert (i < length old)%nat by (apply nth_error_Some; congruence). lia.
Qed.

Lemma subset_of_kept old new name k i d ss : datasets_kept old new -> subset_of old name k i d ss ->
  exists d' ss', subset_of new name k i d' ss' /\ dataset_kept d d' /\ subset_kept ss ss'.
Proof.
  intros K (R & Hk & E). destruct (refers_to_kept _ _ _ _ _ K R) as (d' & R' & Kd). pose proof Kd as (_ & _ & F).
  destruct (Forall2_nth_l _ _ _ _ _ F E) as (ss' & E' & Ks). exists d', ss'. split; [split; [assumption|split; assumption]|]. split; assumption.
Qed.

Lemma update_nth_kept di (f : dataset -> dataset) datasets :
  (forall d, nth_error datasets di = Some d -> dataset_kept d (f d)) -> datasets_kept datasets (update_nth di f datasets).
Proof.
  intros H. exists (update_nth di f datasets), []. split; [now rewrite app_nil_r|].
  revert di H; induction datasets as [|d l IH]; intros [|di] H; cbn; constructor.
  - now apply H.
  - apply Forall2_refl, dataset_kept_refl.
  - apply dataset_kept_refl.
  - apply IH. intros d' E. now apply H.
Qed.

Lemma update_subset_kept k (m : list entry) subsets :
  (forall s, nth_error subsets k = Some s -> ss_matches s = []) ->
  Forall2 subset_kept subsets (update_nth k (fun s => set_matches s m) subsets).
Proof.
  revert k; induction subsets as [|s l IH]; intros [|k] H; cbn; constructor.
  - split; [reflexivity|]. left. now apply H.
  - apply Forall2_refl, subset_kept_refl.
  - apply subset_kept_refl.
  - apply IH. intros s' E. now apply H.
Qed.

(* ------------------------------------------------------------ outputs *)

Lemma combine_app {A B} (l1 l2 : list A) (m1 m2 : list B) :
  length l1 = length m1 -> combine (l1 ++ l2) (m1 ++ m2) = combine l1 m1 ++ combine l2 m2.
Proof. revert m1; induction l1 as [|a l1 IH]; intros [|b m1] H; try discriminate; [reflexivity|]. cbn. f_equal. apply IH. now injection H. Qed.

Lemma enumerate_snoc {A} (l : list A) x : enumerate (l ++ [x]) = enumerate l ++ [(zlen l, x)].
Proof.
  unfold enumerate. rewrite app_length. cbn [length]. rewrite Nat.add_1_r, seq_S, map_app.
  rewrite combine_app by (rewrite map_length, seq_length; reflexivity). reflexivity.
Qed.

Definition name_index (matches : list entry) : list (string * Z) := map (fun im => (en_name (snd im), fst im)) (enumerate matches).

Lemma name_index_snoc matches e : name_index (matches ++ [e]) = name_index matches ++ [(en_name e, zlen matches)].
Proof. unfold name_index. rewrite enumerate_snoc, map_app. reflexivity. Qed.

Lemma nth_name_index matches n k v :
  nth_error (name_index matches) n = Some (k, v) <-> exists f, nth_error matches n = Some f /\ k = en_name f /\ v = Z.of_nat n.
Proof.
  unfold name_index. rewrite nth_error_map, nth_enumerate. destruct (nth_error matches n) as [f|]; cbn.
  - split; [intros C; injection C as <- <-; eauto|]. intros (f' & C & -> & ->). congruence.
  - split; [discriminate|]. intros (f' & C & _). discriminate.
Qed.

Lemma NoDup_snoc {A} (l : list A) x : NoDup l -> ~ In x l -> NoDup (l ++ [x]).
Proof.
  intros H N. apply NoDup_rev in H. rewrite <- (rev_involutive (l ++ [x])). apply NoDup_rev. rewrite rev_app_distr. cbn.
  constructor; [|assumption]. now rewrite <- in_rev.
Qed.

Lemma output_loop_spec st pats idx : forall matches es matches',
  NoDup (map en_name matches) ->
  output_loop st pats idx (name_index matches) matches = Ok (es, matches') ->
  exists new, matches' = matches ++ new /\ NoDup (map en_name matches') /\
    Forall2 (fun s e => exists o f, st_output_entry st pats s = Ok o /\ 0 <= e /\ nth_error matches' (Z.to_nat e) = Some f /\
                                    en_name f = en_name o) idx es /\
    (forall n f, (length matches <= n)%nat -> nth_error matches' n = Some f ->
       In (Z.of_nat n) es /\ exists s, In s idx /\ st_output_entry st pats s = Ok f).
Proof.
  induction idx as [|i idx IH]; intros matches es matches' ND E; cbn [output_loop] in E.
  - injection E as <- <-. exists []. rewrite app_nil_r. repeat split; auto.
    + exfalso. assert (n < length matches)%nat by (apply nth_error_Some; congruence). lia.
    + exfalso. assert (n < length matches)%nat by (apply nth_error_Some; congruence). lia.
  - bind_ok E. rename x into o, E0 into Eo. destruct (dict_get String.eqb (name_index matches) (en_name o)) as [e|] eqn:Ed.
    + bind_ok E. destruct x as [es0 m0]. cbn [fst snd] in E. injection E as <- <-.
      destruct (IH _ _ _ ND E0) as (new & -> & ND' & F & Hnew). exists new. split; [reflexivity|]. split; [assumption|]. split.
      * constructor; [|assumption]. apply dict_get_last in Ed. destruct Ed as (n & En & _). apply nth_name_index in En.
        destruct En as (f & Ef & Enm & ->). exists o, f. split; [assumption|]. split; [lia|].
        replace (Z.to_nat (Z.of_nat n)) with n by lia. split; [|congruence].
        rewrite nth_error_app1; [assumption|]. apply nth_error_Some. congruence.
      * intros n f Hn En. destruct (Hnew n f Hn En) as (H1 & s & H2 & H3). split; [now right|]. exists s. split; [now right|assumption].
    + bind_ok E. destruct x as [es0 m0]. cbn [fst snd] in E. injection E as <- <-.
      rewrite <- name_index_snoc in E0.
      assert (NoDup (map en_name (matches ++ [o]))) as ND1.
      { rewrite map_app. cbn [map]. apply NoDup_snoc; [assumption|].
        apply dict_get_None in Ed; [|apply String.eqb_eq]. intros C. apply Ed. apply in_map_iff in C. destruct C as (f & Ef & C).
        apply In_nth_error in C. destruct C as [n Cn]. apply in_map_iff. exists (en_name f, Z.of_nat n). split; [exact Ef|].
        apply nth_error_In with (n := n). apply nth_name_index. eauto. }
      destruct (IH _ _ _ ND1 E0) as (new & -> & ND' & F & Hnew). exists (o :: new). split; [now rewrite <- app_assoc|].
      split; [assumption|]. split.
      * constructor; [|assumption]. exists o, o. split; [assumption|]. pose proof (zlen_nonneg matches). split; [lia|]. split; [|reflexivity].
        rewrite <- app_assoc, nth_error_app2 by (unfold zlen; lia). replace (Z.to_nat (zlen matches) - length matches)%nat with 0%nat by (unfold zlen; lia). reflexivity.
      * intros n f Hn En. destruct (Nat.eq_dec n (length matches)) as [->|Hne].
        { split; [now left|]. rewrite <- app_assoc, nth_error_app2 in En by lia. rewrite Nat.sub_diag in En. cbn in En. injection En as <-.
          exists i. split; [now left|assumption]. }
        { destruct (Hnew n f) as (H1 & s & H2 & H3); [rewrite app_length; cbn; lia|assumption|]. split; [now right|]. exists s. split; [now right|assumption]. }
Qed.

Lemma output_resolve_spec ds st out idx refs ds' :
  operation_output_resolve ds st out idx = Ok (refs, ds') ->
  exists i d ss pats m es,
    subset_of ds (out_dataset out) (out_subset out) i d ss /\ ss_matches ss = [] /\ ss_patterns ss = Some pats /\
    ds' = update_nth i (fun d => set_subsets d (update_nth (Z.to_nat (out_subset out)) (fun s => set_matches s m) (ds_subsets d))) ds /\
    refs = map (fun e => [Z.of_nat i; out_subset out; e]) es /\
    NoDup (map en_name m) /\
    Forall2 (fun s e => exists o f, st_output_entry st pats s = Ok o /\ 0 <= e /\ nth_error m (Z.to_nat e) = Some f /\
                                    en_name f = en_name o) idx es /\
    (forall n f, nth_error m n = Some f -> In (Z.of_nat n) es /\ exists s, In s idx /\ st_output_entry st pats s = Ok f).
Proof.
  unfold operation_output_resolve. destruct (datasubset ds (out_dataset out) (out_subset out)) as [ss|] eqn:Ess; [|discriminate].
  apply datasubset_spec in Ess. destruct Ess as (i & d & Hsub).
  assert (datasetindex ds (out_dataset out) = Some i) as -> by (apply datasetindex_spec; exists d; apply Hsub).
  destruct (0 <? zlen (ss_matches ss)) eqn:Em; [discriminate|].
  destruct (ss_patterns ss) as [pats|] eqn:Ep; [|discriminate]. intros E.
  assert (ss_matches ss = []) as Hm. { destruct (ss_matches ss) as [|a l]; [reflexivity|]. rewrite zlen_cons in Em. pose proof (zlen_nonneg l). lia. }
  rewrite Hm in E. bind_ok E. destruct x as [es m]. cbn [fst snd] in E. injection E as <- <-.
  change (@nil (string * Z)) with (name_index []) in E0. apply output_loop_spec in E0; [|constructor].
  destruct E0 as (new & -> & ND & F & Hnew). cbn [app] in *. exists i, d, ss, pats, new, es. repeat (split; [assumption || reflexivity|]).
  intros n f En. apply Hnew; [cbn; lia|assumption].
Qed.

Lemma output_resolve_kept ds st out idx refs ds' : operation_output_resolve ds st out idx = Ok (refs, ds') -> datasets_kept ds ds'.
Proof.
  intros E. apply output_resolve_spec in E. destruct E as (i & d & ss & pats & m & es & (R & Hk & Hn) & Hm & _ & -> & _).
  apply update_nth_kept. intros d' E. pose proof R as (E' & _). assert (d' = d) by congruence. subst d'.
  repeat split. cbn. apply update_subset_kept. intros s Hs. congruence.
Qed.

(* Where the new entries are found afterwards. *)
Lemma output_resolve_after ds st out idx refs ds' :
  operation_output_resolve ds st out idx = Ok (refs, ds') ->
  exists i d ss pats es,
    subset_of ds' (out_dataset out) (out_subset out) i d ss /\ ss_patterns ss = Some pats /\
    refs = map (fun e => [Z.of_nat i; out_subset out; e]) es /\
    Forall2 (fun s e => exists o f, st_output_entry st pats s = Ok o /\ 0 <= e /\ nth_error (ss_matches ss) (Z.to_nat e) = Some f /\
                                    en_name f = en_name o) idx es.
Proof.
  intros E. pose proof (output_resolve_kept _ _ _ _ _ _ E) as K. apply output_resolve_spec in E.
  destruct E as (i & d & ss & pats & m & es & Hsub & Hm & Hp & E & Er & ND & F & _).
  destruct (subset_of_kept _ _ _ _ _ _ _ K Hsub) as (d' & ss' & Hsub' & Kd & Ks).
  exists i, d', ss', pats, es. split; [assumption|]. split; [destruct Ks as [-> _]; assumption|]. split; [assumption|].
  assert (ss_matches ss' = m) as ->; [|assumption].
  destruct Hsub as (R & Hk & Hn). destruct Hsub' as (R' & _ & Hn'). pose proof R as (En & _). pose proof R' as (En' & _).
  rewrite E, nth_error_update_nth, En, Nat.eqb_refl in En'. cbn in En'. injection En' as <-. cbn [ds_subsets set_subsets] in Hn'.
  rewrite nth_error_update_nth, Hn, Nat.eqb_refl in Hn'. cbn in Hn'. injection Hn' as <-. reflexivity.
Qed.

(* ------------------------------------------------------------ the walks *)

Definition inputs_children (ds : list dataset) (st : step) :=
  fix walk (l : list (string * bparam)) (skip : list bool) : result (list (string * mparam) * list bool) :=
    match l with
    | [] => Ok ([], skip)
    | (k, c) :: rest =>
        do r1 <- resolve_inputs ds st c skip;
        do r2 <- walk rest (snd r1);
        Ok ((k, fst r1) :: fst r2, snd r2)
    end.
Lemma resolve_inputs_node ds st children skip :
  resolve_inputs ds st (BNode children) skip = do r <- inputs_children ds st children skip; Ok (MNode (fst r), snd r).
Proof. reflexivity. Qed.
Lemma inputs_children_cons ds st k c rest skip :
  inputs_children ds st ((k, c) :: rest) skip =
  do r1 <- resolve_inputs ds st c skip; do r2 <- inputs_children ds st rest (snd r1); Ok ((k, fst r1) :: fst r2, snd r2).
Proof. reflexivity. Qed.

Definition outputs_children (st : step) (indices : list Z) :=
  fix walk (l : list (string * mparam)) (ds : list dataset) : result (list (string * param) * list dataset) :=
    match l with
    | [] => Ok ([], ds)
    | (k, c) :: rest =>
        do r1 <- resolve_outputs st indices c ds;
        do r2 <- walk rest (snd r1);
        Ok ((k, fst r1) :: fst r2, snd r2)
    end.
Lemma resolve_outputs_node st indices children ds :
  resolve_outputs st indices (MNode children) ds = do r <- outputs_children st indices children ds; Ok (PNode (fst r), snd r).
Proof. reflexivity. Qed.
Lemma outputs_children_cons st indices k c rest ds :
  outputs_children st indices ((k, c) :: rest) ds =
  do r1 <- resolve_outputs st indices c ds; do r2 <- outputs_children st indices rest (snd r1); Ok ((k, fst r1) :: fst r2, snd r2).
Proof. reflexivity. Qed.

(* Skipping, over the whole template. *)
Definition skips_input (ds : list dataset) (st : step) (inp : input_file) (n : nat) : Prop :=
  in_missing inp = SkipMissing /\ exists i d ss pats, subset_of ds (in_dataset inp) (in_subset inp) i d ss /\
    ss_patterns ss = Some pats /\ files_of_step st pats (ss_matches ss) (Z.of_nat n) [].

Lemma resolve_inputs_skip ds st p : forall skip m skip',
  length skip = Z.to_nat (st_count st) ->
  resolve_inputs ds st p skip = Ok (m, skip') ->
  length skip' = length skip /\
  forall n, (n < length skip)%nat ->
    (nth_error skip' n = Some true <-> nth_error skip n = Some true \/ exists inp, has_input inp p /\ skips_input ds st inp n).
Proof.
  induction p as [v| | |items| | |inp|inp|out|children IH] using bparam_ind'; intros skip m skip' Hl E.
  1-4, 6, 9: cbn in E; injection E as <- <-; split; [reflexivity|]; intros n Hn; split; [auto|];
    intros [H|(inp & C & _)]; [assumption|inversion C].
  - cbn in E. bind_ok E. injection E as <- <-. split; [reflexivity|]; intros n Hn; split; [auto|];
      intros [H|(inp & C & _)]; [assumption|inversion C].
  - cbn in E. bind_ok E. injection E as <- <-. unfold find_single_references in E0. bind_ok E0. destruct x0 as [refs sk]. cbn [fst] in E0.
    assert (x = (refs, sk)) as -> by (destruct refs; [discriminate|]; destruct (existsb _ _); [discriminate|]; congruence).
    apply find_references_spec in E; [|assumption]. destruct E as [_ (L & H)]. cbn [snd]. split; [assumption|]. intros n Hn.
    rewrite (H n Hn). split.
    + intros [G|G]; [auto|]. right. exists inp. split; [constructor|exact G].
    + intros [G|(inp' & G1 & G2)]; [auto|]. right. inversion G1; subst. exact G2.
  - cbn in E. bind_ok E. injection E as <- <-. destruct x as [refs sk].
    apply find_references_spec in E0; [|assumption]. destruct E0 as [_ (L & H)]. cbn [snd]. split; [assumption|]. intros n Hn.
    rewrite (H n Hn). split.
    + intros [G|G]; [auto|]. right. exists inp. split; [constructor|exact G].
    + intros [G|(inp' & G1 & G2)]; [auto|]. right. inversion G1; subst. exact G2.
  - rewrite resolve_inputs_node in E. bind_ok E. destruct x as [ms sk]. cbn [fst snd] in E. injection E as <- <-.
    assert (length sk = length skip /\ forall n, (n < length skip)%nat ->
      (nth_error sk n = Some true <-> nth_error skip n = Some true \/
        exists inp k c, In (k, c) children /\ has_input inp c /\ skips_input ds st inp n)) as [L H].
    { revert skip ms sk Hl E0. induction IH as [|[k c] rest Hh _ IHr]; intros skip ms sk Hl E0.
      - cbn in E0. injection E0 as <- <-. split; [reflexivity|]. intros n Hn. split; [auto|]. intros [H|(? & ? & ? & [] & _)]; assumption.
      - rewrite inputs_children_cons in E0. bind_ok E0. destruct x as [m1 s1]. cbn [fst snd] in E0. bind_ok E0. destruct x as [m2 s2]. cbn [fst snd] in E0. injection E0 as <- <-.
        destruct (Hh _ _ _ Hl E) as [L1 H1]. assert (length s1 = Z.to_nat (st_count st)) as L1' by congruence. destruct (IHr _ _ _ L1' E1) as [L2 H2]. split; [congruence|].
        intros n Hn. rewrite H2 by lia. rewrite H1 by lia. split.
        + intros [[G|(inp & G1 & G2)]|(inp & k' & c' & G1 & G2 & G3)]; [auto| |].
          * right. exists inp, k, c. split; [now left|auto].
          * right. exists inp, k', c'. split; [now right|auto].
        + intros [G|(inp & k' & c' & [G1|G1] & G2 & G3)]; [auto| |].
          * injection G1 as <- <-. left. right. exists inp. auto.
          * right. exists inp, k', c'. auto. }
    split; [assumption|]. intros n Hn. rewrite (H n Hn). split.
    + intros [G|(inp & k & c & G1 & G2 & G3)]; [auto|]. right. exists inp. split; [econstructor; eassumption|assumption].
    + intros [G|(inp & G1 & G2)]; [auto|]. right. inversion G1; subst. exists inp, k, c. auto.
Qed.

Lemma in_not_skipped skip s : In s (not_skipped skip) <-> 0 <= s /\ nth_error skip (Z.to_nat s) = Some false.
Proof.
  unfold not_skipped. rewrite in_flat_map. split.
  - intros ([i b] & H1 & H2). apply In_enumerate in H1. cbn in H2. destruct b; [contradiction|]. destruct H2 as [<-|[]]. assumption.
  - intros H. exists (s, false). split; [now apply In_enumerate|]. now left.
Qed.

Lemma not_skipped_sorted skip : StronglySorted Z.lt (not_skipped skip).
Proof.
  assert (not_skipped skip = map Z.of_nat (positions negb skip)) as ->.
  { rewrite <- (filter_enumerate negb skip). unfold not_skipped.
    induction (enumerate skip) as [|[i b] l IH]; [reflexivity|]. cbn. rewrite IH. now destruct b. }
  pose proof (positions_sorted negb skip) as S. induction S as [|x l S IH F]; cbn; constructor; [assumption|].
  rewrite Forall_forall in *. intros y Hy. apply in_map_iff in Hy. destruct Hy as (z & <- & Hz). specialize (F z Hz). lia.
Qed.

Lemma init_skip_length n : length (map (fun _ : Z => false) (zrange 0 n)) = Z.to_nat n.
Proof. rewrite map_length, zrange_length. f_equal. lia. Qed.

Lemma kept_steps ds st p m skip' :
  resolve_inputs ds st p (map (fun _ => false) (zrange 0 (st_count st))) = Ok (m, skip') ->
  forall s, In s (not_skipped skip') <-> 0 <= s < st_count st /\ ~ should_skip ds st p s.
Proof.
  intros E s. destruct (resolve_inputs_skip _ _ _ _ _ _ (init_skip_length _) E) as [L H]. rewrite init_skip_length in L, H.
  rewrite in_not_skipped.
  assert (forall n, (n < Z.to_nat (st_count st))%nat -> nth_error (map (fun _ : Z => false) (zrange 0 (st_count st))) n = Some false) as H0.
  { intros n Hn. rewrite nth_error_map, zrange_nth by lia. reflexivity. }
  split.
  - intros [Hs Hn]. assert (Z.to_nat s < length skip')%nat by (apply nth_error_Some; congruence).
    split; [lia|]. intros (inp & i & d & ss & pats & G1 & G2 & G3 & G4 & G5).
    assert (nth_error skip' (Z.to_nat s) = Some true) as C; [|congruence]. apply H; [lia|]. right. exists inp. split; [assumption|].
    split; [assumption|]. exists i, d, ss, pats. replace (Z.of_nat (Z.to_nat s)) with s by lia. auto.
  - intros [Hs Hn]. split; [lia|]. destruct (nth_error skip' (Z.to_nat s)) as [b|] eqn:Eb.
    + destruct b; [|reflexivity]. exfalso. apply H in Eb; [|lia]. rewrite H0 in Eb by lia. destruct Eb as [C|(inp & G1 & G2 & i & d & ss & pats & G3 & G4 & G5)]; [discriminate|].
      apply Hn. exists inp, i, d, ss, pats. replace (Z.of_nat (Z.to_nat s)) with s in G5 by lia. auto.
    + apply nth_error_None in Eb. lia.
Qed.

Lemma resolve_outputs_kept st idx : forall m ds q ds', resolve_outputs st idx m ds = Ok (q, ds') -> datasets_kept ds ds'.
Proof.
  fix IH 1. intros m ds q ds' E. destruct m as [v| | |items|items|items|out|children].
  1-3: cbn in E; injection E as <- <-; apply datasets_kept_refl.
  1-3: cbn in E; bind_ok E; injection E as <- <-; apply datasets_kept_refl.
  - cbn in E. bind_ok E. injection E as <- <-. destruct x. eapply output_resolve_kept. eassumption.
  - rewrite resolve_outputs_node in E. bind_ok E. injection E as <- <-. destruct x as [qs ds1]. cbn [snd]. revert ds qs ds1 E0.
    induction children as [|[k c] rest IHr]; intros ds qs ds1 E0.
    + cbn in E0. injection E0 as <- <-. apply datasets_kept_refl.
    + rewrite outputs_children_cons in E0. bind_ok E0. destruct x as [q1 d1]. cbn [fst snd] in E0. bind_ok E0. destruct x as [q2 d2].
      cbn [fst snd] in E0. injection E0 as <- <-. eapply datasets_kept_trans; [eapply IH; eassumption|eapply IHr; eassumption].
Qed.

Lemma restrict_nth {A} (items : list A) kept l k : restrict_to_subset items kept = Ok l -> Forall (fun s => 0 <= s) kept ->
  zlen l = zlen kept /\ forall x, nth_error l k = Some x -> exists s, nth_error kept k = Some s /\ nth_error items (Z.to_nat s) = Some x.
Proof.
  unfold restrict_to_subset. intros E F. split; [unfold zlen; f_equal; eapply mapM_length; eassumption|].
  intros x Hx. apply (mapM_nth _ _ _ _ E) in Hx. destruct Hx as (s & Hs & Hx). exists s. split; [assumption|].
  rewrite Forall_forall in F. assert (0 <= s) by (apply F; eapply nth_error_In; eassumption).
  rewrite py_index_nonneg in Hx by assumption. destruct (nth_error items (Z.to_nat s)); congruence.
Qed.

Lemma trios_step_refs i k policy es refs : trios (step_refs i k policy es) refs ->
  refs = map (fun e => {| ref_dataset := Z.of_nat i; ref_subset := k; ref_entry := e |})
    (match es with [] => if policy_eqb policy Allowed then [-1] else [] | _ => map Z.of_nat es end).
Proof.
  unfold step_refs. generalize (match es with [] => if policy_eqb policy Allowed then [-1] else [] | _ => map Z.of_nat es end).
  intros l. revert refs. induction l as [|e l IH]; intros refs H; cbn in H; inversion H; subst; [reflexivity|].
  cbn. f_equal. now apply IH.
Qed.

(* A stored reference to an existing entry keeps giving the same file name. *)
Lemma load_one_valid join ds ds1 name k i d ss e f path :
  subset_of ds name k i d ss -> datasets_kept ds ds1 -> nth_error (ss_matches ss) e = Some f ->
  load_one_pathname join ds1 {| ref_dataset := Z.of_nat i; ref_subset := k; ref_entry := Z.of_nat e |} = Ok path ->
  exists p, ds_path d = Some p /\ path = Some (join p (en_name f)).
Proof.
  intros Hsub K Hf. destruct (subset_of_kept _ _ _ _ _ _ _ K Hsub) as (d' & ss' & (R & Hk & Hn) & (_ & Kp & _) & (_ & Km)).
  unfold load_one_pathname. cbn [ref_dataset ref_subset ref_entry].
  replace ((Z.of_nat i <? 0) || (k <? 0)) with false by lia. replace (Z.to_nat (Z.of_nat i)) with i by lia.
  pose proof R as (-> & _). rewrite Hn. destruct Km as [Km|Km]; [rewrite Km in Hf; destruct e; discriminate|]. rewrite Km.
  destruct (ss_matches ss) as [|x l] eqn:Em; [destruct e; discriminate|]. replace (0 <=? Z.of_nat e) with true by lia.
  replace (Z.to_nat (Z.of_nat e)) with e by lia. rewrite Hf, Kp. destruct (ds_path d) as [p|]; [|discriminate].
  intros E; injection E as <-. eauto.
Qed.

Lemma load_marker join ds1 i k path :
  load_one_pathname join ds1 {| ref_dataset := i; ref_subset := k; ref_entry := -1 |} = Ok path -> path = None.
Proof.
  unfold load_one_pathname. cbn. destruct ((i <? 0) || (k <? 0)); [discriminate|]. destruct (nth_error ds1 (Z.to_nat i)) as [d|]; [|discriminate].
  destruct (nth_error (ds_subsets d) (Z.to_nat k)) as [ss|]; [|discriminate]. destruct (ss_matches ss); [discriminate|]. congruence.
Qed.

(* From an input's stored references to the paths. *)
Lemma input_loads join ds ds1 st inp refs s ints rl paths :
  input_ok ds st inp refs -> datasets_kept ds ds1 -> 0 <= s < st_count st ->
  ~ (in_missing inp = SkipMissing /\ exists i d ss pats, subset_of ds (in_dataset inp) (in_subset inp) i d ss /\
      ss_patterns ss = Some pats /\ files_of_step st pats (ss_matches ss) s []) ->
  nth_error refs (Z.to_nat s) = Some ints -> trios ints rl -> load_data_pathnames join ds1 rl = Ok paths ->
  input_paths join ds st s inp paths.
Proof.
  intros (i & d & ss & pats & Hsub & Hp & _ & Hall) K Hs Hskip Hn Ht Hload.
  destruct (Hall s Hs) as (es & Hes & Hr & Hna). rewrite Hr in Hn. injection Hn as <-.
  apply trios_step_refs in Ht. subst rl. exists i, d, ss, pats, es. split; [assumption|]. split; [assumption|]. split; [assumption|].
  unfold load_data_pathnames in Hload. destruct es as [|e0 es0].
  - destruct (in_missing inp) eqn:Epol; cbn [policy_eqb] in Hload.
    + now destruct (Hna eq_refl).
    + left. split; [reflexivity|]. cbn [map mapM] in Hload. bind_ok Hload. apply load_marker in E. injection Hload as <-. now subst x.
    + exfalso. apply Hskip. split; [reflexivity|]. exists i, d, ss, pats. auto.
    + right. split; [reflexivity|]. cbn in Hload. congruence.
  - assert (forall e, In e (e0 :: es0) -> exists f, nth_error (ss_matches ss) e = Some f) as Hex.
    { intros e He. destruct Hes as [_ Hes]. apply Hes in He. destruct He as (f & Ef & _). eauto. }
    rewrite map_map in Hload. apply mapM_ok_Forall2 in Hload.
    assert (exists path, ds_path d = Some path) as [path Hpath].
    { cbn [map] in Hload. inversion Hload as [|? y ? ? H1 _]; subst. destruct (Hex e0 (or_introl eq_refl)) as [f Hf].
      destruct (load_one_valid _ _ _ _ _ _ _ _ _ _ _ Hsub K Hf H1) as (p & Hp' & _). eauto. }
    exists path. split; [assumption|]. revert paths Hload. revert Hex. clear -Hsub K Hpath. generalize (e0 :: es0) as l.
    induction l as [|e l IH]; intros Hex paths Hload; cbn [map] in Hload; inversion Hload as [|? y ? ? H1 H2]; subst; constructor.
    + destruct (Hex e (or_introl eq_refl)) as [f Hf]. exists f. split; [assumption|].
      destruct (load_one_valid _ _ _ _ _ _ _ _ _ _ _ Hsub K Hf H1) as (p & Hp' & ->). congruence.
    + apply IH; [|assumption]. intros e' He'. apply Hex. now right.
Qed.

Lemma input_loads_exist join ds ds1 st inp refs s ints rl i d ss path :
  input_ok ds st inp refs -> datasets_kept ds ds1 -> 0 <= s < st_count st ->
  subset_of ds (in_dataset inp) (in_subset inp) i d ss -> ds_path d = Some path ->
  (in_missing inp = Allowed -> ss_matches ss <> []) ->
  nth_error refs (Z.to_nat s) = Some ints -> trios ints rl ->
  exists paths, load_data_pathnames join ds1 rl = Ok paths.
Proof.
  intros (i0 & d0 & ss0 & pats & Hsub0 & Hp & _ & Hall) K Hs Hsub Hpath Hnonempty Hn Ht.
  destruct (subset_of_fun _ _ _ _ _ _ _ _ _ Hsub0 Hsub) as (-> & -> & ->).
  destruct (Hall s Hs) as (es & Hes & Hr & _). rewrite Hr in Hn. injection Hn as <-.
  apply trios_step_refs in Ht. subst rl.
  destruct (subset_of_kept _ _ _ _ _ _ _ K Hsub) as (d' & ss' & (R & Hk & Hn) & (_ & Kp & _) & (_ & Km)).
  pose proof R as (Ed & _).
  assert (forall e, (exists f, 0 <= e /\ nth_error (ss_matches ss) (Z.to_nat e) = Some f) \/ (e = -1 /\ ss_matches ss <> []) ->
     exists q, load_one_pathname join ds1 {| ref_dataset := Z.of_nat i; ref_subset := in_subset inp; ref_entry := e |} = Ok q) as Hone.
  { intros e He. unfold load_one_pathname. cbn [ref_dataset ref_subset ref_entry].
    replace ((Z.of_nat i <? 0) || (in_subset inp <? 0)) with false by lia. replace (Z.to_nat (Z.of_nat i)) with i by lia.
    rewrite Ed, Hn.
    assert (ss_matches ss <> []) as Hne. { destruct He as [(f & _ & He)|[_ He]]; [|assumption]. intros C; rewrite C in He; destruct (Z.to_nat e); discriminate. }
    destruct Km as [Km|Km]; [contradiction|]. rewrite Km. destruct (ss_matches ss) as [|x l] eqn:Em; [contradiction|].
    destruct He as [(f & He1 & He2)|[-> _]]; [|eexists; reflexivity]. replace (0 <=? e) with true by lia. rewrite He2, Kp, Hpath. eauto. }
  assert (forall l, (forall e, In e l -> (exists f, 0 <= e /\ nth_error (ss_matches ss) (Z.to_nat e) = Some f) \/ (e = -1 /\ ss_matches ss <> [])) ->
     exists paths, load_data_pathnames join ds1 (map (fun e => {| ref_dataset := Z.of_nat i; ref_subset := in_subset inp; ref_entry := e |}) l) = Ok paths) as Hmany.
  { induction l as [|e l IH]; intros H; [eexists; reflexivity|]. destruct (Hone e (H e (or_introl eq_refl))) as [q Hq].
    destruct IH as [ps Hps]; [intros e' He'; apply H; now right|]. exists (q :: ps). unfold load_data_pathnames in *. cbn [map mapM]. rewrite Hq. cbn [bind]. rewrite Hps. reflexivity. }
  apply Hmany. intros e He. destruct es as [|e0 es0].
  - destruct (in_missing inp); cbn in He; try contradiction. destruct He as [<-|[]]. right. auto.
  - left. apply in_map_iff in He. destruct He as (n & <- & He). destruct Hes as [_ Hes]. apply Hes in He. destruct He as (f & Hf & _).
    exists f. split; [lia|]. replace (Z.to_nat (Z.of_nat n)) with n by lia. assumption.
Qed.

Lemma step_refs_short i k policy es : 3 <? zlen (step_refs i k policy es) = false ->
  exists l, step_refs i k policy es = flat_map (fun e => [Z.of_nat i; k; e]) l /\ (length l <= 1)%nat.
Proof.
  unfold step_refs. generalize (match es with [] => if policy_eqb policy Allowed then [-1] else [] | _ => map Z.of_nat es end). intros l H.
  exists l. split; [reflexivity|]. destruct l as [|a [|b l]]; cbn; try lia. exfalso. cbn [flat_map app] in H. rewrite !zlen_cons in H.
  pose proof (zlen_nonneg (flat_map (fun e => [Z.of_nat i; k; e]) l)). lia.
Qed.

Lemma find_single_spec ds st inp skip refs skip' :
  find_single_references ds st inp skip = Ok (refs, skip') ->
  find_references ds st inp skip = Ok (refs, skip') /\ forall r, In r refs -> (3 <? zlen r) = false.
Proof.
  unfold find_single_references. intros E. bind_ok E. destruct x as [refs0 sk]. cbn [fst] in E.
  destruct refs0 as [|r0 rs]; [discriminate|]. destruct (existsb (fun r => 3 <? zlen r) (r0 :: rs)) eqn:Ex; [discriminate|].
  injection E as <- <-. split; [reflexivity|]. intros r Hr. destruct (3 <? zlen r) eqn:E3; [|reflexivity].
  rewrite <- Ex. symmetry. apply existsb_exists. eauto.
Qed.

Lemma trios_length l refs : trios l refs -> length l = (3 * length refs)%nat.
Proof. induction 1; cbn in *; lia. Qed.

Lemma po_list_inv cat n k ts items v : parameters_of cat n k ts (PList items) v ->
  exists z, v = VLit z /\ zlen items = n /\ nth_error items k = Some z.
Proof. inversion 1; subst; eauto. Qed.

Lemma po_ref_inv cat n k ts items v : parameters_of cat n k ts (PFileRef items) v ->
  exists ints refs paths, zlen items = n /\ nth_error items k = Some ints /\ trios ints refs /\ cf_pathnames cat refs = Ok paths /\
    v = VPath (match paths with q :: _ => q | [] => None end).
Proof.
  inversion 1 as [| | | |? ints refs q paths H1 H2 H3 H4|? ints refs H1 H2 H3 H4| |]; subst.
  - exists ints, refs, (q :: paths). auto.
  - exists ints, refs, []. auto.
Qed.

Lemma po_reflist_inv cat n k ts items v : parameters_of cat n k ts (PFileListRef items) v ->
  exists ints refs paths, zlen items = n /\ nth_error items k = Some ints /\ trios ints refs /\ cf_pathnames cat refs = Ok paths /\ v = VPaths paths.
Proof. inversion 1 as [| | | | | |? ints refs paths H1 H2 H3 H4|]; subst. exists ints, refs, paths. auto. Qed.

Section Sound.
  Variables (join : string -> string -> string) (ds0 : list dataset) (st : step) (id ts : string) (ops : list operation).
  Notation file ds1 := {| cf_identifier := id; cf_operations := ops; cf_pathnames := load_data_pathnames join ds1 |}.

  Lemma resolve_sound p : forall skip m skip' kept dsA q dsB ds1,
    length skip = Z.to_nat (st_count st) ->
    resolve_inputs ds0 st p skip = Ok (m, skip') ->
    (forall s, In s kept -> 0 <= s < st_count st /\ ~ should_skip ds0 st p s) ->
    datasets_kept ds0 dsA -> resolve_outputs st kept m dsA = Ok (q, dsB) -> datasets_kept dsB ds1 ->
    lists_have_length (zlen kept) q /\
    (forall k s v, nth_error kept k = Some s -> parameters_of (file ds1) (zlen kept) k ts q v ->
       receives join ds0 ds1 id ts st s p v) /\
    (files_reachable ds0 p -> forall k s, nth_error kept k = Some s -> exists v, parameters_of (file ds1) (zlen kept) k ts q v).
  Proof.
    induction p as [v| | |items| | |inp|inp|out|children IH] using bparam_ind'; intros skip m skip' kept dsA q dsB ds1 Hl E Hkept K0 Eo K1;
      assert (Forall (fun s => 0 <= s) kept) as Hpos by (apply Forall_forall; intros s Hs; apply Hkept in Hs; lia).
    - cbn in E; injection E as <- <-; cbn in Eo; injection Eo as <- <-. split; [constructor|]. split.
      + intros k s w _ H; inversion H; subst; constructor.
      + intros _ k s _; eexists; constructor.
    - cbn in E; injection E as <- <-; cbn in Eo; injection Eo as <- <-. split; [constructor|]. split.
      + intros k s w _ H; inversion H; subst; constructor.
      + intros _ k s _; eexists; constructor.
    - cbn in E; injection E as <- <-; cbn in Eo; injection Eo as <- <-. split; [constructor|]. split.
      + intros k s w _ H; inversion H; subst; constructor.
      + intros _ k s _; eexists; constructor.
    - cbn in E; injection E as <- <-. cbn in Eo. bind_ok Eo. injection Eo as <- <-. rename x into l.
      split; [constructor; now apply (restrict_nth _ _ _ 0%nat E)|]. split.
      + intros k s w Hk H. apply po_list_inv in H. destruct H as (z & -> & _ & Hz). destruct (restrict_nth _ _ _ k E Hpos) as [_ Hn]. destruct (Hn _ Hz) as (s' & Hs' & Hi).
        assert (s' = s) by congruence. subst s'. now constructor.
      + intros _ k s Hk. destruct (restrict_nth _ _ _ k E Hpos) as [L _]. destruct (nth_error l k) as [w|] eqn:En.
        * eexists. constructor; eassumption.
        * apply nth_error_None in En. assert (k < length kept)%nat by (apply nth_error_Some; congruence). unfold zlen in L. lia.
    - cbn in E. bind_ok E. injection E as <- <-. rename x into times. cbn in Eo. bind_ok Eo. injection Eo as <- <-. rename x into l.
      split; [constructor; now apply (restrict_nth _ _ _ 0%nat E)|]. split.
      + intros k s w Hk H. apply po_list_inv in H. destruct H as (z & -> & _ & Hz). destruct (restrict_nth _ _ _ k E Hpos) as [_ Hn]. destruct (Hn _ Hz) as (s' & Hs' & Hi).
        assert (s' = s) by congruence. subst s'. constructor. apply (mapM_nth _ _ _ _ E0) in Hi. destruct Hi as (s' & Hi1 & Hi2).
        apply zrange_nth_inv in Hi1. assert (0 <= s) by (apply Hkept; eapply nth_error_In; eassumption). replace s with s' by lia. assumption.
      + intros _ k s Hk. destruct (restrict_nth _ _ _ k E Hpos) as [L _]. destruct (nth_error l k) as [w|] eqn:En.
        * eexists. constructor; eassumption.
        * apply nth_error_None in En. assert (k < length kept)%nat by (apply nth_error_Some; congruence). unfold zlen in L. lia.
    - cbn in E. injection E as <- <-. cbn in Eo. bind_ok Eo. injection Eo as <- <-. rename x into l.
      split; [constructor; now apply (restrict_nth _ _ _ 0%nat E)|]. split.
      + intros k s w Hk H. apply po_list_inv in H. destruct H as (z & -> & _ & Hz). destruct (restrict_nth _ _ _ k E Hpos) as [_ Hn]. destruct (Hn _ Hz) as (s' & Hs' & Hi).
        assert (s' = s) by congruence. subst s'. apply zrange_nth_inv in Hi.
        assert (0 <= s) by (apply Hkept; eapply nth_error_In; eassumption). replace z with s by lia. constructor.
      + intros _ k s Hk. destruct (restrict_nth _ _ _ k E Hpos) as [L _]. destruct (nth_error l k) as [w|] eqn:En.
        * eexists. constructor; eassumption.
        * apply nth_error_None in En. assert (k < length kept)%nat by (apply nth_error_Some; congruence). unfold zlen in L. lia.
    - (* a single input file *)
      cbn in E. bind_ok E. injection E as <- <-. destruct x as [refs sk]. cbn [fst] in Eo. cbn in Eo. bind_ok Eo. injection Eo as <- <-. rename x into l.
      apply find_single_spec in E0. destruct E0 as [E0 Hshort]. apply find_references_spec in E0; [|assumption]. destruct E0 as [Hin _].
      split; [constructor; now apply (restrict_nth _ _ _ 0%nat E)|].
      assert (forall k s ints, nth_error kept k = Some s -> nth_error l k = Some ints -> nth_error refs (Z.to_nat s) = Some ints) as Hints.
      { intros k s ints Hk Hn. destruct (restrict_nth _ _ _ k E Hpos) as [_ Hr]. destruct (Hr _ Hn) as (s' & Hs' & Hi). congruence. }
      split.
      + intros k s w Hk H. assert (In s kept) as HIn by (eapply nth_error_In; eassumption). destruct (Hkept s HIn) as [Hs Hns].
        assert (forall ints refs0 paths, nth_error l k = Some ints -> trios ints refs0 -> load_data_pathnames join ds1 refs0 = Ok paths ->
                  input_paths join ds0 st s inp paths /\ (length paths <= 1)%nat) as Hp.
        { intros ints refs0 paths H1 H2 H3. pose proof (Hints _ _ _ Hk H1) as Hi. split.
          - assert (datasets_kept ds0 ds1) as K01 by (eapply datasets_kept_trans; eassumption).
            eapply (input_loads join ds0 ds1); try eassumption. intros (G & i & d & ss & pats & G1 & G2 & G3). apply Hns. exists inp, i, d, ss, pats. split; [constructor|]. auto.
          - assert ((3 <? zlen ints) = false) by (apply Hshort; eapply nth_error_In; eassumption).
            apply trios_length in H2. unfold load_data_pathnames in H3. apply mapM_length in H3. unfold zlen in *. lia. }
        apply po_ref_inv in H. destruct H as (ints & refs0 & paths & _ & H3 & H4 & H5 & ->).
        destruct (Hp _ _ _ H3 H4 H5) as [G1 G2]. destruct paths as [|q0 [|q1 ps]]; [now constructor|now constructor|cbn in G2; lia].
      + intros [Hre _] k s Hk. assert (In s kept) as HIn by (eapply nth_error_In; eassumption). destruct (Hkept s HIn) as [Hs _].
        destruct (restrict_nth _ _ _ k E Hpos) as [L _]. destruct (nth_error l k) as [ints|] eqn:En.
        2:{ apply nth_error_None in En. assert (k < length kept)%nat by (apply nth_error_Some; congruence). unfold zlen in L. lia. }
        pose proof (Hints _ _ _ Hk En) as Hi. destruct (Hre inp ltac:(constructor)) as (i & d & ss & path & G1 & G2 & G3).
        assert (exists rl, trios ints rl) as [rl Hrl].
        { destruct Hin as (i' & d' & ss' & pats & _ & _ & _ & Hall). destruct (Hall s Hs) as (es & _ & Hr & _). rewrite Hr in Hi. injection Hi as <-.
          unfold step_refs. generalize (match es with [] => if policy_eqb (in_missing inp) Allowed then [-1] else [] | _ => map Z.of_nat es end).
          clear. induction l as [|e l [rl IH]]; [exists []; constructor|]. eexists. cbn. constructor. exact IH. }
        destruct (input_loads_exist join ds0 ds1 st inp refs s ints rl i d ss path Hin) as [paths Hps]; auto.
        { eapply datasets_kept_trans; eassumption. }
        destruct paths as [|q0 ps]; eexists; [eapply po_ref_none|eapply po_ref]; eauto.
    - (* a list of input files *)
      cbn in E. bind_ok E. injection E as <- <-. destruct x as [refs sk]. cbn [fst] in Eo. cbn in Eo. bind_ok Eo. injection Eo as <- <-. rename x into l.
      apply find_references_spec in E0; [|assumption]. destruct E0 as [Hin _].
      split; [constructor; now apply (restrict_nth _ _ _ 0%nat E)|].
      assert (forall k s ints, nth_error kept k = Some s -> nth_error l k = Some ints -> nth_error refs (Z.to_nat s) = Some ints) as Hints.
      { intros k s ints Hk Hn. destruct (restrict_nth _ _ _ k E Hpos) as [_ Hr]. destruct (Hr _ Hn) as (s' & Hs' & Hi). congruence. }
      split.
      + intros k s w Hk H. assert (In s kept) as HIn by (eapply nth_error_In; eassumption). destruct (Hkept s HIn) as [Hs Hns].
        apply po_reflist_inv in H. destruct H as (ints & refs0 & paths & _ & H3 & H4 & H5 & ->). pose proof (Hints _ _ _ Hk H3) as Hi. constructor.
        assert (datasets_kept ds0 ds1) as K01 by (eapply datasets_kept_trans; eassumption).
        eapply (input_loads join ds0 ds1); try eassumption. intros (G & i & d & ss & pats & G1 & G2 & G3). apply Hns. exists inp, i, d, ss, pats. split; [constructor|]. auto.
      + intros [Hre _] k s Hk. assert (In s kept) as HIn by (eapply nth_error_In; eassumption). destruct (Hkept s HIn) as [Hs _].
        destruct (restrict_nth _ _ _ k E Hpos) as [L _]. destruct (nth_error l k) as [ints|] eqn:En.
        2:{ apply nth_error_None in En. assert (k < length kept)%nat by (apply nth_error_Some; congruence). unfold zlen in L. lia. }
        pose proof (Hints _ _ _ Hk En) as Hi. destruct (Hre inp ltac:(constructor)) as (i & d & ss & path & G1 & G2 & G3).
        assert (exists rl, trios ints rl) as [rl Hrl].
        { destruct Hin as (i' & d' & ss' & pats & _ & _ & _ & Hall). destruct (Hall s Hs) as (es & _ & Hr & _). rewrite Hr in Hi. injection Hi as <-.
          unfold step_refs. generalize (match es with [] => if policy_eqb (in_missing inp) Allowed then [-1] else [] | _ => map Z.of_nat es end).
          clear. induction l as [|e l [rl IH]]; [exists []; constructor|]. eexists. cbn. constructor. exact IH. }
        destruct (input_loads_exist join ds0 ds1 st inp refs s ints rl i d ss path Hin) as [paths Hps]; auto.
        { eapply datasets_kept_trans; eassumption. }
        eexists. eapply po_reflist; eauto.
    - (* an output file *)
      cbn in E. injection E as <- <-. cbn in Eo. bind_ok Eo. destruct x as [refs ds']. cbn [fst snd] in Eo. injection Eo as <- <-.
      pose proof E as Eor. apply output_resolve_after in E. destruct E as (i & d & ss & pats & es & Hsub & Hp & -> & F).
      pose proof (Forall2_len _ _ _ F) as Hlen.
      split; [constructor; unfold zlen; rewrite map_length; lia|].
      destruct (subset_of_kept _ _ _ _ _ _ _ K1 Hsub) as (d1 & ss1 & Hsub1 & (_ & Kp & _) & (Kpat & Km)).
      assert (forall k s, nth_error kept k = Some s -> exists e o f, nth_error es k = Some e /\ st_output_entry st pats s = Ok o /\ 0 <= e /\
                nth_error (ss_matches ss1) (Z.to_nat e) = Some f /\ en_name f = en_name o) as He.
      { intros k s Hk. destruct (Forall2_nth_l _ _ _ _ _ F Hk) as (e & He & o & f & H1 & H2 & H3 & H4). exists e, o, f.
        repeat (split; [assumption|]). destruct Km as [Km|Km]; [rewrite Km in H3; destruct (Z.to_nat e); discriminate|]. rewrite Km. auto. }
      assert (forall k s, nth_error kept k = Some s -> forall rl, trios (nth k (map (fun e => [Z.of_nat i; out_subset out; e]) es) []) rl ->
                exists o, st_output_entry st pats s = Ok o /\ load_data_pathnames join ds1 rl =
                  match ds_path d1 with Some path => Ok [Some (join path (en_name o))] | None => Err AttributeError end) as Hload.
      { intros k s Hk rl Hrl. destruct (He k s Hk) as (e & o & f & H1 & H2 & H3 & H4 & H5). exists o. split; [assumption|].
        erewrite nth_error_nth in Hrl by (rewrite nth_error_map, H1; reflexivity).
        inversion Hrl as [|? ? ? ? refs1 Hr1]; subst. inversion Hr1; subst. unfold load_data_pathnames. cbn [mapM]. unfold load_one_pathname.
        cbn [ref_dataset ref_subset ref_entry]. destruct Hsub1 as ((En1 & _) & Hk1 & Hn1).
        replace ((Z.of_nat i <? 0) || (out_subset out <? 0)) with false by lia. replace (Z.to_nat (Z.of_nat i)) with i by lia.
        rewrite En1, Hn1. destruct (ss_matches ss1) as [|x l] eqn:Em; [destruct (Z.to_nat e); discriminate|].
        replace (0 <=? e) with true by lia. rewrite H4. destruct (ds_path d1); [cbn; congruence|reflexivity]. }
      split.
      + intros k s w Hk H.
        apply po_ref_inv in H. destruct H as (ints & refs0 & paths & _ & H3 & H4 & H5 & ->). cbn [cf_pathnames] in H5.
        destruct (Hload k s Hk refs0) as (o & Ho & Hld). { erewrite nth_error_nth by eassumption. assumption. }
        rewrite Hld in H5. destruct (ds_path d1) as [path|] eqn:Epath; [|discriminate]. injection H5 as <-.
        eapply rc_output; eauto. congruence.
      + intros [_ Hre] k s Hk. destruct (Hre out ltac:(constructor)) as (i0 & d0' & ss0 & path & G1 & G2).
        assert (datasets_kept ds0 ds1) as K01. { eapply datasets_kept_trans; [eassumption|]. eapply datasets_kept_trans; [eapply output_resolve_kept; eassumption|assumption]. }
        destruct (subset_of_kept _ _ _ _ _ _ _ K01 G1) as (d2 & ss2 & Hsub2 & (_ & Kp2 & _) & _).
        destruct (subset_of_fun _ _ _ _ _ _ _ _ _ Hsub2 Hsub1) as (-> & -> & ->).
        destruct (He k s Hk) as (e & o & f & H1 & H2 & H3 & H4 & H5).
        destruct (Hload k s Hk [{| ref_dataset := Z.of_nat i; ref_subset := out_subset out; ref_entry := e |}]) as (o' & Ho' & Hld).
        { erewrite nth_error_nth by (rewrite nth_error_map, H1; reflexivity). repeat constructor. }
        rewrite Kp2, G2 in Hld. eexists. eapply po_ref.
        * unfold zlen. rewrite map_length. lia.
        * rewrite nth_error_map, H1. reflexivity.
        * repeat constructor.
        * cbn. exact Hld.
    - rewrite resolve_inputs_node in E. bind_ok E. injection E as <- <-. destruct x as [ms sk]. cbn [fst] in Eo.
      rewrite resolve_outputs_node in Eo. bind_ok Eo. destruct x as [qs dsB']. cbn [fst snd] in Eo. injection Eo as <- <-.
      assert (forall c, In c children -> forall s, In s kept -> 0 <= s < st_count st /\ ~ should_skip ds0 st (snd c) s) as Hkept'.
      { intros [kc c] Hc s Hs. destruct (Hkept s Hs) as [H1 H2]. split; [assumption|]. intros (inp & i & d & ss & pats & G1 & G).
        apply H2. exists inp, i, d, ss, pats. split; [econstructor; eassumption|assumption]. }
      assert (files_reachable ds0 (BNode children) -> forall c, In c children -> files_reachable ds0 (snd c)) as Hre.
      { intros [R1 R2] [kc c] Hc. split; [intros inp Hi; apply R1|intros out Ho; apply R2]; econstructor; eassumption. }
      assert (Forall (fun c => lists_have_length (zlen kept) (snd c)) qs /\
        (forall k s vs, nth_error kept k = Some s ->
           Forall2 (fun c v => fst c = fst v /\ parameters_of (file ds1) (zlen kept) k ts (snd c) (snd v)) qs vs ->
           Forall2 (fun c v => fst c = fst v /\ receives join ds0 ds1 id ts st s (snd c) (snd v)) children vs) /\
        ((forall c, In c children -> files_reachable ds0 (snd c)) -> forall k s, nth_error kept k = Some s ->
           exists vs, Forall2 (fun c v => fst c = fst v /\ parameters_of (file ds1) (zlen kept) k ts (snd c) (snd v)) qs vs)) as (H1 & H2 & H3).
      { clear Hre Hkept. revert skip ms sk dsA qs Hl E0 K0 E. induction IH as [|[kc c] rest Hh _ IHr]; intros skip ms sk dsA qs Hl E0 K0 E.
        - cbn in E0. injection E0 as <- <-. cbn in E. injection E as <- <-. split; [constructor|]. split.
          + intros k s vs _ F; inversion F; constructor.
          + intros _ k s _. exists []. constructor.
        - rewrite inputs_children_cons in E0. bind_ok E0. destruct x as [m1 s1]. cbn [fst snd] in E0. bind_ok E0. destruct x as [m2 s2].
          cbn [fst snd] in E0. injection E0 as <- <-. rewrite outputs_children_cons in E. bind_ok E. destruct x as [q1 d1]. cbn [fst snd] in E.
          bind_ok E. destruct x as [q2 d2]. cbn [fst snd] in E. injection E as <- <-.
          pose proof (resolve_outputs_kept _ _ _ _ _ _ E0) as Kstep.
          assert (datasets_kept d1 d2) as Krest.
          { eapply (resolve_outputs_kept st kept (MNode m2)). rewrite resolve_outputs_node, E3. reflexivity. }
          destruct (resolve_inputs_skip _ _ _ _ _ _ Hl E1) as [L1 _].
          destruct (Hh _ _ _ kept _ _ _ ds1 Hl E1 (Hkept' _ (or_introl eq_refl)) K0 E0 ltac:(eapply datasets_kept_trans; eassumption)) as (A1 & A2 & A3).
          assert (length s1 = Z.to_nat (st_count st)) as L1' by congruence.
          destruct (IHr (fun c' Hc' => Hkept' c' (or_intror Hc')) _ _ _ _ _ L1' E2 ltac:(eapply datasets_kept_trans; eassumption) E3) as (B1 & B2 & B3).
          split; [constructor; assumption|]. split.
          + intros k s vs Hk F. inversion F as [|? [n v] ? vs' [F1 F2] F3]; subst. cbn in F1, F2. subst n. constructor; [|eauto].
            split; [reflexivity|]. cbn. eauto.
          + intros Hr k s Hk. destruct (A3 (Hr _ (or_introl eq_refl)) k s Hk) as [v Hv].
            destruct (B3 (fun c' Hc' => Hr c' (or_intror Hc')) k s Hk) as [vs Hvs]. exists ((kc, v) :: vs). constructor; [|assumption]. split; [reflexivity|assumption]. }
      split; [now constructor|]. split.
      + intros k s w Hk H. inversion H; subst. constructor. eapply H2; eassumption.
      + intros R k s Hk. destruct (H3 (Hre R) k s Hk) as [vs Hvs]. exists (VNode vs). now constructor.
  Qed.
End Sound.


(* ------------------------------------------------------------ what resolving outputs changes *)

Lemma update_nth_Forall2 {A} (R : A -> A -> Prop) n (f : A -> A) l :
  (forall x, R x x) -> (forall x, nth_error l n = Some x -> R x (f x)) -> Forall2 R l (update_nth n f l).
Proof.
  intros Hr. revert n; induction l as [|a l IH]; intros [|n] H; cbn; constructor; auto.
  - now apply Forall2_refl.
Qed.

Lemma output_resolve_shape ds st out idx refs ds' : operation_output_resolve ds st out idx = Ok (refs, ds') -> Forall2 dataset_kept ds ds'.
Proof.
  intros E. apply output_resolve_spec in E. destruct E as (i & d & ss & pats & m & es & (R & Hk & Hn) & Hm & _ & -> & _).
  apply update_nth_Forall2; [apply dataset_kept_refl|]. intros d' E. pose proof R as (E' & _). assert (d' = d) by congruence. subst d'.
  repeat split. cbn. apply update_subset_kept. intros s Hs. congruence.
Qed.

(* Resolution of outputs as a sequence of output placeholders. *)
Inductive output_steps (st : step) (idx : list Z) : list output_file -> list dataset -> list dataset -> Prop :=
| os_nil ds : output_steps st idx [] ds ds
| os_cons out outs ds refs ds1 ds2 : operation_output_resolve ds st out idx = Ok (refs, ds1) -> output_steps st idx outs ds1 ds2 ->
    output_steps st idx (out :: outs) ds ds2.

Lemma output_steps_app st idx a b ds ds1 ds2 : output_steps st idx a ds ds1 -> output_steps st idx b ds1 ds2 -> output_steps st idx (a ++ b) ds ds2.
Proof. induction 1; intros; cbn; [assumption|]. econstructor; eauto. Qed.

Lemma resolve_steps ds0 st p : forall skip m skip' kept dsA q dsB,
  resolve_inputs ds0 st p skip = Ok (m, skip') -> resolve_outputs st kept m dsA = Ok (q, dsB) ->
  exists outs, output_steps st kept outs dsA dsB /\ forall out, In out outs <-> has_output out p.
Proof.
  induction p as [v| | |items| | |inp|inp|out|children IH] using bparam_ind'; intros skip m skip' kept dsA q dsB E Eo.
  1-3: cbn in E; injection E as <- <-; cbn in Eo; injection Eo as <- <-; exists []; split; [constructor|];
    intros out; split; [intros []|intros C; inversion C].
  - cbn in E; injection E as <- <-; cbn in Eo; bind_ok Eo; injection Eo as <- <-; exists []; split; [constructor|];
      intros out; split; [intros []|intros C; inversion C].
  - cbn in E; bind_ok E; injection E as <- <-; cbn in Eo; bind_ok Eo; injection Eo as <- <-; exists []; split; [constructor|];
      intros out; split; [intros []|intros C; inversion C].
  - cbn in E; injection E as <- <-; cbn in Eo; bind_ok Eo; injection Eo as <- <-; exists []; split; [constructor|];
      intros out; split; [intros []|intros C; inversion C].
  - cbn in E; bind_ok E; injection E as <- <-; cbn in Eo; bind_ok Eo; injection Eo as <- <-; exists []; split; [constructor|];
      intros out; split; [intros []|intros C; inversion C].
  - cbn in E; bind_ok E; injection E as <- <-; cbn in Eo; bind_ok Eo; injection Eo as <- <-; exists []; split; [constructor|];
      intros out; split; [intros []|intros C; inversion C].
  - cbn in E; injection E as <- <-; cbn in Eo; bind_ok Eo; injection Eo as <- <-. destruct x as [refs ds1]. exists [out]. split.
    + econstructor; [eassumption|constructor].
    + intros o. cbn. split; [intros [<-|[]]; constructor|intros C; inversion C; auto].
  - rewrite resolve_inputs_node in E. bind_ok E. injection E as <- <-. destruct x as [ms sk]. cbn [fst] in Eo.
    rewrite resolve_outputs_node in Eo. bind_ok Eo. destruct x as [qs dsB']. cbn [fst snd] in Eo. injection Eo as <- <-.
    assert (exists outs, output_steps st kept outs dsA dsB' /\ forall out, In out outs <-> exists k c, In (k, c) children /\ has_output out c) as (outs & H1 & H2).
    { revert skip ms sk dsA qs E0 E. induction IH as [|[kc c] rest Hh _ IHr]; intros skip ms sk dsA qs E0 E.
      - cbn in E0. injection E0 as <- <-. cbn in E. injection E as <- <-. exists []. split; [constructor|]. intros out. split; [intros []|intros (? & ? & [] & _)].
      - rewrite inputs_children_cons in E0. bind_ok E0. destruct x as [m1 s1]. cbn [fst snd] in E0. bind_ok E0. destruct x as [m2 s2].
        cbn [fst snd] in E0. injection E0 as <- <-. rewrite outputs_children_cons in E. bind_ok E. destruct x as [q1 d1]. cbn [fst snd] in E.
        bind_ok E. destruct x as [q2 d2]. cbn [fst snd] in E. injection E as <- <-.
        destruct (Hh _ _ _ _ _ _ _ E1 E0) as (o1 & A1 & A2). destruct (IHr _ _ _ _ _ E2 E3) as (o2 & B1 & B2).
        exists (o1 ++ o2). split; [eapply output_steps_app; eassumption|]. intros out. rewrite in_app_iff, A2, B2. split.
        + intros [H|(k & c' & H1 & H2)]; [exists kc, c; split; [now left|assumption]|]. exists k, c'. split; [now right|assumption].
        + intros (k & c' & [H1|H1] & H2); [injection H1 as <- <-; now left|]. right. eauto. }
    exists outs. split; [assumption|]. intros out. rewrite H2. split.
    + intros (k & c & G1 & G2). econstructor; eassumption.
    + intros C. inversion C; subst. eauto.
Qed.

Lemma output_steps_shape st idx outs ds ds' : output_steps st idx outs ds ds' -> Forall2 dataset_kept ds ds'.
Proof.
  induction 1; [apply Forall2_refl, dataset_kept_refl|]. eapply Forall2_trans; [apply dataset_kept_trans| |eassumption].
  eapply output_resolve_shape; eassumption.
Qed.

Lemma shape_kept ds ds' : Forall2 dataset_kept ds ds' -> datasets_kept ds ds'.
Proof. intros F. exists ds', []. split; [now rewrite app_nil_r|assumption]. Qed.

Lemma subset_of_back ds ds' name k i d' ss' : Forall2 dataset_kept ds ds' -> subset_of ds' name k i d' ss' ->
  exists d ss, subset_of ds name k i d ss /\ dataset_kept d d' /\ subset_kept ss ss'.
Proof.
  intros F (R & Hk & E). pose proof R as (En & Nm & Hb). destruct (Forall2_nth_r _ _ _ _ _ F En) as (d & Ed & Kd).
  pose proof Kd as (Kn & _ & Fs). destruct (Forall2_nth_r _ _ _ _ _ Fs E) as (ss & Es & Ks). exists d, ss.
  split; [|split; assumption]. split; [|split; assumption]. split; [assumption|]. split; [congruence|].
  intros j e Hj Ej. destruct (Forall2_nth_l _ _ _ _ _ F Ej) as (e' & Ee' & (Kn' & _)). rewrite <- Kn'. eauto.
Qed.

(* With no operation at all nothing changes. *)
Lemma set_matches_nil s : ss_matches s = [] -> set_matches s [] = s.
Proof. destruct s; cbn. now intros ->. Qed.

Lemma update_nth_id {A} n (f : A -> A) l : (forall x, nth_error l n = Some x -> f x = x) -> update_nth n f l = l.
Proof.
  revert n; induction l as [|a l IH]; intros [|n] H; cbn; [reflexivity|reflexivity| |].
  - f_equal. now apply H.
  - f_equal. apply IH. intros x Hx. now apply H.
Qed.

Lemma output_steps_no_operation st outs ds ds' : output_steps st [] outs ds ds' -> ds' = ds.
Proof.
  induction 1 as [|out outs ds refs ds1 ds2 E S IH]; [reflexivity|]. rewrite IH. clear IH.
  apply output_resolve_spec in E. destruct E as (i & d & ss & pats & m & es & (R & Hk & Hn) & Hm & _ & -> & _ & _ & F & Hnew).
  assert (m = []) as ->. { destruct m as [|f m]; [reflexivity|]. destruct (Hnew 0%nat f eq_refl) as (_ & s & [] & _). }
  apply update_nth_id. intros d' Ed'. pose proof R as (E' & _). assert (d' = d) by congruence. subst d'. destruct d as [n p sb]. cbn in *. unfold set_subsets. cbn. f_equal.
  apply update_nth_id. intros s Hs. apply set_matches_nil. congruence.
Qed.

Lemma output_steps_targets st idx outs ds ds' out : output_steps st idx outs ds ds' -> In out outs ->
  exists i d ss d' ss' pats,
    subset_of ds (out_dataset out) (out_subset out) i d ss /\ ss_matches ss = [] /\
    subset_of ds' (out_dataset out) (out_subset out) i d' ss' /\ ss_patterns ss' = Some pats /\
    NoDup (map en_name (ss_matches ss')) /\
    (forall f, In f (ss_matches ss') -> exists s, In s idx /\ st_output_entry st pats s = Ok f) /\
    (forall s, In s idx -> exists o f, st_output_entry st pats s = Ok o /\ In f (ss_matches ss') /\ en_name f = en_name o).
Proof.
  induction 1 as [|out0 outs ds refs ds1 ds2 E S IH]; [intros []|]. pose proof (output_resolve_shape _ _ _ _ _ _ E) as F01.
  intros [->|Hin].
  - pose proof (output_steps_shape _ _ _ _ _ S) as F12. pose proof E as Eo.
    apply output_resolve_spec in E. destruct E as (i & d & ss & pats & m & es & Hsub & Hm & Hp & Eds & _ & ND & F & Hnew).
    destruct (subset_of_kept _ _ _ _ _ _ _ (shape_kept _ _ F01) Hsub) as (d1 & ss1 & Hsub1 & K1 & Ks1).
    assert (ss_matches ss1 = m) as Hm1.
    { destruct Hsub as (R & Hk & Hn). destruct Hsub1 as (R' & _ & Hn'). pose proof R as (En & _). pose proof R' as (En' & _).
      rewrite Eds, nth_error_update_nth, En, Nat.eqb_refl in En'. cbn in En'. injection En' as <-. cbn [ds_subsets set_subsets] in Hn'.
      rewrite nth_error_update_nth, Hn, Nat.eqb_refl in Hn'. cbn in Hn'. injection Hn' as <-. reflexivity. }
    destruct (subset_of_kept _ _ _ _ _ _ _ (shape_kept _ _ F12) Hsub1) as (d2 & ss2 & Hsub2 & K2 & Ks2).
    assert (ss_matches ss2 = m) as Hm2.
    { destruct (Nat.eq_dec (length idx) 0) as [Hz|Hz].
      - destruct idx; [|discriminate]. apply output_steps_no_operation in S. subst ds2.
        destruct (subset_of_fun _ _ _ _ _ _ _ _ _ Hsub2 Hsub1) as (_ & _ & ->). assumption.
      - destruct Ks2 as [_ [C|C]]; [|congruence]. rewrite Hm1 in C. subst m. destruct idx as [|s0 idx]; [contradiction|].
        inversion F as [|? ? ? ? (o & f & _ & _ & C1 & _) _]; subst. exfalso. rewrite C in C1. destruct (Z.to_nat y); discriminate. }
    exists i, d, ss, d2, ss2, pats. split; [assumption|]. split; [assumption|]. split; [assumption|].
    split; [destruct Ks1 as [G1 _], Ks2 as [G2 _]; congruence|]. rewrite Hm2. split; [assumption|]. split.
    + intros f Hf. apply In_nth_error in Hf. destruct Hf as [n Hf]. apply (Hnew n f Hf).
    + intros s Hs. apply In_nth_error in Hs. destruct Hs as [n Hs]. destruct (Forall2_nth_l _ _ _ _ _ F Hs) as (e & _ & o & f & G1 & _ & G2 & G3).
      exists o, f. split; [assumption|]. split; [|assumption]. eapply nth_error_In; eassumption.
  - destruct (IH Hin) as (i & d & ss & d' & ss' & pats & H1 & H2 & H3 & H4).
    destruct (subset_of_back _ _ _ _ _ _ _ F01 H1) as (d0 & ss0 & G1 & G2 & G3).
    exists i, d0, ss0, d', ss', pats. split; [assumption|]. split; [destruct G3 as [_ [G3|G3]]; congruence|]. split; assumption.
Qed.

Lemma output_steps_untouched st idx outs ds ds' : output_steps st idx outs ds ds' ->
  forall i k d ss, nth_error ds i = Some d -> nth_error (ds_subsets d) k = Some ss ->
  (exists out, In out outs /\ out_subset out = Z.of_nat k /\ refers_to ds (out_dataset out) i d) \/
  (exists d', nth_error ds' i = Some d' /\ nth_error (ds_subsets d') k = Some ss).
Proof.
  induction 1 as [|out0 outs ds refs ds1 ds2 E S IH]; intros i k d ss Hd Hs; [right; eauto|].
  pose proof (output_resolve_shape _ _ _ _ _ _ E) as F01.
  apply output_resolve_spec in E. destruct E as (i0 & d0 & ss0 & pats & m & es & (R & Hk & Hn) & _ & _ & -> & _).
  destruct (Nat.eq_dec i0 i) as [->|Hi].
  - assert (d0 = d) by (destruct R as (E & _); congruence). subst d0.
    destruct (Nat.eq_dec (Z.to_nat (out_subset out0)) k) as [<-|Hne].
    + left. exists out0. split; [now left|]. split; [lia|assumption].
    + destruct (IH i k (set_subsets d (update_nth (Z.to_nat (out_subset out0)) (fun s => set_matches s m) (ds_subsets d))) ss) as [(out & G1 & G2 & G3)|G].
      * rewrite nth_error_update_nth, Hd, Nat.eqb_refl. reflexivity.
      * cbn. rewrite nth_error_update_nth, Hs. destruct (Nat.eqb_spec (Z.to_nat (out_subset out0)) k); [contradiction|reflexivity].
      * left. exists out. split; [now right|]. split; [assumption|]. destruct G3 as (_ & Nm & Hb). split; [assumption|]. split; [exact Nm|].
        intros j e Hj Ej. destruct (Forall2_nth_l _ _ _ _ _ F01 Ej) as (e' & Ee' & (Kn & _)). rewrite <- Kn. eauto.
      * right. exact G.
  - destruct (IH i k d ss) as [(out & G1 & G2 & G3)|G].
    + rewrite nth_error_update_nth, Hd. destruct (Nat.eqb_spec i0 i); [contradiction|reflexivity].
    + assumption.
    + left. exists out. split; [now right|]. split; [assumption|]. destruct G3 as (_ & Nm & Hb). split; [assumption|]. split; [exact Nm|].
      intros j e Hj Ej. destruct (Forall2_nth_l _ _ _ _ _ F01 Ej) as (e' & Ee' & (Kn & _)). rewrite <- Kn. eauto.
    + right. exact G.
Qed.

(* ------------------------------------------------------------ one operation, all operations, histories *)

Lemma resolve_operation_parts tc ds pathdefault rq ds' op :
  resolve_operation_references tc ds pathdefault rq = Ok (ds', op) ->
  exists new m skip q,
    mapM (with_path pathdefault) (rq_newdatasets rq) = Ok new /\
    resolve_inputs (ds ++ new) (rq_step rq) (rq_runmodule rq) (map (fun _ => false) (zrange 0 (st_count (rq_step rq)))) = Ok (m, skip) /\
    resolve_outputs (rq_step rq) (not_skipped skip) m (ds ++ new) = Ok (q, ds') /\
    op_count op = zlen (not_skipped skip) /\ op_runmodule op = q /\
    op_name op = rq_name rq /\ op_class op = rq_class rq /\ op_function op = rq_function rq.
Proof.
  unfold resolve_operation_references. intros E. bind_ok E. bind_ok E. bind_ok E. bind_ok E. injection E as <- <-.
  destruct x1 as [m skip], x2 as [q ds1]. cbn [fst snd] in *. exists x0, m, skip, q. auto 10.
Qed.

Lemma resolve_operation_kept tc ds pathdefault rq ds' op :
  resolve_operation_references tc ds pathdefault rq = Ok (ds', op) -> datasets_kept ds ds'.
Proof.
  intros E. apply resolve_operation_parts in E. destruct E as (new & m & skip & q & _ & _ & E & _).
  eapply datasets_kept_trans; [apply datasets_kept_app|eapply resolve_outputs_kept; eassumption].
Qed.

Lemma resolve_all_kept tc pathdefault rqs : forall ds ds' ops, resolve_all tc pathdefault ds rqs = Ok (ds', ops) -> datasets_kept ds ds'.
Proof.
  induction rqs as [|rq rqs IH]; intros ds ds' ops E; cbn [resolve_all] in E.
  - injection E as <- <-. apply datasets_kept_refl.
  - bind_ok E. destruct x as [d1 o1]. cbn [fst snd] in E. bind_ok E. destruct x as [d2 o2]. cbn [fst snd] in E. injection E as <- <-.
    eapply datasets_kept_trans; [eapply resolve_operation_kept; eassumption|eapply IH; eassumption].
Qed.

Lemma load_one_kept join old new ref q : datasets_kept old new -> load_one_pathname join old ref = Ok q -> load_one_pathname join new ref = Ok q.
Proof.
  intros K. unfold load_one_pathname. destruct ((ref_dataset ref <? 0) || (ref_subset ref <? 0)); [discriminate|].
  destruct (nth_error old (Z.to_nat (ref_dataset ref))) as [d|] eqn:Ed; [|discriminate].
  destruct (datasets_kept_nth _ _ _ _ K Ed) as (d' & -> & (_ & Kp & F)).
  destruct (nth_error (ds_subsets d) (Z.to_nat (ref_subset ref))) as [ss|] eqn:Es; [|discriminate].
  destruct (Forall2_nth_l _ _ _ _ _ F Es) as (ss' & -> & (_ & Km)).
  destruct (ss_matches ss) as [|x l] eqn:Em; [discriminate|]. destruct Km as [Km|Km]; [discriminate|]. rewrite Km, Kp. auto.
Qed.

Lemma load_kept join old new refs q : datasets_kept old new -> load_data_pathnames join old refs = Ok q -> load_data_pathnames join new refs = Ok q.
Proof.
  intros K. unfold load_data_pathnames. revert q. induction refs as [|r refs IH]; intros q E; cbn [mapM] in *; [assumption|].
  bind_ok E. bind_ok E. injection E as <-. rewrite (load_one_kept _ _ _ _ _ K E0). cbn [bind]. rewrite (IH _ eq_refl). reflexivity.
Qed.

Lemma parameters_kept join c0 c1 n k ts p : datasets_kept (ct_datasets c0) (ct_datasets c1) ->
  forall v, parameters_of (as_file join c0) n k ts p v ->
  exists v', parameters_of (as_file join c1) n k ts p v' /\ same_but_identifier (ct_identifier c1) v v'.
Proof.
  intros K. induction p as [z| | |items|items|items|children IH] using param_ind'; intros v H.
  - inversion H; subst. eexists. split; constructor.
  - inversion H; subst. eexists. split; constructor.
  - inversion H; subst. eexists. split; [constructor|]. cbn. constructor.
  - apply po_list_inv in H. destruct H as (z & -> & H1 & H2). eexists. split; [constructor; eassumption|constructor].
  - apply po_ref_inv in H. destruct H as (ints & refs & paths & H1 & H2 & H3 & H4 & ->). cbn in H4. apply (load_kept _ _ _ _ _ K) in H4.
    destruct paths; eexists; (split; [|constructor]); [eapply po_ref_none|eapply po_ref]; eauto.
  - apply po_reflist_inv in H. destruct H as (ints & refs & paths & H1 & H2 & H3 & H4 & ->). cbn in H4. apply (load_kept _ _ _ _ _ K) in H4.
    eexists. split; [|constructor]. eapply po_reflist; eauto.
  - inversion H as [| | | | | | |? vs F]; subst.
    assert (exists vs', Forall2 (fun c v => fst c = fst v /\ parameters_of (as_file join c1) n k ts (snd c) (snd v)) children vs' /\
              Forall2 (fun a b => fst a = fst b /\ same_but_identifier (ct_identifier c1) (snd a) (snd b)) vs vs') as (vs' & F1 & F2).
    { clear H. induction F as [|[kc c] [kv v] children vs [F1 F2] F IHF].
      - exists []. split; constructor.
      - inversion IH as [|? ? Hh Hr]; subst. destruct (IHF Hr) as (vs' & G1 & G2). cbn in F1, F2, Hh. subst kv.
        destruct (Hh _ F2) as (v' & G3 & G4). exists ((kc, v') :: vs'). split; constructor; auto. }
    exists (VNode vs'). split; now constructor.
Qed.

(* One call of build, and histories of calls. *)
Section History.
  Variable tc : string -> result (list string).
  Variable search : dataset -> dataset.
  Variable savable : catalogue -> bool.

  Lemma build_saved newid fs input path update filter pathdefault fs' :
    build tc search newid savable fs input path update filter pathdefault = (fs', Ok tt) ->
    exists old_datasets old_operations datasets' operations',
      (if update then exists old, fs path = Some (Complete old) /\ old_datasets = ct_datasets old /\ old_operations = ct_operations old
       else old_datasets = [] /\ old_operations = []) /\
      truthy_string filter = false /\
      resolve_all tc pathdefault (old_datasets ++ map search (dc_datasets input)) (dc_operations input) = Ok (datasets', operations') /\
      fs' = fs_write fs path (Complete {| ct_identifier := newid; ct_datasets := datasets'; ct_operations := old_operations ++ operations' |}).
  Proof.
    unfold build. destruct (truthy_string filter).
    { destruct (datasetindex _ _); discriminate. }
    destruct update.
    - unfold fs_load. destruct (fs path) as [[old|]|] eqn:Ef; cbn [bind]; try discriminate.
      destruct (resolve_all _ _ _ _) as [[ds ops]|] eqn:Er; [|discriminate]. destruct (savable _); [|discriminate].
      intros E; injection E as <-. exists (ct_datasets old), (ct_operations old), ds, ops. split; [eauto|]. auto.
    - destruct (resolve_all _ _ _ _) as [[ds ops]|] eqn:Er; [|discriminate]. destruct (savable _); [|discriminate].
      intros E; injection E as <-. exists [], [], ds, ops. auto.
  Qed.

  Lemma build_failed newid fs input path update filter pathdefault fs' e :
    (forall c, savable c = true) ->
    build tc search newid savable fs input path update filter pathdefault = (fs', Err e) -> fs' = fs.
  Proof.
    intros Hs. unfold build. destruct (truthy_string filter); [congruence|].
    destruct (if update then do old <- fs_load fs path; Ok (ct_datasets old ++ map search (dc_datasets input), ct_operations old)
              else Ok (map search (dc_datasets input), [])) as [[ds ops]|]; [|congruence].
    destruct (resolve_all _ _ _ _) as [[ds' ops']|]; [|congruence]. rewrite Hs. discriminate.
  Qed.
End History.
