From Coq Require Import String.
From Verif Require Import Base Work_Model Work_Spec.
Local Open Scope Z_scope.
Local Open Scope list_scope.

(* ------------------------------------------------------------ interleavings and updates *)

Lemma interleaving_permutation {A} (threads : list (list A)) s :
  interleaving threads s -> Permutation s (concat threads).
Proof.
  induction 1 as [threads F | before x t after s I IH].
  - induction F as [|y l E F IH]; cbn; [constructor|]. subst y. exact IH.
  - rewrite concat_app in *. cbn [concat] in *. cbn [app].
    eapply Permutation_trans; [constructor; exact IH|].
    rewrite <- Permutation_middle. reflexivity.
Qed.

Lemma update_nth_length {A} n (f : A -> A) l : length (update_nth n f l) = length l.
Proof. revert n; induction l as [|x xs IH]; intros [|n]; cbn; auto. Qed.

Lemma nth_error_update_nth {A} n (f : A -> A) l m :
  nth_error (update_nth n f l) m =
  if Nat.eqb n m then option_map f (nth_error l m) else nth_error l m.
Proof.
  revert n m; induction l as [|x xs IH]; intros [|n] [|m]; cbn; auto.
  destruct (Nat.eqb n m); reflexivity.
Qed.

Lemma fold_checksum_nth digest s l m :
  NoDup s -> (forall i, In i s -> 0 <= i) ->
  nth_error (run_schedule digest l s) m =
  if in_dec Z.eq_dec (Z.of_nat m) s then option_map (entry_compute_checksum digest) (nth_error l m) else nth_error l m.
Proof.
  unfold run_schedule. revert l; induction s as [|i s IH]; intros l ND Pos; cbn [fold_left].
  - destruct in_dec as [[]|]; reflexivity.
  - inversion ND as [|? ? Hni ND']; subst.
    rewrite IH; [|assumption|intros; apply Pos; now right].
    unfold checksum_step. rewrite nth_error_update_nth.
    assert (0 <= i) by (apply Pos; now left).
    destruct (in_dec Z.eq_dec (Z.of_nat m) s) as [Hin|Hout];
      destruct (in_dec Z.eq_dec (Z.of_nat m) (i :: s)) as [Hin'|Hout'].
    + destruct (Nat.eqb_spec (Z.to_nat i) m) as [E|E]; [|reflexivity].
      exfalso. apply Hni. replace i with (Z.of_nat m) by lia. exact Hin.
    + exfalso; apply Hout'; now right.
    + destruct Hin' as [E|C]; [|contradiction]. subst i.
      now replace (Z.to_nat (Z.of_nat m)) with m by lia; rewrite Nat.eqb_refl.
    + destruct (Nat.eqb_spec (Z.to_nat i) m) as [E|E]; [|reflexivity].
      exfalso; apply Hout'. left. lia.
Qed.

Lemma nth_error_ext {A} (l m : list A) : (forall n, nth_error l n = nth_error m n) -> l = m.
Proof.
  revert m; induction l as [|x xs IH]; intros [|y ys] H; auto.
  - specialize (H 0%nat); discriminate.
  - specialize (H 0%nat); discriminate.
  - f_equal. { specialize (H 0%nat); now injection H. } apply IH. intros n; exact (H (S n)).
Qed.

Lemma run_schedule_all digest l s :
  Permutation s (zrange 0 (zlen l)) -> run_schedule digest l s = map (entry_compute_checksum digest) l.
Proof.
  intros P. apply nth_error_ext. intros m.
  rewrite fold_checksum_nth.
  - rewrite nth_error_map. destruct in_dec as [Hin|Hout]; [reflexivity|].
    destruct (nth_error l m) eqn:E; [|reflexivity]. exfalso. apply Hout.
    apply (Permutation_in (l := zrange 0 (zlen l))); [now symmetry|].
    apply zrange_In. assert (nth_error l m <> None) as H by congruence.
    apply nth_error_Some in H. unfold zlen; lia.
  - eapply Permutation_NoDup; [symmetry; exact P | apply zrange_NoDup].
  - intros i Hi. eapply Permutation_in in Hi; [|exact P]. apply zrange_In in Hi; lia.
Qed.

Lemma map_checksummed digest l : Forall2 (checksummed digest) l (map (entry_compute_checksum digest) l).
Proof.
  induction l as [|e l IH]; cbn [map]; constructor; [|exact IH].
  unfold checksummed, entry_compute_checksum. destruct (digest (fe_name e)) as [[c s]|]; cbn; auto.
Qed.

(* ------------------------------------------------------------ thread ranges *)

Lemma set_last_app {A} (f : A -> A) l x : set_last f (l ++ [x]) = Ok (l ++ [f x]).
Proof.
  induction l as [|y l IH]; [reflexivity|].
  cbn [app set_last]. destruct (l ++ [x]) as [|z r] eqn:E; [destruct l; discriminate|].
  now rewrite IH.
Qed.

Lemma zrange3_mult n s :
  0 < s -> 0 <= n -> zrange3 0 (n * s) s = map (fun k => k * s) (zrange 0 n).
Proof.
  intros Hs Hn. unfold zrange3, zrange. rewrite map_map.
  replace ((n * s - 0 + s - 1) / s) with n.
  - rewrite Z.sub_0_r. apply map_ext; intros; lia.
  - apply Z.div_unique with (r := s - 1); lia.
Qed.

Lemma concat_steps n s :
  0 < s -> 0 <= n ->
  concat (map (fun p => zrange (fst p) (snd p)) (map (fun start => (start, start + s)) (map (fun k => k * s) (zrange 0 n))))
  = zrange 0 (n * s).
Proof.
  intros Hs Hn. pattern n. apply natlike_ind; [reflexivity| |assumption].
  intros k Hk IH. unfold Z.succ. rewrite zrange_snoc by lia.
  rewrite !map_app, concat_app, IH. cbn [map concat fst snd]. rewrite app_nil_r.
  replace (k * s + s) with ((k + 1) * s) by lia. apply zrange_app. nia.
Qed.

(* Closed form of the ranges. *)
Lemma thread_indices_closed total t :
  0 < total -> 0 < t ->
  let step := Z.max 1 (total / t) in
  let n := total / step in
  0 < n /\ n * step <= total /\
  compute_checksum_thread_indices total t =
  Ok (map (fun k => (k * step, k * step + step)) (zrange 0 (n - 1)) ++ [((n - 1) * step, total)]).
Proof.
  intros Ht Hn step n.
  assert (0 < step) as Hs by (unfold step; lia).
  assert (step <= total) as Hle.
  { unfold step. apply Z.max_lub; [lia|]. apply Z.div_le_upper_bound; nia. }
  assert (0 < n) as Hn0 by (unfold n; apply Z.div_str_pos; lia).
  assert (n * step <= total) as Hm.
  { unfold n. rewrite Z.mul_comm. apply Z.mul_div_le. lia. }
  split; [assumption|]. split; [assumption|].
  unfold compute_checksum_thread_indices.
  destruct (total =? 0) eqn:E; [lia|]. destruct (t =? 0) eqn:E2; [lia|].
  assert ((if total / t <? 1 then 1 else total / t) = step) as Est.
  { unfold step. destruct (total / t <? 1) eqn:E3; lia. }
  rewrite Est. fold n. rewrite zrange3_mult by lia.
  replace n with (n - 1 + 1) at 1 by lia. rewrite zrange_snoc by lia.
  rewrite !map_app. cbn [map]. rewrite set_last_app. now rewrite map_map.
Qed.

Lemma thread_ranges_concat total t ranges :
  0 <= total -> 0 < t ->
  compute_checksum_thread_indices total t = Ok ranges ->
  concat (map thread_run_indices ranges) = zrange 0 total.
Proof.
  intros Ht Hn E.
  destruct (Z.eq_dec total 0) as [->|Hne].
  { cbn in E. injection E as <-. reflexivity. }
  destruct (thread_indices_closed total t) as (H1 & H2 & H3); [lia|lia|].
  rewrite H3 in E. injection E as <-.
  set (step := Z.max 1 (total / t)) in *. set (n := total / step) in *.
  rewrite map_app, concat_app. cbn [map concat]. rewrite app_nil_r.
  rewrite <- (map_map (fun k => k * step) (fun k => (k, k + step))).
  unfold thread_run_indices at 1.
  rewrite concat_steps by lia. cbn [thread_run_indices fst snd].
  unfold thread_run_indices; cbn [fst snd]. apply zrange_app. nia.
Qed.

Lemma thread_indices_total total t : 0 <= total -> 0 < t -> exists ranges, compute_checksum_thread_indices total t = Ok ranges.
Proof.
  intros Ht Hn. destruct (Z.eq_dec total 0) as [->|Hne]; [eexists; reflexivity|].
  destruct (thread_indices_closed total t) as (H1 & H2 & H3); [lia|lia|]. eauto.
Qed.

Lemma thread_count total t ranges :
  0 <= total -> 0 < t ->
  compute_checksum_thread_indices total t = Ok ranges ->
  zlen ranges <= total /\ zlen ranges < 2 * t /\ (total < 2 * t -> zlen ranges = total) /\
  Forall (fun r => fst r < snd r) ranges.
Proof.
  intros Ht Hn E.
  destruct (Z.eq_dec total 0) as [->|Hne].
  { cbn in E. injection E as <-. rewrite zlen_nil. repeat split; try lia. constructor. }
  destruct (thread_indices_closed total t) as (H1 & H2 & H3); [lia|lia|].
  rewrite H3 in E. injection E as <-.
  set (step := Z.max 1 (total / t)) in *. set (n := total / step) in *.
  rewrite zlen_app, zlen_map, zlen_zrange by lia.
  change (zlen [((n - 1) * step, total)]) with 1.
  assert (1 <= step) by (unfold step; lia).
  assert (n <= total) by nia.
  assert (n < 2 * t) as Hlt.
  { unfold n. apply Z.div_lt_upper_bound; [lia|].
    pose proof (Z.mod_pos_bound total t ltac:(lia)) as Hb.
    pose proof (Z.div_mod total t ltac:(lia)) as Hd.
    unfold step. destruct (Z.max_spec 1 (total / t)) as [[Ha Hb']|[Ha Hb']]; rewrite Hb'; nia. }
  repeat split; try lia.
  - intros Hle. assert (total / t < 2). { apply Z.div_lt_upper_bound; lia. }
    assert (step = 1) as E1 by (unfold step; lia).
    unfold n. rewrite E1, Z.div_1_r. lia.
  - apply Forall_app; split; [|constructor; [cbn; nia|constructor]].
    apply Forall_forall. intros r Hr. apply in_map_iff in Hr. destruct Hr as (k & <- & _). cbn; lia.
Qed.

(* ------------------------------------------------------------ batches *)

Lemma batch_count_spec n b :
  0 <= n -> 0 < b ->
  n <= batch_count n b * b /\ (batch_count n b - 1) * b < n \/ n = 0 /\ batch_count n b = 0.
Proof.
  intros Hn Hb. unfold batch_count.
  pose proof (Z.div_mod n b ltac:(lia)). pose proof (Z.mod_pos_bound n b Hb).
  destruct (n mod b =? 0) eqn:E; cbn [negb].
  - destruct (Z.eq_dec n 0) as [->|]; [right; split; [reflexivity|]; now rewrite Z.div_0_l by lia|].
    left. nia.
  - left. nia.
Qed.

Lemma batch_count_nonneg n b : 0 <= n -> 0 < b -> 0 <= batch_count n b.
Proof. intros Hn Hb. destruct (batch_count_spec n b Hn Hb); nia. Qed.

Lemma batch_count_1 n : batch_count n 1 = n.
Proof. unfold batch_count. rewrite Z.mod_1_r, Z.div_1_r. reflexivity. Qed.

Lemma map_addressed_block b batch lo hi :
  map (addressed b) (map (fun index => (index, batch)) (zrange lo hi)) = zrange (batch * b + lo) (batch * b + hi).
Proof.
  rewrite map_map. replace (batch * b + lo) with (lo + batch * b) by lia.
  replace (batch * b + hi) with (hi + batch * b) by lia. rewrite zrange_shift.
  apply map_ext. intros; unfold addressed; cbn; lia.
Qed.

Lemma cylc_blocks b m :
  0 < b -> 0 <= m ->
  map (addressed b) (flat_map (fun batch => map (fun index => (index, batch)) (zrange 0 b)) (zrange 0 m))
  = zrange 0 (m * b).
Proof.
  intros Hb Hm. pattern m. apply natlike_ind; [reflexivity| |assumption].
  intros k Hk IH. unfold Z.succ. rewrite zrange_snoc by lia.
  rewrite flat_map_app, map_app, IH. cbn [flat_map]. rewrite app_nil_r.
  rewrite map_addressed_block. rewrite Z.add_0_r. replace (k * b + b) with ((k + 1) * b) by lia.
  apply zrange_app. nia.
Qed.

Lemma cylc_addressed n b :
  0 <= n -> 0 < b -> map (addressed b) (cylc_command_lines n b) = zrange 0 (batch_count n b * b).
Proof. intros; apply cylc_blocks; auto using batch_count_nonneg. Qed.

(* ------------------------------------------------------------ resolution of parameters *)

Definition resolve_children cat n i ts : list (string * param) -> result (list (string * value)) :=
  fix walk l := match l with
                | [] => Ok []
                | (k, c) :: rest =>
                    do v <- resolve_single cat n i ts c;
                    do vs <- walk rest;
                    Ok ((k, v) :: vs)
                end.

Lemma resolve_node cat n i ts children :
  resolve_single cat n i ts (PNode children) =
  do vs <- resolve_children cat n i ts children; Ok (VNode vs).
Proof. reflexivity. Qed.

Lemma resolve_children_cons cat n i ts k c rest :
  resolve_children cat n i ts ((k, c) :: rest) =
  do v <- resolve_single cat n i ts c; do vs <- resolve_children cat n i ts rest; Ok ((k, v) :: vs).
Proof. reflexivity. Qed.

Lemma resolve_children_nil cat n i ts : resolve_children cat n i ts [] = Ok [].
Proof. reflexivity. Qed.

Lemma trios_iff l refs : reference_integers_to_list l = Ok refs <-> trios l refs.
Proof.
  split.
  - revert l refs.
    fix IH 1. intros [|a [|b [|c rest]]] refs; cbn; try discriminate.
    + intros E; injection E as <-; constructor.
    + destruct (reference_integers_to_list rest) as [rs|] eqn:E; cbn; [|discriminate].
      intros E2; injection E2 as <-. constructor. apply IH. exact E.
  - induction 1 as [|d s e l refs _ IH]; cbn; [reflexivity|]. now rewrite IH.
Qed.

Lemma eqb_neg_zlen {A} n (items : list A) : negb (n =? zlen items) = false <-> zlen items = n.
Proof. rewrite negb_false_iff. lia. Qed.

Ltac bind_ok H :=
  match type of H with
  | bind ?r _ = Ok _ => let x := fresh "x" in let E := fresh "E" in
      destruct r as [x|] eqn:E; cbn [bind] in H; [|discriminate H]
  end.

Lemma py_index_ok {A} (l : list A) k v : py_index l (Z.of_nat k) = Ok v <-> nth_error l k = Some v.
Proof.
  rewrite py_index_nonneg by lia. replace (Z.to_nat (Z.of_nat k)) with k by lia.
  destruct (nth_error l k); split; intros E; congruence.
Qed.

Lemma resolve_iff cat n k ts p v :
  resolve_single cat n (Z.of_nat k) ts p = Ok v <-> parameters_of cat n k ts p v.
Proof.
  revert v. induction p as [z| | |items|items|items|children IH] using param_ind'; intros v.
  - split; [intros E; injection E as <-; constructor | inversion 1; reflexivity].
  - split; [intros E; injection E as <-; constructor | inversion 1; reflexivity].
  - split; [intros E; injection E as <-; constructor | inversion 1; reflexivity].
  - cbn [resolve_single]. split.
    + destruct (negb (n =? zlen items)) eqn:E; [discriminate|]. intros H. bind_ok H. injection H as <-.
      constructor; [now apply eqb_neg_zlen|]. now apply py_index_ok.
    + inversion 1; subst. rewrite (proj2 (eqb_neg_zlen (zlen items) items) eq_refl).
      erewrite (proj2 (py_index_ok _ _ _)) by eassumption. reflexivity.
  - cbn [resolve_single]. split.
    + destruct (negb (n =? zlen items)) eqn:E; [discriminate|]. intros H. bind_ok H. bind_ok H. bind_ok H.
      injection H as <-. apply eqb_neg_zlen in E. apply py_index_ok in E0. apply trios_iff in E1.
      destruct x1 as [|q r]; [eapply po_ref_none | eapply po_ref]; eauto.
    + inversion 1; subst;
        rewrite (proj2 (eqb_neg_zlen (zlen items) items) eq_refl);
        erewrite (proj2 (py_index_ok _ _ _)) by eassumption; cbn [bind];
        erewrite (proj2 (trios_iff _ _)) by eassumption; cbn [bind];
        match goal with E : cf_pathnames _ _ = _ |- _ => rewrite E end; reflexivity.
  - cbn [resolve_single]. split.
    + destruct (negb (n =? zlen items)) eqn:E; [discriminate|]. intros H. bind_ok H. bind_ok H. bind_ok H.
      injection H as <-. apply eqb_neg_zlen in E. apply py_index_ok in E0. apply trios_iff in E1.
      eapply po_reflist; eauto.
    + inversion 1; subst;
        rewrite (proj2 (eqb_neg_zlen (zlen items) items) eq_refl);
        erewrite (proj2 (py_index_ok _ _ _)) by eassumption; cbn [bind];
        erewrite (proj2 (trios_iff _ _)) by eassumption; cbn [bind];
        match goal with E : cf_pathnames _ _ = _ |- _ => rewrite E end; reflexivity.
  - rewrite resolve_node.
    assert (forall vs, resolve_children cat n (Z.of_nat k) ts children = Ok vs <->
              Forall2 (fun c v => fst c = fst v /\ parameters_of cat n k ts (snd c) (snd v)) children vs) as Hc.
    { induction IH as [|[name c] rest Hh _ IHr]; intros vs; rewrite ?resolve_children_cons, ?resolve_children_nil.
      - split; [intros E; injection E as <-; constructor | inversion 1; reflexivity].
      - split.
        + intros H. bind_ok H. bind_ok H. injection H as <-. constructor.
          * split; [reflexivity|]. cbn. apply Hh. assumption.
          * apply IHr. reflexivity.
        + inversion 1 as [|? [name' w] ? ws [E1 E2] F]; subst. cbn in E1, E2. subst name'.
          apply Hh in E2. apply IHr in F. cbn in E2. rewrite E2. cbn [bind]. rewrite F. reflexivity. }
    split.
    + intros H. bind_ok H. injection H as <-. constructor. now apply Hc.
    + inversion 1 as [| | | | | | |? vs F]; subst. apply Hc in F. rewrite F. reflexivity.
Qed.

Lemma py_index_out {A} (l : list A) i : i < - zlen l \/ zlen l <= i -> py_index l i = Err IndexError.
Proof.
  intros H. unfold py_index. pose proof (zlen_nonneg l).
  destruct ((0 <=? (if i <? 0 then i + zlen l else i)) && ((if i <? 0 then i + zlen l else i) <? zlen l)) eqn:E;
    [|reflexivity].
  destruct (i <? 0) eqn:E2; lia.
Qed.

(* Out of range: either no per-operation parameter occurs, or the result is one of the two exceptions. *)
Lemma resolve_out cat n i ts p :
  i < - n \/ n <= i ->
  (mentions_operation p /\ (resolve_single cat n i ts p = Err IndexError \/ resolve_single cat n i ts p = Err ValueError))
  \/ (~ mentions_operation p /\ exists v, resolve_single cat n i ts p = Ok v).
Proof.
  intros Hi. induction p as [z| | |items|items|items|children IH] using param_ind'.
  - right. split; [intro C; inversion C | eexists; reflexivity].
  - right. split; [intro C; inversion C | eexists; reflexivity].
  - right. split; [intro C; inversion C | eexists; reflexivity].
  - left. split; [constructor|]. cbn [resolve_single]. destruct (negb (n =? zlen items)) eqn:E; [auto|].
    apply eqb_neg_zlen in E. rewrite py_index_out by lia. auto.
  - left. split; [constructor|]. cbn [resolve_single]. destruct (negb (n =? zlen items)) eqn:E; [auto|].
    apply eqb_neg_zlen in E. rewrite py_index_out by lia. auto.
  - left. split; [constructor|]. cbn [resolve_single]. destruct (negb (n =? zlen items)) eqn:E; [auto|].
    apply eqb_neg_zlen in E. rewrite py_index_out by lia. auto.
  - rewrite resolve_node.
    assert (((exists k c, In (k, c) children /\ mentions_operation c) /\
              (resolve_children cat n i ts children = Err IndexError \/ resolve_children cat n i ts children = Err ValueError))
            \/ ((forall k c, In (k, c) children -> ~ mentions_operation c) /\ exists vs, resolve_children cat n i ts children = Ok vs)) as Hc.
    { induction IH as [|[name c] rest Hh _ IHr]; rewrite ?resolve_children_cons, ?resolve_children_nil.
      - right. split; [intros ? ? []|eauto].
      - cbn in Hh. destruct Hh as [[M [E|E]]|[M [v E]]].
        + left. split; [exists name, c; split; [now left|assumption]|]. rewrite E; auto.
        + left. split; [exists name, c; split; [now left|assumption]|]. rewrite E; auto.
        + rewrite E. cbn [bind]. destruct IHr as [[(k0 & c0 & I0 & M0) [E0|E0]]|[M0 [vs E0]]].
          * left. split; [exists k0, c0; split; [now right|assumption]|]. rewrite E0; auto.
          * left. split; [exists k0, c0; split; [now right|assumption]|]. rewrite E0; auto.
          * right. split; [intros k1 c1 [E1|I1]; [now injection E1 as <- <-|eauto]|]. rewrite E0. cbn. eauto. }
    destruct Hc as [[(k & c & I & M) [E|E]]|[M [vs E]]].
    + left. split; [econstructor; eassumption|]. rewrite E; auto.
    + left. split; [econstructor; eassumption|]. rewrite E; auto.
    + right. split; [intro C; inversion C; subst; eapply M; eassumption|]. rewrite E. cbn. eauto.
Qed.

(* ------------------------------------------------------------ finding an operation *)

Lemma opt_string_eqb_iff o s : opt_string_eqb o s = true <-> o = Some s.
Proof.
  destruct o as [t|]; cbn; [|split; discriminate].
  rewrite String.eqb_eq. split; [intros ->; reflexivity | intros E; now injection E].
Qed.

Lemma opt_string_eqb_false o s : o <> Some s -> opt_string_eqb o s = false.
Proof. intros H. destruct (opt_string_eqb o s) eqn:E; [|reflexivity]. apply opt_string_eqb_iff in E. contradiction. Qed.

Lemma flat_map_none name ops :
  Forall (fun g => op_name g <> Some name /\ op_class g <> Some name /\ op_function g <> Some name) ops ->
  flat_map (fun g =>
      (if opt_string_eqb (op_name g) name then [g] else []) ++
      (if opt_string_eqb (op_class g) name then [g] else []) ++
      (if opt_string_eqb (op_function g) name then [g] else [])) ops = [].
Proof.
  induction 1 as [|g ops (H1 & H2 & H3) F IH]; [reflexivity|].
  cbn [flat_map]. rewrite IH. rewrite !opt_string_eqb_false by assumption. reflexivity.
Qed.

Lemma stored_load cat name op : stored_under cat name op -> load_operation cat name = Ok op.
Proof.
  intros (before & after & E & Hop & F). unfold load_operation, findoperation. rewrite E.
  apply Forall_app in F. destruct F as [F1 F2].
  rewrite flat_map_app. cbn [flat_map]. rewrite !flat_map_none by assumption. rewrite app_nil_r. cbn [app].
  destruct Hop as [(H1 & H2 & H3)|[(H1 & H2 & H3)|(H1 & H2 & H3)]];
    rewrite ?(opt_string_eqb_false _ _ H1), ?(opt_string_eqb_false _ _ H2), ?(opt_string_eqb_false _ _ H3);
    rewrite ?(proj2 (opt_string_eqb_iff _ _) H1), ?(proj2 (opt_string_eqb_iff _ _) H2), ?(proj2 (opt_string_eqb_iff _ _) H3);
    reflexivity.
Qed.

Lemma stored_count cat name op b : stored_under cat name op -> b <> 0 -> operationcount cat name b = Ok (batch_count (op_count op) b).
Proof.
  intros S Hb. apply stored_load in S. unfold load_operation in S. unfold operationcount.
  destruct (findoperation _ _) as [[g|]|]; cbn in *; try discriminate. injection S as ->.
  destruct (b =? 0) eqn:E; [lia|reflexivity].
Qed.

(* ------------------------------------------------------------ commandrun *)

Lemma string_list_eqb_iff a b : string_list_eqb a b = true <-> a = b.
Proof. unfold string_list_eqb. destruct (list_eq_dec string_dec a b); split; congruence. Qed.

Section Run.
  Variable tc : string -> result (list string).
  Variable uf : value -> result Z.
  Notation runnable := (Work_Spec.runnable tc).
  Notation trace_of := (Work_Spec.trace_of tc uf).

  Lemma commandrun_at_list cat ts name i allow : ran (commandrun_at tc uf cat ts name i true allow) = [].
  Proof.
    unfold commandrun_at. destruct load_operation as [op|]; [|reflexivity].
    destruct current_runtime_toolchain; [|reflexivity].
    destruct resolve_single; reflexivity.
  Qed.

  Lemma commandrun_list cat ts name i ub b allow : ran (commandrun tc uf cat ts name i ub b true allow) = [].
  Proof.
    unfold commandrun. destruct (truthy ub).
    - destruct b; [apply commandrun_at_list|reflexivity].
    - destruct (truthy b); [reflexivity|apply commandrun_at_list].
  Qed.

  Lemma commandrun_at_gate cat ts name i l :
    ran (commandrun_at tc uf cat ts name i l false) <> [] ->
    exists op, load_operation cat name = Ok op /\ current_runtime_toolchain tc op = Ok (op_toolchain op).
  Proof.
    unfold commandrun_at. destruct load_operation as [op|] eqn:E; [|cbn; congruence].
    destruct current_runtime_toolchain as [rt|] eqn:E2; [|cbn; congruence].
    destruct resolve_single as [v|]; [|cbn; congruence].
    destruct l; [cbn; congruence|]. cbn [negb]. rewrite andb_true_r.
    destruct (string_list_eqb rt (op_toolchain op)) eqn:E3; cbn [negb]; [|cbn; congruence].
    intros _. exists op. split; [reflexivity|]. apply string_list_eqb_iff in E3. subst. assumption.
  Qed.

  Lemma commandrun_gate cat ts name i ub b l :
    ran (commandrun tc uf cat ts name i ub b l false) <> [] ->
    exists op, load_operation cat name = Ok op /\ current_runtime_toolchain tc op = Ok (op_toolchain op).
  Proof.
    unfold commandrun. destruct (truthy ub).
    - destruct b; [apply commandrun_at_gate|cbn; congruence].
    - destruct (truthy b); [cbn; congruence|apply commandrun_at_gate].
  Qed.

  (* A successful run of one operation. *)
  Lemma commandrun_at_ok cat ts name op k v allow :
    load_operation cat name = Ok op -> op_class op = None ->
    current_runtime_toolchain tc op = Ok (op_toolchain op) \/ (allow = true /\ is_ok (current_runtime_toolchain tc op) = true) ->
    parameters_of cat (op_count op) k ts (op_runmodule op) v ->
    commandrun_at tc uf cat ts name (Z.of_nat k) false allow =
    {| ran := [v]; ret := do r <- uf v; Ok (Some r) |}.
  Proof.
    intros E Hc Ht Hp. unfold commandrun_at. rewrite E.
    apply resolve_iff in Hp. rewrite Hp. unfold operation_run. rewrite Hc.
    destruct Ht as [Ht|[-> Ht]].
    - rewrite Ht. replace (string_list_eqb _ _) with true by (symmetry; now apply string_list_eqb_iff).
      reflexivity.
    - destruct (current_runtime_toolchain tc op); [|discriminate]. cbn [negb]. now rewrite andb_false_r.
  Qed.

  Lemma commandrun_at_out cat ts name op i l allow :
    load_operation cat name = Ok op -> is_ok (current_runtime_toolchain tc op) = true ->
    mentions_operation (op_runmodule op) ->
    i < - op_count op \/ op_count op <= i ->
    commandrun_at tc uf cat ts name i l allow = fails ValueError.
  Proof.
    intros E Ht M Hi. unfold commandrun_at. rewrite E.
    destruct (current_runtime_toolchain tc op); [|discriminate].
    destruct (resolve_out cat (op_count op) i ts (op_runmodule op) Hi) as [[_ [R|R]]|[C _]]; [| |contradiction];
      now rewrite R.
  Qed.

  Lemma commandrun_batch cat ts name i b k l allow :
    b <> 0 -> commandrun tc uf cat ts name i (Some b) (Some k) l allow = commandrun_at tc uf cat ts name (k * b + i) l allow.
  Proof. intros Hb. unfold commandrun, truthy. destruct (b =? 0) eqn:E; [lia|]. reflexivity. Qed.

  Lemma runnable_tc cat ts name op allow values : runnable cat ts name op allow values -> is_ok (current_runtime_toolchain tc op) = true.
  Proof. intros (_ & _ & [H|[_ H]] & _); [rewrite H; reflexivity|exact H]. Qed.

  Lemma runnable_one cat ts name op allow values k v :
    runnable cat ts name op allow values -> nth_error values k = Some v ->
    commandrun_at tc uf cat ts name (Z.of_nat k) false allow = {| ran := [v]; ret := do r <- uf v; Ok (Some r) |}.
  Proof.
    intros (S & C & T & L & Hv) E. apply commandrun_at_ok with (op := op); auto. now apply stored_load.
  Qed.

  (* Running the operation indices of [zrange a b] in order. *)
  Lemma run_range cat ts name op allow values :
    runnable cat ts name op allow values ->
    forall a b, 0 <= a <= b -> b <= zlen values ->
    flat_map (fun i => ran (commandrun_at tc uf cat ts name i false allow)) (zrange a b) =
    firstn (Z.to_nat (b - a)) (skipn (Z.to_nat a) values).
  Proof.
    intros R a b Ha Hb. unfold zlen in Hb.
    remember (Z.to_nat (b - a)) as n eqn:En.
    assert (b = a + Z.of_nat n) as -> by lia. clear En. revert a Ha Hb.
    induction n as [|n IH]; intros a Ha Hb.
    { rewrite zrange_empty by lia. reflexivity. }
    rewrite zrange_cons by lia. cbn [flat_map].
    destruct (nth_error values (Z.to_nat a)) as [v|] eqn:E.
    - replace a with (Z.of_nat (Z.to_nat a)) at 1 by lia.
      rewrite (runnable_one _ _ _ _ _ _ _ _ R E). cbn [ran].
      replace (a + Z.of_nat (S n)) with (a + 1 + Z.of_nat n) by lia.
      rewrite IH by lia. clear IH.
      replace (Z.to_nat (a + 1)) with (S (Z.to_nat a)) by lia.
      assert (skipn (Z.to_nat a) values = v :: skipn (S (Z.to_nat a)) values) as ->; [|reflexivity].
      { revert E. generalize (Z.to_nat a) as m. clear. intros m. revert values.
        induction m as [|m IH]; intros [|x xs]; cbn; try discriminate.
        - intros E; now injection E as ->.
        - intros E. rewrite (IH _ E). reflexivity. }
    - apply nth_error_None in E. lia.
  Qed.

  Lemma run_all cat ts name op allow values :
    runnable cat ts name op allow values ->
    flat_map (fun i => ran (commandrun_at tc uf cat ts name i false allow)) (zrange 0 (op_count op)) = values.
  Proof.
    intros R. pose proof R as (_ & _ & _ & L & _). rewrite (run_range _ _ _ _ _ _ R).
    - change (Z.to_nat 0) with 0%nat. cbn [skipn]. rewrite firstn_all2; [reflexivity|]. unfold zlen in L. lia.
    - pose proof (zlen_nonneg values). lia.
    - lia.
  Qed.

  Lemma run_beyond cat ts name op allow values :
    runnable cat ts name op allow values -> mentions_operation (op_runmodule op) ->
    forall a b, op_count op <= a ->
    flat_map (fun i => ran (commandrun_at tc uf cat ts name i false allow)) (zrange a b) = [].
  Proof.
    intros R M a b Ha. pose proof (runnable_tc _ _ _ _ _ _ R) as T. destruct R as (S & _).
    apply stored_load in S.
    assert (forall l, (forall i, In i l -> op_count op <= i) ->
              flat_map (fun i => ran (commandrun_at tc uf cat ts name i false allow)) l = []) as H.
    { induction l as [|i l IH]; intros Hl; [reflexivity|]. cbn [flat_map].
      rewrite (commandrun_at_out _ _ _ _ _ _ _ S T M) by (right; apply Hl; now left).
      cbn [ran fails app]. apply IH. intros; apply Hl; now right. }
    apply H. intros i Hi. apply zrange_In in Hi. lia.
  Qed.

  Lemma trace_of_addressed cat ts name b allow lines :
    b <> 0 -> trace_of cat ts name b allow lines =
    flat_map (fun i => ran (commandrun_at tc uf cat ts name i false allow)) (map (addressed b) lines).
  Proof.
    intros Hb. unfold trace_of. induction lines as [|[i k] lines IH]; [reflexivity|].
    cbn [flat_map map]. rewrite IH, commandrun_batch by assumption. reflexivity.
  Qed.

  Lemma cylc_trace cat ts name op b allow values :
    0 < b -> runnable cat ts name op allow values -> mentions_operation (op_runmodule op) ->
    trace_of cat ts name b allow (cylc_command_lines (op_count op) b) = values.
  Proof.
    intros Hb R M. rewrite trace_of_addressed by lia.
    assert (0 <= op_count op) by (destruct R as (_ & _ & _ & <- & _); apply zlen_nonneg).
    rewrite cylc_addressed by lia.
    destruct (batch_count_spec (op_count op) b) as [[H1 H2]|[H1 H2]]; [lia|lia| |].
    - rewrite <- (zrange_app 0 (op_count op)) by lia. rewrite flat_map_app, (run_all _ _ _ _ _ _ R).
      rewrite (run_beyond _ _ _ _ _ _ R M) by lia. apply app_nil_r.
    - rewrite H2. cbn. destruct R as (_ & _ & _ & L & _). rewrite H1 in L. destruct values; [reflexivity|].
      rewrite zlen_cons in L. pose proof (zlen_nonneg values). lia.
  Qed.

  (* ---------------------------------------------------------- multiple commands *)

  Lemma run_inner_app run l m :
    run_inner run (l ++ m) =
    let o := run_inner run l in
    match ret o with
    | Err e => {| ran := ran o; ret := Err e |}
    | Ok rs => {| ran := ran o ++ ran (run_inner run m); ret := do rs' <- ret (run_inner run m); Ok (rs ++ rs') |}
    end.
  Proof.
    induction l as [|i l IH]; cbn [app run_inner].
    - cbn. destruct (run_inner run m) as [rn [r|e]]; reflexivity.
    - destruct (ret (run i)) as [r|e]; [|reflexivity].
      rewrite IH. cbv zeta. cbn [ran ret]. destruct (ret (run_inner run l)) as [rs|e]; cbn [bind ran ret].
      + rewrite app_assoc. f_equal. destruct (ret (run_inner run m)); reflexivity.
      + reflexivity.
  Qed.

  Lemma run_inner_values cat ts name op allow values b batch :
    runnable cat ts name op allow values -> 0 < b -> 0 <= batch ->
    forall m rs, 0 <= m -> m <= b -> batch * b + m <= op_count op ->
    Forall2 (fun v r => uf v = Ok r) (zslice values (batch * b) (batch * b + m)) rs ->
    run_inner (fun i => commandrun tc uf cat ts name i (Some b) (Some batch) false allow) (zrange 0 m) =
    {| ran := zslice values (batch * b) (batch * b + m); ret := Ok (map Some rs) |}.
  Proof.
    intros R Hb Hk m rs Hm Hmb Hn F.
    pose proof R as (_ & _ & _ & L & _).
    unfold zslice in *. replace (batch * b + m - batch * b) with m in * by lia.
    assert (0 <= batch * b) as Hbb by nia. remember (batch * b) as base eqn:Ebase.
    assert (forall i, commandrun tc uf cat ts name i (Some b) (Some batch) false allow = commandrun_at tc uf cat ts name (base + i) false allow) as Hc.
    { intros i. rewrite commandrun_batch by lia. now subst base. }
    clear Ebase Hmb.
    remember (Z.to_nat m) as n eqn:En. assert (m = Z.of_nat n) as -> by lia. clear En Hm.
    assert (forall c, zrange 0 (Z.of_nat n) = map (fun x => x - c) (zrange c (c + Z.of_nat n))) as Hshift.
    { intros c. replace (zrange c (c + Z.of_nat n)) with (zrange (0 + c) (Z.of_nat n + c)) by (f_equal; lia).
      rewrite zrange_shift, map_map. rewrite <- (map_id (zrange 0 (Z.of_nat n))) at 1.
      apply map_ext; intros; lia. }
    clear Hshift.
    assert (forall c, 0 <= c -> base + c + Z.of_nat n <= op_count op ->
      Forall2 (fun v r => uf v = Ok r) (firstn n (skipn (Z.to_nat (base + c)) values)) rs ->
      run_inner (fun i => commandrun tc uf cat ts name i (Some b) (Some batch) false allow) (zrange c (c + Z.of_nat n)) =
      {| ran := firstn n (skipn (Z.to_nat (base + c)) values); ret := Ok (map Some rs) |}) as Hgen.
    { clear F Hn. revert rs. induction n as [|n IH]; intros rs c Hc0 Hn F.
      - rewrite zrange_empty by lia. cbn [firstn] in *. inversion F; subst. reflexivity.
      - rewrite zrange_cons by lia. cbn [run_inner].
        destruct (nth_error values (Z.to_nat (base + c))) as [v|] eqn:E.
        2:{ apply nth_error_None in E. unfold zlen in L. lia. }
        assert (skipn (Z.to_nat (base + c)) values = v :: skipn (Z.to_nat (base + (c + 1))) values) as Hs.
        { replace (Z.to_nat (base + (c + 1))) with (S (Z.to_nat (base + c))) by lia.
          revert E. generalize (Z.to_nat (base + c)) as m. clear. intros m. revert values.
          induction m as [|m IH]; intros [|x xs]; cbn; try discriminate.
          - intros E; now injection E as ->.
          - intros E. rewrite (IH _ E). reflexivity. }
        rewrite Hs in *. cbn [firstn] in *. inversion F as [|? r ? rs' Hr F']; subst.
        rewrite Hc. replace (base + c) with (Z.of_nat (Z.to_nat (base + c))) by lia.
        rewrite (runnable_one _ _ _ _ _ _ _ _ R E). cbn [ret]. rewrite Hr. cbn [bind].
        replace (c + Z.of_nat (S n)) with (c + 1 + Z.of_nat n) by lia.
        rewrite (IH rs' (c + 1)) by (try lia; assumption). reflexivity. }
    replace (zrange 0 (Z.of_nat n)) with (zrange 0 (0 + Z.of_nat n)) by reflexivity.
    rewrite Hgen; rewrite ?Z.add_0_r; auto; lia.
  Qed.

  Lemma run_inner_partial cat ts name op allow values b batch rs :
    runnable cat ts name op allow values -> mentions_operation (op_runmodule op) ->
    0 < b -> 0 <= batch -> batch * b <= op_count op < batch * b + b ->
    Forall2 (fun v r => uf v = Ok r) (zslice values (batch * b) (op_count op)) rs ->
    run_inner (fun i => commandrun tc uf cat ts name i (Some b) (Some batch) false allow) (zrange 0 b) =
    {| ran := zslice values (batch * b) (op_count op); ret := Err ValueError |}.
  Proof.
    intros R M Hb Hk Hn F. remember (op_count op - batch * b) as m eqn:Hm.
    assert (op_count op = batch * b + m) as Em by lia.
    rewrite Em in F |- *.
    rewrite <- (zrange_app 0 m b) by lia. rewrite run_inner_app. cbv zeta.
    rewrite (run_inner_values _ _ _ _ _ _ _ _ R Hb Hk m rs) by (try lia; assumption). cbn [ret ran].
    rewrite (zrange_cons m b) by lia. cbn [run_inner]. rewrite commandrun_batch by lia.
    pose proof (runnable_tc _ _ _ _ _ _ R) as T. pose proof R as (S & _). apply stored_load in S.
    rewrite (commandrun_at_out _ _ _ _ _ _ _ S T M) by lia. cbn [ret ran fails bind]. now rewrite app_nil_r.
  Qed.
End Run.

(* ------------------------------------------------------------ LSF *)

(* The loop, from batch k on, when k * b tasks have been submitted. *)
Lemma submit_loop_closed n b m :
  0 < b -> (m - 1) * b < n <= m * b ->
  forall k, 0 <= k <= m -> (k = m \/ k * b <= n) ->
  submit_loop n m b (k * b) (zrange k m) =
  map (fun j => (j, j * b + 1, Z.min n (j * b + b))) (zrange k m).
Proof.
  intros Hb Hm k Hk _.
  remember (Z.to_nat (m - k)) as d eqn:Ed. revert k Hk Ed.
  induction d as [|d IH]; intros k Hk Ed.
  { rewrite zrange_empty by lia. reflexivity. }
  rewrite zrange_cons by lia. cbn [submit_loop map].
  destruct (k =? m - 1) eqn:E.
  - assert (k = m - 1) as Ek by lia. replace (k + 1) with m by lia. rewrite zrange_empty by lia.
    cbn [submit_loop map].
    replace (k * b + 1 + (n - k * b) - 1) with (Z.min n (k * b + b)) by nia. reflexivity.
  - replace (k * b + b) with ((k + 1) * b) by lia. rewrite IH by lia.
    replace (k * b + 1 + b - 1) with (Z.min n (k * b + b)) by nia.
    replace ((k + 1) * b) with (k * b + b) by lia. reflexivity.
Qed.

Lemma submit_closed n b arrays :
  0 < n -> 0 < b -> submit_eumopps_jobs n b = Ok arrays ->
  arrays = map (fun j => (j, j * b + 1, Z.min n (j * b + b))) (zrange 0 (batch_count n b)).
Proof.
  intros Hn Hb. unfold submit_eumopps_jobs. rewrite batch_count_1.
  destruct (b =? 0) eqn:E; [lia|]. destruct (n =? 0) eqn:E2; [lia|].
  intros H; injection H as <-.
  destruct (batch_count_spec n b) as [[H1 H2]|[H1 H2]]; [lia|lia| |lia].
  change 0 with (0 * b) at 1. apply submit_loop_closed; [lia|lia| |].
  - split; [lia|]. apply batch_count_nonneg; lia.
  - right; lia.
Qed.

Lemma mod_block j b x : 0 < b -> 0 <= x < b -> (j * b + x) mod b = x.
Proof. intros Hb Hx. rewrite Z.add_comm, Z.mod_add by lia. apply Z.mod_small; lia. Qed.

Lemma tile_blocks n b m :
  0 < b -> 0 <= m -> (m - 1) * b <= n ->
  flat_map (fun j => zrange (j * b) (Z.min n (j * b + b))) (zrange 0 m) = zrange 0 (Z.min n (m * b)).
Proof.
  intros Hb Hm. pattern m. apply natlike_ind; [|clear m Hm|assumption].
  - intros _. cbn [zrange]. rewrite (zrange_empty 0 (Z.min n (0 * b))) by lia. reflexivity.
  - intros k Hk IH Hle. unfold Z.succ in *. rewrite zrange_snoc by lia. rewrite flat_map_app. cbn [flat_map].
    rewrite app_nil_r, IH by nia. replace (k * b + b) with ((k + 1) * b) by lia.
    replace (Z.min n (k * b)) with (k * b) by nia. apply zrange_app. nia.
Qed.

Lemma flat_map_map {A B C} (f : A -> B) (g : B -> list C) l : flat_map g (map f l) = flat_map (fun x => g (f x)) l.
Proof. induction l as [|x l IH]; cbn; [reflexivity|]. now rewrite IH. Qed.

Lemma map_flat_map {A B C} (f : B -> C) (g : A -> list B) l : map f (flat_map g l) = flat_map (fun x => map f (g x)) l.
Proof. induction l as [|x l IH]; cbn; [reflexivity|]. now rewrite map_app, IH. Qed.

Lemma flat_map_ext_in {A B} (f g : A -> list B) l : (forall x, In x l -> f x = g x) -> flat_map f l = flat_map g l.
Proof.
  induction l as [|x l IH]; intros H; cbn; [reflexivity|]. rewrite H by (now left). rewrite IH; [reflexivity|].
  intros; apply H; now right.
Qed.

Lemma lsf_addressed n b arrays :
  0 < n -> 0 < b -> submit_eumopps_jobs n b = Ok arrays ->
  map (addressed b) (lsf_command_lines b arrays) = zrange 0 n.
Proof.
  intros Hn Hb E. rewrite (submit_closed n b arrays Hn Hb E). unfold lsf_command_lines.
  rewrite flat_map_map, map_flat_map.
  destruct (batch_count_spec n b) as [[H1 H2]|[H1 H2]]; [lia|lia| |lia].
  pose proof (batch_count_nonneg n b ltac:(lia) Hb) as Hm.
  set (m := batch_count n b) in *.
  rewrite (flat_map_ext_in _ (fun j => zrange (j * b) (Z.min n (j * b + b)))).
  - rewrite tile_blocks by lia. f_equal. lia.
  - intros j Hj. apply zrange_In in Hj. cbn [fst snd].
    rewrite (zrange_shift (j * b) (Z.min n (j * b + b)) 1), !map_map.
    rewrite <- (map_id (zrange (j * b) _)) at 2. apply map_ext_in. intros x Hx. apply zrange_In in Hx.
    unfold lsf_commandrun, addressed. cbn [fst snd].
    replace (x + 1 - 1) with (j * b + (x - j * b)) by lia. rewrite mod_block by lia. lia.
Qed.

Lemma group_tasks_closed n batch size sub nt lo hi :
  group_tasks n batch size sub nt (zrange lo hi) =
  map (fun t => (sub * nt + t, batch)) (zrange lo (Z.min hi (n - (batch * size + sub * nt)))).
Proof.
  remember (Z.to_nat (hi - lo)) as d eqn:Ed. revert lo Ed. induction d as [|d IH]; intros lo Ed.
  { rewrite !zrange_empty by lia. reflexivity. }
  rewrite zrange_cons by lia. cbn [group_tasks].
  destruct (n <=? batch * size + (sub * nt + lo)) eqn:E.
  - rewrite zrange_empty by lia. reflexivity.
  - rewrite (zrange_cons lo) by lia. cbn [map]. f_equal. apply IH. lia.
Qed.

Lemma batch_count_mult n t j :
  0 <= n -> 0 < t -> 0 < j -> batch_count n (t * j) = batch_count (batch_count n t) j.
Proof.
  intros Hn Ht Hj. assert (0 < t * j) by nia.
  pose proof (batch_count_nonneg n t Hn Ht).
  destruct (batch_count_spec n t Hn Ht) as [[A1 A2]|[A1 A2]].
  - destruct (batch_count_spec (batch_count n t) j) as [[B1 B2]|[B1 B2]]; [lia|lia| |].
    + destruct (batch_count_spec n (t * j)) as [[C1 C2]|[C1 C2]]; [lia|lia| |]; nia.
    + rewrite B2. assert (n = 0) by nia. subst n. unfold batch_count. now rewrite Z.mod_0_l, Z.div_0_l by lia.
  - rewrite A2, A1. unfold batch_count. now rewrite !Z.mod_0_l, !Z.div_0_l by lia.
Qed.

Lemma lsf_group_addressed n nj nt arrays :
  0 < n -> 0 < nj -> 0 < nt -> submit_eumopps_jobs_grouped n nj nt = Ok arrays ->
  map (addressed (nt * nj)) (lsf_group_command_lines n nj nt arrays) = zrange 0 n.
Proof.
  intros Hn Hj Ht. unfold submit_eumopps_jobs_grouped.
  assert (0 < nt * nj) as Hs by nia.
  destruct ((nt * nj =? 0) || (nt =? 0)) eqn:E; [lia|]. rewrite batch_count_1.
  destruct (n =? 0) eqn:E2; [lia|]. intros H; injection H as <-.
  rewrite batch_count_mult by lia.
  destruct (batch_count_spec n nt) as [[A1 A2]|[A1 A2]]; [lia|lia| |lia].
  pose proof (batch_count_nonneg n nt ltac:(lia) Ht) as Hjobs. set (jobs := batch_count n nt) in *.
  destruct (batch_count_spec jobs nj) as [[B1 B2]|[B1 B2]]; [lia|lia| |nia].
  pose proof (batch_count_nonneg jobs nj ltac:(lia) Hj) as Hm. set (m := batch_count jobs nj) in *.
  change 0 with (0 * nj) at 1. rewrite submit_loop_closed by (try lia; split; lia).
  unfold lsf_group_command_lines. rewrite flat_map_map, map_flat_map.
  rewrite (flat_map_ext_in _ (fun k => flat_map (fun j => zrange (j * nt) (Z.min n (j * nt + nt))) (zrange (k * nj) (Z.min jobs (k * nj + nj))))).
  - assert (forall l, flat_map (fun k => flat_map (fun j => zrange (j * nt) (Z.min n (j * nt + nt))) (zrange (k * nj) (Z.min jobs (k * nj + nj)))) l
             = flat_map (fun j => zrange (j * nt) (Z.min n (j * nt + nt))) (flat_map (fun k => zrange (k * nj) (Z.min jobs (k * nj + nj))) l)) as ->.
    { induction l as [|k l IH]; cbn [flat_map]; [reflexivity|]. now rewrite flat_map_app, IH. }
    rewrite tile_blocks by lia. replace (Z.min jobs (m * nj)) with jobs by lia.
    rewrite tile_blocks by lia. f_equal. lia.
  - intros k Hk. apply zrange_In in Hk. cbn [fst snd].
    rewrite (zrange_shift (k * nj) (Z.min jobs (k * nj + nj)) 1), flat_map_map, map_flat_map.
    apply flat_map_ext_in. intros j Hj'. apply zrange_In in Hj'.
    unfold lsf_commandrun_group. rewrite group_tasks_closed.
    replace (j + 1 - 1) with (k * nj + (j - k * nj)) by lia. rewrite mod_block by lia.
    rewrite map_map. replace (zrange (j * nt) (Z.min n (j * nt + nt)))
      with (zrange (0 + j * nt) (Z.min nt (n - j * nt) + j * nt)) by (f_equal; lia).
    rewrite zrange_shift. replace (n - (k * (nt * nj) + (j - k * nj) * nt)) with (n - j * nt) by nia.
    apply map_ext. intros x. unfold addressed; cbn [fst snd]. nia.
Qed.
