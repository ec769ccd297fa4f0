(* Proofs for C125-C127. *)
From Coq Require Import String Ascii QArith Reals Lra.
From Verif Require Import Base Time_Model Time_Spec Time_Proofs Name_Model Land_Model Land_Spec.
Open Scope Z_scope.
Open Scope string_scope.
Open Scope list_scope.

(* ------------------------------------------------------------------ dictionaries and lists *)
Lemma lookup_put {V} (n m : string) (v : V) d : lookup n (put m v d) = if String.eqb m n then Some v else lookup n d.
Proof.
  induction d as [|[k w] d IH]; cbn [put lookup].
  - reflexivity.
  - destruct (String.eqb k m) eqn:E; cbn [lookup].
    + apply String.eqb_eq in E. subst k. destruct (String.eqb m n); reflexivity.
    + destruct (String.eqb k n) eqn:F.
      * apply String.eqb_eq in F. subst k. rewrite String.eqb_sym, E. reflexivity.
      * exact IH.
Qed.
Lemma lookup_put_same {V} n (v : V) d : lookup n (put n v d) = Some v.
Proof. now rewrite lookup_put, String.eqb_refl. Qed.
Lemma lookup_put_other {V} n m (v : V) d : m <> n -> lookup n (put m v d) = lookup n d.
Proof. intros H. rewrite lookup_put. destruct (String.eqb_spec m n); [contradiction|reflexivity]. Qed.
Lemma put_same {V} n (v : V) d : lookup n d = Some v -> put n v d = d.
Proof.
  induction d as [|[k w] d IH]; cbn [put lookup]; [discriminate|]. destruct (String.eqb k n); intros H.
  - now injection H as ->.
  - now rewrite IH.
Qed.

Lemma map2_length {X Y W} (f : X -> Y -> W) l m : List.length l = List.length m -> List.length (map2 f l m) = List.length l.
Proof. revert m. induction l as [|x l IH]; intros [|y m] H; cbn in *; try discriminate; [reflexivity|]. f_equal. apply IH. lia. Qed.
Lemma map2_nth_error {X Y W} (f : X -> Y -> W) l m i :
  nth_error (map2 f l m) i = match nth_error l i, nth_error m i with Some x, Some y => Some (f x y) | _, _ => None end.
Proof.
  revert m i. induction l as [|x l IH]; intros [|y m] [|i]; cbn [map2 nth_error]; try reflexivity.
  - now destruct (nth_error l i).
  - apply IH.
Qed.
Lemma nth_nth_error {X} (l : list X) i d : nth i l d = match nth_error l i with Some x => x | None => d end.
Proof. revert i. induction l as [|x l IH]; intros [|i]; cbn [nth nth_error]; try reflexivity. apply IH. Qed.
Lemma combine_nth_error {X Y} (l : list X) (m : list Y) i :
  nth_error (combine l m) i = match nth_error l i, nth_error m i with Some x, Some y => Some (x, y) | _, _ => None end.
Proof.
  revert m i. induction l as [|x l IH]; intros [|y m] [|i]; cbn [combine nth_error]; try reflexivity.
  - now destruct (nth_error l i).
  - apply IH.
Qed.
Lemma nth_error_lt {X} (l : list X) i : (i < List.length l)%nat -> exists x, nth_error l i = Some x.
Proof. intros H. destruct (nth_error l i) eqn:E; [eauto|]. apply nth_error_None in E. lia. Qed.
Lemma list_ext {X} (l m : list X) : (forall i, nth_error l i = nth_error m i) -> l = m.
Proof.
  revert m. induction l as [|x l IH]; intros [|y m] H; [reflexivity| | |].
  - specialize (H O). discriminate.
  - specialize (H O). discriminate.
  - pose proof (H O) as H0. injection H0 as ->. f_equal. apply IH. intros i. exact (H (S i)).
Qed.
Lemma count_positions (u : list bool) : List.length (filter (fun b => b) u) = List.length (filter (fun i => nth i u false) (seq 0 (List.length u))).
Proof.
  induction u as [|b u IH]; [reflexivity|]. cbn [filter List.length seq].
  assert (E : List.length (filter (fun i => nth i (b :: u) false) (seq 1 (List.length u))) = List.length (filter (fun i => nth i u false) (seq 0 (List.length u)))).
  { rewrite <- seq_shift. generalize (seq 0 (List.length u)). intros l. induction l as [|k l IHl]; [reflexivity|].
    cbn [map filter]. change (nth (S k) (b :: u) false) with (nth k u false). destruct (nth k u false); cbn [List.length]; [f_equal|]; exact IHl. }
  change (nth 0 (b :: u) false) with b. destruct b; cbn [List.length]; rewrite E, IH; reflexivity.
Qed.
Lemma filter_length_ext {X} (p q : X -> bool) l : (forall x, In x l -> p x = q x) -> List.length (filter p l) = List.length (filter q l).
Proof. intros H. now rewrite (filter_ext_in p q l H). Qed.

Lemma nth_error_repeat {X} (x : X) n : forall i, (i < n)%nat -> nth_error (repeat x n) i = Some x.
Proof. induction n as [|n IH]; intros [|i] H; cbn [repeat nth_error]; try lia; [reflexivity|]. apply IH. lia. Qed.

Lemma Forall2_cons_l {X Y} (P : X -> Y -> Prop) x l m : Forall2 P (x :: l) m -> exists y m', m = y :: m' /\ P x y /\ Forall2 P l m'.
Proof. intros H. inversion H; subst. eauto. Qed.

Section Fields.
Variable A : arithmetic.

Lemma size_nth (f : field A) i : (i < size A f)%nat -> exists x, nth_error (data A f) i = Some x.
Proof. apply nth_error_lt. Qed.

(* ------------------------------------------------------------------ the filter *)
Definition after (u : list bool) (f f' : field A) : Prop :=
  has_mask A f' /\ size A f' = size A f /\ fill A f' = fill A f /\ List.length u = size A f /\
  (forall i, masked A f' i = masked A f i || nth i u false) /\
  (forall i, nth_error (data A f') i = if masked A f' i then Some (fill A f) else nth_error (data A f) i).

Lemma masked_out f i : has_mask A f -> (size A f <= i)%nat -> masked A f i = false.
Proof. intros (m & E & L) H. unfold masked. rewrite E. apply nth_overflow. lia. Qed.

Lemma mask_variable_masked u f f' : has_mask A f -> mask_variable A u f = Ok f' ->
  has_mask A f' /\ size A f' = size A f /\ fill A f' = fill A f /\ List.length u = size A f /\
  (forall i, masked A f' i = masked A f i || nth i u false) /\
  (forall i, nth_error (data A f') i = if masked A f' i then Some (fill A f) else nth_error (data A f) i).
Proof.
  intros (m & E & L) H. unfold mask_variable in H. rewrite E in H.
  destruct (Nat.eqb_spec (size A f) (List.length u)) as [S|]; [|discriminate]. cbn [negb] in H. cbv zeta in H.
  assert (f' = {| data := map2 (fun x b => if b : bool then fill A f else x) (data A f) (map2 orb m u); mask := Some (map2 orb m u); fill := fill A f |}) as -> by congruence.
  clear H. assert (Lm : List.length (map2 orb m u) = size A f) by (rewrite map2_length; lia).
  assert (Sz : List.length (map2 (fun x b => if b : bool then fill A f else x) (data A f) (map2 orb m u)) = size A f).
  { rewrite map2_length; [reflexivity|]. unfold size in *. lia. }
  assert (M : forall i, nth i (map2 orb m u) false = nth i m false || nth i u false).
  { intros i. rewrite !nth_nth_error, map2_nth_error. destruct (Nat.lt_ge_cases i (size A f)) as [H|H].
    - destruct (nth_error_lt m i) as [a ->]; [lia|]. destruct (nth_error_lt u i) as [b ->]; [lia|]. reflexivity.
    - assert (nth_error m i = None) as -> by (apply nth_error_None; lia). assert (nth_error u i = None) as -> by (apply nth_error_None; lia). reflexivity. }
  split; [|split; [|split; [|split; [|split]]]].
  - exists (map2 orb m u). split; [reflexivity|]. unfold size at 1. cbn [data]. lia.
  - unfold size at 1. exact Sz.
  - reflexivity.
  - lia.
  - intros i. unfold masked at 1 2. cbn [mask]. rewrite E. apply M.
  - intros i. unfold masked. cbn [mask data]. rewrite map2_nth_error, nth_nth_error. destruct (Nat.lt_ge_cases i (size A f)) as [H|H].
    + destruct (size_nth f i H) as [x ->]. destruct (nth_error_lt (map2 orb m u) i) as [b ->]; [lia|]. now destruct b.
    + assert (nth_error (map2 orb m u) i = None) as -> by (apply nth_error_None; lia).
      assert (nth_error (data A f) i = None) as -> by (apply nth_error_None; unfold size in H; lia). reflexivity.
Qed.

Lemma mask_variable_after u f f' : has_mask A f -> mask_variable A u f = Ok f' -> after u f f'.
Proof. exact (mask_variable_masked u f f'). Qed.

Lemma after_again u f f' f'' : after u f f' -> mask_variable A u f' = Ok f'' -> after u f f''.
Proof.
  intros (M & S & F & L & K & D) H. apply mask_variable_masked in H; [|exact M]. destruct H as (M2 & S2 & F2 & L2 & K2 & D2).
  split; [exact M2|]. split; [congruence|]. split; [congruence|]. split; [exact L|]. split.
  - intros i. rewrite K2, K. destruct (masked A f i), (nth i u false); reflexivity.
  - intros i. rewrite D2, F. destruct (masked A f'' i) eqn:E; [reflexivity|]. rewrite D. rewrite K2 in E. apply orb_false_iff in E. destruct E as [-> _]. reflexivity.
Qed.

Definition step (u : list bool) (r : results A) (name : string) : result (results A) :=
  do f <- get_field A r name; do f' <- mask_variable A u f; Ok (put name (V_field A f') r).

Lemma get_field_ok r name f : get_field A r name = Ok f <-> has A r name f.
Proof.
  unfold get_field, get, has. split.
  - destruct (lookup name r) as [[n|n|g]|]; cbn [bind]; intros H; try discriminate. injection H as ->. reflexivity.
  - intros ->. reflexivity.
Qed.

Lemma step_ok u r name r' : step u r name = Ok r' -> exists f f', has A r name f /\ mask_variable A u f = Ok f' /\ r' = put name (V_field A f') r.
Proof.
  unfold step. destruct (get_field A r name) as [f|] eqn:E; [|discriminate]. cbn [bind]. destruct (mask_variable A u f) as [f'|] eqn:M; [|discriminate].
  cbn [bind]. intros H. apply get_field_ok in E. exists f, f'. split; [exact E|]. split; [exact M|]. congruence.
Qed.

Lemma foldM_cons {S X} (g : S -> X -> result S) s x l : foldM g s (x :: l) = do s' <- g s x; foldM g s' l.
Proof. reflexivity. Qed.

Lemma fold_other u names : forall r r' v, foldM (step u) r names = Ok r' -> ~ In v names -> lookup v r' = lookup v r.
Proof.
  induction names as [|n names IH]; intros r r' v H N; [cbn in H; congruence|].
  rewrite foldM_cons in H. destruct (step u r n) as [r1|] eqn:E; [|discriminate]. cbn [bind] in H.
  apply step_ok in E. destruct E as (f & f' & _ & _ & ->). rewrite (IH _ _ v H); [|intros K; apply N; now right].
  apply lookup_put_other. intros ->. apply N. now left.
Qed.

Lemma fold_count u names n : forall r r', lookup COUNT r = Some (V_count A n) -> foldM (step u) r names = Ok r' ->
  ~ In COUNT names /\ lookup COUNT r' = Some (V_count A n).
Proof.
  induction names as [|m names IH]; intros r r' C H; [cbn in H; injection H as <-; split; [intros []|exact C]|].
  rewrite foldM_cons in H. destruct (step u r m) as [r1|] eqn:E; [|discriminate]. cbn [bind] in H.
  apply step_ok in E. destruct E as (f & f' & P & _ & ->).
  assert (NE : m <> COUNT) by (intros ->; unfold has in P; congruence).
  destruct (IH _ r' (eq_trans (lookup_put_other COUNT m _ r NE) C) H) as [N K]. split; [|exact K]. intros [?|?]; [contradiction|auto].
Qed.

Lemma fold_has u names : forall r r' v f0 f, foldM (step u) r names = Ok r' -> has A r v f -> has_mask A f0 -> (f = f0 \/ after u f0 f) ->
  exists f', has A r' v f' /\ (In v names -> after u f0 f') /\ (f' = f \/ after u f0 f').
Proof.
  induction names as [|n names IH]; intros r r' v f0 f H P M R.
  - cbn in H. injection H as <-. exists f. split; [exact P|]. split; [intros []|]. now left.
  - rewrite foldM_cons in H. destruct (step u r n) as [r1|] eqn:E; [|discriminate]. cbn [bind] in H.
    apply step_ok in E. destruct E as (g & g' & G & E & ->). destruct (string_dec n v) as [->|NE].
    + unfold has in P, G. assert (g = f) as -> by congruence.
      assert (R' : after u f0 g').
      { destruct R as [-> | R]; [now apply mask_variable_after|exact (after_again u f0 f g' R E)]. }
      destruct (IH _ r' v f0 g' H) as (f' & P' & I & O).
      * unfold has. apply lookup_put_same.
      * exact M.
      * now right.
      * exists f'. split; [exact P'|]. assert (after u f0 f') by (destruct O as [-> | O]; assumption). split; [auto|now right].
    + destruct (IH _ r' v f0 f H) as (f' & P' & I & O).
      * unfold has. now rewrite lookup_put_other.
      * exact M.
      * exact R.
      * exists f'. split; [exact P'|]. split; [|exact O]. intros [K|K]; [contradiction|auto].
Qed.

(* the mask of problem pixels *)
Lemma post_inv r vars r' : apply_land_post_processing A r vars = Ok r' ->
  exists tmin tmax u, has A r "tasmin" tmin /\ has A r "tasmax" tmax /\ compute_update_mask A tmin tmax = Ok u /\
    foldM (step u) (put COUNT (V_count A (count_true u)) r) (filtered vars) = Ok r'.
Proof.
  unfold apply_land_post_processing. destruct (get_field A r "tasmin") as [tmin|] eqn:E1; [|discriminate]. cbn [bind].
  destruct (get_field A r "tasmax") as [tmax|] eqn:E2; [|discriminate]. cbn [bind].
  destruct (compute_update_mask A tmin tmax) as [u|] eqn:E3; [|discriminate]. cbn [bind]. intros H.
  apply get_field_ok in E1, E2. exists tmin, tmax, u. split; [exact E1|]. split; [exact E2|]. split; [exact E3|]. exact H.
Qed.

Lemma update_mask_inv tmin tmax u : compute_update_mask A tmin tmax = Ok u ->
  size A tmin = size A tmax /\ List.length u = size A tmin /\
  forall i, nth i u false = match nth_error (data A tmin) i, nth_error (data A tmax) i with
                            | Some a, Some b => problem A (fill A tmin) (fill A tmax) a b | _, _ => false end.
Proof.
  unfold compute_update_mask. destruct (Nat.eqb_spec (size A tmin) (size A tmax)) as [E|]; [|discriminate]. cbn [negb]. intros H.
  assert (u = map2 (problem A (fill A tmin) (fill A tmax)) (data A tmin) (data A tmax)) as -> by congruence. clear H.
  split; [exact E|]. split; [now apply map2_length|]. intros i. rewrite nth_nth_error, map2_nth_error.
  destruct (nth_error (data A tmin) i), (nth_error (data A tmax) i); reflexivity.
Qed.

Lemma update_mask_inverted tmin tmax u i : compute_update_mask A tmin tmax = Ok u -> clean A tmin -> clean A tmax ->
  nth i u false = inverted A tmin tmax i.
Proof.
  intros H C1 C2. apply update_mask_inv in H. destruct H as (_ & _ & H). rewrite H. unfold inverted, known.
  destruct (nth_error (data A tmin) i) as [a|] eqn:E1; [|now destruct (masked A tmin i)].
  rewrite (C1 i a E1). unfold problem. destruct (same A a (fill A tmin)); [now destruct (nth_error (data A tmax) i)|].
  destruct (nth_error (data A tmax) i) as [b|] eqn:E2; [|now destruct (masked A tmax i)].
  rewrite (C2 i b E2). destruct (same A b (fill A tmax)); reflexivity.
Qed.

Lemma after_known u f f' i : after u f f' -> known A f' i = if nth i u false then None else known A f i.
Proof.
  intros (_ & _ & _ & _ & K & D). unfold known. rewrite D, K. destruct (masked A f i), (nth i u false); reflexivity.
Qed.

Lemma count_true_pixels u : count_true u = pixels (List.length u) (fun i => nth i u false).
Proof. unfold count_true, pixels, zlen. f_equal. apply count_positions. Qed.

Lemma in_filtered_four vars v : In v ["tasmin"; "tasminuncertainty"; "tasmax"; "tasmaxuncertainty"] -> In v (filtered vars).
Proof. intros H. unfold filtered. apply in_or_app. now left. Qed.

Lemma filtered_main r vars r' :
  apply_land_post_processing A r vars = Ok r' ->
  exists tmin tmax u, has A r "tasmin" tmin /\ has A r "tasmax" tmax /\ compute_update_mask A tmin tmax = Ok u /\
   lookup COUNT r' = Some (V_count A (count_true u)) /\ ~ In COUNT (filtered vars) /\
   (forall v f, In v (filtered vars) -> has A r v f -> has_mask A f -> exists f', has A r' v f' /\ after u f f') /\
   (forall v, ~ In v (filtered vars) -> v <> COUNT -> lookup v r' = lookup v r).
Proof.
  intros H. apply post_inv in H. destruct H as (tmin & tmax & u & P1 & P2 & U & F). exists tmin, tmax, u.
  split; [exact P1|]. split; [exact P2|]. split; [exact U|].
  destruct (fold_count u _ _ _ r' (lookup_put_same COUNT (V_count A (count_true u)) r) F) as [N C].
  split; [exact C|]. split; [exact N|]. split.
  - intros v f I P M. assert (NE : v <> COUNT) by (intros ->; contradiction).
    destruct (fold_has u _ _ r' v f f F) as (f' & P' & G & _).
    + unfold has. rewrite lookup_put_other by auto. exact P.
    + exact M.
    + now left.
    + exists f'. auto.
  - intros v I NE. rewrite (fold_other u _ _ r' v F I). apply lookup_put_other. auto.
Qed.

(* it succeeds when every variable is there *)
Lemma mask_variable_total u f : well_formed A f -> size A f = List.length u ->
  exists f', mask_variable A u f = Ok f' /\ well_formed A f' /\ size A f' = size A f.
Proof.
  intros W S. unfold mask_variable. rewrite S, Nat.eqb_refl. cbn [negb]. unfold well_formed in W. destruct (mask A f) as [m|] eqn:E.
  - cbv zeta. eexists. split; [reflexivity|].
    assert (L : List.length (map2 orb m u) = List.length u) by (rewrite map2_length; lia).
    assert (L' : List.length (map2 (fun x b => if b : bool then fill A f else x) (data A f) (map2 orb m u)) = List.length u).
    { rewrite map2_length; unfold size in S; lia. }
    unfold well_formed, size. cbn [data mask]. lia.
  - exists f. split; [reflexivity|]. split; [unfold well_formed; now rewrite E|exact S].
Qed.

Lemma fold_total u names : forall r, (forall v, In v names -> exists f, has A r v f /\ well_formed A f /\ size A f = List.length u) ->
  exists r', foldM (step u) r names = Ok r'.
Proof.
  induction names as [|n names IH]; intros r H; [eexists; reflexivity|].
  destruct (H n (or_introl eq_refl)) as (f & P & W & S). rewrite foldM_cons. unfold step at 1. rewrite (proj2 (get_field_ok r n f) P). cbn [bind].
  destruct (mask_variable_total u f W S) as (f' & -> & W' & S'). cbn [bind]. apply IH.
  intros v I. destruct (string_dec n v) as [->|NE].
  - exists f'. split; [apply lookup_put_same|]. split; [exact W'|congruence].
  - destruct (H v (or_intror I)) as (g & G & X). exists g. split; [|exact X]. unfold has. now rewrite lookup_put_other.
Qed.

Lemma count_not_four : ~ In COUNT ["tasmin"; "tasminuncertainty"; "tasmax"; "tasmaxuncertainty"].
Proof. cbn. intuition discriminate. Qed.

Lemma post_total r vars n : ~ In COUNT vars ->
  (forall v, In v (filtered vars) -> exists f, has A r v f /\ well_formed A f /\ size A f = n) ->
  exists r', apply_land_post_processing A r vars = Ok r'.
Proof.
  intros NC H. destruct (H "tasmin") as (tmin & P1 & W1 & S1); [apply in_filtered_four; cbn; auto|].
  destruct (H "tasmax") as (tmax & P2 & W2 & S2); [apply in_filtered_four; cbn; auto|].
  unfold apply_land_post_processing. rewrite (proj2 (get_field_ok _ _ _) P1). cbn [bind]. rewrite (proj2 (get_field_ok _ _ _) P2). cbn [bind].
  destruct (compute_update_mask A tmin tmax) as [u|] eqn:U.
  2:{ unfold compute_update_mask in U. rewrite S1, S2, Nat.eqb_refl in U. discriminate. }
  cbn [bind]. pose proof (update_mask_inv _ _ _ U) as (_ & L & _).
  apply (fold_total u (filtered vars)). intros v I. destruct (H v I) as (f & P & W & S). exists f. split; [|split; [exact W|lia]].
  unfold has. rewrite lookup_put_other; [exact P|]. intros <-. unfold filtered in I. apply in_app_or in I. destruct I as [I|I]; [exact (count_not_four I)|auto].
Qed.

Lemma mask_variable_none u f : (forall i, nth i u false = false) -> has_mask A f -> List.length u = size A f ->
  (forall i, masked A f i = true -> nth_error (data A f) i = Some (fill A f)) -> mask_variable A u f = Ok f.
Proof.
  intros U (m & E & L) S D. unfold mask_variable. rewrite S, Nat.eqb_refl. cbn [negb]. rewrite E. cbv zeta.
  assert (M : map2 orb m u = m).
  { apply list_ext. intros i. rewrite map2_nth_error. destruct (nth_error m i) as [b|] eqn:F; [|reflexivity].
    assert (I : (i < List.length m)%nat) by (apply nth_error_Some; congruence).
    destruct (nth_error_lt u i) as [c G]; [lia|]. rewrite G. specialize (U i). rewrite nth_nth_error, G in U. rewrite U. now rewrite orb_false_r. }
  rewrite M. destruct f as [d m0 fl]. cbn [Land_Model.data Land_Model.mask Land_Model.fill] in *. subst m0. f_equal. f_equal.
  apply list_ext. intros i. rewrite map2_nth_error. destruct (nth_error d i) as [x|] eqn:F; [|reflexivity].
  assert (I : (i < List.length d)%nat) by (apply nth_error_Some; congruence). unfold size in L. cbn [data] in L.
  destruct (nth_error_lt m i) as [b G]; [lia|]. rewrite G. destruct b; [|reflexivity].
  specialize (D i). unfold masked in D. cbn [mask data fill] in D. rewrite nth_nth_error, G in D. specialize (D eq_refl). congruence.
Qed.

Lemma fold_none u names : forall r, (forall v, In v names -> exists f, has A r v f /\ mask_variable A u f = Ok f) -> foldM (step u) r names = Ok r.
Proof.
  induction names as [|n names IH]; intros r H; [reflexivity|].
  destruct (H n (or_introl eq_refl)) as (f & P & E). rewrite foldM_cons. unfold step at 1. rewrite (proj2 (get_field_ok r n f) P). cbn [bind]. rewrite E. cbn [bind].
  rewrite (put_same n (V_field A f) r P). apply IH. intros v I. exact (H v (or_intror I)).
Qed.

Lemma again r vars r' : (forall x, same A x x = true) ->
  (forall v, In v (filtered vars) -> exists f, has A r v f /\ has_mask A f) ->
  apply_land_post_processing A r vars = Ok r' -> apply_land_post_processing A r' vars = Ok (put COUNT (V_count A 0) r').
Proof.
  intros RF HM H. destruct (filtered_main r vars r' H) as (tmin & tmax & u & P1 & P2 & U & C & NC & K & _).
  assert (Q : forall v, In v (filtered vars) -> exists f f', has A r v f /\ has A r' v f' /\ after u f f').
  { intros v I. destruct (HM v I) as (f & P & M). destruct (K v f I P M) as (f' & P' & X). eauto. }
  destruct (Q "tasmin") as (a & a' & Pa & Pa' & Xa); [apply in_filtered_four; cbn; auto|].
  destruct (Q "tasmax") as (b & b' & Pb & Pb' & Xb); [apply in_filtered_four; cbn; auto|].
  assert (a = tmin) as -> by (unfold has in *; congruence). assert (b = tmax) as -> by (unfold has in *; congruence).
  unfold apply_land_post_processing. rewrite (proj2 (get_field_ok _ _ _) Pa'). cbn [bind]. rewrite (proj2 (get_field_ok _ _ _) Pb'). cbn [bind].
  pose proof (update_mask_inv _ _ _ U) as (S & L & W).
  destruct Xa as (Ma & Sa & Fa & La & Ka & Da). destruct Xb as (Mb & Sb & Fb & Lb & Kb & Db).
  destruct (compute_update_mask A a' b') as [u'|] eqn:U'.
  2:{ unfold compute_update_mask in U'. rewrite Sa, Sb, S, Nat.eqb_refl in U'. discriminate. }
  cbn [bind]. pose proof (update_mask_inv _ _ _ U') as (S' & L' & W').
  assert (Z : forall i, nth i u' false = false).
  { intros i. rewrite W', Da, Db, Fa, Fb, Ka, Kb. specialize (W i). unfold problem in *.
    destruct (masked A tmin i || nth i u false) eqn:E1.
    - destruct (if masked A tmax i || nth i u false then _ else _); [|reflexivity]. now rewrite RF.
    - destruct (nth_error (data A tmin) i) as [x|]; [|reflexivity].
      destruct (masked A tmax i || nth i u false) eqn:E2; [rewrite RF; now rewrite andb_false_r|].
      destruct (nth_error (data A tmax) i) as [y|]; [|reflexivity]. rewrite <- W. now apply orb_false_iff in E1. }
  assert (count_true u' = 0) as ->.
  { rewrite count_true_pixels. unfold pixels. rewrite (filter_ext _ (fun _ => false)) by exact Z.
    induction (seq 0 (List.length u')) as [|k l IH]; [reflexivity|exact IH]. }
  apply (fold_none u' (filtered vars)). intros v I. destruct (Q v I) as (f & f' & P & P' & (Mf & Sf & Ff & Lf & Kf & Df)).
  exists f'. split; [unfold has; rewrite lookup_put_other; [exact P'|intros <-; contradiction]|].
  apply mask_variable_none; [exact Z|exact Mf|lia|]. intros i Mi. rewrite Df, Mi, Ff. reflexivity.
Qed.

(* ------------------------------------------------------------------ remapping *)
Variable cells : nat.

Definition outputname (s : specification) : string :=
  match s with DayNumber => DAYNUMBER | Copy o _ _ => o | TotalUncertainty o _ => o end.
Definition total (d : dataset A) (names : list string) : result (field A) :=
  do s <- foldM (fun s name => do f <- get (d_variables A d) name; iadd A s (square A f)) (zeros A cells) names; Ok (sqrt_field A s).
Definition value_of (d : dataset A) (s : specification) : result (value A) :=
  match s with
  | DayNumber => match d_time A d with None => Err KeyError | Some t => Ok (V_day A (int_days (days_datetime_to_number EPOCH t))) end
  | Copy _ i c => do f <- get (d_variables A d) i; Ok (V_field A (match c with Some c => add_offset A f c | None => f end))
  | TotalUncertainty _ names => do f <- total d names; Ok (V_field A f)
  end.

Lemma operate_value d r s : operate A cells d r s = do v <- value_of d s; Ok (put (outputname s) v r).
Proof.
  destruct s as [|o i c|o l]; cbn [operate value_of outputname].
  - destruct (d_time A d); reflexivity.
  - destruct (get (d_variables A d) i) as [f|]; [|reflexivity]. cbn [bind]. destruct c; reflexivity.
  - unfold total. match goal with |- context [foldM ?g ?z l] => destruct (foldM g z l) as [s|] end; reflexivity.
Qed.

Lemma read_lookup d l : forall r r', foldM (operate A cells d) r l = Ok r' -> NoDup (map outputname l) ->
  (forall s, In s l -> exists v, value_of d s = Ok v /\ lookup (outputname s) r' = Some v) /\
  (forall n, ~ In n (map outputname l) -> lookup n r' = lookup n r).
Proof.
  induction l as [|s l IH]; intros r r' H N.
  - cbn in H. injection H as <-. split; [intros s []|reflexivity].
  - rewrite foldM_cons, operate_value in H. destruct (value_of d s) as [v|] eqn:E; [|discriminate]. cbn [bind] in H.
    cbn [map] in N. inversion N as [|? ? NI N']; subst. destruct (IH _ _ H N') as [I J]. split.
    + intros s' [<- | K]; [|exact (I s' K)]. exists v. split; [exact E|]. rewrite (J _ NI). apply lookup_put_same.
    + intros n K. rewrite (J n (fun X => K (or_intror X))). apply lookup_put_other. intros <-. apply K. now left.
Qed.
Lemma read_total d l : (forall s, In s l -> exists v, value_of d s = Ok v) -> forall r, exists r', foldM (operate A cells d) r l = Ok r'.
Proof.
  induction l as [|s l IH]; intros H r; [eexists; reflexivity|]. rewrite foldM_cons, operate_value.
  destruct (H s (or_introl eq_refl)) as [v ->]. cbn [bind]. apply IH. intros s' I. exact (H s' (or_intror I)).
Qed.
Lemma read_needs d l : forall r r', foldM (operate A cells d) r l = Ok r' -> forall s, In s l -> exists v, value_of d s = Ok v.
Proof.
  induction l as [|s l IH]; intros r r' H s' I; [destruct I|]. rewrite foldM_cons, operate_value in H.
  destruct (value_of d s) as [v|] eqn:E; [|discriminate]. cbn [bind] in H. destruct I as [<- | I]; [eauto|]. exact (IH _ _ H s' I).
Qed.

(* masked arithmetic, cell by cell *)
Lemma known_square f i : known A (square A f) i = option_map (fun x => mul A x x) (known A f i).
Proof. unfold known, square, masked. cbn [mask data]. destruct (match mask A f with Some m => nth i m false | None => false end); [reflexivity|]. apply nth_error_map. Qed.
Lemma known_sqrt f i : known A (sqrt_field A f) i = option_map (root A) (known A f i).
Proof. unfold known, sqrt_field, masked. cbn [mask data]. destruct (match mask A f with Some m => nth i m false | None => false end); [reflexivity|]. apply nth_error_map. Qed.

Lemma known_offset f c i : well_formed A f -> known A (add_offset A f c) i = option_map (fun x => add A x (of_Q A c)) (known A f i).
Proof.
  intros W. unfold known, add_offset, masked. cbn [mask data]. unfold well_formed in W. destruct (mask A f) as [m|].
  - rewrite nth_nth_error, map2_nth_error. destruct (nth_error m i) as [b|] eqn:E.
    + destruct b; [reflexivity|]. destruct (nth_error (data A f) i); reflexivity.
    + destruct (nth_error (data A f) i) eqn:F; [|reflexivity]. assert ((i < List.length (data A f))%nat) by (apply nth_error_Some; congruence).
      apply nth_error_None in E. unfold size in W. lia.
  - apply nth_error_map.
Qed.
Lemma offset_size f c : well_formed A f -> size A (add_offset A f c) = size A f.
Proof.
  intros W. unfold size, add_offset. cbn [data]. unfold well_formed in W. destruct (mask A f) as [m|]; [|apply map_length].
  apply map2_length. unfold size in W. lia.
Qed.

Lemma existsb_nth_false (m : list bool) i : existsb (fun b => b) m = false -> nth i m false = false.
Proof.
  revert i. induction m as [|b m IH]; intros [|i] H; cbn in *; try reflexivity.
  - destruct b; [discriminate|reflexivity].
  - apply IH. now apply orb_false_iff in H.
Qed.

Lemma iadd_cells s f s' : well_formed A s -> well_formed A f -> iadd A s f = Ok s' ->
  well_formed A s' /\ size A s' = size A s /\
  forall i, known A s' i = match known A s i, known A f i with Some x, Some y => Some (add A x y) | _, _ => None end.
Proof.
  intros Ws Wf H. unfold iadd in H. destruct (Nat.eqb_spec (size A s) (size A f)) as [S|]; [|discriminate]. cbn [negb] in H. cbv zeta in H.
  set (m := match mask A s, mask A f with None, None => None | None, Some m => if existsb (fun b => b) m then Some m else None
            | Some m, None => Some m | Some m1, Some m2 => Some (map2 orb m1 m2) end) in H.
  assert (MM : forall i, match m with None => false | Some m => nth i m false end = masked A s i || masked A f i).
  { intros i. unfold m, masked. unfold well_formed in Ws, Wf. destruct (mask A s) as [ms|], (mask A f) as [mf|].
    - rewrite !nth_nth_error, map2_nth_error. destruct (Nat.lt_ge_cases i (size A s)) as [I|I].
      + destruct (nth_error_lt ms i) as [x ->]; [lia|]. destruct (nth_error_lt mf i) as [y ->]; [lia|]. reflexivity.
      + assert (nth_error ms i = None) as -> by (apply nth_error_None; lia). assert (nth_error mf i = None) as -> by (apply nth_error_None; lia). reflexivity.
    - now rewrite orb_false_r.
    - destruct (existsb (fun b => b) mf) eqn:E; [reflexivity|]. symmetry. now apply existsb_nth_false.
    - reflexivity. }
  assert (ML : match m with None => True | Some m => List.length m = size A s end).
  { unfold m. unfold well_formed in Ws, Wf. destruct (mask A s) as [ms|], (mask A f) as [mf|]; try exact I.
    - rewrite map2_length; lia.
    - exact Ws.
    - destruct (existsb (fun b => b) mf); [lia|exact I]. }
  clearbody m. injection H as <-. unfold size in S.
  assert (SZ : List.length (match m with None => map2 (add A) (data A s) (data A f)
    | Some m => map2 (fun (b : bool) xy => if b then fst xy else add A (fst xy) (snd xy)) m (combine (data A s) (data A f)) end) = size A s).
  { destruct m as [m|]; [rewrite map2_length; [exact ML|]; rewrite combine_length; unfold size in ML; lia|]. apply map2_length. exact S. }
  split; [|split].
  - unfold well_formed, size at 1. cbn [mask data]. destruct m as [m|]; [|exact I]. rewrite SZ. exact ML.
  - exact SZ.
  - intros i. unfold known at 1. unfold masked at 1. cbn [mask data]. rewrite MM. unfold known.
    destruct (masked A s i) eqn:E1; [reflexivity|]. destruct (masked A f i) eqn:E2; [now destruct (nth_error (data A s) i)|]. cbn [orb].
    specialize (MM i). rewrite E1, E2 in MM. cbn [orb] in MM. destruct m as [m|].
    + rewrite map2_nth_error, combine_nth_error. rewrite nth_nth_error in MM. destruct (nth_error m i) as [b|] eqn:E.
      * rewrite MM. destruct (nth_error (data A s) i), (nth_error (data A f) i); reflexivity.
      * apply nth_error_None in E. unfold size in ML. assert (nth_error (data A s) i = None) as -> by (apply nth_error_None; lia). reflexivity.
    + apply map2_nth_error.
Qed.

Lemma square_wf f : well_formed A f -> well_formed A (square A f) /\ size A (square A f) = size A f.
Proof. intros W. unfold well_formed, square, size in *. cbn [mask data]. rewrite map_length. split; [exact W|reflexivity]. Qed.

Fixpoint accumulate (s : option (num A)) (l : list (option (num A))) : option (num A) :=
  match l with
  | [] => s
  | x :: l' => accumulate (match s, x with Some a, Some b => Some (add A a (mul A b b)) | _, _ => None end) l'
  end.

Lemma sum_cells d names : forall s s' fs,
  foldM (fun s name => do f <- get (d_variables A d) name; iadd A s (square A f)) s names = Ok s' ->
  well_formed A s -> Forall2 (fun name f => variable A d name f /\ well_formed A f) names fs ->
  well_formed A s' /\ size A s' = size A s /\ forall i, known A s' i = accumulate (known A s i) (map (fun f => known A f i) fs).
Proof.
  induction names as [|n names IH]; intros s s' fs H W F; inversion F as [|? f ? fs' [P Wf] F']; subst.
  - cbn in H. injection H as <-. split; [exact W|]. split; [reflexivity|]. reflexivity.
  - rewrite foldM_cons in H. unfold get in H at 1. unfold variable in P. rewrite P in H. cbn [bind] in H.
    destruct (iadd A s (square A f)) as [s1|] eqn:E; [|discriminate]. cbn [bind] in H.
    destruct (square_wf f Wf) as [W2 _]. destruct (iadd_cells _ _ _ W W2 E) as (W1 & S1 & K1).
    destruct (IH s1 s' fs' H W1 F') as (W' & S' & K'). split; [exact W'|]. split; [congruence|]. intros i. rewrite K', K1, known_square. cbn [map accumulate].
    destruct (known A s i), (known A f i); reflexivity.
Qed.

Lemma sum_total d names : forall s fs, well_formed A s -> size A s = cells ->
  Forall2 (fun name f => variable A d name f /\ well_formed A f /\ size A f = cells) names fs ->
  exists s', foldM (fun s name => do f <- get (d_variables A d) name; iadd A s (square A f)) s names = Ok s'.
Proof.
  induction names as [|n names IH]; intros s fs W S F; [eexists; reflexivity|].
  apply Forall2_cons_l in F. destruct F as (f & fs' & _ & (P & Wf & Sf) & F').
  rewrite foldM_cons. unfold get at 1. unfold variable in P. rewrite P. cbn [bind].
  destruct (square_wf f Wf) as [W2 S2]. destruct (iadd A s (square A f)) as [s1|] eqn:E.
  - cbn [bind]. destruct (iadd_cells _ _ _ W W2 E) as (W1 & S1 & _). apply (IH s1 fs' W1); [congruence|exact F'].
  - exfalso. unfold iadd in E. rewrite S2, Sf, S, Nat.eqb_refl in E. discriminate.
Qed.

Lemma zeros_wf : well_formed A (zeros A cells) /\ size A (zeros A cells) = cells.
Proof. unfold well_formed, size, zeros. cbn [mask data]. split; [exact I|apply repeat_length]. Qed.
Lemma zeros_known i : (i < cells)%nat -> known A (zeros A cells) i = Some (of_Q A 0).
Proof.
  intros H. unfold known, masked, zeros. cbn [mask data]. now apply nth_error_repeat.
Qed.

Lemma total_cells d names fs t : total d names = Ok t ->
  Forall2 (fun name f => variable A d name f /\ well_formed A f) names fs ->
  size A t = cells /\ forall i, (i < cells)%nat -> known A t i = option_map (root A) (accumulate (Some (of_Q A 0)) (map (fun f => known A f i) fs)).
Proof.
  unfold total. intros H F. destruct (foldM _ _ names) as [s|] eqn:E in H; [|discriminate]. cbn [bind] in H. injection H as <-.
  destruct (sum_cells d names _ s fs E (proj1 zeros_wf) F) as (W & S & K). split.
  - unfold size, sqrt_field. cbn [data]. rewrite map_length. rewrite (proj2 zeros_wf) in S. exact S.
  - intros i I. rewrite known_sqrt, K, zeros_known by exact I. reflexivity.
Qed.
Lemma total_total d names fs : Forall2 (fun name f => variable A d name f /\ well_formed A f /\ size A f = cells) names fs -> exists t, total d names = Ok t.
Proof.
  intros F. unfold total. destruct (sum_total d names (zeros A cells) fs (proj1 zeros_wf) (proj2 zeros_wf) F) as [s ->]. eexists. reflexivity.
Qed.

Lemma complete_fields d names all : complete A cells all d -> incl names all ->
  exists fs, Forall2 (fun name f => variable A d name f /\ well_formed A f /\ size A f = cells) names fs.
Proof.
  intros [_ C]. induction names as [|n names IH]; intros I; [exists []; constructor|].
  destruct (C n) as (f & P); [apply I; now left|]. destruct IH as (fs & F); [intros x X; apply I; now right|]. exists (f :: fs). now constructor.
Qed.

(* one intermediate file read by a mapping *)
Lemma mapping_ok d l all : complete A cells all d -> NoDup (map outputname l) ->
  (forall s, In s l -> match s with DayNumber => True | Copy _ i _ => In i all | TotalUncertainty _ ns => incl ns all end) ->
  exists r, read_fields A cells l d = Ok r /\
    (forall s, In s l -> exists v, value_of d s = Ok v /\ lookup (outputname s) r = Some v) /\
    (forall n, ~ In n (map outputname l) -> lookup n r = None).
Proof.
  intros C N H. destruct (read_total d l) with (r := @nil (string * value A)) as [r E].
  - intros s I. specialize (H s I). destruct s as [|o i c|o ns]; cbn [value_of].
    + destruct C as [T _]. destruct (d_time A d); [eauto|contradiction].
    + destruct C as [_ C]. destruct (C i H) as (f & P & _). unfold get. unfold variable in P. rewrite P. cbn [bind]. eauto.
    + destruct (complete_fields d ns all C H) as [fs F]. destruct (total_total d ns fs F) as [t ->]. cbn [bind]. eauto.
  - exists r. destruct (read_lookup d l [] r E N) as [I J]. split; [exact E|]. split; [exact I|exact J].
Qed.

End Fields.

(* ------------------------------------------------------------------ total uncertainties of real numbers *)
Lemma accumulate_reals (fs : list (field reals)) i : forall a : R,
  (accumulate reals (Some a) (map (fun f => known reals f i) fs) = None <-> Exists (fun f => known reals f i = None) fs) /\
  (forall x, accumulate reals (Some a) (map (fun f => known reals f i) fs) = Some x ->
     exists vals, Forall2 (fun f v => known reals f i = Some v) fs vals /\ x = (a + sum_of_squares vals)%R).
Proof.
  assert (NN : forall l, accumulate reals None l = None) by (induction l as [|y l IHl]; [reflexivity|exact IHl]).
  induction fs as [|f fs IH]; intros a; cbn [map accumulate].
  - split.
    + split; intros H; [discriminate|inversion H].
    + intros x H. exists []. split; [constructor|]. injection H as <-. unfold sum_of_squares. cbn [map fold_right]. lra.
  - destruct (known reals f i) as [v|] eqn:E.
    + destruct (IH (a + v * v)%R) as [I J]. split.
      * rewrite I. split; intros H; [now right|]. inversion H; subst; [congruence|assumption].
      * intros x H. destruct (J x H) as (vals & F & ->). exists (v :: vals). split; [now constructor|]. unfold sum_of_squares. cbn [map fold_right]. lra.
    + split.
      * rewrite NN. split; intros _; [now left|reflexivity].
      * intros x H. rewrite NN in H. discriminate.
Qed.

Lemma sum_of_squares_nonneg l : (0 <= sum_of_squares l)%R.
Proof. induction l as [|x l IH]; unfold sum_of_squares in *; cbn [map fold_right]; [lra|]. pose proof (Rle_0_sqr x). unfold Rsqr in H. lra. Qed.

Lemma total_reals cells d names fs t : total reals cells d names = Ok t ->
  Forall2 (fun name f => variable reals d name f /\ well_formed reals f) names fs ->
  size reals t = cells /\ forall i, (i < cells)%nat ->
    (known reals t i = None <-> Exists (fun f => known reals f i = None) fs) /\
    (forall x : R, known reals t i = Some x -> (0 <= x)%R /\ exists vals : list R, Forall2 (fun f v => known reals f i = Some v) fs vals /\ (x * x)%R = sum_of_squares vals).
Proof.
  intros H F. destruct (total_cells reals cells d names fs t H F) as [S K]. split; [exact S|]. intros i I. rewrite (K i I).
  destruct (accumulate_reals fs i (of_Q reals 0)) as [N V]. split.
  - rewrite <- N. destruct (accumulate reals _ _); cbn [option_map]; [|tauto]. split; discriminate.
  - intros x E. destruct (accumulate reals _ _) as [y|] eqn:Y; cbn [option_map] in E; [|discriminate].
    destruct (V y eq_refl) as (vals & G & ->). 
    assert (Z : of_Q reals 0 = 0%R) by (cbn; lra). rewrite Z, Rplus_0_l in E.
    pose proof (f_equal (fun o => match o with Some z => z | None => 0%R end) E) as X. cbv beta iota in X. subst x.
    pose proof (sum_of_squares_nonneg vals). change (root reals) with sqrt. split; [apply sqrt_pos|].
    exists vals. split; [exact G|]. now apply sqrt_sqrt.
Qed.

(* ------------------------------------------------------------------ dates *)
Lemma append_assoc (a b c : string) : ((a ++ b) ++ c = a ++ (b ++ c))%string.
Proof. induction a as [|x a IH]; cbn [append]; [reflexivity|]. now rewrite IH. Qed.
Lemma append_nil_r (a : string) : (a ++ "" = a)%string.
Proof. induction a as [|x a IH]; cbn [append]; [reflexivity|]. now rewrite IH. Qed.

Lemma digit_value_numeral c v : digit_value c = Some v -> numeral c.
Proof.
  unfold digit_value, numeral. cbv zeta. destruct ((48 <=? Z.of_nat (nat_of_ascii c))%Z && (Z.of_nat (nat_of_ascii c) <=? 57)%Z) eqn:E; [|discriminate].
  intros _. lia.
Qed.
Lemma take_numerals_inv n : forall s a b, take_numerals n s = Some (a, b) -> s = (a ++ b)%string /\ numerals n a.
Proof.
  induction n as [|n IH]; intros s a b H; cbn [take_numerals] in H.
  - injection H as <- <-. split; [reflexivity|exact I].
  - destruct s as [|c s]; [discriminate|]. destruct (digit_value c) as [v|] eqn:E; [|discriminate].
    destruct (take_numerals n s) as [[a' b']|] eqn:T; [|discriminate]. injection H as <- <-. destruct (IH _ _ _ T) as [-> N].
    split; [reflexivity|]. cbn [numerals]. split; [exact (digit_value_numeral c v E)|exact N].
Qed.
Lemma numeral_digit_value c : numeral c -> exists v, digit_value c = Some v.
Proof.
  unfold digit_value, numeral. intros H. cbv zeta. destruct ((48 <=? Z.of_nat (nat_of_ascii c))%Z && (Z.of_nat (nat_of_ascii c) <=? 57)%Z) eqn:E; [eauto|lia].
Qed.
Lemma take_numerals_app n : forall a b, numerals n a -> take_numerals n (a ++ b)%string = Some (a, b).
Proof.
  induction n as [|n IH]; intros a b H.
  - destruct a; [reflexivity|destruct H].
  - destruct a as [|c a]; [destruct H|]. cbn [numerals] in H. destruct H as [N H]. cbn [append take_numerals].
    destruct (numeral_digit_value c N) as [v ->]. now rewrite IH.
Qed.

(* a window of numerals cannot contain a character that is none *)
Lemma take_numerals_stop n : forall s c t, ~ numeral c -> take_numerals n s = None -> take_numerals n (s ++ String c t)%string = None.
Proof.
  induction n as [|n IH]; intros s c t N H; [discriminate|].
  destruct s as [|x s]; cbn [append take_numerals] in *.
  - destruct (digit_value c) as [v|] eqn:E; [|reflexivity]. exfalso. exact (N (digit_value_numeral c v E)).
  - destruct (digit_value x) as [v|]; [|reflexivity]. destruct (take_numerals n s) as [[a b]|] eqn:T; [discriminate|].
    now rewrite (IH s c t N T).
Qed.

Lemma dated_skip stem c t : ~ numeral c -> ~ eight_numerals_in stem -> forall x, dated_here (String x (stem ++ String c t))%string = None.
Proof.
  intros N E x. cbn [dated_here]. destruct (Ascii.eqb x NEWLINE); [reflexivity|].
  assert (take_numerals 8 stem = None) as T.
  { destruct (take_numerals 8 stem) as [[a b]|] eqn:T; [|reflexivity]. exfalso. apply E. apply take_numerals_inv in T. destruct T as [-> K]. exists "", a, b. split; [reflexivity|exact K]. }
  now rewrite (take_numerals_stop 8 stem c t N T).
Qed.

Lemma eight_tail x s : ~ eight_numerals_in (String x s) -> ~ eight_numerals_in s.
Proof. intros H (a & d & b & -> & N). apply H. exists (String x a), d, b. split; [reflexivity|exact N]. Qed.

Lemma search_dated stem c t m : ~ numeral c -> ~ eight_numerals_in stem -> dated_here (String c t) = Some m -> search dated_here (stem ++ String c t)%string = Some m.
Proof.
  intros N E H. induction stem as [|x stem IH]; [cbn [append search]; now rewrite H|].
  cbn [append]. assert (E' := eight_tail x stem E). change (search dated_here (String x (stem ++ String c t))) with
    (match dated_here (String x (stem ++ String c t)) with Some a => Some a | None => search dated_here (stem ++ String c t)%string end).
  rewrite (dated_skip stem c t N E' x). apply IH. exact E'.
Qed.

Lemma numerals_app n m : forall a b, numerals n a -> numerals m b -> numerals (n + m) (a ++ b)%string.
Proof.
  induction n as [|n IH]; intros a b H K.
  - destruct a; [exact K|destruct H].
  - destruct a as [|c a]; [destruct H|]. cbn [numerals append Nat.add] in *. destruct H as [H1 H2]. split; [exact H1|]. now apply IH.
Qed.
Lemma digit_numeral v : 0 <= v <= 9 -> numeral (digit v).
Proof. intros H. apply (digit_value_numeral (digit v) v). now apply digit_value_digit. Qed.
Lemma pad2_numerals v : numerals 2 (pad2 v).
Proof. unfold pad2. cbn [numerals]. split; [|split; [|exact I]]; apply digit_numeral; lia. Qed.
Lemma pad4_numerals v : numerals 4 (pad4 v).
Proof. unfold pad4. apply (numerals_app 2 2); apply pad2_numerals. Qed.

Lemma strptime_ok y m d : calendar_date y m d -> strptime_date (pad4 y ++ pad2 m ++ pad2 d)%string = Ok (midnight y m d).
Proof.
  intros (Y & M & D). assert (D31 : d <= 31) by (unfold days_in_month in D; repeat match type of D with context [if ?b then _ else _] => destruct b end; lia).
  unfold strptime_date.
  assert (match_fields [field_Y; field_m; field_d] (pad4 y ++ pad2 m ++ pad2 d)%string = Some ([y; m; d], EmptyString)) as ->.
  { eapply match_fields_cons; [apply field_Y_pad4; lia|].
    destruct (field_m_gives m) with (s := pad2 d) as [l1 E1]; [lia|]. eapply match_fields_cons; [exact E1|].
    destruct (field_d_gives d) with (s := "") as [l2 E2]; [lia|]. rewrite <- (append_nil_r (pad2 d)). eapply match_fields_cons; [exact E2|]. reflexivity. }
  unfold mk_datetime, midnight.
  match goal with |- (if ?b then _ else _) = _ => assert (b = true) as -> by lia end. f_equal. lia.
Qed.

Lemma read_date stem c x rest y m d : ~ numeral c -> c <> NEWLINE -> x <> NEWLINE -> ~ eight_numerals_in stem -> calendar_date y m d ->
  read_input_file_time (stem ++ String c (pad4 y ++ pad2 m ++ pad2 d ++ String x ("nc" ++ rest)))%string = Ok (midnight y m d).
Proof.
  intros N C X E D. unfold read_input_file_time.
  set (ds := (pad4 y ++ pad2 m ++ pad2 d)%string).
  assert (K : numerals 8 ds). { apply (numerals_app 4 4); [apply pad4_numerals|]. apply (numerals_app 2 2); apply pad2_numerals. }
  assert (R : (pad4 y ++ pad2 m ++ pad2 d ++ String x ("nc" ++ rest) = ds ++ String x ("nc" ++ rest))%string).
  { unfold ds. now rewrite !append_assoc. }
  rewrite R. rewrite (search_dated stem c _ (String c (ds ++ String x "nc"))%string N E).
  - change (search numerals_here (String c (ds ++ String x "nc")))%string with
      (match numerals_here (String c (ds ++ String x "nc")) with Some a => Some a | None => search numerals_here (ds ++ String x "nc")%string end)%string.
    assert (numerals_here (String c (ds ++ String x "nc")) = None)%string as ->.
    { unfold numerals_here. cbn [take_numerals]. destruct (digit_value c) as [v|] eqn:V; [|reflexivity]. exfalso. exact (N (digit_value_numeral c v V)). }
    assert (search numerals_here (ds ++ String x "nc")%string = Some ds) as ->.
    { assert (numerals_here (ds ++ String x "nc")%string = Some ds) as Q by (unfold numerals_here; now rewrite (take_numerals_app 8 ds _ K)).
      destruct (ds ++ String x "nc")%string; cbn [search]; now rewrite Q. }
    now apply strptime_ok.
  - cbn [dated_here]. destruct (Ascii.eqb_spec c NEWLINE); [contradiction|]. rewrite (take_numerals_app 8 ds _ K). cbn [append].
    destruct (Ascii.eqb_spec x NEWLINE); [contradiction|]. reflexivity.
Qed.

(* ------------------------------------------------------------------ runs *)
Lemma append_inj a b c : (a ++ b = a ++ c)%string -> b = c.
Proof. induction a as [|x a IH]; cbn [append]; intros H; [exact H|]. injection H as H. auto. Qed.

Section Runs.
Variable A : arithmetic.
Variable cells : nat.
Variable idl : model -> Z * Z * Z -> satellite -> result (dataset A).
Variable tempdir : string.
Variable temporary : nat -> string.
Hypothesis distinct : forall j k, temporary j = temporary k -> j = k.

Definition sat_date (i : satellite) : result (Z * Z * Z) :=
  do time <- read_input_file_time (fst (s_lst i));
  do timecheck <- read_input_file_time (snd (s_lst i));
  if negb (time =? timecheck)%Z then Err ValueError else Ok (dt_year time, dt_month time, dt_day time).

Lemma build_cons o os i is : build_entries (o :: os) (i :: is) =
  do date <- sat_date i; do rest <- build_entries os is;
  Ok ({| e_date := date; e_input := i; e_output_id := snd o; e_dir_output := fst o |} :: rest).
Proof.
  cbn [build_entries]. unfold sat_date. destruct (read_input_file_time (fst (s_lst i))) as [t|]; [|reflexivity]. cbn [bind].
  destruct (read_input_file_time (snd (s_lst i))) as [t'|]; [|reflexivity]. cbn [bind]. destruct (negb (t =? t')%Z); reflexivity.
Qed.

Definition names_from (a n : nat) : list (string * string) := map (fun k => (tempdir, temporary k)) (seq a n).
Definition is_entry (k : nat) (i : satellite) (e : entry) : Prop :=
  sat_date i = Ok (e_date e) /\ e_input e = i /\ e_output_id e = temporary k /\ e_dir_output e = tempdir.

Lemma build_ok is : forall a l, build_entries (names_from a (List.length is)) is = Ok l ->
  List.length l = List.length is /\ forall k i, nth_error is k = Some i -> exists e, nth_error l k = Some e /\ is_entry (a + k) i e.
Proof.
  induction is as [|i is IH]; intros a l H.
  - cbn in H. injection H as <-. split; [reflexivity|]. intros [|k] i K; discriminate.
  - cbn [List.length] in H. unfold names_from in H. cbn [seq map] in H. rewrite build_cons in H.
    destruct (sat_date i) as [date|] eqn:E; [|discriminate]. cbn [bind] in H.
    destruct (build_entries (map (fun k => (tempdir, temporary k)) (seq (S a) (List.length is))) is) as [l'|] eqn:B; [|discriminate]. cbn [bind snd fst] in H.
    injection H as <-. destruct (IH (S a) l' B) as [L K]. split; [cbn [List.length]; lia|]. intros [|k] j J; cbn [nth_error] in *.
    + injection J as <-. eexists. split; [reflexivity|]. rewrite Nat.add_0_r. unfold is_entry. cbn. auto.
    + destruct (K k j J) as (e & X & Y). exists e. split; [exact X|]. now replace (a + S k)%nat with (S a + k)%nat by lia.
Qed.
Lemma build_total is : (forall i, In i is -> exists d, sat_date i = Ok d) -> forall a, exists l, build_entries (names_from a (List.length is)) is = Ok l.
Proof.
  induction is as [|i is IH]; intros H a; [eexists; reflexivity|]. cbn [List.length]. unfold names_from. cbn [seq map]. rewrite build_cons.
  destruct (H i (or_introl eq_refl)) as [d ->]. cbn [bind]. destruct (IH (fun j J => H j (or_intror J)) (S a)) as [l B]. unfold names_from in B. rewrite B. eexists. reflexivity.
Qed.

Definition path (e : entry) : string := (e_dir_output e ++ e_output_id e)%string.

Lemma entries_ok m l : forall disk disk', run_entries A idl m l disk = Ok disk' -> NoDup (map path l) ->
  (forall e, In e l -> exists d, idl m (e_date e) (e_input e) = Ok d /\ lookup (path e) disk' = Some d) /\
  (forall n, ~ In n (map path l) -> lookup n disk' = lookup n disk).
Proof.
  induction l as [|e l IH]; intros disk disk' H N.
  - cbn in H. injection H as <-. split; [intros e []|reflexivity].
  - cbn [run_entries] in H. destruct (idl m (e_date e) (e_input e)) as [d|] eqn:E; [|discriminate]. cbn [bind] in H.
    cbn [map] in N. inversion N as [|? ? NI N']; subst. destruct (IH _ _ H N') as [I J]. split.
    + intros e' [<- | K]; [|exact (I e' K)]. exists d. split; [exact E|]. rewrite (J _ NI). apply lookup_put_same.
    + intros n K. rewrite (J n (fun X => K (or_intror X))). apply lookup_put_other. intros <-. apply K. now left.
Qed.
Lemma entries_total m l : (forall e, In e l -> exists d, idl m (e_date e) (e_input e) = Ok d) -> forall disk, exists disk', run_entries A idl m l disk = Ok disk'.
Proof.
  induction l as [|e l IH]; intros H disk; [eexists; reflexivity|]. cbn [run_entries]. destruct (H e (or_introl eq_refl)) as [d ->]. cbn [bind].
  apply IH. intros e' I. exact (H e' (or_intror I)).
Qed.

(* what one day needs from the IDL program *)
Definition intermediate (m : model) (i : satellite) : result (dataset A) := do date <- sat_date i; idl m date i.

Lemma paths_distinct is a l : build_entries (names_from a (List.length is)) is = Ok l -> NoDup (map path l).
Proof.
  intros H. destruct (build_ok is a l H) as [L K]. apply NoDup_nth_error. intros j k J E. rewrite map_length in J.
  rewrite !nth_error_map in E.
  destruct (nth_error_lt is j) as [ij Ij]; [lia|]. destruct (K j ij Ij) as (ej & Ej & _ & _ & Pj & Dj). rewrite Ej in E. cbn [option_map] in E.
  destruct (nth_error l k) as [ek|] eqn:Ek; [|discriminate]. assert (KL : (k < List.length l)%nat) by (apply nth_error_Some; congruence).
  destruct (nth_error_lt is k) as [ik Ik]; [lia|]. destruct (K k ik Ik) as (ek' & Ek' & _ & _ & Pk & Dk). rewrite Ek in Ek'. injection Ek' as <-.
  cbn [option_map] in E. injection E as E. unfold path in E. rewrite Dj, Dk, Pj, Pk in E. apply append_inj, distinct in E. lia.
Qed.

Lemma idl_ok m is disk : run_idl A idl m (names_from 0 (List.length is)) is = Ok disk ->
  forall k i, nth_error is k = Some i -> exists d, intermediate m i = Ok d /\ lookup (temporary_path tempdir temporary k) disk = Some d.
Proof.
  unfold run_idl. destruct (build_entries _ is) as [l|] eqn:B; [|discriminate]. cbn [bind]. intros H k i I.
  destruct (build_ok is 0 l B) as [_ K]. destruct (K k i I) as (e & E & D & X & P & Q).
  destruct (entries_ok m l [] disk H (paths_distinct is 0 l B)) as [J _]. destruct (J e (nth_error_In _ _ E)) as (d & Y & Z).
  exists d. unfold intermediate. rewrite D. cbn [bind]. rewrite <- X at 1. split; [rewrite X in *; exact Y|]. unfold path in Z. rewrite P, Q in Z. exact Z.
Qed.
Lemma idl_total m is : (forall i, In i is -> exists d, intermediate m i = Ok d) -> exists disk, run_idl A idl m (names_from 0 (List.length is)) is = Ok disk.
Proof.
  intros H. unfold run_idl. destruct (build_total is) with (a := 0%nat) as [l B].
  { intros i I. destruct (H i I) as [d E]. unfold intermediate in E. destruct (sat_date i); [eauto|discriminate]. }
  rewrite B. cbn [bind]. apply entries_total. intros e I. apply In_nth_error in I. destruct I as [k Ek].
  destruct (build_ok is 0 l B) as [L K]. assert (KL : (k < List.length l)%nat) by (apply nth_error_Some; congruence).
  destruct (nth_error_lt is k) as [i Ik]; [lia|]. destruct (K k i Ik) as (e' & Ek' & D & X & _). rewrite Ek in Ek'. injection Ek' as <-.
  destruct (H i (nth_error_In _ _ Ik)) as [d E]. unfold intermediate in E. rewrite D in E. cbn [bind] in E. rewrite X. eauto.
Qed.

(* the rest of a day, from its intermediate file *)
Definition rest_of_day (d : dataset A) (a : Z -> attributes) (main ancillary : string) : run A :=
  finish_day A cells [("", d)] "" a main ancillary.
Lemma finish_found disk name d a main anc : lookup name disk = Some d -> finish_day A cells disk name a main anc = rest_of_day d a main anc.
Proof. intros H. unfold rest_of_day, finish_day. rewrite H. reflexivity. Qed.

Definition satellite_of (x : daily_inputs) : satellite :=
  {| s_fvc := input_satellite_land_fvc x; s_dem := input_satellite_land_DEM x;
     s_mask := [input_satellite_land_mask_north x; input_satellite_land_mask_south x];
     s_snow := input_satellite_land_snow x; s_lst := (input_satellite_land_day x, input_satellite_land_night x) |}.
Definition percentage (x : daily_inputs) (n : Z) : attributes :=
  {| a_catalogue_id := catalogue_id x; a_institution := institution x; a_comment := Some (Percentage n) |}.
Definition number (x : daily_inputs) (n : Z) : attributes :=
  {| a_catalogue_id := catalogue_id x; a_institution := institution x; a_comment := Some (Number n) |}.

Lemma run_day_eq x : run_day A cells idl tempdir temporary x =
  match intermediate (model_of x) (satellite_of x) with
  | Err e => ([], Err e)
  | Ok d => rest_of_day d (percentage x) (output_main x) (output_ancillary x)
  end.
Proof.
  unfold run_day. fold (satellite_of x). change [(tempdir, temporary 0)] with (names_from 0 (List.length [satellite_of x])).
  destruct (run_idl A idl (model_of x) (names_from 0 (List.length [satellite_of x])) [satellite_of x]) as [disk|e] eqn:E.
  - destruct (idl_ok _ _ _ E 0%nat (satellite_of x) eq_refl) as (d & -> & L). now apply finish_found.
  - unfold run_idl, names_from in E. cbn [List.length seq map] in E. rewrite build_cons in E. unfold intermediate.
    destruct (sat_date (satellite_of x)) as [date|e']; [|cbn [bind] in *; congruence]. cbn [bind build_entries run_entries] in E |- *. cbn [e_date e_input] in E.
    destruct (idl (model_of x) date (satellite_of x)) as [d|e']; [discriminate|]. cbn [bind] in E. congruence.
Qed.

Lemma rest_number d x main anc : rest_of_day d (number x) main anc =
  (map (as_number A) (fst (rest_of_day d (percentage x) main anc)), snd (rest_of_day d (percentage x) main anc)).
Proof.
  unfold rest_of_day, finish_day. cbn [lookup]. rewrite String.eqb_refl. cbn [bind].
  destruct (read_fields A cells land_mapping d) as [f|]; [|reflexivity]. cbn [bind].
  destruct (post_process A VARIABLES_ANCILLARY_LAND f "LAND") as [f'|]; [|reflexivity]. cbn [bind].
  destruct (get f' COUNT) as [v|]; [|reflexivity]. cbn [bind]. destruct v as [n|n|g]; try reflexivity.
  unfold write_element. destruct (get f' DAYNUMBER) as [w|]; [|reflexivity]. cbn [bind]. destruct w as [k|k|g]; try reflexivity.
  destruct (present A f' PRIMARY_VARIABLES) as [p|]; [|reflexivity]. cbn [bind].
  destruct (present A f' VARIABLES_ANCILLARY_LAND) as [q|]; reflexivity.
Qed.

Definition day_alone (first x : daily_inputs) : run A := run_day A cells idl tempdir temporary (with_settings_of first x).
Definition sat_in (first x : daily_inputs) : satellite := satellite_of (with_settings_of first x).

Lemma run_multiple_eq first rest : run_multiple_days A cells idl tempdir temporary (first :: rest) =
  match run_idl A idl (model_of first) (names_from 0 (List.length (map (sat_in first) (first :: rest)))) (map (sat_in first) (first :: rest)) with
  | Err e => ([], Err e)
  | Ok disk => finish_days A cells tempdir temporary disk (number first) 0 (map (fun x => (output_main x, output_ancillary x)) (first :: rest))
  end.
Proof. unfold run_multiple_days. rewrite map_length. reflexivity. Qed.

Lemma day_alone_eq first x : day_alone first x =
  match intermediate (model_of first) (sat_in first x) with
  | Err e => ([], Err e)
  | Ok d => rest_of_day d (percentage first) (output_main x) (output_ancillary x)
  end.
Proof. unfold day_alone. rewrite run_day_eq. reflexivity. Qed.

(* the loop over the days, when every intermediate file is there *)
Lemma loop first disk : forall days a,
  (forall k x, nth_error days k = Some x -> exists d, intermediate (model_of first) (sat_in first x) = Ok d /\ lookup (temporary_path tempdir temporary (a + k)) disk = Some d) ->
  (forall f, In f (fst (finish_days A cells tempdir temporary disk (number first) a (map (fun x => (output_main x, output_ancillary x)) days))) ->
     exists x, In x days /\ In f (map (as_number A) (fst (day_alone first x)))) /\
  (forall files, finish_days A cells tempdir temporary disk (number first) a (map (fun x => (output_main x, output_ancillary x)) days) = (files, Ok tt) ->
     exists fss, Forall2 (fun x fs => day_alone first x = (fs, Ok tt)) days fss /\ files = map (as_number A) (List.concat fss)) /\
  (forall fss, Forall2 (fun x fs => day_alone first x = (fs, Ok tt)) days fss ->
     finish_days A cells tempdir temporary disk (number first) a (map (fun x => (output_main x, output_ancillary x)) days) = (map (as_number A) (List.concat fss), Ok tt)).
Proof.
  induction days as [|x days IH]; intros a H.
  - cbn [map finish_days fst]. split; [|split].
    + intros f [].
    + intros files E. assert (files = []) as -> by congruence. exists []. split; [constructor|reflexivity].
    + intros fss F. inversion F. reflexivity.
  - destruct (H 0%nat x eq_refl) as (d & I & L). rewrite Nat.add_0_r in L.
    destruct (IH (S a)) as (I1 & I2 & I3).
    { intros k y K. destruct (H (S k) y K) as (d' & X & Y). exists d'. split; [exact X|]. now replace (S a + k)%nat with (a + S k)%nat by lia. }
    pose proof (day_alone_eq first x) as DA. rewrite I in DA.
    cbn [map finish_days]. rewrite (finish_found disk _ d _ _ _ L), rest_number, <- DA.
    destruct (day_alone first x) as [written [[]|e]] eqn:DX; cbn [fst snd].
    + destruct (finish_days A cells tempdir temporary disk (number first) (S a) (map (fun x => (output_main x, output_ancillary x)) days)) as [later r]. split; [|split].
      * cbn [fst]. intros f J. apply in_app_or in J. destruct J as [J|J].
        { exists x. split; [now left|]. rewrite DX. exact J. }
        { destruct (I1 f J) as (y & Y1 & Y2). exists y. split; [now right|exact Y2]. }
      * intros files E. assert (r = Ok tt) as -> by congruence. assert (files = map (as_number A) written ++ later) as -> by congruence.
        destruct (I2 later eq_refl) as (fss & F & ->). exists (written :: fss). split; [now constructor|]. cbn [List.concat]. now rewrite map_app.
      * intros fss F. apply Forall2_cons_l in F. destruct F as (fs & fss' & -> & D & F). rewrite DX in D. assert (fs = written) as -> by congruence.
        pose proof (I3 fss' F) as E. assert (later = map (as_number A) (List.concat fss')) as -> by congruence. assert (r = Ok tt) as -> by congruence.
        cbn [List.concat]. now rewrite map_app.
    + split; [|split].
      * intros f J. exists x. split; [now left|]. rewrite DX. exact J.
      * intros files E. exfalso. congruence.
      * intros fss F. exfalso. apply Forall2_cons_l in F. destruct F as (fs & fss' & -> & D & F). congruence.
Qed.

Lemma multiple_ok first rest : let days := first :: rest in
  (forall f, In f (fst (run_multiple_days A cells idl tempdir temporary days)) -> exists x, In x days /\ In f (map (as_number A) (fst (day_alone first x)))) /\
  (forall files, run_multiple_days A cells idl tempdir temporary days = (files, Ok tt) ->
     exists fss, Forall2 (fun x fs => day_alone first x = (fs, Ok tt)) days fss /\ files = map (as_number A) (List.concat fss)) /\
  (forall fss, Forall2 (fun x fs => day_alone first x = (fs, Ok tt)) days fss ->
     run_multiple_days A cells idl tempdir temporary days = (map (as_number A) (List.concat fss), Ok tt)).
Proof.
  intros days. unfold days. rewrite run_multiple_eq. fold days.
  destruct (run_idl A idl (model_of first) (names_from 0 (List.length (map (sat_in first) days))) (map (sat_in first) days)) as [disk|e] eqn:E.
  - apply (loop first disk days 0). intros k x K. rewrite Nat.add_0_l. apply (idl_ok _ _ _ E). now rewrite nth_error_map, K.
  - split; [intros f []|]. split; [intros files H; exfalso; congruence|]. intros fss F. exfalso.
    destruct (idl_total (model_of first) (map (sat_in first) days)) as [disk D]; [|congruence].
    intros i I. apply in_map_iff in I. destruct I as (x & <- & I). apply In_nth_error in I. destruct I as [k K]. revert k K. clear E.
    induction F as [|y fs ys fss D F IH]; intros [|k] K; try discriminate; cbn [nth_error] in K.
    + injection K as <-. rewrite day_alone_eq in D. destruct (intermediate (model_of first) (sat_in first y)); [eauto|discriminate].
    + exact (IH k K).
Qed.

(* nothing is written when the dates of a day or the IDL program fail *)
Lemma multiple_refused first rest x e : In x (first :: rest) -> intermediate (model_of first) (sat_in first x) = Err e ->
  exists e', run_multiple_days A cells idl tempdir temporary (first :: rest) = ([], Err e').
Proof.
  intros I H. rewrite run_multiple_eq.
  destruct (run_idl A idl (model_of first) (names_from 0 (List.length (map (sat_in first) (first :: rest)))) (map (sat_in first) (first :: rest))) as [disk|e'] eqn:E; [|eauto].
  exfalso. apply In_nth_error in I. destruct I as [k K]. destruct (idl_ok _ _ _ E k (sat_in first x)) as (d & D & _); [now rewrite nth_error_map, K|]. congruence.
Qed.

End Runs.
