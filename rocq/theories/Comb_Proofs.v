(* Lemmas for the elements of the analysis. *)
From Coq Require Import QArith Qcanon.
From Verif Require Import Base Grid_Model Grid_Proofs Lin Ana_Model Ana_Spec Ana_Proofs Comb_Model Comb_Spec.
Local Open Scope nat_scope.
Local Open Scope list_scope.

(* ---- sizes *)

Lemma start_0 sizes : start sizes 0 = 0.
Proof. reflexivity. Qed.
Lemma start_S n sizes k : start (n :: sizes) (S k) = n + start sizes k.
Proof. reflexivity. Qed.
Lemma start_le sizes : forall k, k < length sizes -> start sizes k + size sizes k <= list_sum sizes.
Proof.
  induction sizes as [|n sizes IH]; intros k Hk; [cbn in Hk; lia|]. destruct k as [|k].
  - unfold start, size. cbn. lia.
  - rewrite start_S. cbn [length] in Hk. unfold size in *. cbn [nth list_sum fold_right]. specialize (IH k ltac:(lia)).
    change (fold_right Nat.add 0 sizes) with (list_sum sizes). lia.
Qed.
Lemma locate sizes : forall p, p < list_sum sizes -> exists k i, k < length sizes /\ i < size sizes k /\ p = start sizes k + i.
Proof.
  induction sizes as [|n sizes IH]; intros p Hp; [cbn in Hp; lia|].
  destruct (Nat.lt_ge_cases p n) as [H|H].
  - exists 0, p. split; [cbn; lia|]. split; [exact H|reflexivity].
  - cbn [list_sum fold_right] in Hp. destruct (IH (p - n)) as (k & i & Hk & Hi & E); [unfold list_sum; lia|].
    exists (S k), i. split; [cbn; lia|]. split; [exact Hi|]. rewrite start_S. lia.
Qed.
Lemma locate_unique sizes : forall k k' i i', k < length sizes -> k' < length sizes -> i < size sizes k -> i' < size sizes k' ->
  start sizes k + i = start sizes k' + i' -> k = k' /\ i = i'.
Proof.
  induction sizes as [|n sizes IH]; intros k k' i i' Hk Hk' Hi Hi' E; [cbn in Hk; lia|].
  unfold size in *. destruct k as [|k], k' as [|k']; rewrite ?start_0, ?start_S in E; cbn [nth length] in *.
  - lia.
  - lia.
  - lia.
  - destruct (IH k k' i i') as [-> ->]; try lia; split; reflexivity.
Qed.
Lemma sumn_parts sizes (f : nat -> Qc) :
  sumn (list_sum sizes) f = sumn (length sizes) (fun k => sumn (size sizes k) (fun j => f (start sizes k + j)%nat)).
Proof.
  revert f. induction sizes as [|n sizes IH]; intros f; [reflexivity|].
  change (list_sum (n :: sizes)) with (n + list_sum sizes). rewrite sumn_plus, IH.
  change (length (n :: sizes)) with (1 + length sizes). rewrite (sumn_plus 1). cbn [sumn].
  rewrite Qcplus_0_l. f_equal. apply sumn_ext. intros k Hk. cbn [Nat.add]. unfold size. cbn [nth]. apply sumn_ext. intros j Hj.
  f_equal. rewrite start_S. lia.
Qed.

(* ---- hyperparameters *)

Section HyperInd.
Variable P : hyper -> Prop.
Hypothesis Hcov : forall v, P (HCovariate v).
Hypothesis Hloc : forall a b, P (HLocal a b).
Hypothesis Hst : forall a b c, P (HSpaceTime a b c).
Hypothesis Hsea : forall vs, P (HSeasonal vs).
Hypothesis Hcomb : forall hs, Forall P hs -> P (HCombination hs).
Fixpoint hyper_induction (h : hyper) : P h :=
  match h with
  | HCovariate v => Hcov v
  | HLocal a b => Hloc a b
  | HSpaceTime a b c => Hst a b c
  | HSeasonal vs => Hsea vs
  | HCombination hs => Hcomb hs ((fix go hs : Forall P hs := match hs with [] => Forall_nil P | h :: hs => Forall_cons h (hyper_induction h) (go hs) end) hs)
  end.
End HyperInd.

Lemma get_combination hs : get_array (HCombination hs) = (do vs <- mapM get_array hs; hstack1 vs).
Proof.
  cbn [get_array]. f_equal. induction hs as [|h hs IH]; [reflexivity|]. cbn [mapM]. rewrite <- IH. reflexivity.
Qed.
Lemma complete_combination hs : complete (HCombination hs) <-> Forall complete hs /\ values (last hs (HCombination [])) <> [].
Proof.
  cbn [complete]. assert (H : (fix all (hs : list hyper) : Prop := match hs with [] => True | h :: hs => complete h /\ all hs end) hs <-> Forall complete hs).
  { induction hs as [|h hs IH]; [split; constructor|]. split.
    - intros [H1 H2]. constructor; [exact H1|apply IH, H2].
    - intros H. inversion H; subst. split; [assumption|apply IH; assumption]. }
  rewrite H. reflexivity.
Qed.
Lemma same_shape_combination xs ys : same_shape (HCombination xs) (HCombination ys) <-> Forall2 same_shape xs ys.
Proof.
  cbn [same_shape]. revert ys. induction xs as [|x xs IH]; intros [|y ys]; split; intros H; try constructor; try (inversion H; fail); try contradiction.
  - destruct H as [H _]. exact H.
  - destruct H as [_ H]. apply IH, H.
  - inversion H; subst. assumption.
  - inversion H; subst. apply IH. assumption.
Qed.

(* readable: no empty combination *)
Lemma get_complete h : complete h -> get_array h = Ok (values h).
Proof.
  induction h as [v|a b|a b c|vs|hs IH] using hyper_induction; try reflexivity.
  intros H. apply complete_combination in H. destruct H as [H Hl]. rewrite get_combination.
  assert (Hm : mapM get_array hs = Ok (map values hs)).
  { clear Hl. induction IH as [|h hs Hh _ IHl]; [reflexivity|]. inversion H; subst. cbn [mapM map]. rewrite Hh by assumption. cbn [bind].
    rewrite IHl by assumption. reflexivity. }
  rewrite Hm. cbn [bind]. destruct hs as [|h hs]; [exfalso; apply Hl; reflexivity|]. cbn [hstack1 map]. cbn [values]. rewrite flat_map_concat_map. reflexivity.
Qed.
Lemma same_shape_length : forall a b, same_shape a b -> length (values a) = length (values b).
Proof.
  induction a as [v|x y|x y z|vs|hs IH] using hyper_induction; intros [v'|x' y'|x' y' z'|vs'|hs']; cbn [same_shape]; try contradiction; try reflexivity; [intros H; exact H|].
  intros H. change (same_shape (HCombination hs) (HCombination hs')) in H. apply same_shape_combination in H. cbn [values].
  induction H as [|a b hs hs' Hab _ IHl]; [reflexivity|]. inversion IH; subst. cbn [flat_map]. rewrite !app_length, IHl by assumption. f_equal. auto.
Qed.
Lemma same_shape_complete : forall a b, same_shape a b -> complete a -> complete b.
Proof.
  induction a as [v|x y|x y z|vs|hs IH] using hyper_induction; intros [v'|x' y'|x' y' z'|vs'|hs']; intros Hs Hc; try contradiction; try exact I.
  apply same_shape_combination in Hs. apply complete_combination in Hc. apply complete_combination. destruct Hc as [Hc Hl]. split.
  - clear Hl. induction Hs as [|a b hs hs' Hab _ IHl]; [constructor|]. inversion IH; inversion Hc; subst. constructor; auto.
  - clear IH Hc. induction Hs as [|a b hs hs' Hab Hs IHl]; [exact Hl|]. destruct Hs as [|a2 b2 hs2 hs2' Hab2 Hs2].
    + cbn [last] in *. apply same_shape_length in Hab. intros E. apply Hl. rewrite E in Hab. destruct (values a); [reflexivity|discriminate].
    + cbn [last] in *. apply IHl, Hl.
Qed.
Lemma app_split {A} (a b c d : list A) : length a = length c -> a ++ b = c ++ d -> a = c /\ b = d.
Proof.
  revert c. induction a as [|x a IH]; intros [|y c] Hl H; try discriminate; [split; [reflexivity|exact H]|].
  cbn in *. injection H as -> H. destruct (IH c ltac:(lia) H) as [-> ->]. split; reflexivity.
Qed.
Lemma same_shape_inj : forall a b, same_shape a b -> values a = values b -> a = b.
Proof.
  induction a as [v|x y|x y z|vs|hs IH] using hyper_induction; intros [v'|x' y'|x' y' z'|vs'|hs'] Hs Hv; try contradiction; cbn [values] in Hv; try (congruence).
  apply same_shape_combination in Hs. f_equal. induction Hs as [|a b hs hs' Hab Hs IHl]; [reflexivity|]. inversion IH; subst.
  cbn [flat_map] in Hv. apply same_shape_length in Hab as Hlen. destruct (app_split _ _ _ _ Hlen Hv) as [E1 E2]. f_equal; auto.
Qed.

(* ranges *)
Fixpoint ranges_of (s : nat) (sizes : list nat) : list (list nat) :=
  match sizes with [] => [] | n :: sizes => seq s n :: ranges_of (s + n) sizes end.
Lemma ranges_from_ok hs : forall s rs, ranges_from s hs = Ok rs -> exists vs, mapM get_array hs = Ok vs /\ rs = ranges_of s (map (@length Qc) vs).
Proof.
  induction hs as [|h hs IH]; intros s rs H; [injection H as <-; exists []; split; reflexivity|].
  cbn [ranges_from] in H. destruct (get_array h) as [v|] eqn:E; [|discriminate]. cbn [bind] in H.
  destruct (ranges_from (s + length v) hs) as [r|] eqn:Er; [|discriminate]. cbn [bind] in H. injection H as <-.
  destruct (IH _ _ Er) as (vs & Hvs & ->). exists (v :: vs). split; [cbn [mapM]; rewrite E; cbn [bind]; rewrite Hvs; reflexivity|reflexivity].
Qed.
Lemma ranges_from_complete hs : Forall complete hs -> forall s, ranges_from s hs = Ok (ranges_of s (map (fun h => length (values h)) hs)).
Proof.
  induction 1 as [|h hs Hh Hhs IH]; intros s; [reflexivity|]. cbn [ranges_from map ranges_of]. rewrite (get_complete h Hh). cbn [bind].
  rewrite IH. reflexivity.
Qed.
Lemma ranges_of_concat sizes : forall s, concat (ranges_of s sizes) = seq s (list_sum sizes).
Proof.
  induction sizes as [|n sizes IH]; intros s; [reflexivity|]. cbn [ranges_of concat]. rewrite IH.
  change (list_sum (n :: sizes)) with (n + list_sum sizes). rewrite seq_app. reflexivity.
Qed.
Lemma ranges_of_nth sizes : forall s k, k < length sizes -> nth_error (ranges_of s sizes) k = Some (seq (s + start sizes k) (size sizes k)).
Proof.
  induction sizes as [|n sizes IH]; intros s k Hk; [cbn in Hk; lia|]. destruct k as [|k].
  - cbn. unfold start, size. cbn. rewrite Nat.add_0_r. reflexivity.
  - cbn [ranges_of nth_error length] in *. rewrite IH by lia. rewrite start_S, Nat.add_assoc. reflexivity.
Qed.
Lemma ranges_of_length sizes : forall s, length (ranges_of s sizes) = length sizes.
Proof. induction sizes as [|n sizes IH]; intros s; [reflexivity|]. cbn. rewrite IH. reflexivity. Qed.
Lemma last_index_ranges sizes : forall s, last sizes 0 <> 0 -> last_index (ranges_of s sizes) = Some (s + list_sum sizes - 1).
Proof.
  induction sizes as [|n sizes IH] using rev_ind; intros s H; [cbn in H; congruence|]. rewrite last_last in H.
  assert (Hr : forall l s, ranges_of s (l ++ [n]) = ranges_of s l ++ [seq (s + list_sum l) n]).
  { induction l as [|m l IHl]; intros s0; [cbn; rewrite Nat.add_0_r; reflexivity|]. cbn [app ranges_of]. rewrite IHl.
    change (list_sum (m :: l)) with (m + list_sum l). rewrite Nat.add_assoc. reflexivity. }
  rewrite Hr. unfold last_index. rewrite rev_app_distr. cbn [rev app].
  destruct n as [|n]; [congruence|]. rewrite seq_S, rev_app_distr. cbn [rev app]. f_equal.
  rewrite list_sum_app. cbn. lia.
Qed.
Lemma pick_seq vs s n : s + n <= length vs -> pick vs (seq s n) = firstn n (skipn s vs).
Proof.
  revert s. induction n as [|n IH]; intros s H; [reflexivity|]. cbn [seq]. unfold pick in *. cbn [map]. rewrite IH by lia.
  unfold vnth. clear IH. revert s H. induction vs as [|v vs IH]; intros s H; [cbn in H; lia|]. destruct s as [|s].
  - reflexivity.
  - cbn [nth skipn]. cbn [skipn length] in *. change (skipn (S (S s)) (v :: vs)) with (skipn (S s) vs). apply IH. lia.
Qed.

(* the loop of set_array *)
Definition set_loop (vs : vec) : list hyper -> list (list nat) -> list hyper * option err :=
  fix go (hs : list hyper) (rs : list (list nat)) : list hyper * option err :=
   match hs, rs with
   | h :: hs, r :: rs =>
       let (h', e) := set_array h (pick vs r) in
       match e with
       | Some _ => (h' :: hs, e)
       | None => let (hs', e') := go hs rs in (h' :: hs', e')
       end
   | hs, _ => (hs, None)
   end.
Lemma set_combination hs vs : set_array (HCombination hs) vs =
  match get_element_ranges hs with
  | Err e => (HCombination hs, Some e)
  | Ok rs => match last_index rs with
             | None => (HCombination hs, Some IndexError)
             | Some n => if length vs =? n + 1 then let (hs', e) := set_loop vs hs rs in (HCombination hs', e)
                         else (HCombination hs, Some ValueError)
             end
  end.
Proof. reflexivity. Qed.
Lemma last_map {A B} (f : A -> B) l d e : l <> [] -> last (map f l) e = f (last l d).
Proof. induction l as [|a l IH]; [congruence|]. intros _. destruct l as [|b l]; [reflexivity|]. cbn [map last] in *. apply IH. discriminate. Qed.
Lemma flat_map_size (hs : list hyper) : list_sum (map (fun h => length (values h)) hs) = length (flat_map values hs).
Proof. induction hs as [|h hs IH]; [reflexivity|]. cbn [flat_map]. rewrite app_length, <- IH. reflexivity. Qed.
Lemma set_combination_complete hs vs : complete (HCombination hs) ->
  set_array (HCombination hs) vs =
    if length vs =? length (values (HCombination hs)) then
      let (hs', e) := set_loop vs hs (ranges_of 0 (map (fun h => length (values h)) hs)) in (HCombination hs', e)
    else (HCombination hs, Some ValueError).
Proof.
  intros H. apply complete_combination in H. destruct H as [H Hl]. rewrite set_combination. unfold get_element_ranges.
  rewrite (ranges_from_complete hs H). rewrite last_index_ranges.
  - assert (Hpos : length (values (HCombination hs)) <> 0).
    { cbn [values]. destruct hs as [|h0 hs0]; [exfalso; apply Hl; reflexivity|].
      destruct (exists_last (l := h0 :: hs0) ltac:(discriminate)) as (hs1 & h1 & E). rewrite E in *. rewrite last_last in Hl.
      rewrite flat_map_app, app_length. cbn [flat_map]. rewrite app_nil_r. destruct (values h1); [congruence|cbn; lia]. }
    cbn [values] in *. rewrite flat_map_size. replace (0 + length (flat_map values hs) - 1 + 1) with (length (flat_map values hs)) by lia.
    reflexivity.
  - destruct hs as [|h0 hs0]; [exfalso; apply Hl; reflexivity|].
    rewrite (last_map (fun h => length (values h)) (h0 :: hs0) (HCombination [])) by discriminate.
    destruct (values (last (h0 :: hs0) (HCombination []))); [congruence|discriminate].
Qed.

Lemma firstn_skipn_plus {A} (l : list A) s n : firstn n (skipn s l) ++ skipn (s + n) l = skipn s l.
Proof.
  revert s. induction l as [|a l IH]; intros s; [rewrite !skipn_nil, firstn_nil; reflexivity|].
  destruct s as [|s]; [apply (firstn_skipn n (a :: l))|]. cbn [skipn Nat.add]. apply IH.
Qed.

Definition settable (h : hyper) : Prop := complete h -> forall vs, length vs = length (values h) ->
  exists h', set_array h vs = (h', None) /\ values h' = vs /\ same_shape h h'.
Lemma set_loop_ok vs : forall hs s, Forall settable hs -> Forall complete hs -> s + list_sum (map (fun h => length (values h)) hs) = length vs ->
  exists hs', set_loop vs hs (ranges_of s (map (fun h => length (values h)) hs)) = (hs', None) /\
    flat_map values hs' = skipn s vs /\ Forall2 same_shape hs hs' /\
    forall k h, nth_error hs k = Some h -> exists h', nth_error hs' k = Some h' /\
      values h' = firstn (length (values h)) (skipn (s + start (map (fun h => length (values h)) hs) k) vs).
Proof.
  induction hs as [|h hs IH]; intros s Hset Hc Hlen.
  - exists []. cbn in *. split; [reflexivity|]. split; [rewrite skipn_all2 by lia; reflexivity|]. split; [constructor|]. intros [|k] h H; discriminate.
  - inversion Hset as [|? ? Hh Hhs]; inversion Hc as [|? ? Ch Chs]; subst. cbn [map] in *. 
    change (list_sum (length (values h) :: map (fun h => length (values h)) hs))
      with (length (values h) + list_sum (map (fun h => length (values h)) hs)) in Hlen.
    cbn [ranges_of]. unfold set_loop at 1. fold (set_loop vs). cbn iota.
    rewrite pick_seq by lia.
    destruct (Hh Ch (firstn (length (values h)) (skipn s vs))) as (h' & H1 & H2 & H3).
    { rewrite firstn_length, skipn_length. lia. }
    rewrite H1. destruct (IH (s + length (values h)) Hhs Chs ltac:(lia)) as (hs' & L1 & L2 & L3 & L4). rewrite L1.
    exists (h' :: hs'). split; [reflexivity|]. split; [|split].
    + cbn [flat_map]. rewrite H2, L2. apply firstn_skipn_plus.
    + constructor; assumption.
    + intros [|k] h0 Hk; cbn [nth_error] in *.
      * injection Hk as <-. exists h'. split; [reflexivity|]. rewrite start_0, Nat.add_0_r. exact H2.
      * destruct (L4 k h0 Hk) as (x & X1 & X2). exists x. split; [exact X1|]. rewrite start_S, Nat.add_assoc. exact X2.
Qed.
Lemma all_settable h : settable h.
Proof.
  induction h as [v|a b|a b c|ws|hs IH] using hyper_induction; intros Hc vs Hlen; cbn [values length] in Hlen.
  - destruct vs as [|x [|? ?]]; try discriminate. exists (HCovariate x). split; [reflexivity|]. split; [reflexivity|exact I].
  - destruct vs as [|x [|y [|? ?]]]; try discriminate. exists (HLocal x y). split; [reflexivity|]. split; [reflexivity|exact I].
  - destruct vs as [|x [|y [|z [|? ?]]]]; try discriminate. exists (HSpaceTime x y z). split; [reflexivity|]. split; [reflexivity|exact I].
  - exists (HSeasonal vs). split; [reflexivity|]. split; [reflexivity|]. cbn. lia.
  - rewrite (set_combination_complete hs vs Hc). cbn [values]. rewrite Hlen, Nat.eqb_refl.
    pose proof Hc as Hc'. apply complete_combination in Hc'. destruct Hc' as [Hcs _].
    destruct (set_loop_ok vs hs 0 IH Hcs) as (hs' & L1 & L2 & L3 & _).
    { rewrite flat_map_size. cbn. lia. }
    rewrite L1. exists (HCombination hs'). split; [reflexivity|]. split; [exact L2|]. apply same_shape_combination. exact L3.
Qed.

(* ---- designs *)

Lemma part_length sizes k x : length (part sizes k x) = size sizes k.
Proof. apply tab_length. Qed.
Lemma part_S n sizes k x : part (n :: sizes) (S k) x = part sizes k (skipn n x).
Proof.
  unfold part. change (size (n :: sizes) (S k)) with (size sizes k). apply tab_ext. intros j Hj. rewrite start_S. unfold vnth.
  rewrite <- Nat.add_assoc. generalize (start sizes k + j) as q. intros q. revert n. induction x as [|a x IH]; intros n.
  - rewrite skipn_nil. rewrite !nth_overflow by (cbn; lia). reflexivity.
  - destruct n as [|n]; [reflexivity|]. cbn [Nat.add nth skipn]. apply IH.
Qed.
Lemma part_0 n sizes x : n <= length x -> part (n :: sizes) 0 x = firstn n x.
Proof.
  intros H. unfold part, start, size. cbn [firstn list_sum fold_right nth]. apply vec_ext.
  - rewrite tab_length, firstn_length. lia.
  - rewrite tab_length. intros k Hk. rewrite vnth_tab by lia. cbn [Nat.add]. unfold vnth. symmetry.
    revert k x H Hk. induction n as [|n IH]; intros [|k] [|a x] H Hk; cbn in *; try lia; try reflexivity. apply IH; lia.
Qed.
Lemma split_state_parts dims : forall x, length x = list_sum dims -> split_state dims x = tab (length dims) (fun k => part dims k x).
Proof.
  induction dims as [|n dims IH]; intros x Hx; [reflexivity|].
  change (list_sum (n :: dims)) with (n + list_sum dims) in Hx.
  cbn [split_state length]. rewrite IH by (rewrite skipn_length; lia). unfold tab. cbn [seq map]. f_equal.
  - symmetry. apply part_0. lia.
  - rewrite <- seq_shift, map_map. apply map_ext. intros k. symmetry. apply part_S.
Qed.
Lemma split_state_concat dims : forall x, length x = list_sum dims -> concat (split_state dims x) = x.
Proof.
  induction dims as [|n dims IH]; intros x Hx; [destruct x; [reflexivity|discriminate]|].
  change (list_sum (n :: dims)) with (n + list_sum dims) in Hx. cbn [split_state concat].
  rewrite IH by (rewrite skipn_length; lia). apply firstn_skipn.
Qed.

Definition hcols (m : nat) (ms : list matrix) : matrix :=
  fold_right (fun a b => {| m_rows := m; m_cols := m_cols a + m_cols b;
                            m_at := fun i j => if j <? m_cols a then m_at a i j else m_at b i (j - m_cols a) |})
             {| m_rows := m; m_cols := 0; m_at := fun _ _ => 0%Qc |} ms.
Lemma hstack_ok m ms : ms <> [] -> Forall (fun M => m_rows M = m) ms -> hstack ms = Ok (hcols m ms).
Proof.
  intros Hne H. destruct ms as [|M ms]; [congruence|]. pose proof H as H'. inversion H' as [|? ? E _]; subst. unfold hstack.
  rewrite (proj2 (forallb_forall _ (M :: ms))); [reflexivity|]. intros N HN. rewrite Forall_forall in H. rewrite (H N HN). apply Nat.eqb_refl.
Qed.
Lemma hcols_rows m ms : m_rows (hcols m ms) = m.
Proof. destruct ms; reflexivity. Qed.
Lemma hcols_cols m ms : m_cols (hcols m ms) = list_sum (map m_cols ms).
Proof. induction ms as [|M ms IH]; [reflexivity|]. cbn [hcols fold_right m_cols map]. fold (hcols m ms). rewrite IH. reflexivity. Qed.
Lemma hcols_at m ms : forall k M i j, nth_error ms k = Some M -> j < m_cols M -> m_at (hcols m ms) i (start (map m_cols ms) k + j) = m_at M i j.
Proof.
  induction ms as [|N ms IH]; intros [|k] M i j Hk Hj; try discriminate; cbn [nth_error] in Hk.
  - injection Hk as ->. cbn [map]. rewrite start_0. cbn [hcols fold_right m_at Nat.add]. rewrite (proj2 (Nat.ltb_lt _ _) Hj). reflexivity.
  - cbn [map]. rewrite start_S. cbn [hcols fold_right m_at]. fold (hcols m ms).
    replace (m_cols N + start (map m_cols ms) k + j <? m_cols N) with false by (symmetry; apply Nat.ltb_ge; lia).
    replace (m_cols N + start (map m_cols ms) k + j - m_cols N) with (start (map m_cols ms) k + j) by lia. apply IH; assumption.
Qed.

Lemma mdot_ok A x : length x = m_cols A -> mdot A x = Ok (tab (m_rows A) (times A x)).
Proof. intros H. unfold mdot. rewrite H, Nat.eqb_refl. reflexivity. Qed.
Lemma mdot_refused A x : length x <> m_cols A -> mdot A x = Err ValueError.
Proof. intros H. unfold mdot. rewrite (proj2 (Nat.eqb_neq _ _)) by congruence. reflexivity. Qed.

Lemma linear_design_ok A : design_ok (m_rows A) (linear_design A)
  (fun r x => tab (m_rows A) (times (if r then mabs A else A) x)) (fun _ => A).
Proof.
  split.
  - intros r x Hx. cbn in *. unfold linear_function. rewrite mdot_ok by (destruct r; exact Hx). destruct r; reflexivity.
  - intros r x. apply tab_length.
  - reflexivity.
  - intros x. split; reflexivity.
  - discriminate.
Qed.


Lemma foldM_vadd m : forall (vs : list vec) (a : vec), length a = m -> Forall (fun v => length v = m) vs ->
  foldM vadd a vs = Ok (tab m (fun i => vnth a i + sumn (length vs) (fun k => vnth (nth k vs []) i))%Qc).
Proof.
  induction vs as [|v vs IH]; intros a Ha Hvs.
  - cbn [foldM]. f_equal. rewrite (vec_tab a m Ha) at 1. apply tab_ext. intros i _. cbn. ring.
  - apply Forall_cons_iff in Hvs. destruct Hvs as [Hv Hvs']. cbn [foldM].
    assert (E : vadd a v = Ok (tab m (fun k => vnth a k + vnth v k)%Qc)).
    { rewrite (vec_tab a m Ha) at 1. rewrite (vec_tab v m Hv) at 1. apply vadd_tab. }
    rewrite E. cbn [bind]. rewrite IH by (try apply tab_length; assumption).
    f_equal. apply tab_ext. intros i Hi. rewrite vnth_tab by exact Hi. cbn [length]. change (S (length vs)) with (1 + length vs).
    rewrite sumn_plus. cbn [sumn nth Nat.add]. ring.
Qed.

(* The function and the Jacobian of a combination of pieces. *)
Definition sum_function (m : nat) (ps : list piece) (r : bool) (x : vec) : vec :=
  tab m (fun i => sumn (length ps) (fun k => match nth_error ps k with
                                             | Some p => vnth (pc_function p r (part (dims ps) k x)) i
                                             | None => 0%Qc end)).
Fixpoint side_by_side (m : nat) (ps : list piece) (x : option vec) : list matrix :=
  match ps with
  | [] => []
  | p :: ps => pc_jacobian p (option_map (firstn (d_dim (pc_design p))) x) ::
               side_by_side m ps (option_map (skipn (d_dim (pc_design p))) x)
  end.
Fixpoint summands (ps : list piece) (r : bool) (x : vec) : list vec :=
  match ps with
  | [] => []
  | p :: ps => pc_function p r (firstn (d_dim (pc_design p)) x) :: summands ps r (skipn (d_dim (pc_design p)) x)
  end.
Lemma dims_cons p ps : dims (p :: ps) = d_dim (pc_design p) :: dims ps.
Proof. reflexivity. Qed.
Lemma list_sum_cons n l : list_sum (n :: l) = n + list_sum l.
Proof. reflexivity. Qed.
Lemma functions_run m : forall ps r x, Forall (piece_ok m) ps -> length x = list_sum (dims ps) ->
  mapM (fun dx => d_function2 (fst dx) (snd dx) r) (combine (map pc_design ps) (split_state (map d_dim (map pc_design ps)) x)) =
  Ok (summands ps r x).
Proof.
  induction ps as [|p ps IH]; intros r x H Hx; [reflexivity|]. apply Forall_cons_iff in H. destruct H as [Hp Hps].
  rewrite dims_cons, list_sum_cons in Hx. cbn [map split_state combine mapM fst snd summands].
  rewrite (ok_function _ _ _ _ Hp) by (rewrite firstn_length; lia). cbn [bind].
  rewrite IH by (try assumption; rewrite skipn_length; lia). reflexivity.
Qed.
Lemma jacobians_run m : forall ps x, Forall (piece_ok m) ps -> (match x with Some x => length x = list_sum (dims ps) | None => True end) ->
  mapM (fun dx => d_jacobian (fst dx) (snd dx)) (combine (map pc_design ps) (element_states (map pc_design ps) x)) =
  Ok (side_by_side m ps x).
Proof.
  induction ps as [|p ps IH]; intros x H Hx; [destruct x; reflexivity|]. apply Forall_cons_iff in H. destruct H as [Hp Hps].
  rewrite dims_cons, list_sum_cons in Hx. destruct x as [x|]; cbn [element_states map split_state combine mapM fst snd side_by_side option_map].
  - rewrite (ok_jacobian _ _ _ _ Hp) by (rewrite firstn_length; lia). cbn [bind].
    specialize (IH (Some (skipn (d_dim (pc_design p)) x)) Hps). cbn [element_states] in IH. rewrite IH by (rewrite skipn_length; lia). reflexivity.
  - rewrite (ok_jacobian _ _ _ _ Hp) by exact I. cbn [bind]. specialize (IH None Hps I). cbn [element_states] in IH. rewrite IH. reflexivity.
Qed.
Lemma summands_nth : forall ps r x k, length x = list_sum (dims ps) -> k < length ps ->
  nth k (summands ps r x) [] = match nth_error ps k with Some p => pc_function p r (part (dims ps) k x) | None => [] end.
Proof.
  induction ps as [|p ps IH]; intros r x k Hx Hk; [cbn in Hk; lia|]. rewrite dims_cons, list_sum_cons in Hx. destruct k as [|k]; cbn [summands nth nth_error].
  - rewrite dims_cons, part_0 by lia. reflexivity.
  - cbn [length] in Hk. rewrite IH by (try rewrite skipn_length; lia). rewrite dims_cons. destruct (nth_error ps k); [|reflexivity].
    rewrite part_S. reflexivity.
Qed.
Lemma summands_length ps : forall r x, length (summands ps r x) = length ps.
Proof. induction ps as [|p ps IH]; intros r x; [reflexivity|]. cbn. rewrite IH. reflexivity. Qed.
Lemma summands_lengths m ps : Forall (piece_ok m) ps -> forall r x, Forall (fun v => length v = m) (summands ps r x).
Proof.
  induction 1 as [|p ps Hp _ IH]; intros r x; [constructor|]. cbn [summands]. constructor; [apply (ok_length _ _ _ _ Hp)|apply IH].
Qed.
Lemma combination_function_ok m ps r x : ps <> [] -> Forall (piece_ok m) ps -> length x = list_sum (dims ps) ->
  combination_function (map pc_design ps) x r = Ok (sum_function m ps r x).
Proof.
  intros Hne Hps Hx. unfold combination_function. rewrite (functions_run m) by assumption. cbn [bind].
  pose proof (summands_lengths m ps Hps r x) as HL. pose proof (summands_length ps r x) as HN.
  assert (G : foldM vadd (zeros m) (summands ps r x) = Ok (sum_function m ps r x)).
  { rewrite (foldM_vadd m) by (try exact HL; apply repeat_length). f_equal. apply tab_ext. intros i Hi.
    replace (vnth (zeros m) i) with 0%Qc by (unfold zeros, vnth; rewrite nth_repeat; reflexivity). rewrite HN, Qcplus_0_l. apply sumn_ext. intros k Hk. rewrite summands_nth by assumption.
  destruct (nth_error ps k) eqn:Ek; [reflexivity|]. apply nth_error_None in Ek. lia. }
  destruct (summands ps r x) as [|v vs]; [destruct ps; [congruence|discriminate]|].
  apply Forall_cons_iff in HL. destruct HL as [-> _]. exact G.
Qed.
Lemma side_rows m ps : Forall (piece_ok m) ps -> forall x, Forall (fun M => m_rows M = m) (side_by_side m ps x).
Proof.
  induction 1 as [|p ps Hp _ IH]; intros x; [constructor|]. cbn [side_by_side]. constructor; [apply (ok_shape _ _ _ _ Hp)|apply IH].
Qed.
Lemma side_cols m ps : Forall (piece_ok m) ps -> forall x, map m_cols (side_by_side m ps x) = dims ps.
Proof.
  induction 1 as [|p ps Hp _ IH]; intros x; [reflexivity|]. cbn [side_by_side map]. rewrite IH, dims_cons. f_equal. apply (ok_shape _ _ _ _ Hp).
Qed.
Lemma side_nth m : forall ps x k p, (match x with Some x => length x = list_sum (dims ps) | None => True end) -> nth_error ps k = Some p ->
  nth_error (side_by_side m ps x) k = Some (pc_jacobian p (option_map (part (dims ps) k) x)).
Proof.
  induction ps as [|q ps IH]; intros x [|k] p Hx Hk; try discriminate; cbn [nth_error side_by_side] in *; rewrite dims_cons, ?list_sum_cons in *.
  - injection Hk as ->. destruct x as [x|]; [|reflexivity]. cbn [option_map]. rewrite part_0 by lia. reflexivity.
  - rewrite (IH _ k p); [|destruct x as [x|]; [cbn; rewrite skipn_length; lia|exact I]|exact Hk].
    destruct x as [x|]; [|reflexivity]. cbn [option_map]. rewrite part_S. reflexivity.
Qed.
Lemma combination_jacobian_ok m ps x : ps <> [] -> Forall (piece_ok m) ps -> (match x with Some x => length x = list_sum (dims ps) | None => True end) ->
  combination_jacobian (map pc_design ps) x = Ok (hcols m (side_by_side m ps x)).
Proof.
  intros Hne Hps Hx. unfold combination_jacobian. rewrite (jacobians_run m) by assumption. cbn [bind]. apply hstack_ok.
  - destruct ps; [congruence|discriminate].
  - apply side_rows, Hps.
Qed.
Lemma initial_length ps m : Forall (piece_ok m) ps -> length (combination_initial (map pc_design ps)) = list_sum (dims ps).
Proof.
  induction 1 as [|p ps Hp _ IH]; [reflexivity|]. unfold combination_initial in *. cbn [map flat_map]. rewrite app_length, IH, dims_cons, list_sum_cons. f_equal.
  destruct (d_nonlinear (pc_design p)) eqn:E; [apply (ok_initial _ _ _ _ Hp E)|apply repeat_length].
Qed.
Lemma combination_design_ok m ps : ps <> [] -> Forall (piece_ok m) ps ->
  design_ok m (combination_design (map pc_design ps)) (sum_function m ps) (fun x => hcols m (side_by_side m ps x)).
Proof.
  intros Hne Hps. assert (D : d_dim (combination_design (map pc_design ps)) = list_sum (dims ps)).
  { cbn. unfold dims. rewrite map_map. reflexivity. }
  split.
  - intros r x Hx. rewrite D in Hx. apply combination_function_ok; assumption.
  - intros r x. apply tab_length.
  - intros x Hx. apply combination_jacobian_ok; try assumption. destruct x; [rewrite <- D; exact Hx|exact I].
  - intros x. split; [apply hcols_rows|]. rewrite hcols_cols, D. f_equal. apply side_cols, Hps.
  - intros _. rewrite D. apply (initial_length ps m Hps).
Qed.
Definition initial_of (d : design) : vec := if d_nonlinear d then d_initial d else zeros (d_dim d).
Lemma initial_of_length m p : piece_ok m p -> length (initial_of (pc_design p)) = d_dim (pc_design p).
Proof.
  intros Hp. unfold initial_of. destruct (d_nonlinear (pc_design p)) eqn:E; [apply (ok_initial _ _ _ _ Hp E)|apply repeat_length].
Qed.
Lemma initial_part ps m : Forall (piece_ok m) ps -> forall k p, nth_error ps k = Some p ->
  part (dims ps) k (combination_initial (map pc_design ps)) = initial_of (pc_design p).
Proof.
  intros H k p Hk. change (combination_initial (map pc_design ps)) with (flat_map initial_of (map pc_design ps)). revert k p Hk.
  induction H as [|q ps Hq Hps IH]; intros [|k] p Hk; try discriminate; cbn [nth_error] in Hk; cbn [map flat_map]; rewrite dims_cons;
    pose proof (initial_of_length m q Hq) as L.
  - injection Hk as ->. revert L. generalize (initial_of (pc_design p)) as z. intros z L.
    generalize dependent (d_dim (pc_design p)). intros n L. subst n.
    rewrite part_0 by (rewrite app_length; lia). rewrite firstn_app, Nat.sub_diag, firstn_O, app_nil_r. apply firstn_all.
  - rewrite part_S, skipn_app, L, Nat.sub_diag. rewrite skipn_all2 by lia. apply (IH k p Hk).
Qed.
(* multiplying the combined Jacobian *)
Lemma hcols_times m ms dx i : times (hcols m ms) dx i =
  sumn (length ms) (fun k => times (nth k ms (empty_matrix 0)) (part (map m_cols ms) k dx) i).
Proof.
  unfold times at 1. rewrite hcols_cols, sumn_parts, map_length. apply sumn_ext. intros k Hk.
  destruct (nth_error ms k) as [M|] eqn:E; [|apply nth_error_None in E; lia].
  rewrite (nth_error_nth _ _ _ E). assert (S : size (map m_cols ms) k = m_cols M).
  { unfold size. rewrite (nth_indep _ 0 (m_cols (empty_matrix 0))) by (rewrite map_length; lia). rewrite map_nth, (nth_error_nth _ _ _ E). reflexivity. }
  rewrite S. unfold times. apply sumn_ext. intros j Hj. rewrite (hcols_at m ms k M i j E Hj). unfold part. rewrite vnth_tab by lia. reflexivity.
Qed.

(* ---- block diagonal matrices *)

Definition bd (ms : list matrix) : matrix :=
  fold_right (fun a b =>
      {| m_rows := m_rows a + m_rows b; m_cols := m_cols a + m_cols b;
         m_at := fun i j => if i <? m_rows a then (if j <? m_cols a then m_at a i j else 0%Qc)
                            else (if j <? m_cols a then 0%Qc else m_at b (i - m_rows a) (j - m_cols a)) |})
      {| m_rows := 0; m_cols := 0; m_at := fun _ _ => 0%Qc |} ms.
Lemma block_diag_ok ms : ms <> [] -> block_diag ms = Ok (bd ms).
Proof. destruct ms; [congruence|reflexivity]. Qed.
Lemma bd_rows ms : m_rows (bd ms) = list_sum (map m_rows ms).
Proof. induction ms as [|M ms IH]; [reflexivity|]. cbn [bd fold_right m_rows map]. fold (bd ms). rewrite IH. reflexivity. Qed.
Lemma bd_cols ms : Forall square ms -> m_cols (bd ms) = list_sum (map m_rows ms).
Proof.
  induction 1 as [|M ms HM _ IH]; [reflexivity|]. cbn [bd fold_right m_cols map]. fold (bd ms). rewrite IH, <- HM. reflexivity.
Qed.
Lemma bd_block ms : Forall square ms -> is_block_diagonal ms (bd ms).
Proof.
  intros Hs. split; [apply bd_rows|]. split; [apply bd_cols, Hs|].
  induction Hs as [|M ms HM Hs IH]; intros k l i j B Hk Hl Hi Hj; [cbn in Hl; lia|]. unfold square in HM. cbn [map] in *.
  cbn [bd fold_right m_at]. fold (bd ms). rewrite <- HM. destruct k as [|k], l as [|l]; rewrite ?start_0, ?start_S; unfold size in *; cbn [nth Nat.add Nat.eqb nth_error] in *.
  - injection Hk as ->. rewrite (proj2 (Nat.ltb_lt _ _) Hi), (proj2 (Nat.ltb_lt _ _) Hj). reflexivity.
  - rewrite (proj2 (Nat.ltb_lt _ _) Hi). replace (_ <? _) with false by (symmetry; apply Nat.ltb_ge; lia). reflexivity.
  - replace (_ + _ + i <? _) with false by (symmetry; apply Nat.ltb_ge; lia). rewrite (proj2 (Nat.ltb_lt _ _) Hj). reflexivity.
  - replace (_ + _ + i <? _) with false by (symmetry; apply Nat.ltb_ge; lia). replace (_ + _ + j <? _) with false by (symmetry; apply Nat.ltb_ge; lia).
    replace (m_rows M + start (map m_rows ms) k + i - m_rows M) with (start (map m_rows ms) k + i) by lia.
    replace (m_rows M + start (map m_rows ms) l + j - m_rows M) with (start (map m_rows ms) l + j) by lia.
    apply IH; try assumption. cbn [length] in Hl. lia.
Qed.
(* entries are determined by the blocks *)
Lemma block_entry blocks M a b : is_block_diagonal blocks M -> a < m_rows M -> b < m_cols M ->
  exists k l i j B, nth_error blocks k = Some B /\ l < length blocks /\ i < m_rows B /\ j < size (map m_rows blocks) l /\
    a = start (map m_rows blocks) k + i /\ b = start (map m_rows blocks) l + j /\ m_at M a b = if k =? l then m_at B i j else 0%Qc.
Proof.
  intros (Hr & Hc & He) Ha Hb. rewrite Hr in Ha. rewrite Hc in Hb.
  destruct (locate _ _ Ha) as (k & i & Hk & Hi & ->). destruct (locate _ _ Hb) as (l & j & Hl & Hj & ->).
  rewrite map_length in Hk, Hl. destruct (nth_error blocks k) as [B|] eqn:E; [|apply nth_error_None in E; lia].
  exists k, l, i, j, B. split; [exact E|]. split; [exact Hl|]. split.
  - unfold size in Hi. rewrite (nth_indep _ 0 (m_rows (empty_matrix 0))) in Hi by (rewrite map_length; lia).
    rewrite map_nth, (nth_error_nth _ _ _ E) in Hi. exact Hi.
  - split; [exact Hj|]. split; [reflexivity|]. split; [reflexivity|]. apply He; assumption.
Qed.

Lemma mapM_tab {A} (f : nat -> result A) (g : nat -> A) n : (forall k, k < n -> f k = Ok (g k)) -> mapM f (seq 0 n) = Ok (tab n g).
Proof.
  intros H. unfold tab. assert (G : forall l, Forall (fun k => k < n) l -> mapM f l = Ok (map g l)).
  { induction 1 as [|k l Hk _ IH]; [reflexivity|]. cbn [mapM map]. rewrite (H k Hk). cbn [bind]. rewrite IH. reflexivity. }
  apply G. apply Forall_forall. intros k Hk. apply in_seq in Hk. lia.
Qed.
Lemma in_range_seq p s n : in_range (Z.of_nat p) (seq s n) = (s <=? p) && (p <? s + n).
Proof.
  unfold in_range. destruct (existsb _ _) eqn:E; symmetry.
  - apply existsb_exists in E. destruct E as (k & Hk & E). apply in_seq in Hk. apply Z.eqb_eq in E. apply andb_true_iff. split; [apply Nat.leb_le|apply Nat.ltb_lt]; lia.
  - apply not_true_iff_false. intros H. apply andb_true_iff in H. destruct H as [H1 H2]. apply Nat.leb_le in H1. apply Nat.ltb_lt in H2.
    apply not_true_iff_false in E. apply E. apply existsb_exists. exists p. split; [apply in_seq; lia|apply Z.eqb_refl].
Qed.
Lemma in_range_negative z s n : (z < 0)%Z -> in_range z (seq s n) = false.
Proof.
  intros H. apply not_true_iff_false. intros E. apply existsb_exists in E. destruct E as (k & _ & E). apply Z.eqb_eq in E. lia.
Qed.
Lemma combine_seq_ranges sizes s : combine (seq 0 (length (ranges_of s sizes))) (ranges_of s sizes) =
  tab (length sizes) (fun k => (k, seq (s + start sizes k) (size sizes k))).
Proof.
  rewrite ranges_of_length. assert (E : ranges_of s sizes = tab (length sizes) (fun k => seq (s + start sizes k) (size sizes k))).
  { revert s. induction sizes as [|n sizes IH]; intros s; [reflexivity|]. cbn [ranges_of length]. rewrite IH. unfold tab. cbn [seq map]. f_equal.
    - rewrite start_0, Nat.add_0_r. reflexivity.
    - rewrite <- seq_shift, map_map. apply map_ext. intros k. rewrite start_S. unfold size. cbn [nth]. f_equal. lia. }
  rewrite E. unfold tab. generalize (seq 0 (length sizes)) as l. induction l as [|k l IH]; [reflexivity|]. cbn. rewrite IH. reflexivity.
Qed.

Lemma combination_derivative_eq hs ps z : Forall complete hs ->
  combination_derivative hs ps z =
  (do ms <- mapM (fun k => match nth_error ps k with
                           | None => Err IndexError
                           | Some p => if in_range z (seq (start (hsizes hs) k) (size (hsizes hs) k))
                                       then p_derivative p (z - Z.of_nat (hd 0%nat (seq (start (hsizes hs) k) (size (hsizes hs) k))))%Z
                                       else Ok (empty_matrix (p_dim p))
                           end) (seq 0 (length hs)); block_diag ms).
Proof.
  intros H. unfold combination_derivative, get_element_ranges. rewrite (ranges_from_complete hs H). cbn [bind].
  rewrite combine_seq_ranges. unfold hsizes. rewrite map_length. f_equal. unfold tab.
  generalize (seq 0 (length hs)) as l. induction l as [|k l IH]; [reflexivity|]. cbn [map mapM]. rewrite IH. reflexivity.
Qed.
Lemma derivative_blocks hs ps (D : nat -> nat -> matrix) : hs <> [] -> Forall complete hs -> length ps = length hs ->
  (forall k p, nth_error ps k = Some p -> forall i, i < size (hsizes hs) k -> p_derivative p (Z.of_nat i) = Ok (D k i)) ->
  forall k i, k < length hs -> i < size (hsizes hs) k ->
  combination_derivative hs ps (Z.of_nat (start (hsizes hs) k + i)) =
  Ok (bd (tab (length hs) (fun l => if l =? k then D k i else empty_matrix (p_dim (nth l ps (covariate_prior 0 0 0)))))).
Proof.
  intros Hne Hc Hl HD k i Hk Hi. rewrite (combination_derivative_eq hs ps _ Hc).
  rewrite (mapM_tab _ (fun l => if l =? k then D k i else empty_matrix (p_dim (nth l ps (covariate_prior 0 0 0))))).
  - cbn [bind]. apply block_diag_ok. destruct hs; [congruence|discriminate].
  - intros l Hll. destruct (nth_error ps l) as [p|] eqn:E; [|apply nth_error_None in E; lia]. rewrite in_range_seq.
    rewrite (nth_error_nth _ _ _ E). destruct (Nat.eqb_spec l k) as [->|Hn].
    + replace (_ && _) with true by (symmetry; apply andb_true_iff; split; [apply Nat.leb_le|apply Nat.ltb_lt]; lia).
      rewrite <- (HD k p E i Hi). f_equal. destruct (size (hsizes hs) k); [lia|]. cbn [seq hd]. lia.
    + destruct (_ && _) eqn:B; [|reflexivity]. exfalso. apply andb_true_iff in B. destruct B as [B1 B2]. apply Nat.leb_le in B1. apply Nat.ltb_lt in B2.
      destruct (locate_unique (hsizes hs) l k (start (hsizes hs) k + i - start (hsizes hs) l) i) as [? _]; try lia;
        unfold hsizes; rewrite ?map_length; lia.
Qed.
Lemma derivative_outside hs ps z : hs <> [] -> Forall complete hs -> length ps = length hs ->
  (z < 0 \/ Z.of_nat (list_sum (hsizes hs)) <= z)%Z ->
  combination_derivative hs ps z = Ok (bd (tab (length hs) (fun l => empty_matrix (p_dim (nth l ps (covariate_prior 0 0 0)))))).
Proof.
  intros Hne Hc Hl Hz. rewrite (combination_derivative_eq hs ps _ Hc).
  rewrite (mapM_tab _ (fun l => empty_matrix (p_dim (nth l ps (covariate_prior 0 0 0))))).
  - cbn [bind]. apply block_diag_ok. destruct hs; [congruence|discriminate].
  - intros l Hll. destruct (nth_error ps l) as [p|] eqn:E; [|apply nth_error_None in E; lia]. rewrite (nth_error_nth _ _ _ E).
    replace (in_range z _) with false; [reflexivity|]. symmetry. destruct Hz as [Hz|Hz]; [apply in_range_negative, Hz|].
    replace z with (Z.of_nat (Z.to_nat z)) by lia. rewrite in_range_seq. apply andb_false_iff. right. apply Nat.ltb_ge.
    pose proof (start_le (hsizes hs) l). unfold hsizes in *. rewrite map_length in *. lia.
Qed.

(* ---- replacing one parameter *)
Lemma replaced_length x p t : length (replaced x p t) = length x.
Proof. apply tab_length. Qed.
Lemma part_replaced sizes x k l i t : length x = list_sum sizes -> k < length sizes -> l < length sizes -> i < size sizes k ->
  part sizes l (replaced x (start sizes k + i) t) = if l =? k then replaced (part sizes k x) i t else part sizes l x.
Proof.
  intros Hx Hk Hl Hi. assert (HL := start_le sizes l Hl). unfold replaced at 1. unfold part at 1.
  destruct (Nat.eqb_spec l k) as [->|Hn].
  - unfold replaced. rewrite part_length. apply tab_ext. intros j Hj. rewrite vnth_tab by lia.
    destruct (Nat.eqb_spec (start sizes k + j) (start sizes k + i)), (Nat.eqb_spec j i); try lia; [reflexivity|].
    unfold part. rewrite vnth_tab by exact Hj. reflexivity.
  - apply tab_ext. intros j Hj. rewrite vnth_tab by lia.
    destruct (Nat.eqb_spec (start sizes l + j) (start sizes k + i)) as [E|E]; [|reflexivity].
    destruct (locate_unique sizes l k j i) as [? _]; try assumption. congruence.
Qed.

(* ---- Kronecker products *)
Lemma sumn_product na nb (f : nat -> Qc) : sumn (na * nb) f = sumn na (fun a => sumn nb (fun b => f (a * nb + b)%nat)).
Proof.
  induction na as [|na IH]; [reflexivity|]. cbn [sumn]. rewrite <- IH. change (S na * nb) with (nb + na * nb).
  rewrite (Nat.add_comm nb), sumn_plus. reflexivity.
Qed.
Lemma div_pair a b n : b < n -> (a * n + b) / n = a /\ (a * n + b) mod n = b.
Proof.
  intros H. rewrite (Nat.add_comm (a * n) b). rewrite Nat.div_add, Nat.mod_add by lia. rewrite Nat.div_small, Nat.mod_small by exact H. split; reflexivity.
Qed.
Lemma kron_times A B x t i : i < m_rows B ->
  times (kron A B) x (t * m_rows B + i) =
  sumn (m_cols A) (fun a => sumn (m_cols B) (fun b => m_at A t a * m_at B i b * vnth x (a * m_cols B + b))%Qc).
Proof.
  intros Hi. unfold times. cbn [kron m_cols]. rewrite sumn_product. apply sumn_ext. intros a Ha. apply sumn_ext. intros b Hb.
  cbn [kron m_at]. destruct (div_pair t i (m_rows B) Hi) as [-> ->]. destruct (div_pair a b (m_cols B) Hb) as [-> ->]. reflexivity.
Qed.
Lemma times_add A x y i : length x = m_cols A -> length y = m_cols A ->
  times A (tab (m_cols A) (fun j => vnth x j + vnth y j)%Qc) i = (times A x i + times A y i)%Qc.
Proof.
  intros Hx Hy. unfold times. rewrite <- sumn_add. apply sumn_ext. intros j Hj. rewrite vnth_tab by exact Hj. ring.
Qed.
Lemma vnth_firstn n x k : k < n -> vnth (firstn n x) k = vnth x k.
Proof. unfold vnth. revert n k. induction x as [|a x IH]; intros [|n] [|k] H; cbn; try lia; try reflexivity. apply IH. lia. Qed.
Lemma vnth_skipn n x k : vnth (skipn n x) k = vnth x (n + k).
Proof. unfold vnth. revert n. induction x as [|a x IH]; intros [|n]; cbn; try reflexivity; [destruct k; reflexivity|]. apply IH. Qed.

(* ---- seasonal *)
Lemma build_A_time_seasons b n sine cosine : build_A_time b n sine cosine = map (season_value sine cosine) (seasons b n).
Proof.
  unfold build_A_time, seasons. rewrite map_app. f_equal; [destruct b; reflexivity|].
  induction (seq 1 n) as [|k l IH]; [reflexivity|]. cbn [flat_map map app season_value]. rewrite IH. reflexivity.
Qed.
Lemma seasons_length b n : length (seasons b n) = n_spatial_components n b.
Proof.
  unfold seasons, n_spatial_components. rewrite app_length. assert (H : forall l, length (flat_map (fun k => [Sine k; Cosine k]) l) = 2 * length l).
  { induction l as [|k l IH]; [reflexivity|]. cbn [flat_map app length]. rewrite IH. lia. }
  rewrite H, seq_length. destruct b; cbn; lia.
Qed.
Lemma pairs_nth : forall n s j, s < 2 * n ->
  nth_error (flat_map (fun k => [Sine k; Cosine k]) (seq j n)) s = Some (if s mod 2 =? 0 then Sine (j + s / 2) else Cosine (j + s / 2)).
Proof.
  induction n as [|n IH]; intros s j Hs; [lia|]. cbn [seq flat_map app]. destruct s as [|[|s]].
  - cbn. rewrite Nat.add_0_r. reflexivity.
  - cbn. rewrite Nat.add_0_r. reflexivity.
  - cbn [nth_error]. rewrite IH by lia. replace (S (S s)) with (s + 1 * 2) by lia. rewrite Nat.mod_add, Nat.div_add by lia.
    replace (S j + s / 2) with (j + (s / 2 + 1)) by lia. reflexivity.
Qed.
Lemma season_position b n s x : nth_error (seasons b n) s = Some x ->
  harmonic_index_for_spatial_component b s = parameter_position b x.
Proof.
  intros H. assert (Hs : s < n_spatial_components n b) by (rewrite <- seasons_length; apply nth_error_Some; congruence).
  unfold n_spatial_components in Hs. unfold seasons in H. unfold harmonic_index_for_spatial_component, parameter_position. destruct b.
  - destruct s as [|s]; cbn [app nth_error] in H.
    + injection H as <-. reflexivity.
    + rewrite pairs_nth in H by lia. apply (f_equal (fun o => match o with Some v => v | None => x end)) in H; cbn beta iota in H; subst x. replace (S s + 1) with (s + 1 * 2) by lia. rewrite Nat.div_add by lia.
      clear; destruct (s mod 2 =? 0); cbn [order_of]; generalize (s / 2); intros; lia.
  - cbn [app] in H. rewrite pairs_nth in H by lia. apply (f_equal (fun o => match o with Some v => v | None => x end)) in H; cbn beta iota in H; subst x. rewrite Nat.add_0_r. clear; destruct (s mod 2 =? 0); cbn [order_of]; generalize (s / 2); intros; lia.
Qed.
Lemma season_order b n x : In x (seasons b n) -> parameter_position b x < n + (if b then 1 else 0).
Proof.
  unfold seasons, parameter_position. rewrite in_app_iff. intros [H|H].
  - destruct b; [|contradiction]. destruct H as [<-|[]]. cbn. lia.
  - apply in_flat_map in H. destruct H as (k & Hk & H). apply in_seq in Hk. destruct H as [<-|[<-|[]]]; cbn [order_of]; destruct b; lia.
Qed.

(* a factor element inside a combination *)
Lemma factor_in_combination m : forall before t s after r x, Forall (piece_ok m) before ->
  length x = list_sum (dims before) + list_sum (map d_dim (factor_design t s :: after)) ->
  combination_function (map pc_design before ++ factor_design t s :: after) x r = Err TypeError.
Proof.
  intros before t s after r x H Hx. unfold combination_function.
  assert (G : forall x, length x = list_sum (dims before) + list_sum (map d_dim (factor_design t s :: after)) ->
    mapM (fun dx => d_function2 (fst dx) (snd dx) r) (combine (map pc_design before ++ factor_design t s :: after)
      (split_state (map d_dim (map pc_design before ++ factor_design t s :: after)) x)) = Err TypeError).
  { clear x Hx. induction H as [|p ps Hp _ IH]; intros x Hx; [reflexivity|].
    rewrite dims_cons, list_sum_cons in Hx. cbn [map app split_state combine mapM fst snd].
    rewrite (ok_function _ _ _ _ Hp) by (rewrite firstn_length; lia). cbn [bind]. rewrite IH by (rewrite skipn_length; lia). reflexivity. }
  rewrite (G x Hx). reflexivity.
Qed.

(* ---- derivatives of block diagonal matrices *)
Lemma map_tab_rows c (B : nat -> matrix) n : (forall l, l < c -> m_rows (B l) = n l) -> map m_rows (tab c B) = tab c n.
Proof. intros H. unfold tab. rewrite map_map. apply map_ext_in. intros l Hl. apply in_seq in Hl. apply H. lia. Qed.
Lemma nth_error_tab {A} c (f : nat -> A) k : k < c -> nth_error (tab c f) k = Some (f k).
Proof.
  intros H. unfold tab. rewrite nth_error_map. rewrite (nth_error_nth' _ 0) by (rewrite seq_length; exact H).
  rewrite seq_nth by exact H. reflexivity.
Qed.
Lemma size_tab c n k : k < c -> size (tab c n) k = n k.
Proof. intros H. unfold size. apply tab_nth, H. Qed.
Lemma bd_entry c (B : nat -> matrix) n k l i j : (forall l, l < c -> m_rows (B l) = n l /\ m_cols (B l) = n l) ->
  k < c -> l < c -> i < n k -> j < n l ->
  m_at (bd (tab c B)) (start (tab c n) k + i) (start (tab c n) l + j) = if k =? l then m_at (B k) i j else 0%Qc.
Proof.
  intros H Hk Hl Hi Hj. assert (Hsq : Forall square (tab c B)).
  { apply Forall_forall. intros M HM. unfold tab in HM. apply in_map_iff in HM. destruct HM as (q & <- & Hq). apply in_seq in Hq.
    destruct (H q ltac:(lia)) as [H1 H2]. unfold square. congruence. }
  destruct (bd_block _ Hsq) as (_ & _ & G). rewrite (map_tab_rows c B n) in G by (intros q Hq; apply H, Hq).
  apply G; rewrite ?tab_length, ?size_tab; try assumption. apply nth_error_tab, Hk.
Qed.
Lemma bd_dims c (B : nat -> matrix) n : (forall l, l < c -> m_rows (B l) = n l /\ m_cols (B l) = n l) ->
  m_rows (bd (tab c B)) = list_sum (tab c n) /\ m_cols (bd (tab c B)) = list_sum (tab c n).
Proof.
  intros H. assert (Hsq : Forall square (tab c B)).
  { apply Forall_forall. intros M HM. unfold tab in HM. apply in_map_iff in HM. destruct HM as (q & <- & Hq). apply in_seq in Hq.
    destruct (H q ltac:(lia)) as [H1 H2]. unfold square. congruence. }
  rewrite bd_rows, bd_cols by exact Hsq. rewrite (map_tab_rows c B n) by (intros q Hq; apply H, Hq). split; reflexivity.
Qed.
Lemma bd_derivative isderiv c (B : nat -> Qc -> matrix) (DB : nat -> matrix) n t0 : notion_of_derivative isderiv ->
  (forall l t, l < c -> m_rows (B l t) = n l /\ m_cols (B l t) = n l) ->
  (forall l, l < c -> m_rows (DB l) = n l /\ m_cols (DB l) = n l) ->
  (forall l a b, l < c -> a < n l -> b < n l -> isderiv (fun t => m_at (B l t) a b) t0 (m_at (DB l) a b)) ->
  forall a b, a < list_sum (tab c n) -> b < list_sum (tab c n) ->
  isderiv (fun t => m_at (bd (tab c (fun l => B l t))) a b) t0 (m_at (bd (tab c DB)) a b).
Proof.
  intros [Hconst Hext] HB HDB Hd a b Ha Hb.
  destruct (locate _ _ Ha) as (k & i & Hk & Hi & ->). destruct (locate _ _ Hb) as (l & j & Hl & Hj & ->).
  rewrite tab_length in Hk, Hl. rewrite size_tab in Hi by exact Hk. rewrite size_tab in Hj by exact Hl.
  rewrite (bd_entry c DB n k l i j HDB Hk Hl Hi Hj).
  destruct (Nat.eqb_spec k l) as [->|Hn].
  - apply (Hext (fun t => m_at (B l t) i j)); [|apply Hd; assumption]. intros t.
    rewrite (bd_entry c (fun l => B l t) n l l i j (fun q => HB q t) Hl Hl Hi Hj), Nat.eqb_refl. reflexivity.
  - apply (Hext (fun _ => 0%Qc)); [|apply Hconst]. intros t.
    rewrite (bd_entry c (fun l => B l t) n k l i j (fun q => HB q t) Hk Hl Hi Hj), (proj2 (Nat.eqb_neq k l) Hn). reflexivity.
Qed.
Lemma replaced_at x p t k : k < length x -> vnth (replaced x p t) k = if k =? p then t else vnth x k.
Proof. intros H. unfold replaced. rewrite vnth_tab by exact H. reflexivity. Qed.
Lemma nth_error_vnth x k : k < length x -> nth_error x k = Some (vnth x k).
Proof. intros H. unfold vnth. apply nth_error_nth'. exact H. Qed.
Lemma tab_nonempty {A} c (f : nat -> A) : c <> 0 -> tab c f <> [].
Proof. destruct c; [congruence|discriminate]. Qed.

(* the blocks of the seasonal prior *)
Definition season_block (b : bool) (harmonics : vec) (Q : Qc -> Qc -> matrix) (s : nat) : matrix :=
  let k := harmonic_index_for_spatial_component b s in Q (vnth harmonics (2 * k)) (vnth harmonics (2 * k + 1)).
Lemma season_index_lt b n s : s < n_spatial_components n b -> 2 * harmonic_index_for_spatial_component b s + 1 < 2 * (n + (if b then 1 else 0)).
Proof. unfold n_spatial_components, harmonic_index_for_spatial_component. destruct b; intros H; lia. Qed.
Lemma seasonal_precision_ok (b : bool) n harmonics Q : n + (if b then 1 else 0) <> 0 -> 2 * (n + (if b then 1 else 0)) <= length harmonics ->
  seasonal_precision harmonics n b Q = Ok (bd (tab (n_spatial_components n b) (season_block b harmonics Q))).
Proof.
  intros Hn Hl. unfold seasonal_precision. rewrite (mapM_tab _ (season_block b harmonics Q)).
  - cbn [bind]. apply block_diag_ok, tab_nonempty. unfold n_spatial_components. destruct b; lia.
  - intros s Hs. pose proof (season_index_lt b n s Hs). unfold harmonic_parameters. rewrite !nth_error_vnth by lia. reflexivity.
Qed.
Lemma seasonal_derivative_ok (b : bool) n harmonics ns dQ p : n + (if b then 1 else 0) <> 0 -> 2 * (n + (if b then 1 else 0)) <= length harmonics ->
  seasonal_derivative harmonics n b ns dQ p =
  Ok (bd (tab (n_spatial_components n b) (fun s => if p / 2 =? harmonic_index_for_spatial_component b s then season_block b harmonics (dQ (p mod 2)) s else empty_matrix ns))).
Proof.
  intros Hn Hl. unfold seasonal_derivative. rewrite (mapM_tab _ (fun s => if p / 2 =? harmonic_index_for_spatial_component b s then season_block b harmonics (dQ (p mod 2)) s else empty_matrix ns)).
  - cbn [bind]. apply block_diag_ok, tab_nonempty. unfold n_spatial_components. destruct b; lia.
  - intros s Hs. pose proof (season_index_lt b n s Hs). destruct (p / 2 =? _); [|reflexivity]. unfold harmonic_parameters. rewrite !nth_error_vnth by lia. reflexivity.
Qed.

(* bias *)
Lemma wrap_plain n i : i < n -> wrap n (Z.of_nat i) = Some i.
Proof.
  intros H. unfold wrap. replace (_ && _) with true by (symmetry; apply andb_true_iff; split; [apply Z.leb_le|apply Z.ltb_lt]; lia).
  replace (Z.of_nat i <? 0)%Z with false by (symmetry; apply Z.ltb_ge; lia). rewrite Nat2Z.id. reflexivity.
Qed.
