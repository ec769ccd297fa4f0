(* Proofs about the surface-air temperatures over ice. *)
From Coq Require Import String QArith Qround Qabs Lqa.
From Verif Require Import Base Ice_Model Ice_Spec.
Open Scope Z_scope.

(* ---- numbers *)

Lemma Qltb_true a b : Qltb a b = true <-> (a < b)%Q.
Proof.
  unfold Qltb. rewrite negb_true_iff. split; intros H.
  - apply Qnot_le_lt. intros L. apply Qle_bool_iff in L. congruence.
  - destruct (Qle_bool b a) eqn:E; [|reflexivity]. apply Qle_bool_iff in E. lra.
Qed.
Lemma Qltb_false a b : Qltb a b = false <-> (b <= a)%Q.
Proof. unfold Qltb. rewrite negb_false_iff. apply Qle_bool_iff. Qed.

Lemma sum_total l : Qsum l = total l.
Proof. induction l as [|a l IH]; [reflexivity|]. cbn [total]. rewrite <- IH. reflexivity. Qed.
Lemma total_app l m : (total (l ++ m) == total l + total m)%Q.
Proof. induction l as [|a l IH]; cbn [total app]; [lra|]. rewrite IH. lra. Qed.
Lemma total_perm l m : Permutation l m -> (total l == total m)%Q.
Proof. induction 1; cbn [total]; lra. Qed.

Lemma known_unmasked v bins l : known v bins l <-> l = unmasked (map v bins).
Proof.
  split.
  - induction 1 as [|b bins a l E _ IH|b bins l E _ IH]; cbn [map unmasked]; [reflexivity| |]; rewrite E, IH; reflexivity.
  - intros ->. induction bins as [|b bins IH]; cbn [map unmasked]; [constructor|].
    destruct (v b) eqn:E; [apply known_some|apply known_none]; assumption.
Qed.

Lemma zlen_pos {A} (l : list A) : l <> [] -> 0 < zlen l.
Proof. destruct l; [congruence|]. intros _. unfold zlen. cbn. lia. Qed.
Lemma inject_pos z : 0 < z -> (0 < inject_Z z)%Q.
Proof. intros H. change 0%Q with (inject_Z 0). rewrite <- Zlt_Qlt. exact H. Qed.

Lemma average_div l m : l <> [] -> (average l m <-> (m == total l / inject_Z (zlen l))%Q).
Proof.
  intros H. pose proof (inject_pos _ (zlen_pos l H)) as P. unfold average. split.
  - intros [_ E]. rewrite <- E. field. lra.
  - intros E. split; [exact H|]. rewrite E. field. lra.
Qed.

(* ---- the tests on one cell *)

Lemma land_ice_mask_iff x i j : land_ice_mask x i j = false <-> land_ice x i j.
Proof. unfold land_ice_mask, land_ice. rewrite andb_false_iff, !negb_false_iff, !Z.eqb_eq. tauto. Qed.
Lemma sea_ice_concentration_mask_iff x i j : sea_ice_concentration_mask x i j = false <-> frozen_sea x i j.
Proof.
  unfold sea_ice_concentration_mask, frozen_sea. destruct (sea_ice_fraction x i j) as [f|].
  - rewrite Qltb_false. split; [intros H; exists f; auto|]. intros (g & E & H). injection E as <-. exact H.
  - split; [discriminate|]. intros (g & E & _). discriminate.
Qed.
Definition kind_mask (x : ice_inputs) (p : part) : field bool :=
  match p with LAND_ICE => land_ice_mask x | SEA_ICE => sea_ice_concentration_mask x end.
Lemma kind_mask_iff x p i j : kind_mask x p i j = false <-> of_kind x p i j.
Proof. destruct p; [apply land_ice_mask_iff|apply sea_ice_concentration_mask_iff]. Qed.

Lemma steady_iff x i j : temperature_standard_deviation_mask x i j = false <-> steady x i j.
Proof.
  unfold temperature_standard_deviation_mask, steady. destruct (surface_temperature_std x i j) as [s|].
  - rewrite Qltb_false. split; [intros H t E; injection E as <-; exact H|auto].
  - split; [discriminate|reflexivity].
Qed.
Lemma cold_enough_iff x i j : temperature_value_mask x i j = false <-> cold_enough x i j.
Proof.
  unfold temperature_value_mask, cold_enough. destruct (surface_temperature x i j) as [s|].
  - rewrite Qltb_false. split; [intros H t E; injection E as <-; exact H|auto].
  - split; [discriminate|reflexivity].
Qed.

Lemma observed_iff x bins i j : observations_mask x bins i j = false <-> observed x bins i j.
Proof.
  unfold observations_mask, observed, masked_sum, at_bins. split.
  - intros H l K. apply known_unmasked in K. subst l. destruct (unmasked _) as [|a l] eqn:E; [discriminate|].
    rewrite <- sum_total. intros Z. apply Qeq_bool_iff in Z. congruence.
  - intros H. specialize (H _ (proj2 (known_unmasked _ _ _) eq_refl)).
    destruct (unmasked _) as [|a l]; [cbn in H; exfalso; apply H; reflexivity|].
    rewrite <- sum_total in H. destruct (Qeq_bool _ 0) eqn:E; [|reflexivity]. apply Qeq_bool_iff in E. contradiction.
Qed.

Lemma bins_iff x t bins d i j :
  match t, masked_mean (at_bins (surface_temperature_3d x) bins i j) with Some t, Some m => Qltb d (Qabs (t - m)) | _, _ => false end = false
  <-> near_bins x t bins d i j.
Proof.
  unfold near_bins, masked_mean, at_bins. split.
  - intros H a l m -> K M. apply known_unmasked in K. subst l. destruct (unmasked _) as [|b l] eqn:E; [destruct M; congruence|].
    apply average_div in M; [|discriminate]. rewrite Qltb_false in H. rewrite <- sum_total in M. rewrite M. exact H.
  - intros H. destruct t as [a|]; [|reflexivity].
    specialize (H a (unmasked (map (fun b => surface_temperature_3d x b i j) bins)) (Qsum (unmasked (map (fun b => surface_temperature_3d x b i j) bins)) / inject_Z (zlen (unmasked (map (fun b => surface_temperature_3d x b i j) bins))))%Q eq_refl (proj2 (known_unmasked _ _ _) eq_refl)).
    destruct (unmasked _) as [|b l]; [reflexivity|]. rewrite Qltb_false. apply H. apply average_div; [discriminate|]. rewrite sum_total. reflexivity.
Qed.

Lemma night_never x i j : night_bin_comparison_mask x i j = false.
Proof.
  unfold night_bin_comparison_mask. destruct (surface_temperature_min x i j); [|reflexivity]. destruct (masked_mean _); [|reflexivity].
  apply Qltb_false. apply Qle_trans with 0%Q; [discriminate|apply Qabs_nonneg].
Qed.

Lemma plausible_iff x o i j : threshold_mask x o i j = false <-> plausible x o i j.
Proof.
  unfold threshold_mask, plausible. destruct o; rewrite !orb_false_iff, steady_iff, cold_enough_iff.
  - unfold observations_day_or_night_mask. rewrite orb_false_iff. unfold observations_day_mask, observations_night_mask. rewrite !observed_iff.
    unfold combined_bin_comparison_mask. rewrite bins_iff. tauto.
  - rewrite night_never. unfold observations_night_mask. rewrite observed_iff. tauto.
  - unfold observations_day_mask. rewrite observed_iff. unfold day_bin_comparison_mask. rewrite bins_iff. tauto.
Qed.

Lemma temperature_variable x o i j : variable_of x o i j = temperature x o i j.
Proof. destruct o; reflexivity. Qed.

(* ---- clouds *)

Definition remasked (x : ice_inputs) (o : observable) (p : part) : field (option Q) := fun i j =>
  if threshold_mask x o i j || kind_mask x p i j then None else variable_of x o i j.
Lemma remasked_iff x o p i j v : remasked x o p i j = Some v <-> usable x o p i j v.
Proof.
  unfold remasked, usable. rewrite <- plausible_iff, <- kind_mask_iff, temperature_variable.
  destruct (threshold_mask x o i j), (kind_mask x p i j); cbn [orb]; split; intros H; try discriminate; try tauto; destruct H as (? & ? & ?); congruence.
Qed.

Lemma kernel_in a b : In (a, b) kernel <-> Z.abs a <= 2 /\ Z.abs b <= 2 /\ (a, b) <> (0, 0).
Proof.
  unfold kernel. rewrite filter_In, in_prod_iff. cbn [fst snd].
  assert (R : forall z, In z (zrange (- halfwidth) (halfwidth + 1)) <-> Z.abs z <= 2).
  { intros z. rewrite zrange_In. unfold halfwidth. lia. }
  rewrite !R, negb_true_iff, andb_false_iff, !Z.eqb_neq. split.
  - intros [[Ha Hb] Hn]. repeat split; try assumption. intros E. injection E as -> ->. destruct Hn; congruence.
  - intros (Ha & Hb & Hn). split; [auto|]. destruct (Z.eq_dec a 0) as [-> | ]; [|auto]. right. intros ->. apply Hn. reflexivity.
Qed.
Lemma kernel_nodup : NoDup kernel.
Proof. vm_compute. repeat (constructor; [cbn; intuition congruence|]). constructor. Qed.

Definition window (i j : Z) : list (Z * Z) := map (fun d => (i + fst d, j + snd d)) kernel.
Lemma window_in i j a b : In (a, b) (window i j) <-> neighbour i j a b.
Proof.
  unfold window, neighbour. rewrite in_map_iff. split.
  - intros ((da & db) & E & H). injection E as <- <-. apply kernel_in in H. destruct H as (H1 & H2 & H3). cbn [fst snd].
    replace (i + da - i) with da by lia. replace (j + db - j) with db by lia. repeat split; try assumption.
    intros E. injection E as E1 E2. apply H3. f_equal; lia.
  - intros (H1 & H2 & H3). exists (a - i, b - j). cbn [fst snd]. split; [f_equal; lia|]. apply kernel_in. repeat split; try assumption.
    intros E. injection E as E1 E2. apply H3. f_equal; lia.
Qed.
Lemma window_nodup i j : NoDup (window i j).
Proof.
  apply FinFun.Injective_map_NoDup; [|apply kernel_nodup]. intros (a & b) (c & d) E. injection E as E1 E2. f_equal; lia.
Qed.

(* the cells of a list where a field is known, and their values *)
Definition cells_of (v : field (option Q)) (l : list (Z * Z)) : list (Z * Z) :=
  filter (fun c => match v (fst c) (snd c) with Some _ => true | None => false end) l.
Lemma cells_in v l a b : In (a, b) (cells_of v l) <-> In (a, b) l /\ exists q, v a b = Some q.
Proof.
  unfold cells_of. rewrite filter_In. cbn [fst snd]. destruct (v a b) as [q|].
  - split; [intros [H _]; split; [exact H|exists q; reflexivity]|intros [H _]; split; auto].
  - split; [intros [_ H]; discriminate|intros [_ (q & H)]; discriminate].
Qed.
Lemma cells_values v l : Forall2 (fun c q => v (fst c) (snd c) = Some q) (cells_of v l) (unmasked (map (fun c => v (fst c) (snd c)) l)).
Proof.
  induction l as [|c l IH]; cbn [cells_of filter map unmasked]; [constructor|]. destruct (v (fst c) (snd c)) as [q|] eqn:E; [|exact IH].
  constructor; [exact E|exact IH].
Qed.
Lemma values_map (v : field (option Q)) cells values :
  Forall2 (fun c q => v (fst c) (snd c) = Some q) cells values -> map (fun c => v (fst c) (snd c)) cells = map Some values.
Proof. induction 1 as [|c q cs qs E _ IH]; [reflexivity|]. cbn [map]. rewrite E, IH. reflexivity. Qed.
Lemma Some_perm {A} (l m : list A) : Permutation (map Some l) (map Some m) -> Permutation l m.
Proof.
  intros H. apply Permutation_map_inv in H. destruct H as (l' & E & P).
  assert (l = l') as ->; [|symmetry; exact P].
  revert E. clear. revert l'. induction l as [|a l IH]; intros [|b l'] E; try discriminate; [reflexivity|]. injection E as -> E. f_equal. apply IH, E.
Qed.
Lemma values_perm (v : field (option Q)) c1 c2 v1 v2 :
  Permutation c1 c2 -> Forall2 (fun c q => v (fst c) (snd c) = Some q) c1 v1 -> Forall2 (fun c q => v (fst c) (snd c) = Some q) c2 v2 -> Permutation v1 v2.
Proof.
  intros P H1 H2. apply values_map in H1. apply values_map in H2. apply Some_perm. rewrite <- H1, <- H2. apply Permutation_map, P.
Qed.
Lemma Forall2_len {A B} (R : A -> B -> Prop) l m : Forall2 R l m -> length l = length m.
Proof. induction 1; cbn; congruence. Qed.

Lemma cloud_iff x o p i j :
  cloud_mask (rows x) (columns x) (variable_of x o) (fun i j => threshold_mask x o i j || kind_mask x p i j) i j = true <-> cloudy x o p i j.
Proof.
  unfold cloud_mask. change (fun i0 j0 : Z => if threshold_mask x o i0 j0 || kind_mask x p i0 j0 then None else variable_of x o i0 j0) with (remasked x o p).
  change (if threshold_mask x o i j || kind_mask x p i j then None else variable_of x o i j) with (remasked x o p i j). unfold cloudy, rows, columns, halfwidth.
  assert (L : local_mean (remasked x o p) i j =
              let u := unmasked (map (fun c => remasked x o p (fst c) (snd c)) (window i j)) in
              if zlen u <? 2 then None else Some (Qsum u / inject_Z (zlen u))%Q).
  { unfold local_mean, window. rewrite map_map. reflexivity. }
  rewrite L. cbv zeta. clear L.
  pose proof (cells_values (remasked x o p) (window i j)) as V. set (u := unmasked _) in *.
  set (cells0 := cells_of _ _) in V.
  assert (N0 : NoDup cells0) by (apply NoDup_filter, window_nodup).
  assert (I0 : forall a b, In (a, b) cells0 <-> neighbour i j a b /\ exists v, usable x o p a b v).
  { intros a b. unfold cells0. rewrite cells_in, window_in. split; intros [H (v & E)]; (split; [exact H|]); exists v; apply remasked_iff; exact E. }
  assert (U : forall cells, (forall a b, In (a, b) cells <-> neighbour i j a b /\ exists v, usable x o p a b v) ->
              forall values, Forall2 (fun c v => temperature x o (fst c) (snd c) = Some v) cells values ->
                Forall2 (fun c v => remasked x o p (fst c) (snd c) = Some v) cells values).
  { intros cells I values F. clear V N0 I0 cells0. assert (Hc : forall c, In c cells -> exists v, usable x o p (fst c) (snd c) v).
    { intros (a & b) Hc. exact (proj2 (proj1 (I a b) Hc)). }
    clear I. induction F as [|c q cs qs E F IH]; constructor.
    - destruct (Hc c (or_introl eq_refl)) as (v & Hv). apply remasked_iff. destruct Hv as (E' & R). split; [exact E|exact R].
    - apply IH. intros c' Hc'. apply Hc. right. exact Hc'. }
  split.
  - destruct (_ && _) eqn:B; [|discriminate].
    destruct (zlen u <? 2) eqn:Z2; [discriminate|]. destruct (remasked x o p i j) as [t|] eqn:R; [|discriminate].
    intros H. apply Qltb_true in H. apply remasked_iff in R. apply Z.ltb_ge in Z2. split; [lia|]. split; [lia|].
    exists t, cells0, u, (Qsum u / inject_Z (zlen u))%Q. split; [exact R|]. split; [exact N0|]. split; [exact I0|].
    assert (Hu : u <> []) by (intros Hu; rewrite Hu in Z2; unfold zlen in Z2; cbn in Z2; lia).
    split; [|split; [|split]].
    + clear -V. induction V as [|c q cs qs E V IH]; constructor; [|exact IH]. apply remasked_iff in E. apply (proj1 E).
    + rewrite (Forall2_len _ _ _ V). unfold zlen in Z2. lia.
    + apply average_div; [exact Hu|]. rewrite sum_total. reflexivity.
    + exact H.
  - intros (Hi & Hj & t & cells & values & m & Ht & Hn & Hin & Hv & Hl & Hm & Hc).
    apply U in Hv; [|exact Hin].
    assert (P : Permutation cells cells0).
    { apply NoDup_Permutation; [exact Hn|exact N0|]. intros (a & b). rewrite Hin, I0. reflexivity. }
    pose proof (values_perm _ _ _ _ _ P Hv V) as PV.
    destruct (_ && _) eqn:B; [|lia].
    assert (Lu : zlen u = Z.of_nat (length cells)).
    { unfold zlen. rewrite <- (Permutation_length PV), (Forall2_len _ _ _ Hv). reflexivity. }
    destruct (zlen u <? 2) eqn:Z2; [lia|]. apply remasked_iff in Ht. rewrite Ht. apply Qltb_true.
    assert (Hu : values <> []) by (intros E; subst values; inversion Hv; subst; cbn in Hl; lia).
    apply average_div in Hm; [|exact Hu]. rewrite sum_total.
    assert (M : (m == total u / inject_Z (zlen u))%Q).
    { rewrite Hm, (total_perm _ _ PV). unfold zlen. rewrite (Permutation_length PV). reflexivity. }
    rewrite <- M. exact Hc.
Qed.

Lemma over_ice_iff x i j : ice_mask x i j = false <-> over_ice x i j.
Proof. unfold ice_mask, over_ice. rewrite andb_false_iff, land_ice_mask_iff, sea_ice_concentration_mask_iff. tauto. Qed.

Lemma accepted_iff x o i j t : quality_controlled x o i j = Some t <-> accepted x o i j t.
Proof.
  unfold quality_controlled, filter_outliers, accepted.
  pose proof (cloud_iff x o SEA_ICE i j) as CS. pose proof (cloud_iff x o LAND_ICE i j) as CL. cbn [kind_mask] in CS, CL.
  destruct (ice_mask x i j) eqn:EI; cbn [orb].
  { split; [discriminate|]. intros (_ & H & _). apply over_ice_iff in H. congruence. }
  apply over_ice_iff in EI.
  destruct (cloud_mask _ _ _ (fun i j => threshold_mask x o i j || sea_ice_concentration_mask x i j) i j) eqn:ES; cbn [orb].
  { split; [discriminate|]. intros (_ & _ & _ & _ & H). apply proj1 in CS. tauto. }
  destruct (cloud_mask _ _ _ (fun i j => threshold_mask x o i j || land_ice_mask x i j) i j) eqn:EL; cbn [orb].
  { split; [discriminate|]. intros (_ & _ & _ & H & _). apply proj1 in CL. tauto. }
  destruct (threshold_mask x o i j) eqn:ET.
  { split; [discriminate|]. intros (_ & _ & H & _). apply plausible_iff in H. congruence. }
  apply plausible_iff in ET. rewrite temperature_variable. split; [|intros H; apply H].
  intros H. split; [exact H|]. split; [exact EI|]. split; [exact ET|]. split; intros C; [apply CL in C|apply CS in C]; discriminate.
Qed.

(* ---- the model on one hemisphere *)

Definition part_mask (x : ice_inputs) (p : part) : field bool := match p with LAND_ICE => land_ice_mask x | SEA_ICE => sea_ice_mask x end.
Lemma part_mask_iff x p i j : part_mask x p i j = false <-> kind_at x i j p.
Proof.
  destruct p; cbn [part_mask kind_at]; [apply land_ice_mask_iff|]. unfold sea_ice_mask.
  rewrite orb_false_iff, negb_false_iff, sea_ice_concentration_mask_iff. pose proof (land_ice_mask_iff x i j) as H.
  destruct (land_ice_mask x i j); intuition congruence.
Qed.
Lemma kind_unique x i j p q : kind_at x i j p -> kind_at x i j q -> p = q.
Proof. destruct p, q; cbn [kind_at]; tauto. Qed.

Definition cell_of (x : ice_inputs) (o : observable) (p : part) := valid_cell x (quality_controlled x o) (part_mask x p).
Lemma cell_iff x o p i j t u s l : cell_of x o p i j = Some (t, u, s, l) <-> kind_at x i j p /\ ready x o i j t u s l.
Proof.
  unfold cell_of, valid_cell, ready. rewrite <- part_mask_iff, <- accepted_iff. destruct (part_mask x p i j).
  { split; [discriminate|]. intros [H _]. discriminate. }
  destruct (quality_controlled x o i j), (uncorrelated_uncertainty x i j), (synoptically_correlated_uncertainty x i j), (large_scale_correlated_uncertainty x i j);
    split; try discriminate; intros H; try (destruct H as (_ & H1 & H2 & H3 & H4); discriminate).
  - assert (q = t /\ q0 = u /\ q1 = s /\ q2 = l) as (-> & -> & -> & ->) by (repeat split; congruence). auto.
  - destruct H as (_ & H1 & H2 & H3 & H4). congruence.
Qed.

Section Model.
Variable A : arithmetic.
Let N := num A.

Definition both (x : ice_inputs) (o : observable) (f : part -> Q * Q * Q * Q -> N) : field (option N) :=
  put A (cell_of x o SEA_ICE) (f SEA_ICE) (put A (cell_of x o LAND_ICE) (f LAND_ICE) (masked_all A)).
Lemma both_iff x o f i j n :
  both x o f i j = Some n <-> exists p t u s l, kind_at x i j p /\ ready x o i j t u s l /\ n = f p (t, u, s, l).
Proof.
  unfold both, put. split.
  - destruct (cell_of x o SEA_ICE i j) as [(((t, u), s), l)|] eqn:E.
    + intros H. injection H as <-. apply cell_iff in E. exists SEA_ICE, t, u, s, l. tauto.
    + destruct (cell_of x o LAND_ICE i j) as [(((t, u), s), l)|] eqn:E'; [|discriminate].
      intros H. injection H as <-. apply cell_iff in E'. exists LAND_ICE, t, u, s, l. tauto.
  - intros (p & t & u & s & l & K & R & ->). pose proof (proj2 (cell_iff x o p i j t u s l) (conj K R)) as E. destruct p.
    + destruct (cell_of x o SEA_ICE i j) as [(((t', u'), s'), l')|] eqn:E'.
      * apply cell_iff in E'. destruct E' as [K' _]. pose proof (kind_unique _ _ _ _ _ K K'). discriminate.
      * rewrite E. reflexivity.
    + rewrite E. reflexivity.
Qed.

Definition f_air (c : part -> coefficients A) (x : ice_inputs) (p : part) (a : Q * Q * Q * Q) : N :=
  let '(t, _, _, _) := a in compute_air_temperature_TskinSeason A (c p) (daynumber x) t.
Definition f_ru (c : part -> coefficients A) (h : hemisphere_name) (o : observable) (p : part) (a : Q * Q * Q * Q) : N :=
  let '(_, u, _, _) := a in mul A (root A (add A (square A (of_Q A u)) (square A (of_Q A (RU_sampling h p o))))) (coeff1 A (c p)).
Definition f_ssu (c : part -> coefficients A) (o : observable) (p : part) (a : Q * Q * Q * Q) : N :=
  let '(_, _, u, _) := a in root A (add A (square A (mul A (of_Q A u) (coeff1 A (c p)))) (square A (of_Q A (SSU_relation p o)))).
Definition f_lsu (c : part -> coefficients A) (p : part) (a : Q * Q * Q * Q) : N := mul A (coeff1 A (c p)) (of_Q A glob_LSU).
Definition f_cu (c : part -> coefficients A) (o : observable) (p : part) (a : Q * Q * Q * Q) : N :=
  let '(_, _, _, l) := a in mul A (coeff1 A (c p)) (of_Q A (l - glob_LSU + glob_CU_offset o)%Q).

Lemma no_overlap_first x o (g : list (Z * Z)) :
  existsb (fun ij => match cell_of x o LAND_ICE (fst ij) (snd ij), air_temperature A (new_processor A) (fst ij) (snd ij) with Some _, Some _ => true | _, _ => false end) g = false.
Proof. induction g as [|c g IH]; [reflexivity|]. cbn [existsb]. rewrite IH. destruct (cell_of _ _ _ _ _); reflexivity. Qed.
Lemma no_overlap_second x o f (g : list (Z * Z)) :
  existsb (fun ij => match cell_of x o SEA_ICE (fst ij) (snd ij), put A (cell_of x o LAND_ICE) f (masked_all A) (fst ij) (snd ij) with Some _, Some _ => true | _, _ => false end) g = false.
Proof.
  induction g as [|(i, j) g IH]; [reflexivity|]. cbn [existsb fst snd]. rewrite IH. unfold put.
  destruct (cell_of x o SEA_ICE i j) as [(((t, u), s), l)|] eqn:E; [|reflexivity].
  destruct (cell_of x o LAND_ICE i j) as [(((t', u'), s'), l')|] eqn:E'; [|reflexivity].
  apply cell_iff in E, E'. pose proof (kind_unique _ _ _ _ _ (proj1 E) (proj1 E')). discriminate.
Qed.

Lemma hemisphere_iff x h : hemisphere x = Ok h <-> in_hemisphere x h.
Proof.
  unfold hemisphere, in_hemisphere, py_index. destruct (latitude x) as [|l0 rest].
  { cbn. split; [discriminate|]. intros (a & b & E & _). discriminate. }
  replace (_ && _) with true. 2:{ rewrite zlen_cons. pose proof (zlen_nonneg rest). cbn [Z.ltb Z.compare]. lia. }
  cbn [Z.ltb Z.compare Z.to_nat nth_error bind]. destruct (Qltb 0 l0) eqn:E.
  - apply Qltb_true in E. split.
    + intros H. injection H as <-. exists l0, rest. auto.
    + intros (a & b & H & K). injection H as <- <-. destruct h; [reflexivity|lra].
  - apply Qltb_false in E. split.
    + intros H. injection H as <-. exists l0, rest. auto.
    + intros (a & b & H & K). injection H as <- <-. destruct h; [lra|reflexivity].
Qed.

Definition field_of (m : components A) (x : ice_inputs) (h : hemisphere_name) (o : observable) (q : quantity) : field (option N) :=
  let c := fun p => m h p o in
  let ru := both x o (f_ru c h o) in let ssu := both x o (f_ssu c o) in let lsu := both x o (f_lsu c) in let cu := both x o (f_cu c o) in
  let sq := map_masked A (square A) in
  let three := plus_masked A (plus_masked A (sq ru) (sq ssu)) (sq lsu) in
  match q with
  | Temperature => both x o (f_air c x)
  | Total => map_masked A (root A) (plus_masked A three (sq cu))
  | WithoutCloud => map_masked A (root A) three
  | Random => ru | Local => ssu | Systematic => lsu | Cloud => cu
  end.
Definition quantities : list quantity := [Temperature; Total; WithoutCloud; Random; Local; Systematic; Cloud].

Lemma process_observable_is m x h o : in_hemisphere x h ->
  process_observable A m x o = Ok (map (fun q => (output_name o q, field_of m x h o q)) quantities).
Proof.
  intros H. apply hemisphere_iff in H. unfold process_observable. rewrite H. cbn [bind].
  unfold process_observable_part.
  change (valid_cell x (quality_controlled x o) (land_ice_mask x)) with (cell_of x o LAND_ICE).
  change (valid_cell x (quality_controlled x o) (sea_ice_mask x)) with (cell_of x o SEA_ICE).
  rewrite no_overlap_first. cbn [bind air_temperature uncertainty_uncorrelated uncertainty_synoptically_correlated uncertainty_large_scale_correlated uncertainty_cloud].
  rewrite no_overlap_second. cbn [bind air_temperature uncertainty_uncorrelated uncertainty_synoptically_correlated uncertainty_large_scale_correlated uncertainty_cloud].
  destruct o; reflexivity.
Qed.

Lemma map_masked_iff f (a : field (option N)) i j n : map_masked A f a i j = Some n <-> exists y, a i j = Some y /\ n = f y.
Proof.
  unfold map_masked. destruct (a i j) as [y|]; cbn [option_map]; split.
  - intros E. injection E as <-. exists y. auto.
  - intros (z & E & ->). injection E as <-. reflexivity.
  - discriminate.
  - intros (z & E & _). discriminate.
Qed.
Lemma both_some x o f i j p t u s l : kind_at x i j p -> ready x o i j t u s l -> both x o f i j = Some (f p (t, u, s, l)).
Proof. intros K R. apply both_iff. exists p, t, u, s, l. auto. Qed.
Lemma both_none x o f i j : (forall p t u s l, kind_at x i j p -> ready x o i j t u s l -> False) -> both x o f i j = None.
Proof.
  intros H. destruct (both x o f i j) as [n|] eqn:E; [|reflexivity]. apply both_iff in E. destruct E as (p & t & u & s & l & K & R & _).
  destruct (H _ _ _ _ _ K R).
Qed.
Lemma decide_cell x o i j :
  (exists p t u s l, kind_at x i j p /\ ready x o i j t u s l) \/ (forall p t u s l, kind_at x i j p -> ready x o i j t u s l -> False).
Proof.
  destruct (cell_of x o LAND_ICE i j) as [(((t, u), s), l)|] eqn:E1.
  { left. exists LAND_ICE, t, u, s, l. apply cell_iff, E1. }
  destruct (cell_of x o SEA_ICE i j) as [(((t, u), s), l)|] eqn:E2.
  { left. exists SEA_ICE, t, u, s, l. apply cell_iff, E2. }
  right. intros p t u s l K R. pose proof (proj2 (cell_iff x o p i j t u s l) (conj K R)). destruct p; congruence.
Qed.
Lemma ready_unique x o i j t u s l t' u' s' l' : ready x o i j t u s l -> ready x o i j t' u' s' l' -> t = t' /\ u = u' /\ s = s' /\ l = l'.
Proof.
  intros ((T & _) & U & S & L) ((T' & _) & U' & S' & L'). repeat split; congruence.
Qed.

Lemma field_iff m x h o q i j n :
  field_of m x h o q i j = Some n <->
  exists p t u s l, kind_at x i j p /\ ready x o i j t u s l /\ n = expected A (m h p o) (daynumber x) h p o q t u s l.
Proof.
  destruct (decide_cell x o i j) as [(p & t & u & s & l & K & R)|D].
  - assert (F : field_of m x h o q i j = Some (expected A (m h p o) (daynumber x) h p o q t u s l)).
    { destruct (m h p o) as (((c0, c1), c2), c3) eqn:C.
      destruct q; unfold field_of, map_masked, plus_masked; rewrite !(both_some x o _ i j p t u s l K R); cbn [option_map];
        unfold f_ru, f_ssu, f_lsu, f_cu, f_air; rewrite C; cbn [expected coeff1 compute_air_temperature_TskinSeason];
        unfold square, with_cloud, without_cloud, random, local, systematic, cloud, air, phase; destruct h, p, o; reflexivity. }
    rewrite F. split.
    + intros E. injection E as <-. exists p, t, u, s, l. auto.
    + intros (p' & t' & u' & s' & l' & K' & R' & ->). rewrite (kind_unique _ _ _ _ _ K' K).
      destruct (ready_unique _ _ _ _ _ _ _ _ _ _ _ _ R R') as (-> & -> & -> & ->). reflexivity.
  - assert (F : field_of m x h o q i j = None).
    { destruct q; unfold field_of, map_masked, plus_masked; rewrite !(both_none x o _ i j D); reflexivity. }
    rewrite F. split; [discriminate|]. intros (p & t & u & s & l & K & R & _). destruct (D _ _ _ _ _ K R).
Qed.

Definition hemisphere_fields (m : components A) (x : ice_inputs) (h : hemisphere_name) : list (string * field (option N)) :=
  flat_map (fun o => map (fun q => (output_name o q, field_of m x h o q)) quantities) OBSERVABLES.
Lemma process_hemisphere_is m x h : in_hemisphere x h -> process_hemisphere A m x = Ok (hemisphere_fields m x h).
Proof.
  intros H. unfold process_hemisphere. rewrite !(process_observable_is m x h _ H). cbn [bind]. unfold hemisphere_fields, OBSERVABLES.
  cbn [flat_map]. rewrite app_nil_r. reflexivity.
Qed.
Definition output_names : list string := flat_map (fun o => map (output_name o) quantities) OBSERVABLES.
Lemma output_names_nodup : NoDup output_names.
Proof. vm_compute. repeat (constructor; [cbn [In]; intuition discriminate|]). constructor. Qed.
Lemma output_names_in n : In n output_names <-> exists o q, n = output_name o q.
Proof.
  unfold output_names. rewrite in_flat_map. split.
  - intros (o & _ & H). apply in_map_iff in H. destruct H as (q & <- & _). eauto.
  - intros (o & q & ->). exists o. split; [destruct o; cbn; tauto|]. apply in_map. destruct q; cbn; tauto.
Qed.
Lemma hemisphere_fields_names m x h : map fst (hemisphere_fields m x h) = output_names.
Proof. reflexivity. Qed.

Lemma in_the_field {F} (d : list (string * F)) n f : NoDup (map fst d) -> In (n, f) d -> the_field d n f.
Proof.
  intros D H. split; [exact H|]. intros g Hg. induction d as [|(n', f') d IH]; [destruct H|]. cbn [map fst] in D. apply NoDup_cons_iff in D. destruct D as [D1 D2].
  destruct H as [E|H], Hg as [E'|Hg].
  - congruence.
  - exfalso. apply D1. assert (n' = n) as -> by congruence. apply (in_map fst) in Hg. exact Hg.
  - exfalso. apply D1. assert (n' = n) as -> by congruence. apply (in_map fst) in H. exact H.
  - apply IH; assumption.
Qed.
Lemma hemisphere_the_field m x h o q : the_field (hemisphere_fields m x h) (output_name o q) (field_of m x h o q).
Proof.
  apply in_the_field; [rewrite hemisphere_fields_names; apply output_names_nodup|].
  unfold hemisphere_fields. rewrite in_flat_map. exists o. split; [destruct o; cbn; tauto|].
  apply (in_map (fun q => (output_name o q, field_of m x h o q))). destruct q; cbn; tauto.
Qed.

(* ---- two hemispheres *)

Lemma lookup_in {F} (d : list (string * F)) n f : NoDup (map fst d) -> (lookup d n = Some f <-> In (n, f) d).
Proof.
  intros D. unfold lookup. induction d as [|(n', f') d IH]; cbn [find].
  { split; [discriminate|intros []]. }
  cbn [map fst] in *. apply NoDup_cons_iff in D. destruct D as [D1 D2]. destruct (String.eqb_spec n n') as [-> | NE].
  - cbn [option_map snd]. split; [intros E; injection E as <-; left; reflexivity|]. intros [E|H]; [congruence|].
    exfalso. apply D1. apply (in_map fst) in H. exact H.
  - rewrite (IH D2). split; [intros H; right; exact H|]. intros [E|H]; [congruence|exact H].
Qed.
Lemma lookup_cons {F} (d : list (string * F)) n f k : lookup ((n, f) :: d) k = if String.eqb k n then Some f else lookup d k.
Proof. unfold lookup. cbn [find fst]. destruct (String.eqb k n); reflexivity. Qed.
Lemma lookup_store {F} (d : list (string * F)) n f k : lookup (store d n f) k = if String.eqb k n then Some f else lookup d k.
Proof.
  unfold lookup. induction d as [|(n', f') d IH]; cbn [store find fst].
  - destruct (String.eqb k n); reflexivity.
  - destruct (String.eqb_spec n n') as [-> | NE]; cbn [find fst].
    + destruct (String.eqb k n'); reflexivity.
    + destruct (String.eqb_spec k n') as [-> | NE'].
      * destruct (String.eqb_spec n' n); [congruence|reflexivity].
      * exact IH.
Qed.
Lemma store_names {F} (d : list (string * F)) n f : NoDup (map fst d) -> NoDup (map fst (store d n f)).
Proof.
  assert (I : forall k (d : list (string * F)), In k (map fst (store d n f)) -> k = n \/ In k (map fst d)).
  { clear d. intros k d. induction d as [|(n', f') d IH]; cbn [store map fst In].
    - intros [H|[]]; auto.
    - destruct (String.eqb n n'); cbn [map fst In]; [tauto|]. intros [H|H]; [tauto|]. destruct (IH H); tauto. }
  induction d as [|(n', f') d IH]; cbn [store map fst]; intros D.
  - constructor; [intros []|constructor].
  - apply NoDup_cons_iff in D. destruct D as [D1 D2]. destruct (String.eqb_spec n n') as [-> | NE]; cbn [map fst].
    + constructor; assumption.
    + constructor; [|apply IH, D2]. intros H. apply I in H. destruct H; [congruence|contradiction].
Qed.

Definition placed (start count : Z) (f old : field (option N)) : field (option N) :=
  fun i j => if (start <=? i) && (i <? start + count) then f (i - start) j else old i j.
Definition found (d : list (string * field (option N))) (n : string) : field (option N) :=
  match lookup d n with Some f => f | None => masked_all A end.
Lemma fold_fields total start count fields d : 0 <= count -> start + count <= total -> NoDup (map fst d) -> NoDup (map fst fields) ->
  exists d', foldM (combine_field A total start count) d fields = Ok d' /\ NoDup (map fst d') /\
    forall n, lookup d' n = match lookup fields n with Some f => Some (placed start count f (found d n)) | None => lookup d n end.
Proof.
  intros Hc Ht. revert d. induction fields as [|(n, f) fields IH]; intros d D DF; cbn [foldM].
  { exists d. split; [reflexivity|]. split; [exact D|]. reflexivity. }
  cbn [map fst] in DF. apply NoDup_cons_iff in DF. destruct DF as [DF1 DF2].
  assert (LN : lookup fields n = None).
  { destruct (lookup fields n) as [g|] eqn:E; [|reflexivity]. apply lookup_in in E; [|exact DF2]. exfalso. apply DF1. apply (in_map fst) in E. exact E. }
  unfold combine_field at 1. replace (negb _) with false by lia. cbn [bind fst snd].
  destruct (IH (store d n (placed start count f (found d n)))) as (d' & E & D' & L); [apply store_names, D|exact DF2|].
  exists d'. split; [exact E|]. split; [exact D'|]. intros k. rewrite L. unfold found. rewrite !lookup_store, lookup_cons.
  destruct (String.eqb_spec k n) as [-> | NE].
  - rewrite LN. reflexivity.
  - reflexivity.
Qed.

(* axes *)
Lemma inject_plus a b : (inject_Z (a + b) == inject_Z a + inject_Z b)%Q.
Proof. rewrite inject_Z_plus. reflexivity. Qed.
Lemma floor_is q k : (inject_Z k <= q)%Q -> (q < inject_Z k + 1)%Q -> Qfloor q = k.
Proof.
  intros H1 H2. pose proof (Qfloor_le q) as L. pose proof (Qlt_floor q) as U.
  assert (inject_Z (Qfloor q) < inject_Z (k + 1))%Q as A1 by (rewrite inject_plus; change (inject_Z 1) with 1%Q; lra).
  assert (inject_Z k < inject_Z (Qfloor q + 1))%Q as A2 by lra.
  rewrite <- Zlt_Qlt in A1, A2. lia.
Qed.
Lemma int_is q k : 0 <= k -> (inject_Z k <= q)%Q -> (q < inject_Z k + 1)%Q -> int q = k.
Proof.
  intros K H1 H2. unfold int. assert (0 <= q)%Q as P.
  { apply Qle_trans with (inject_Z k); [|exact H1]. change 0%Q with (inject_Z 0). rewrite <- Zle_Qle. exact K. }
  apply Qle_bool_iff in P. rewrite P. apply floor_is; assumption.
Qed.
Lemma ceil_is q k : (inject_Z k - 1 < q)%Q -> (q <= inject_Z k)%Q -> Qceil q = k.
Proof.
  intros H1 H2. unfold Qceil. rewrite (floor_is (- q) (- k)); [lia| |]; rewrite inject_Z_opp; lra.
Qed.

Lemma regular_get l a r n i : regular l a r n -> 0 <= i < n -> exists q, py_index l i = Ok q /\ (q == a + inject_Z i * r)%Q.
Proof.
  intros [L H] Hi. rewrite py_index_nonneg by lia. destruct (nth_error l (Z.to_nat i)) as [q|] eqn:E.
  - exists q. split; [reflexivity|]. apply (H i); [exact E|lia].
  - apply nth_error_None in E. unfold zlen in L. lia.
Qed.
Lemma regular_last l a r n : regular l a r n -> 0 < n -> exists q, py_index l (-1) = Ok q /\ (q == a + inject_Z (n - 1) * r)%Q.
Proof.
  intros R Hn. destruct (regular_get l a r n (n - 1) R) as (q & E & V); [lia|]. exists q. split; [|exact V].
  rewrite <- E. destruct R as [L _]. unfold py_index. cbn [Z.ltb Z.compare]. rewrite L. replace (n - 1 <? 0) with false by lia.
  replace (-1 + n) with (n - 1) by lia. reflexivity.
Qed.
Lemma steps_in l d : In d (steps l) -> exists i a b, nth_error l i = Some a /\ nth_error l (S i) = Some b /\ d = (b - a)%Q.
Proof.
  induction l as [|a l IH]; cbn [steps]; [intros []|]. destruct l as [|b l]; [intros []|]. intros [<- | H].
  - exists 0%nat, a, b. auto.
  - destruct (IH H) as (i & u & v & E1 & E2 & E). exists (S i), u, v. auto.
Qed.
Lemma steps_nonempty l : 2 <= zlen l -> steps l <> [].
Proof. destruct l as [|a [|b l]]; unfold zlen; cbn [length steps]; try lia. discriminate. Qed.
Lemma uneven_regular l a r n res : regular l a r n -> 2 <= n -> (res == r)%Q -> uneven l res = Ok false.
Proof.
  intros [L H] Hn E. unfold uneven. assert (NE : steps l <> []) by (apply steps_nonempty; lia).
  assert (X : existsb (fun s => Qltb tolerance (Qabs (s - res))) (steps l) = false).
  { destruct (existsb _ (steps l)) eqn:X; [|reflexivity]. apply existsb_exists in X. destruct X as (d & Hd & T).
    apply Qltb_true in T. apply steps_in in Hd. destruct Hd as (i & u & v & E1 & E2 & ->).
    assert (U : (u == a + inject_Z (Z.of_nat i) * r)%Q) by (apply H; [rewrite Nat2Z.id; exact E1|lia]).
    assert (V : (v == a + inject_Z (Z.of_nat (S i)) * r)%Q) by (apply H; [rewrite Nat2Z.id; exact E2|lia]).
    rewrite Nat2Z.inj_succ, <- Z.add_1_r, inject_plus in V. change (inject_Z 1) with 1%Q in V.
    assert (Z : (v - u - res == 0)%Q) by (rewrite U, V, E; ring). rewrite Z in T. discriminate. }
  destruct (steps l) as [|d ds]; [congruence|]. rewrite X. reflexivity.
Qed.

Lemma hemisphere_regular x a r n : regular (latitude x) a r n -> 0 < n ->
  forall h, match h with Northern => (0 < a)%Q | Southern => (a <= 0)%Q end -> in_hemisphere x h.
Proof.
  intros R Hn h K. destruct (regular_get _ _ _ _ 0 R) as (q & E & V); [lia|]. unfold in_hemisphere.
  destruct (latitude x) as [|l0 rest]; [discriminate|]. exists l0, rest. split; [reflexivity|].
  assert (l0 = q) as -> by (rewrite py_index_nonneg in E by lia; cbn in E; congruence).
  change (inject_Z 0) with 0%Q in V. destruct h; lra.
Qed.

Lemma combine_hemisphere_is m total first res d x a r n h k : regular (latitude x) a r n -> 0 < n -> in_hemisphere x h ->
  (tolerance < r)%Q -> (res == r)%Q -> (a == first + inject_Z k * r)%Q -> 0 <= k -> k + n <= total -> NoDup (map fst d) ->
  exists d', combine_hemisphere A m total first res d x = Ok d' /\ NoDup (map fst d') /\
    forall nm, lookup d' nm = match lookup (hemisphere_fields m x h) nm with Some f => Some (placed k n f (found d nm)) | None => lookup d nm end.
Proof.
  intros R Hn H T E K Hk Ht D. unfold combine_hemisphere. destruct (regular_get _ _ _ _ 0 R) as (l0 & E0 & V0); [lia|].
  rewrite E0. cbn [bind]. rewrite (process_hemisphere_is m x h H). cbn [bind].
  assert (RP : (0 < r)%Q) by (unfold tolerance in T; lra).
  assert (Q1 : ((l0 - first + tolerance) / res == inject_Z k + tolerance / r)%Q).
  { rewrite V0, E, K. change (inject_Z 0) with 0%Q. field. lra. }
  assert (TR : (0 < tolerance / r)%Q) by (apply Qlt_shift_div_l; [exact RP|unfold tolerance; lra]).
  assert (TR1 : (tolerance / r < 1)%Q) by (apply Qlt_shift_div_r; [exact RP|lra]).
  rewrite (int_is _ k Hk); [|rewrite Q1; lra|rewrite Q1; lra].
  assert (RX : rows x = n) by apply R. rewrite RX.
  apply fold_fields; [lia|exact Ht|exact D|rewrite hemisphere_fields_names; apply output_names_nodup].
Qed.

Lemma two_steps {F} (l1 fs fn : option F) (p0 : F -> F) (p1 : F -> F -> F) (mask : F) :
  l1 = match fs with Some g => Some (p0 g) | None => None end ->
  match fn with Some f => Some (p1 f (match l1 with Some g => g | None => mask end)) | None => l1 end =
  match fn, fs with Some f, Some g => Some (p1 f (p0 g)) | Some f, None => Some (p1 f mask) | None, Some g => Some (p0 g) | None, None => None end.
Proof. intros ->. destruct fn, fs; reflexivity. Qed.
Lemma global_is m s n a r k ns nn : regular (latitude s) a r ns -> regular (latitude n) (a + inject_Z k * r) r nn ->
  2 <= ns -> 2 <= nn -> ns <= k -> (tolerance < r)%Q -> (a <= 0)%Q -> (0 < a + inject_Z k * r)%Q ->
  daynumber s = daynumber n -> zlen (longitude s) = zlen (longitude n) ->
  exists d, process_global A m s n = Ok (daynumber s, k + nn, zlen (longitude s), d) /\ NoDup (map fst d) /\
    forall nm, lookup d nm =
      match lookup (hemisphere_fields m n Northern) nm, lookup (hemisphere_fields m s Southern) nm with
      | Some f, Some g => Some (placed k nn f (placed 0 ns g (masked_all A)))
      | Some f, None => Some (placed k nn f (masked_all A))
      | None, Some g => Some (placed 0 ns g (masked_all A))
      | None, None => None
      end.
Proof.
  intros RS RN Hs Hn Hk T Ha Hb Hd Hl.
  assert (RP : (0 < r)%Q) by (unfold tolerance in T; lra).
  assert (HS : in_hemisphere s Southern) by (apply (hemisphere_regular _ _ _ _ RS); [lia|exact Ha]).
  assert (HN : in_hemisphere n Northern) by (apply (hemisphere_regular _ _ _ _ RN); [lia|exact Hb]).
  destruct (regular_get _ _ _ _ 0 RS) as (s0 & E0 & V0); [lia|].
  destruct (regular_get _ _ _ _ 1 RS) as (s1 & E1 & V1); [lia|].
  destruct (regular_last _ _ _ _ RS) as (sz & Ez & Vz); [lia|].
  destruct (regular_get _ _ _ _ 0 RN) as (n0 & F0 & W0); [lia|].
  destruct (regular_last _ _ _ _ RN) as (nz & Fz & Wz); [lia|].
  change (inject_Z 0) with 0%Q in V0, W0. change (inject_Z 1) with 1%Q in V1.
  unfold process_global. rewrite (proj2 (hemisphere_iff s _) HS), (proj2 (hemisphere_iff n _) HN). cbn [bind negb].
  unfold columns. rewrite Hd, Hl, !Z.eqb_refl. cbn [negb]. rewrite E1, E0. cbn [bind].
  assert (ER : (s1 - s0 == r)%Q) by (rewrite V0, V1; ring).
  destruct (Qle_bool (s1 - s0) 0) eqn:B1; [apply Qle_bool_iff in B1; lra|]. rewrite F0, Ez. cbn [bind].
  assert (KK : (inject_Z (ns - 1) <= inject_Z k - 1)%Q).
  { replace (ns - 1) with (ns + (-1)) by lia. rewrite inject_plus. change (inject_Z (-1)) with (-1)%Q. rewrite Zle_Qle in Hk. lra. }
  destruct (Qle_bool n0 sz) eqn:B2.
  { apply Qle_bool_iff in B2. exfalso. assert (inject_Z (ns - 1) * r <= (inject_Z k - 1) * r)%Q by (apply Qmult_le_compat_r; [exact KK|lra]). lra. }
  rewrite (uneven_regular _ _ _ _ _ RS Hs ER), (uneven_regular _ _ _ _ _ RN Hn ER). cbn [bind]. rewrite Fz. cbn [bind].
  assert (Q1 : ((nz - s0 + tolerance) / (s1 - s0) == inject_Z (k + (nn - 1)) + tolerance / r)%Q).
  { rewrite ER, Wz, V0, inject_plus. field. lra. }
  assert (TR : (0 < tolerance / r)%Q) by (apply Qlt_shift_div_l; [exact RP|unfold tolerance; lra]).
  assert (TR1 : (tolerance / r < 1)%Q) by (apply Qlt_shift_div_r; [exact RP|lra]).
  rewrite (int_is _ (k + (nn - 1))); [|lia|rewrite Q1; lra|rewrite Q1; lra].
  replace (k + (nn - 1) + 1) with (k + nn) by lia. cbn [foldM].
  destruct (combine_hemisphere_is m (k + nn) s0 (s1 - s0) [] s a r ns Southern 0 RS) as (d1 & G1 & D1 & L1); try assumption; try lia.
  { rewrite V0. change (inject_Z 0) with 0%Q. ring. }
  { constructor. }
  rewrite G1. cbn [bind].
  destruct (combine_hemisphere_is m (k + nn) s0 (s1 - s0) d1 n (a + inject_Z k * r) r nn Northern k RN) as (d2 & G2 & D2 & L2); try assumption; try lia.
  { rewrite V0. ring. }
  rewrite G2. cbn [bind]. exists d2. split; [reflexivity|]. split; [exact D2|]. intros nm. rewrite L2.
  assert (L1' : lookup d1 nm = match lookup (hemisphere_fields m s Southern) nm with Some f => Some (placed 0 ns f (masked_all A)) | None => None end) by (rewrite L1; reflexivity).
  exact (two_steps _ _ _ (fun g => placed 0 ns g (masked_all A)) (placed k nn) (masked_all A) L1').
Qed.

(* what an accepted pair of inputs has gone through *)
Lemma global_checked m s n day total cols d : process_global A m s n = Ok (day, total, cols, d) ->
  in_hemisphere s Southern /\ in_hemisphere n Northern /\ day = daynumber s /\ daynumber s = daynumber n /\
  zlen (longitude s) = zlen (longitude n) /\ cols = zlen (longitude s) /\
  exists s0 s1 sz n0, py_index (latitude s) 0 = Ok s0 /\ py_index (latitude s) 1 = Ok s1 /\ py_index (latitude s) (-1) = Ok sz /\
    py_index (latitude n) 0 = Ok n0 /\ (s0 < s1)%Q /\ (sz < n0)%Q /\
    Forall (fun e => Qabs (e - (s1 - s0)) <= tolerance)%Q (steps (latitude s)) /\
    Forall (fun e => Qabs (e - (s1 - s0)) <= tolerance)%Q (steps (latitude n)).
Proof.
  intros H. unfold process_global in H.
  destruct (hemisphere s) as [hs|] eqn:HS; [|discriminate]. cbn [bind] in H. destruct hs; [discriminate|]. cbn [negb] in H.
  destruct (hemisphere n) as [hn|] eqn:HN; [|discriminate]. cbn [bind] in H. destruct hn; [|discriminate]. cbn [negb] in H.
  destruct (Z.eqb_spec (daynumber s) (daynumber n)) as [ED|]; [|discriminate]. cbn [negb] in H.
  destruct (Z.eqb_spec (columns s) (columns n)) as [EC|]; [|discriminate]. cbn [negb] in H.
  destruct (py_index (latitude s) 1) as [s1|] eqn:E1; [|discriminate]. cbn [bind] in H.
  destruct (py_index (latitude s) 0) as [s0|] eqn:E0; [|discriminate]. cbn [bind] in H.
  destruct (Qle_bool (s1 - s0) 0) eqn:B1; [discriminate|].
  destruct (py_index (latitude n) 0) as [n0|] eqn:F0; [|discriminate]. cbn [bind] in H.
  destruct (py_index (latitude s) (-1)) as [sz|] eqn:Ez; [|discriminate]. cbn [bind] in H.
  destruct (Qle_bool n0 sz) eqn:B2; [discriminate|].
  destruct (uneven (latitude s) (s1 - s0)) as [[|]|] eqn:U1; try discriminate. cbn [bind] in H.
  destruct (uneven (latitude n) (s1 - s0)) as [[|]|] eqn:U2; try discriminate. cbn [bind] in H.
  destruct (py_index (latitude n) (-1)) as [nz|]; [|discriminate]. cbn [bind] in H.
  destruct (foldM _ _ _) as [d'|]; [|discriminate]. cbn [bind] in H.
  assert (day = daynumber s /\ cols = columns s) as [-> ->] by (split; congruence).
  split; [apply hemisphere_iff, HS|]. split; [apply hemisphere_iff, HN|]. split; [reflexivity|]. split; [exact ED|]. split; [exact EC|]. split; [reflexivity|].
  exists s0, s1, sz, n0. do 4 (split; [assumption || reflexivity|]).
  assert (B : forall p q, Qle_bool p q = false -> (q < p)%Q).
  { intros p q E. apply Qnot_le_lt. intros L. apply Qle_bool_iff in L. congruence. }
  apply B in B1, B2. split; [lra|]. split; [exact B2|].
  assert (U : forall l res, uneven l res = Ok false -> Forall (fun e => Qabs (e - res) <= tolerance)%Q (steps l)).
  { intros l res E. unfold uneven in E. destruct (steps l) as [|e es] eqn:S; [constructor|]. rewrite <- S in *. clear S.
    assert (X : existsb (fun s => Qltb tolerance (Qabs (s - res))) (steps l) = false) by congruence.
    apply Forall_forall. intros f Hf. destruct (Qltb tolerance (Qabs (f - res))) eqn:Q.
    - exfalso. rewrite (proj2 (existsb_exists _ _)) in X; [discriminate|]. exists f. auto.
    - apply Qltb_false, Q. }
  split; apply U; assumption.
Qed.
End Model.

(* ---- shapes and parameters *)

Lemma shape_eqb_eq a b : shape_eqb a b = true <-> a = b.
Proof.
  revert b. induction a as [|x a IH]; intros [|y b]; cbn [shape_eqb]; split; intros H; try discriminate; try reflexivity.
  - apply andb_true_iff in H. destruct H as [E H]. apply Z.eqb_eq in E. apply IH in H. congruence.
  - injection H as -> ->. rewrite Z.eqb_refl. apply IH. reflexivity.
Qed.
Lemma shapes_checked s : check_shapes s = Ok tt ->
  exists n w b c, sh_lat s = [n] /\ sh_lon s = [w] /\ sh_t3d s = [b; n; w] /\ sh_nobs s = [c; n; w] /\
    Forall (fun h => h = [n; w]) [sh_t s; sh_tmin s; sh_tmax s; sh_tstd s; sh_ice s; sh_unc s; sh_syn s; sh_large s].
Proof.
  unfold check_shapes. intros H.
  repeat match type of H with (if negb ?b then _ else _) = _ => destruct b eqn:?; cbn [negb] in H; [|discriminate] end.
  repeat match goal with E : shape_eqb _ _ = true |- _ => apply shape_eqb_eq in E end.
  destruct (sh_lat s) as [|n [|? ?]]; unfold zlen in *; cbn [length] in *; try lia.
  destruct (sh_lon s) as [|w [|? ?]]; cbn [length] in *; try lia.
  destruct (sh_t3d s) as [|b t3]; cbn [length] in *; try lia.
  destruct (sh_nobs s) as [|c no]; cbn [length] in *; try lia.
  cbn [hd tl] in *. exists n, w, b, c. split; [reflexivity|]. split; [reflexivity|]. split; [congruence|]. split; [congruence|].
  repeat (constructor; [congruence|]). constructor.
Qed.

Lemma load_checked {V} names (M : list (list V)) d : load_hemisphere_model_parameters names M = Ok d ->
  In "LandIce"%string names /\ In "SeaIce"%string names /\
  Forall2 (fun name nv => fst nv = name) names d /\
  forall i name, nth_error names i = Some name -> exists a b c, nth_error M i = Some [a; b; c] /\
    nth_error d i = Some (name, [(TAS, a); (TASMIN, b); (TASMAX, c)]).
Proof.
  unfold load_hemisphere_model_parameters. intros H.
  destruct (existsb (String.eqb "LandIce") names) eqn:E1; [|discriminate]. destruct (existsb (String.eqb "SeaIce") names) eqn:E2; [|discriminate].
  cbn [negb] in H.
  assert (I : forall n, existsb (String.eqb n) names = true -> In n names).
  { intros n E. apply existsb_exists in E. destruct E as (n' & Hn & Q). apply String.eqb_eq in Q. congruence. }
  split; [apply I, E1|]. split; [apply I, E2|]. clear I E1 E2.
  change 0 with (Z.of_nat 0) in H.
  enough (G : Forall2 (fun name nv => fst nv = name) names d /\
     forall i name, nth_error names i = Some name -> exists a b c, nth_error M (0 + i) = Some [a; b; c] /\
        nth_error d i = Some (name, [(TAS, a); (TASMIN, b); (TASMAX, c)])) by exact G.
  revert d H. generalize 0%nat as k. induction names as [|name names IH]; intros k d H.
  - injection H as <-. split; [constructor|]. intros [|i] n E; discriminate.
  - rewrite py_index_nonneg in H by lia. rewrite Nat2Z.id in H. destruct (nth_error M k) as [v|] eqn:EM; [|discriminate]. cbn [bind] in H.
    destruct (zlen v =? 3) eqn:L; [|discriminate]. cbn [negb] in H. replace (Z.of_nat k + 1) with (Z.of_nat (S k)) in H by lia.
    destruct ((fix each (index : Z) (names : list string) {struct names} := _) (Z.of_nat (S k)) names) as [rest|] eqn:ER; [|discriminate].
    cbn [bind] in H. injection H as <-. destruct (IH (S k) rest ER) as [F G]. split; [constructor; [reflexivity|exact F]|].
    intros [|i] n E.
    + injection E as <-. rewrite Nat.add_0_r, EM. destruct v as [|a [|b [|c [|? ?]]]]; unfold zlen in L; cbn [length] in L; try lia.
      exists a, b, c. split; reflexivity.
    + replace (k + S i)%nat with (S k + i)%nat by lia. apply G. exact E.
Qed.

(* ---- two files as one source *)

Lemma Forall2_nth {X Y} (R : X -> Y -> Prop) l m : length l = length m ->
  (forall i x y, nth_error l i = Some x -> nth_error m i = Some y -> R x y) -> Forall2 R l m.
Proof.
  revert m. induction l as [|x l IH]; intros [|y m] L H; try discriminate; constructor.
  - apply (H 0%nat); reflexivity.
  - apply IH; [cbn in L; lia|]. intros i a b Ea Eb. apply (H (S i)); assumption.
Qed.
Lemma zrange_nth a b i : 0 <= i < b - a -> nth_error (zrange a b) (Z.to_nat i) = Some (a + i).
Proof.
  intros H. unfold zrange. rewrite nth_error_map, (nth_error_nth' _ 0%nat) by (rewrite seq_length; lia).
  rewrite seq_nth by lia. cbn [option_map]. f_equal. lia.
Qed.
Lemma prod_nth {X Y} (l : list X) (m : list Y) i j x y : nth_error l (Z.to_nat i) = Some x -> nth_error m (Z.to_nat j) = Some y ->
  0 <= i -> 0 <= j < zlen m -> nth_error (list_prod l m) (Z.to_nat (i * zlen m + j)) = Some (x, y).
Proof.
  intros Ex Ey Hi Hj. rewrite <- (Z2Nat.id i Hi). revert Ex. generalize (Z.to_nat i) as k. clear i Hi. intros k. revert k.
  induction l as [|a l IH]; intros [|k] Ex; try discriminate; cbn [list_prod].
  - injection Ex as ->. rewrite nth_error_app1 by (rewrite map_length; unfold zlen in Hj; lia).
    replace (Z.of_nat 0 * zlen m + j) with j by lia. rewrite nth_error_map, Ey. reflexivity.
  - unfold zlen in *. rewrite nth_error_app2; [|rewrite map_length; rewrite Nat2Z.inj_succ; nia].
    rewrite map_length. replace (Z.to_nat (Z.of_nat (S k) * Z.of_nat (length m) + j) - length m)%nat with (Z.to_nat (Z.of_nat k * Z.of_nat (length m) + j)) by (rewrite Nat2Z.inj_succ; nia).
    apply IH. exact Ex.
Qed.
Lemma zlen_prod {X Y} (l : list X) (m : list Y) : zlen (list_prod l m) = zlen l * zlen m.
Proof. unfold zlen. rewrite prod_length. lia. Qed.

Lemma arange_nth a s r n i : Qceil ((s - a) / r) = n -> 0 <= i < n -> nth_error (arange a s r) (Z.to_nat i) = Some (a + inject_Z i * r)%Q.
Proof. intros E H. unfold arange. rewrite E, nth_error_map, zrange_nth by lia. reflexivity. Qed.

(* locations of a file whose rows are the rows k, k+1, ... of the lookup *)
Lemma file_located f (axis : list Q) a r n k total : regular (f_latitudes f) (a + inject_Z k * r) r n -> 0 <= k -> k + n <= total ->
  (forall i, 0 <= i < total -> exists q, nth_error axis (Z.to_nat i) = Some q /\ (q == a + inject_Z i * r)%Q) ->
  Forall2 (fun loc c => exists q, nth_error (list_prod axis (f_longitudes f)) (Z.to_nat loc) = Some q /\ (fst q == fst c)%Q /\ snd q = snd c)
    (map (fun l => l + k * zlen (f_longitudes f)) (file_locations f)) (file_coordinates f).
Proof.
  intros R Hk Ht HA. set (w := zlen (f_longitudes f)). assert (W : 0 <= w) by apply zlen_nonneg.
  pose proof (proj1 R) as L. assert (Hn : 0 <= n) by (rewrite <- L; apply zlen_nonneg).
  apply Forall2_nth.
  { rewrite map_length. unfold file_locations, file_coordinates. rewrite zrange_length, prod_length. unfold zlen. lia. }
  intros p loc c E1 E2. unfold file_locations in E1. rewrite L in E1. fold w in E1.
  assert (Hp : (p < length (list_prod (f_latitudes f) (f_longitudes f)))%nat).
  { apply nth_error_Some. unfold file_coordinates in E2. congruence. }
  assert (HP : Z.of_nat p < n * w).
  { pose proof (zlen_prod (f_latitudes f) (f_longitudes f)) as ZP. rewrite L in ZP. unfold zlen at 1 in ZP. fold w in ZP. lia. }
  rewrite nth_error_map in E1. rewrite <- (Nat2Z.id p) in E1 at 1. rewrite zrange_nth in E1 by lia. cbn [option_map] in E1.
  injection E1 as <-. assert (WP : 0 < w) by nia.
  set (i := Z.of_nat p / w). set (j := Z.of_nat p mod w).
  assert (EP : Z.of_nat p = i * w + j) by (unfold i, j; pose proof (Z.div_mod (Z.of_nat p) w); lia).
  assert (J : 0 <= j < w) by (apply Z.mod_pos_bound, WP). assert (I : 0 <= i) by (apply Z.div_pos; lia).
  assert (I2 : i < n) by nia. clearbody i j.
  destruct (nth_error (f_latitudes f) (Z.to_nat i)) as [y|] eqn:EY.
  2:{ apply nth_error_None in EY. unfold zlen in L. lia. }
  destruct (nth_error (f_longitudes f) (Z.to_nat j)) as [x|] eqn:EX.
  2:{ apply nth_error_None in EX. unfold w, zlen in J. lia. }
  pose proof (prod_nth _ _ i j y x EY EX I J) as EC. fold w in EC. rewrite <- EP, Nat2Z.id in EC. unfold file_coordinates in E2. rewrite E2 in EC.
  injection EC as ->. destruct (HA (k + i)) as (q & EQ & VQ); [lia|].
  exists (q, x). split; [|split; [|reflexivity]].
  - replace (Z.of_nat p + k * w) with ((k + i) * w + j) by lia. apply prod_nth; [exact EQ|exact EX|lia|exact J].
  - cbn [fst]. rewrite VQ, (proj2 R i y EY I), inject_plus. ring.
Qed.

Lemma combined_is f g a r k nf ng : regular (f_latitudes f) a r nf -> regular (f_latitudes g) (a + inject_Z k * r) r ng ->
  2 <= nf -> 2 <= ng -> nf <= k -> (tolerance < r)%Q -> f_longitudes g = f_longitudes f -> f_longitudes f <> [] ->
  exists c, combined [f; g] = Ok c /\
    Forall2 (fun loc x => exists q, nth_error (observation_location_lookup c) (Z.to_nat loc) = Some q /\ (fst q == fst x)%Q /\ snd q = snd x)
      (combined_locations c) (file_coordinates f ++ file_coordinates g) /\
    zlen (observation_location_lookup c) = (k + ng) * zlen (f_longitudes f).
Proof.
  intros RF RG Hf Hg Hk T EL NL. assert (RP : (0 < r)%Q) by (unfold tolerance in T; lra).
  destruct (regular_get _ _ _ _ 0 RF) as (a0 & E0 & V0); [lia|].
  destruct (regular_get _ _ _ _ 1 RF) as (a1 & E1 & V1); [lia|].
  destruct (regular_last _ _ _ _ RF) as (az & Ez & Vz); [lia|].
  destruct (regular_get _ _ _ _ 0 RG) as (b0 & F0 & W0); [lia|].
  destruct (regular_last _ _ _ _ RG) as (bz & Fz & Wz); [lia|].
  change (inject_Z 0) with 0%Q in V0, W0. change (inject_Z 1) with 1%Q in V1.
  assert (ER : (a1 - a0 == r)%Q) by (rewrite V0, V1; ring).
  pose proof (zlen_pos _ NL) as LP.
  assert (KK : (inject_Z (nf - 1) <= inject_Z k - 1)%Q).
  { replace (nf - 1) with (nf + (-1)) by lia. rewrite inject_plus. change (inject_Z (-1)) with (-1)%Q. rewrite Zle_Qle in Hk. lra. }
  assert (TR : (0 < tolerance / r)%Q) by (apply Qlt_shift_div_l; [exact RP|unfold tolerance; lra]).
  assert (TR1 : (tolerance / r < 1)%Q) by (apply Qlt_shift_div_r; [exact RP|lra]).
  assert (CE : Qceil ((bz + tolerance - a0) / (a1 - a0)) = k + ng).
  { assert (Q1 : ((bz + tolerance - a0) / (a1 - a0) == inject_Z (k + (ng - 1)) + tolerance / r)%Q).
    { rewrite ER, Wz, V0, inject_plus. field. lra. }
    apply ceil_is; rewrite Q1; replace (k + ng) with (k + (ng - 1) + 1) by lia; rewrite (inject_plus (k + (ng - 1)) 1); change (inject_Z 1) with 1%Q; lra. }
  assert (IE : int ((b0 - az) / (a1 - a0) + tolerance)%Q = k - (nf - 1)).
  { assert (Q1 : ((b0 - az) / (a1 - a0) + tolerance == inject_Z (k - (nf - 1)) + tolerance)%Q).
    { replace (k - (nf - 1)) with (k + - (nf - 1)) by lia. rewrite ER, W0, Vz, inject_plus, inject_Z_opp. field. lra. }
    apply int_is; [lia| |]; rewrite Q1; unfold tolerance; lra. }
  unfold combined. rewrite EL, Z.eqb_refl. replace (zlen (f_longitudes f) =? 0) with false by lia. cbn [negb orb].
  assert (X : existsb (fun xy => Qltb tolerance (Qabs (snd xy - fst xy))) (List.combine (f_longitudes f) (f_longitudes f)) = false).
  { clear. induction (f_longitudes f) as [|q l IH]; [reflexivity|]. cbn [List.combine existsb fst snd]. rewrite IH, orb_false_r.
    apply Qltb_false. assert (E : (q - q == 0)%Q) by ring. rewrite E. discriminate. }
  rewrite X, E1, E0. cbn [bind]. destruct (Qltb (a1 - a0) 0) eqn:B1; [apply Qltb_true in B1; lra|].
  rewrite F0, Ez. cbn [bind]. destruct (Qle_bool b0 az) eqn:B2.
  { apply Qle_bool_iff in B2. exfalso. assert (inject_Z (nf - 1) * r <= (inject_Z k - 1) * r)%Q by (apply Qmult_le_compat_r; [exact KK|lra]). lra. }
  rewrite (uneven_regular _ _ _ _ _ RF Hf ER), (uneven_regular _ _ _ _ _ RG Hg ER). cbn [bind]. rewrite Fz. cbn [bind].
  destruct (Qeq_bool (a1 - a0) 0) eqn:B3; [apply Qeq_bool_iff in B3; lra|].
  eexists. split; [reflexivity|]. unfold combined_locations, observation_location_lookup.
  cbn [longitude_axis_points latitude_axis_points location_offsets source_files List.combine flat_map fst snd]. rewrite app_nil_r. rewrite IE, (proj1 RF).
  replace (nf - 1 + (k - (nf - 1))) with k by lia.
  assert (HA : forall i, 0 <= i < k + ng -> exists q, nth_error (arange a0 (bz + tolerance) (a1 - a0)) (Z.to_nat i) = Some q /\ (q == a + inject_Z i * r)%Q).
  { intros i Hi. exists (a0 + inject_Z i * (a1 - a0))%Q. split; [apply (arange_nth _ _ _ (k + ng)); [exact CE|exact Hi]|]. rewrite ER, V0. ring. }
  split.
  - apply Forall2_app.
    + pose proof (file_located f (arange a0 (bz + tolerance) (a1 - a0)) a r nf 0 (k + ng)) as G. rewrite Z.mul_0_l in G. apply G; [|lia|lia|exact HA].
      destruct RF as [L H]. split; [exact L|]. intros i q E Hi. rewrite (H i q E Hi). change (inject_Z 0) with 0%Q. ring.
    + pose proof (file_located g (arange a0 (bz + tolerance) (a1 - a0)) a r ng k (k + ng)) as G. rewrite EL in G. apply G; [exact RG|lia|lia|exact HA].
  - rewrite zlen_prod. f_equal. unfold arange. rewrite zlen_map, CE, zlen_zrange; lia.
Qed.
