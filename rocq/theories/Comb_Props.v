(* The theorems about combinations and elements of the model, for the properties C38-C40 and C73-C75. *)
From Coq Require Import QArith Qcanon.
From Verif Require Import Base Grid_Model Grid_Proofs Lin Ana_Model Ana_Spec Ana_Proofs Comb_Model Comb_Spec Comb_Proofs.
Local Open Scope nat_scope.
Local Open Scope list_scope.

(* ================= C38: combined hyperparameters ================= *)

Definition ex_hyper : hyper :=
  HCombination [HLocal (qz 1) (qz 2); HCombination [HCovariate (qz 3); HSpaceTime (qz 4) (qz 5) (qz 6)]; HSeasonal [qz 7; qz 8]].
Lemma ex_hyper_complete : complete ex_hyper.
Proof. cbn. repeat (split; [exact I|]); repeat split; try discriminate; exact I. Qed.

(* Reading gives all the parameter values from left to right. *)
Theorem C38_read h : complete h -> get_array h = Ok (values h).
Proof. apply get_complete. Qed.
Print Assumptions C38_read.
Example C38_read_nonvacuous : complete ex_hyper /\ get_array ex_hyper = Ok (map qz [1; 2; 3; 4; 5; 6; 7; 8]%Z).
Proof. split; [apply ex_hyper_complete|reflexivity]. Qed.

(* Setting and reading back gives the array, and nothing but the values changes. *)
Theorem C38_round_trip h vs : complete h -> length vs = length (values h) ->
  exists h', set_array h vs = (h', None) /\ get_array h' = Ok vs /\ same_shape h h'.
Proof.
  intros Hc Hl. destruct (all_settable h Hc vs Hl) as (h' & H1 & H2 & H3). exists h'. split; [exact H1|]. split; [|exact H3].
  rewrite <- H2. apply get_complete, (same_shape_complete h h' H3 Hc).
Qed.
Print Assumptions C38_round_trip.
Example C38_round_trip_nonvacuous : complete ex_hyper /\ length (map qz [8; 7; 6; 5; 4; 3; 2; 1]%Z) = length (values ex_hyper) /\
  fst (set_array ex_hyper (map qz [8; 7; 6; 5; 4; 3; 2; 1]%Z)) =
  HCombination [HLocal (qz 8) (qz 7); HCombination [HCovariate (qz 6); HSpaceTime (qz 5) (qz 4) (qz 3)]; HSeasonal [qz 2; qz 1]].
Proof. split; [apply ex_hyper_complete|]. split; reflexivity. Qed.

(* Setting what was read changes nothing. *)
Theorem C38_set_own h vs : complete h -> get_array h = Ok vs -> set_array h vs = (h, None).
Proof.
  intros Hc Hg. rewrite (get_complete h Hc) in Hg. assert (Hv : values h = vs) by congruence. clear Hg. subst vs.
  destruct (all_settable h Hc (values h) eq_refl) as (h' & H1 & H2 & H3). rewrite H1. f_equal. symmetry. apply same_shape_inj; congruence.
Qed.
Print Assumptions C38_set_own.
Example C38_set_own_nonvacuous : complete ex_hyper /\ is_ok (get_array ex_hyper) = true.
Proof. split; [apply ex_hyper_complete|reflexivity]. Qed.

(* Each element of a combination receives its own consecutive slice. *)
Theorem C38_slices hs vs : complete (HCombination hs) -> length vs = length (values (HCombination hs)) ->
  exists hs', set_array (HCombination hs) vs = (HCombination hs', None) /\ length hs' = length hs /\
    forall k h, nth_error hs k = Some h ->
      exists h', nth_error hs' k = Some h' /\ set_array h (part (hsizes hs) k vs) = (h', None) /\ get_array h' = Ok (part (hsizes hs) k vs).
Proof.
  intros Hc Hl. rewrite (set_combination_complete hs vs Hc), Hl, Nat.eqb_refl.
  pose proof Hc as Hc'. apply complete_combination in Hc'. destruct Hc' as [Hcs _].
  assert (Hset : Forall settable hs) by (apply Forall_forall; intros h _; apply all_settable).
  cbn [values] in Hl. destruct (set_loop_ok vs hs 0 Hset Hcs) as (hs' & L1 & L2 & L3 & L4).
  { rewrite flat_map_size. cbn. lia. }
  rewrite L1. exists hs'. split; [reflexivity|]. split; [clear -L3; induction L3; cbn; congruence|].
  intros k h Hk. destruct (L4 k h Hk) as (h' & E & Hv). exists h'. split; [exact E|].
  assert (Hkl : k < length (hsizes hs)) by (unfold hsizes; rewrite map_length; apply nth_error_Some; congruence).
  assert (Hsz : size (hsizes hs) k = length (values h)).
  { unfold size, hsizes. apply nth_error_nth. rewrite nth_error_map, Hk. reflexivity. }
  assert (HT : start (hsizes hs) k + size (hsizes hs) k <= length vs).
  { pose proof (start_le (hsizes hs) k Hkl) as G. unfold hsizes in G at 3. rewrite flat_map_size in G. lia. }
  assert (Hp : values h' = part (hsizes hs) k vs).
  { rewrite Hv. cbn [Nat.add]. fold (hsizes hs). rewrite <- Hsz. apply vec_ext.
    - rewrite part_length, firstn_length, skipn_length. lia.
    - intros j Hj. rewrite firstn_length in Hj. rewrite vnth_firstn by lia. rewrite vnth_skipn. unfold part. rewrite vnth_tab by lia. reflexivity. }
  rewrite <- Hp. assert (Hch : complete h) by (rewrite Forall_forall in Hcs; apply Hcs; apply nth_error_In with k; exact Hk).
  assert (Hs : same_shape h h').
  { clear -L3 Hk E. revert k Hk E. induction L3 as [|a b l l' Hab _ IH]; intros [|k] Hk E; try discriminate; cbn in *; [congruence|eauto]. }
  destruct (all_settable h Hch (values h')) as (h2 & A & B & C).
  { symmetry. apply same_shape_length, Hs. }
  assert (h2 = h').
  { apply same_shape_inj; [|congruence]. clear -Hs C. revert h2 h' Hs C.
    induction h as [v|x y|x y z|ws|hs IH] using hyper_induction; intros [?|? ?|? ? ?|?|h2] [?|? ?|? ? ?|?|h1] Hs C; try contradiction; try exact I; [cbn in *; congruence|].
    apply same_shape_combination in Hs. apply same_shape_combination in C. apply same_shape_combination.
    revert h2 C. induction Hs as [|a b l l' Hab _ IHl]; intros h2 C; inversion C; subst; [constructor|]. inversion IH; subst. constructor; eauto. }
  subst h2. split; [exact A|]. apply get_complete, (same_shape_complete h h' Hs Hch).
Qed.
Print Assumptions C38_slices.
Example C38_slices_nonvacuous : exists hs, ex_hyper = HCombination hs /\ complete (HCombination hs) /\ length (map qz [8; 7; 6; 5; 4; 3; 2; 1]%Z) = length (values (HCombination hs)) /\
  hsizes hs = [2; 4; 2] /\ part (hsizes hs) 1 (map qz [8; 7; 6; 5; 4; 3; 2; 1]%Z) = map qz [6; 5; 4; 3]%Z.
Proof. eexists. split; [reflexivity|]. split; [apply ex_hyper_complete|]. split; [reflexivity|]. split; reflexivity. Qed.

(* The ranges of the elements are consecutive and together give each index once. *)
Theorem C38_ranges hs : Forall complete hs -> exists rs, get_element_ranges hs = Ok rs /\ length rs = length hs /\
  concat rs = seq 0 (list_sum (hsizes hs)) /\
  forall k, k < length hs -> nth_error rs k = Some (seq (start (hsizes hs) k) (size (hsizes hs) k)).
Proof.
  intros H. exists (ranges_of 0 (hsizes hs)). unfold get_element_ranges. split; [apply ranges_from_complete, H|].
  split; [rewrite ranges_of_length; unfold hsizes; apply map_length|]. split; [apply ranges_of_concat|].
  intros k Hk. rewrite ranges_of_nth by (unfold hsizes; rewrite map_length; exact Hk). reflexivity.
Qed.
Print Assumptions C38_ranges.
Example C38_ranges_nonvacuous : Forall complete [HLocal (qz 1) (qz 2); HSeasonal []; HCovariate (qz 3)] /\
  get_element_ranges [HLocal (qz 1) (qz 2); HSeasonal []; HCovariate (qz 3)] = Ok [[0; 1]; []; [2]].
Proof. split; [repeat constructor|reflexivity]. Qed.

(* An array of a wrong length is refused and nothing is changed. *)
Theorem C38_wrong_length hs vs : complete (HCombination hs) -> length vs <> length (values (HCombination hs)) ->
  set_array (HCombination hs) vs = (HCombination hs, Some ValueError).
Proof. intros Hc Hl. rewrite (set_combination_complete hs vs Hc), (proj2 (Nat.eqb_neq _ _) Hl). reflexivity. Qed.
Print Assumptions C38_wrong_length.
Example C38_wrong_length_nonvacuous : exists hs, ex_hyper = HCombination hs /\ complete (HCombination hs) /\ length [qz 1] <> length (values (HCombination hs)).
Proof. eexists. split; [reflexivity|]. split; [apply ex_hyper_complete|discriminate]. Qed.

(* Without the condition on the last element the claim is false: such hyperparameters can be read but not set. *)
Theorem C38_round_trip_refuted : exists h vs, get_array h = Ok vs /\ vs <> [] /\ set_array h vs = (h, Some IndexError).
Proof. exists (HCombination [HCovariate (qz 1); HSeasonal []]), [qz 1]. split; [reflexivity|]. split; [discriminate|reflexivity]. Qed.
Print Assumptions C38_round_trip_refuted.

(* ================= C39: combined designs ================= *)

Definition ex_A : matrix := {| m_rows := 2; m_cols := 1; m_at := fun i _ => qz (Z.of_nat i + 1) |}.
Definition ex_B : matrix := {| m_rows := 2; m_cols := 2; m_at := fun i j => if i =? j then qz (-1) else qz 3 |}.
Definition linear_piece (A : matrix) : piece :=
  {| pc_design := linear_design A; pc_function := fun r x => tab (m_rows A) (times (if r then mabs A else A) x); pc_jacobian := fun _ => A |}.
Definition ex_pieces : list piece := [linear_piece ex_A; linear_piece ex_B].
Lemma ex_pieces_ok : Forall (piece_ok 2) ex_pieces.
Proof. constructor; [apply (linear_design_ok ex_A)|]. constructor; [apply (linear_design_ok ex_B)|constructor]. Qed.

(* The state splits into consecutive parts. *)
Theorem C39_state_parts (ds : list design) x : length x = list_sum (map d_dim ds) ->
  element_states ds (Some x) = tab (length ds) (fun k => Some (part (map d_dim ds) k x)) /\
  concat (tab (length ds) (fun k => part (map d_dim ds) k x)) = x.
Proof.
  intros H. unfold element_states. pose proof (split_state_parts _ x H) as E. pose proof (split_state_concat _ x H) as C. rewrite E in *. rewrite map_length in *.
  split; [|exact C]. unfold tab. rewrite map_map. reflexivity.
Qed.
Print Assumptions C39_state_parts.
Example C39_state_parts_nonvacuous : length (map qz [1; 2; 3]%Z) = list_sum (map d_dim (map pc_design ex_pieces)) /\
  element_states (map pc_design ex_pieces) (Some (map qz [1; 2; 3]%Z)) = [Some [qz 1]; Some [qz 2; qz 3]].
Proof. split; reflexivity. Qed.

(* The prediction is the sum of the predictions of the elements for their parts of the state. *)
Theorem C39_prediction m ps rectified x : ps <> [] -> Forall (piece_ok m) ps -> length x = list_sum (dims ps) ->
  exists v, d_function2 (combination_design (map pc_design ps)) x rectified = Ok v /\ length v = m /\
    forall i, i < m -> vnth v i =
      sumn (length ps) (fun k => match nth_error ps k with Some p => vnth (pc_function p rectified (part (dims ps) k x)) i | None => 0%Qc end).
Proof.
  intros Hne Hps Hx. exists (sum_function m ps rectified x). split; [apply combination_function_ok; assumption|].
  split; [apply tab_length|]. intros i Hi. unfold sum_function. rewrite vnth_tab by exact Hi. reflexivity.
Qed.
Print Assumptions C39_prediction.
Example C39_prediction_nonvacuous : ex_pieces <> [] /\ Forall (piece_ok 2) ex_pieces /\ length (map qz [10; 2; 3]%Z) = list_sum (dims ex_pieces) /\
  (do v <- d_function2 (combination_design (map pc_design ex_pieces)) (map qz [10; 2; 3]%Z) false; Ok (map this v)) = Ok (map this (map qz [17; 23]%Z)) /\
  (do v <- d_function2 (combination_design (map pc_design ex_pieces)) (map qz [10; 2; 3]%Z) true; Ok (map this v)) = Ok (map this (map qz [21; 29]%Z)).
Proof. split; [discriminate|]. split; [apply ex_pieces_ok|]. split; [reflexivity|]. split; vm_compute; reflexivity. Qed.

(* The columns of the Jacobian are those of the elements, side by side, each taken at the element's part of the state. *)
Theorem C39_jacobian m ps x : ps <> [] -> Forall (piece_ok m) ps -> length x = list_sum (dims ps) ->
  exists J, d_jacobian (combination_design (map pc_design ps)) (Some x) = Ok J /\ m_rows J = m /\ m_cols J = list_sum (dims ps) /\
    forall k p i j, nth_error ps k = Some p -> j < d_dim (pc_design p) ->
      m_at J i (start (dims ps) k + j) = m_at (pc_jacobian p (Some (part (dims ps) k x))) i j.
Proof.
  intros Hne Hps Hx. exists (hcols m (side_by_side m ps (Some x))). split; [apply combination_jacobian_ok; assumption|].
  split; [apply hcols_rows|]. split; [rewrite hcols_cols, (side_cols m ps Hps); reflexivity|].
  intros k p i j Hk Hj. pose proof (side_nth m ps (Some x) k p Hx Hk) as E. rewrite <- (side_cols m ps Hps (Some x)) at 1.
  apply hcols_at; [exact E|]. rewrite Forall_forall in Hps. rewrite (proj2 (ok_shape _ _ _ _ (Hps p (nth_error_In _ _ Hk)) _)). exact Hj.
Qed.
Print Assumptions C39_jacobian.
Example C39_jacobian_nonvacuous : ex_pieces <> [] /\ Forall (piece_ok 2) ex_pieces /\ length (map qz [10; 2; 3]%Z) = list_sum (dims ex_pieces) /\
  (do J <- d_jacobian (combination_design (map pc_design ex_pieces)) (Some (map qz [10; 2; 3]%Z)); Ok (map (fun j => this (m_at J 1 j)) [0; 1; 2])) = Ok (map this (map qz [2; 3; -1]%Z)).
Proof. split; [discriminate|]. split; [apply ex_pieces_ok|]. split; [reflexivity|]. vm_compute; reflexivity. Qed.

(* Applied to a change of the state it gives the sum of the elements' Jacobians applied to their parts of the change. *)
Theorem C39_jacobian_product m ps x dx : ps <> [] -> Forall (piece_ok m) ps -> length x = list_sum (dims ps) -> length dx = list_sum (dims ps) ->
  exists J v, d_jacobian (combination_design (map pc_design ps)) (Some x) = Ok J /\ mdot J dx = Ok v /\ length v = m /\
    forall i, i < m -> vnth v i =
      sumn (length ps) (fun k => match nth_error ps k with
        | Some p => times (pc_jacobian p (Some (part (dims ps) k x))) (part (dims ps) k dx) i
        | None => 0%Qc end).
Proof.
  intros Hne Hps Hx Hdx. exists (hcols m (side_by_side m ps (Some x))), (tab m (times (hcols m (side_by_side m ps (Some x))) dx)).
  split; [apply combination_jacobian_ok; assumption|]. split.
  - rewrite mdot_ok by (rewrite hcols_cols, (side_cols m ps Hps); exact Hdx). rewrite hcols_rows. reflexivity.
  - split; [apply tab_length|]. intros i Hi. rewrite vnth_tab by exact Hi. rewrite hcols_times, (side_cols m ps Hps).
    assert (L : length (side_by_side m ps (Some x)) = length ps).
    { rewrite <- (map_length m_cols), (side_cols m ps Hps). unfold dims. apply map_length. }
    rewrite L. apply sumn_ext. intros k Hk. destruct (nth_error ps k) as [p|] eqn:E; [|apply nth_error_None in E; lia].
    rewrite (nth_error_nth _ _ _ (side_nth m ps (Some x) k p Hx E)). reflexivity.
Qed.
Print Assumptions C39_jacobian_product.
Example C39_jacobian_product_nonvacuous : ex_pieces <> [] /\ Forall (piece_ok 2) ex_pieces /\ length (map qz [10; 2; 3]%Z) = list_sum (dims ex_pieces) /\
  length (map qz [1; 1; 1]%Z) = list_sum (dims ex_pieces).
Proof. split; [discriminate|]. split; [apply ex_pieces_ok|]. split; reflexivity. Qed.

(* The initial state consists of the initial states of the nonlinear elements and zeros for the linear ones. *)
Theorem C39_initial m ps k p : Forall (piece_ok m) ps -> nth_error ps k = Some p ->
  length (d_initial (combination_design (map pc_design ps))) = list_sum (dims ps) /\
  part (dims ps) k (d_initial (combination_design (map pc_design ps))) =
    if d_nonlinear (pc_design p) then d_initial (pc_design p) else zeros (d_dim (pc_design p)).
Proof. intros H Hk. split; [apply (initial_length ps m H)|]. apply (initial_part ps m H k p Hk). Qed.
Print Assumptions C39_initial.
Example C39_initial_nonvacuous : exists p, Forall (piece_ok 2) ex_pieces /\ nth_error ex_pieces 1 = Some p.
Proof. eexists. split; [apply ex_pieces_ok|reflexivity]. Qed.

(* A combination can itself be an element of a combination. *)
Theorem C39_nested m ps : ps <> [] -> Forall (piece_ok m) ps ->
  exists f J, piece_ok m {| pc_design := combination_design (map pc_design ps); pc_function := f; pc_jacobian := J |}.
Proof. intros Hne Hps. exists (sum_function m ps), (fun x => hcols m (side_by_side m ps x)). apply combination_design_ok; assumption. Qed.
Print Assumptions C39_nested.
Example C39_nested_nonvacuous : ex_pieces <> [] /\ Forall (piece_ok 2) ex_pieces.
Proof. split; [discriminate|apply ex_pieces_ok]. Qed.

(* An element given by a matrix predicts the product with the matrix (or with its entries' absolute values), and is a piece. *)
Theorem C39_linear A : piece_ok (m_rows A) (linear_piece A) /\
  forall x, (length x = m_cols A -> exists v, d_function (linear_design A) x = Ok v /\ length v = m_rows A /\ forall i, i < m_rows A -> vnth v i = times A x i) /\
            (length x <> m_cols A -> d_function (linear_design A) x = Err ValueError).
Proof.
  split; [apply (linear_design_ok A)|]. intros x. split.
  - intros H. exists (tab (m_rows A) (times A x)). split; [apply mdot_ok, H|]. split; [apply tab_length|]. intros i Hi. apply vnth_tab, Hi.
  - apply mdot_refused.
Qed.
Print Assumptions C39_linear.
Example C39_linear_nonvacuous : length [qz 3] = m_cols ex_A /\ (do v <- d_function (linear_design ex_A) [qz 3]; Ok (map this v)) = Ok (map this [qz 3; qz 6]).
Proof. split; vm_compute; reflexivity. Qed.

(* With the rectified flag each entry of the matrix is replaced by its absolute value. *)
Theorem C39_rectified A x : length x = m_cols A ->
  exists v, d_function2 (linear_design A) x true = Ok v /\ length v = m_rows A /\
    forall i, i < m_rows A -> exists b : nat -> Qc, (forall j, (0 <= b j)%Qc /\ (b j = m_at A i j \/ b j = (- m_at A i j)%Qc)) /\
      vnth v i = sumn (m_cols A) (fun j => b j * vnth x j)%Qc.
Proof.
  intros H. exists (tab (m_rows A) (times (mabs A) x)). split; [apply (mdot_ok (mabs A)); exact H|]. split; [apply tab_length|].
  intros i Hi. exists (fun j => qabs (m_at A i j)). split; [|apply vnth_tab, Hi].
  intros j. unfold qabs. destruct (Qclt_le_dec (m_at A i j) 0) as [L|L]; split; [|right; reflexivity|exact L|left; reflexivity].
  apply Qclt_le_weak in L. apply Qcopp_le_compat in L. exact L.
Qed.
Print Assumptions C39_rectified.
Example C39_rectified_nonvacuous : length (map qz [1; 1]%Z) = m_cols ex_B /\
  (do v <- d_function2 (linear_design ex_B) (map qz [1; 1]%Z) true; Ok (map this v)) = Ok (map this (map qz [4; 4]%Z)).
Proof. split; vm_compute; reflexivity. Qed.

(* No elements: prediction, Jacobian and prior are refused. *)
Theorem C39_empty x r s : combination_function [] x r = Err IndexError /\ combination_jacobian [] s = Err ValueError /\
  combination_precision [] = Err ValueError /\ get_array (HCombination []) = Err ValueError.
Proof. destruct s; repeat split. Qed.
Print Assumptions C39_empty.
Example C39_empty_nonvacuous : combination_jacobian [] (Some [qz 1]) = Err ValueError.
Proof. reflexivity. Qed.

(* The claim is false for a space-time factor element in a combination: its prediction is always refused. *)
Theorem C39_factor_refuted m before t s after r x : Forall (piece_ok m) before ->
  length x = list_sum (dims before) + list_sum (map d_dim (factor_design t s :: after)) ->
  combination_function (map pc_design before ++ factor_design t s :: after) x r = Err TypeError.
Proof. apply (factor_in_combination m). Qed.
Print Assumptions C39_factor_refuted.
Example C39_factor_refuted_nonvacuous : Forall (piece_ok 2) ex_pieces /\
  length (map qz [1; 2; 3; 4; 5]%Z) = list_sum (dims ex_pieces) + list_sum (map d_dim [factor_design (row [qz 1]) ex_A]) /\
  is_ok (d_function (factor_design (row [qz 1]) ex_A) (map qz [4; 5]%Z)) = true.
Proof. split; [apply ex_pieces_ok|]. split; reflexivity. Qed.

(* ================= C40: combined priors ================= *)

Definition ex_hs : list hyper := [HCovariate (qz 2); HLocal (qz 3) (qz 4)].
(* precision t^2, and a 2 x 2 precision with a and b^2 on the diagonal *)
Definition diag2 (a b : Qc) : matrix := {| m_rows := 2; m_cols := 2; m_at := fun i j => if i =? j then (if i =? 0 then a else b) else 0%Qc |}.
Definition one1 (a : Qc) : matrix := {| m_rows := 1; m_cols := 1; m_at := fun _ _ => a |}.
Definition ex_Q (k : nat) (v : vec) : matrix := if k =? 0 then one1 (vnth v 0 * vnth v 0)%Qc else diag2 (vnth v 0) (vnth v 1 * vnth v 1)%Qc.
Definition ex_D (k : nat) (v : vec) (i : nat) : matrix :=
  if k =? 0 then one1 (vnth v 0 + vnth v 0)%Qc else if i =? 0 then diag2 1%Qc 0%Qc else diag2 0%Qc (vnth v 1 + vnth v 1)%Qc.
Definition ex_prior (k : nat) (v : vec) : prior :=
  {| p_dim := if k =? 0 then 1 else 2; p_precision := Ok (ex_Q k v); p_derivative := fun i => Ok (ex_D k v (Z.to_nat i)) |}.
(* difference quotients of quadratic polynomials *)
Definition quadratic_derivative (f : Qc -> Qc) (t d : Qc) : Prop := exists r, forall h, f (t + h)%Qc = (f t + h * d + h * h * r)%Qc.
Lemma quadratic_derivative_notion : notion_of_derivative quadratic_derivative.
Proof.
  split.
  - intros c t. exists 0%Qc. intros h. ring.
  - intros f g t d E [r H]. exists r. intros h. rewrite <- !E. apply H.
Qed.

(* The precision is block diagonal in the precisions of the elements. *)
Theorem C40_precision ps Qs : ps <> [] -> Forall2 (fun p Q => p_precision p = Ok Q /\ square Q) ps Qs ->
  exists M, combination_precision ps = Ok M /\ is_block_diagonal Qs M.
Proof.
  intros Hne H. exists (bd Qs). unfold combination_precision. assert (E : mapM p_precision ps = Ok Qs).
  { apply mapM_ok_Forall2. clear Hne. induction H as [|p Q ps Qs [? _] _ IH]; constructor; assumption. }
  rewrite E. cbn [bind]. split.
  - apply block_diag_ok. intros ->. inversion H; subst. congruence.
  - apply bd_block. clear E Hne. induction H as [|p Q ps Qs [_ ?] _ IH]; constructor; assumption.
Qed.
Print Assumptions C40_precision.
Example C40_precision_nonvacuous : Forall2 (fun p Q => p_precision p = Ok Q /\ square Q) [ex_prior 0 [qz 2]; ex_prior 1 [qz 3; qz 4]] [one1 (qz 2 * qz 2)%Qc; diag2 (qz 3) (qz 4 * qz 4)%Qc].
Proof. repeat constructor. Qed.

(* The derivative has the derivative of the element that owns the parameter in its block and zeros elsewhere. *)
Theorem C40_derivative_blocks hs ps (D : nat -> nat -> matrix) : hs <> [] -> Forall complete hs -> length ps = length hs ->
  (forall k p, nth_error ps k = Some p -> forall i, i < size (hsizes hs) k ->
     p_derivative p (Z.of_nat i) = Ok (D k i) /\ m_rows (D k i) = p_dim p /\ m_cols (D k i) = p_dim p) ->
  forall k i, k < length hs -> i < size (hsizes hs) k ->
  exists M, combination_derivative hs ps (Z.of_nat (start (hsizes hs) k + i)) = Ok M /\
    is_block_diagonal (tab (length hs) (fun l => if l =? k then D k i else empty_matrix (p_dim (nth l ps (covariate_prior 0 0 0))))) M.
Proof.
  intros Hne Hc Hl HD k i Hk Hi. eexists. split.
  - apply derivative_blocks; try assumption. intros k' p Hp i' Hi'. apply (HD k' p Hp i' Hi').
  - apply bd_block. apply Forall_forall. intros M HM. apply in_map_iff in HM. destruct HM as (l & <- & Hll).
    destruct (l =? k); [|reflexivity]. destruct (nth_error ps k) as [p|] eqn:E; [|apply nth_error_None in E; lia].
    destruct (HD k p E i Hi) as (_ & H1 & H2). unfold square. congruence.
Qed.
Print Assumptions C40_derivative_blocks.
Example C40_derivative_blocks_nonvacuous : ex_hs <> [] /\ Forall complete ex_hs /\ hsizes ex_hs = [1; 2] /\
  (do M <- combination_derivative ex_hs [ex_prior 0 [qz 2]; ex_prior 1 [qz 3; qz 4]] 2; Ok (map (fun j => this (m_at M 2 j)) [0; 1; 2])) = Ok (map this (map qz [0; 0; 8]%Z)).
Proof. split; [discriminate|]. split; [repeat constructor|]. split; [reflexivity|]. vm_compute; reflexivity. Qed.

(* It is the derivative: for every notion of differentiation for which the elements' derivatives are right, so is the combination's. *)
Theorem C40_derivative isderiv : notion_of_derivative isderiv ->
  forall hs (priors : nat -> vec -> prior) (n : nat -> nat) (Q : nat -> vec -> matrix) (D : nat -> vec -> nat -> matrix),
  hs <> [] -> Forall complete hs ->
  (forall k v, k < length hs -> length v = size (hsizes hs) k ->
     p_precision (priors k v) = Ok (Q k v) /\ p_dim (priors k v) = n k /\ m_rows (Q k v) = n k /\ m_cols (Q k v) = n k /\
     forall i, i < length v -> p_derivative (priors k v) (Z.of_nat i) = Ok (D k v i) /\ m_rows (D k v i) = n k /\ m_cols (D k v i) = n k /\
       forall a b, a < n k -> b < n k -> isderiv (fun t => m_at (Q k (replaced v i t)) a b) (vnth v i) (m_at (D k v i) a b)) ->
  let theta := values (HCombination hs) in
  let at_ v := tab (length hs) (fun k => priors k (part (hsizes hs) k v)) in
  let size := list_sum (tab (length hs) n) in
  forall p, p < length theta ->
  exists dM, combination_derivative hs (at_ theta) (Z.of_nat p) = Ok dM /\ m_rows dM = size /\ m_cols dM = size /\
    forall a b, a < size -> b < size ->
      exists q, (forall t, exists M, combination_precision (at_ (replaced theta p t)) = Ok M /\ m_rows M = size /\ m_cols M = size /\ m_at M a b = q t) /\
                isderiv q (vnth theta p) (m_at dM a b).
Proof.
  intros Hisd hs priors n Q D Hne Hc HP theta at_ N p Hp.
  assert (Hlen : length theta = list_sum (hsizes hs)) by (unfold theta, hsizes; rewrite flat_map_size; reflexivity).
  assert (HL : length (hsizes hs) = length hs) by (unfold hsizes; apply map_length).
  rewrite Hlen in Hp. destruct (locate _ _ Hp) as (k & i & Hk & Hi & ->). rewrite HL in Hk.
  set (DB := fun l => if l =? k then D k (part (hsizes hs) k theta) i else empty_matrix (n l)).
  assert (HDB : forall l, l < length hs -> m_rows (DB l) = n l /\ m_cols (DB l) = n l).
  { intros l Hl. unfold DB. destruct (Nat.eqb_spec l k) as [->|_]; [|split; reflexivity].
    destruct (HP k (part (hsizes hs) k theta) Hk (part_length _ _ _)) as (_ & _ & _ & _ & G). destruct (G i) as (_ & G1 & G2 & _); [rewrite part_length; exact Hi|]. split; assumption. }
  exists (bd (tab (length hs) DB)). split; [|split; [|split]].
  - rewrite (derivative_blocks hs (at_ theta) (fun k i => D k (part (hsizes hs) k theta) i)); try assumption.
    + f_equal. f_equal. apply tab_ext. intros l Hl. unfold DB. destruct (l =? k); [reflexivity|]. unfold at_. rewrite tab_nth by exact Hl.
      f_equal. apply (HP l); [exact Hl|apply part_length].
    + unfold at_. apply tab_length.
    + intros k' p Hp' i' Hi'. assert (Hk' : k' < length hs) by (rewrite <- (tab_length (length hs) (fun k => priors k (part (hsizes hs) k theta))); apply nth_error_Some; fold (at_ theta); congruence).
      unfold at_ in Hp'. rewrite nth_error_tab in Hp' by exact Hk'. assert (E : priors k' (part (hsizes hs) k' theta) = p) by congruence. rewrite <- E.
      apply (HP k' _ Hk' (part_length _ _ _)). rewrite part_length. exact Hi'.
  - apply (bd_dims _ DB n HDB).
  - apply (bd_dims _ DB n HDB).
  - intros a b Ha Hb.
    set (B := fun l t => Q l (part (hsizes hs) l (replaced theta (start (hsizes hs) k + i) t))).
    assert (HB : forall l t, l < length hs -> m_rows (B l t) = n l /\ m_cols (B l t) = n l).
    { intros l t Hl. destruct (HP l (part (hsizes hs) l (replaced theta (start (hsizes hs) k + i) t)) Hl (part_length _ _ _)) as (_ & _ & G1 & G2 & _). split; assumption. }
    exists (fun t => m_at (bd (tab (length hs) (fun l => B l t))) a b). split.
    + intros t. exists (bd (tab (length hs) (fun l => B l t))). split.
      * unfold combination_precision. assert (E : mapM p_precision (at_ (replaced theta (start (hsizes hs) k + i) t)) = Ok (tab (length hs) (fun l => B l t))).
        { unfold at_, tab at 1. rewrite <- (mapM_tab (fun k0 => p_precision (priors k0 (part (hsizes hs) k0 (replaced theta (start (hsizes hs) k + i) t))))).
          - generalize (seq 0 (length hs)) as l. induction l as [|x l IH]; [reflexivity|]. cbn [map mapM]. rewrite IH. reflexivity.
          - intros l Hl. apply (HP l _ Hl (part_length _ _ _)). }
        rewrite E. apply block_diag_ok, tab_nonempty. destruct hs; [congruence|discriminate].
      * destruct (bd_dims (length hs) (fun l => B l t) n (fun l => HB l t)) as [E1 E2]. split; [exact E1|]. split; [exact E2|reflexivity].
    + apply bd_derivative with n; try assumption. intros l x y Hl Hx Hy. destruct Hisd as [Hconst Hext]. unfold DB, B.
      destruct (Nat.eqb_spec l k) as [->|Hn].
      * destruct (HP k (part (hsizes hs) k theta) Hk (part_length _ _ _)) as (_ & _ & _ & _ & G). destruct (G i) as (_ & _ & _ & G3); [rewrite part_length; exact Hi|].
        specialize (G3 x y Hx Hy). unfold part at 2 in G3. rewrite vnth_tab in G3 by exact Hi. eapply Hext; [|exact G3]. intros u. cbn beta.
        rewrite part_replaced by (rewrite ?HL; assumption). rewrite Nat.eqb_refl. reflexivity.
      * apply (Hext (fun _ => m_at (Q l (part (hsizes hs) l theta)) x y)); [|apply Hconst]. intros u.
        rewrite part_replaced by (rewrite ?HL; assumption). rewrite (proj2 (Nat.eqb_neq l k) Hn). reflexivity.
Qed.
Print Assumptions C40_derivative.
Example C40_derivative_nonvacuous : notion_of_derivative quadratic_derivative /\ ex_hs <> [] /\ Forall complete ex_hs /\
  (forall k v, k < length ex_hs -> length v = size (hsizes ex_hs) k ->
     let n k := if k =? 0 then 1 else 2 in
     p_precision (ex_prior k v) = Ok (ex_Q k v) /\ p_dim (ex_prior k v) = n k /\ m_rows (ex_Q k v) = n k /\ m_cols (ex_Q k v) = n k /\
     forall i, i < length v -> p_derivative (ex_prior k v) (Z.of_nat i) = Ok (ex_D k v i) /\ m_rows (ex_D k v i) = n k /\ m_cols (ex_D k v i) = n k /\
       forall a b, a < n k -> b < n k -> quadratic_derivative (fun t => m_at (ex_Q k (replaced v i t)) a b) (vnth v i) (m_at (ex_D k v i) a b)).
Proof.
  split; [apply quadratic_derivative_notion|]. split; [discriminate|]. split; [repeat constructor|].
  intros k v Hk Hv. destruct k as [|[|k]]; [| |cbn in Hk; lia]; cbn in Hv.
  - destruct v as [|x [|? ?]]; try discriminate. cbn. do 4 (split; [reflexivity|]). intros i Hi. assert (i = 0) as -> by lia.
    do 3 (split; [reflexivity|]). intros a b _ _. exists 1%Qc. intros h. cbn. unfold vnth, replaced; cbn. ring.
  - destruct v as [|x [|y [|? ?]]]; try discriminate. cbn. do 4 (split; [reflexivity|]). intros i Hi.
    destruct i as [|[|i]]; [| |lia]; do 3 (split; [reflexivity|]); intros a b Ha Hb;
      destruct a as [|[|a]]; try lia; destruct b as [|[|b]]; try lia; unfold quadratic_derivative; cbn;
      first [exists 1%Qc; intros h; unfold vnth, replaced; cbn; ring | exists 0%Qc; intros h; unfold vnth, replaced; cbn; ring].
Qed.

(* An index that belongs to no element is not refused: it gives a matrix of zeros. *)
Theorem C40_index_outside hs ps z : hs <> [] -> Forall complete hs -> length ps = length hs ->
  (z < 0 \/ Z.of_nat (length (values (HCombination hs))) <= z)%Z ->
  exists M, combination_derivative hs ps z = Ok M /\ m_rows M = list_sum (map p_dim ps) /\
    forall a b, a < m_rows M -> b < m_cols M -> m_at M a b = 0%Qc.
Proof.
  intros Hne Hc Hl Hz. eexists. split; [apply derivative_outside; try assumption; cbn [values] in Hz; rewrite <- flat_map_size in Hz; exact Hz|].
  set (B := fun l => empty_matrix (p_dim (nth l ps (covariate_prior 0 0 0)))).
  assert (Hsq : Forall square (tab (length hs) B)).
  { apply Forall_forall. intros M HM. apply in_map_iff in HM. destruct HM as (l & <- & _). reflexivity. }
  split.
  - rewrite bd_rows. f_equal. rewrite <- Hl. rewrite (map_tab_rows _ _ (fun l => p_dim (nth l ps (covariate_prior 0 0 0)))) by reflexivity.
    rewrite <- (tab_of_list ps (covariate_prior 0 0 0)) at 2. unfold tab. rewrite map_map. reflexivity.
  - intros a b Ha Hb. destruct (block_entry _ _ _ _ (bd_block _ Hsq) Ha Hb) as (k & l & i & j & M & Hk & _ & _ & _ & _ & _ & ->).
    destruct (k =? l); [|reflexivity]. apply nth_error_In in Hk. apply in_map_iff in Hk. destruct Hk as (q & <- & _). reflexivity.
Qed.
Print Assumptions C40_index_outside.
Example C40_index_outside_nonvacuous : ex_hs <> [] /\ Forall complete ex_hs /\ length [ex_prior 0 [qz 2]; ex_prior 1 [qz 3; qz 4]] = length ex_hs /\
  (Z.of_nat (length (values (HCombination ex_hs))) <= 3)%Z.
Proof. split; [discriminate|]. split; [repeat constructor|]. split; [reflexivity|cbn; lia]. Qed.

(* Covariates: a diagonal precision with equal entries, and its derivative; they have one parameter. *)
Theorem C40_covariate isderiv : notion_of_derivative isderiv -> forall n (f df : Qc -> Qc), (forall t, isderiv f t (df t)) ->
  forall v, exists M dM, p_precision (covariate_prior n (f v) (df v)) = Ok M /\ p_derivative (covariate_prior n (f v) (df v)) 0 = Ok dM /\
    m_rows M = n /\ m_cols M = n /\ m_rows dM = n /\ m_cols dM = n /\
    (forall i j, m_at M i j = if i =? j then f v else 0%Qc) /\
    (forall i j, isderiv (fun t => match p_precision (covariate_prior n (f t) (df t)) with Ok M => m_at M i j | Err _ => 0%Qc end) v (m_at dM i j)) /\
    (forall z, (z <> 0)%Z -> p_derivative (covariate_prior n (f v) (df v)) z = Err ValueError).
Proof.
  intros [Hc He] n f df Hf v. eexists. eexists. split; [reflexivity|]. split; [reflexivity|]. do 4 (split; [reflexivity|]). split; [reflexivity|]. split.
  - intros i j. cbn. destruct (i =? j); [apply (He f); [reflexivity|apply Hf]|apply Hc].
  - intros z Hz. cbn. rewrite (proj2 (Z.eqb_neq z 0) Hz). reflexivity.
Qed.
Print Assumptions C40_covariate.
Example C40_covariate_nonvacuous : notion_of_derivative quadratic_derivative /\ forall t, quadratic_derivative (fun t => t * t)%Qc t (t + t)%Qc.
Proof. split; [apply quadratic_derivative_notion|]. intros t. exists 1%Qc. intros h. ring. Qed.

(* Latitude harmonics: exactly four covariates, with a diagonal precision. *)
Theorem C40_latitude_harmonics hs part : 
  (length hs <> 4 -> latitude_harmonics_prior hs part = Err ValueError) /\
  (length hs = 4 -> exists p M, latitude_harmonics_prior hs part = Ok p /\ p_dim p = 4 /\ p_precision p = Ok M /\ m_rows M = 4 /\ m_cols M = 4 /\
     forall i j, i < 4 -> j < 4 -> m_at M i j = if i =? j then fst (part (nth i hs (HSeasonal []))) else 0%Qc).
Proof.
  split; intros H; unfold latitude_harmonics_prior.
  - rewrite (proj2 (Nat.eqb_neq _ _) H). reflexivity.
  - rewrite H. destruct hs as [|a [|b [|c [|d [|? ?]]]]]; try discriminate. eexists. eexists. split; [reflexivity|].
    do 4 (split; [reflexivity|]). intros i j Hi Hj.
    do 4 (destruct i as [|i]; [do 4 (destruct j as [|j]; [reflexivity|]); lia|]). lia.
Qed.
Print Assumptions C40_latitude_harmonics.
Example C40_latitude_harmonics_nonvacuous : length (map HCovariate (map qz [1; 2; 3; 4]%Z)) = 4.
Proof. reflexivity. Qed.

(* ================= C73: the seasonal element ================= *)

Definition ex_S : matrix := {| m_rows := 2; m_cols := 3; m_at := fun i j => qz (Z.of_nat (10 * i + j)) |}.
Definition ex_sine (k : nat) : Qc := qz (Z.of_nat k).
Definition ex_cosine (k : nat) : Qc := qz (- Z.of_nat k).

(* The prediction: for each function of time (the mean, then sine and cosine of each order) its value times the spatial field of its block. *)
Theorem C73_prediction mean n sine cosine S x :
  length x = length (seasons mean n) * m_cols S ->
  exists v, d_function (seasonal_design mean n sine cosine S) x = Ok v /\ length v = m_rows S /\
    forall i, i < m_rows S -> vnth v i =
      sumn (length (seasons mean n)) (fun s => season_value sine cosine (nth s (seasons mean n) Mean) *
                                             times S (tab (m_cols S) (fun j => vnth x (s * m_cols S + j))) i)%Qc.
Proof.
  intros Hx. set (T := row (build_A_time mean n sine cosine)).
  assert (HT : m_cols T = length (seasons mean n)) by (unfold T; cbn; rewrite build_A_time_seasons; apply map_length).
  exists (tab (m_rows (kron T S)) (times (kron T S) x)).
  split; [apply mdot_ok; cbn [kron m_cols]; rewrite HT; exact Hx|].
  assert (HR : m_rows (kron T S) = m_rows S) by (unfold T; cbn; lia). rewrite HR. split; [apply tab_length|].
  intros i Hi. rewrite vnth_tab by exact Hi. pose proof (kron_times T S x 0 i Hi) as E. cbn [Nat.mul Nat.add] in E. rewrite E, HT.
  apply sumn_ext. intros s Hs. unfold times. rewrite <- sumn_mul_l. apply sumn_ext. intros j Hj. rewrite vnth_tab by exact Hj.
  unfold T. cbn [row m_at]. rewrite build_A_time_seasons. unfold vnth at 1.
  rewrite (nth_indep _ 0%Qc (season_value sine cosine Mean)) by (rewrite map_length; exact Hs). rewrite map_nth. ring.
Qed.
Print Assumptions C73_prediction.
Example C73_prediction_nonvacuous : seasons true 2 = [Mean; Sine 1; Cosine 1; Sine 2; Cosine 2] /\ seasons false 1 = [Sine 1; Cosine 1] /\
  length (tab 9 (fun k => qz (Z.of_nat k))) = length (seasons true 1) * m_cols ex_S /\
  (do v <- d_function (seasonal_design true 1 ex_sine ex_cosine ex_S) (tab 9 (fun k => qz (Z.of_nat k))); Ok (map this v)) = Ok (map this (map qz [-4; -64]%Z)).
Proof. split; [reflexivity|]. split; [reflexivity|]. split; [reflexivity|]. vm_compute. reflexivity. Qed.

(* The prior: a block for each of these functions, in the same order, with the parameters of its order of harmonic. *)
Theorem C73_precision mean n harmonics Q ns : seasons mean n <> [] -> 2 * (n + (if mean then 1 else 0)) <= length harmonics ->
  (forall a b, m_rows (Q a b) = ns /\ m_cols (Q a b) = ns) ->
  exists M, seasonal_precision harmonics n mean Q = Ok M /\
    is_block_diagonal (map (fun s => Q (vnth harmonics (2 * parameter_position mean s)) (vnth harmonics (2 * parameter_position mean s + 1))) (seasons mean n)) M.
Proof.
  intros Hne Hl HQ. assert (Hn : n + (if mean then 1 else 0) <> 0).
  { intros E. apply Hne. destruct mean; [lia|]. assert (n = 0) as -> by lia. reflexivity. }
  exists (bd (tab (n_spatial_components n mean) (season_block mean harmonics Q))). split; [apply seasonal_precision_ok; assumption|].
  assert (E : map (fun s => Q (vnth harmonics (2 * parameter_position mean s)) (vnth harmonics (2 * parameter_position mean s + 1))) (seasons mean n) = tab (n_spatial_components n mean) (season_block mean harmonics Q)).
  { rewrite <- seasons_length. rewrite <- (tab_of_list (seasons mean n) Mean) at 1. unfold tab. rewrite map_map. apply map_ext_in. intros s Hs. apply in_seq in Hs.
    unfold season_block. rewrite (season_position mean n s (nth s (seasons mean n) Mean)) by (apply nth_error_nth'; lia). reflexivity. }
  rewrite E. apply bd_block. apply Forall_forall. intros M HM. apply in_map_iff in HM. destruct HM as (s & <- & _). unfold square, season_block.
  match goal with |- m_rows (Q ?a ?b) = _ => destruct (HQ a b) as [-> ->]; reflexivity end.
Qed.
Print Assumptions C73_precision.
Example C73_precision_nonvacuous : seasons true 1 <> [] /\ 2 * (1 + 1) <= length (map qz [1; 2; 3; 4]%Z) /\
  (forall a b, m_rows (diag2 a b) = 2 /\ m_cols (diag2 a b) = 2) /\ map (parameter_position true) (seasons true 1) = [0; 1; 1] /\ map (parameter_position false) (seasons false 2) = [0; 0; 1; 1].
Proof. split; [discriminate|]. split; [cbn; lia|]. split; [split; reflexivity|]. split; reflexivity. Qed.

(* The state that the design expects has as many entries as the precision has rows. *)
Theorem C73_consistent mean n sine cosine S harmonics Q M : seasons mean n <> [] ->
  2 * (n + (if mean then 1 else 0)) <= length harmonics -> (forall a b, m_rows (Q a b) = m_cols S /\ m_cols (Q a b) = m_cols S) ->
  seasonal_precision harmonics n mean Q = Ok M ->
  m_rows M = d_dim (seasonal_design mean n sine cosine S) /\ m_cols M = d_dim (seasonal_design mean n sine cosine S) /\
  d_dim (seasonal_design mean n sine cosine S) = length (seasons mean n) * m_cols S.
Proof.
  intros Hne Hl HQ HM. destruct (C73_precision mean n harmonics Q (m_cols S) Hne Hl HQ) as (M' & HM' & H1 & H2 & _).
  assert (M' = M) as -> by congruence. assert (D : d_dim (seasonal_design mean n sine cosine S) = length (seasons mean n) * m_cols S).
  { cbn [seasonal_design linear_design d_dim kron m_cols row]. rewrite build_A_time_seasons, map_length. reflexivity. }
  rewrite D, H1, H2. assert (L : forall l : list season, list_sum (map m_rows (map (fun s => Q (vnth harmonics (2 * parameter_position mean s)) (vnth harmonics (2 * parameter_position mean s + 1))) l)) = length l * m_cols S).
  { induction l as [|s l IH]; [reflexivity|]. cbn [map]. rewrite list_sum_cons, IH, (proj1 (HQ _ _)). reflexivity. }
  rewrite L. repeat split; reflexivity.
Qed.
Print Assumptions C73_consistent.
Example C73_consistent_nonvacuous : seasons true 1 <> [] /\ 2 * (1 + 1) <= length (map qz [1; 2; 3; 4]%Z) /\
  (forall a b, m_rows (diag2 a b) = m_cols ex_B /\ m_cols (diag2 a b) = m_cols ex_B) /\ is_ok (seasonal_precision (map qz [1; 2; 3; 4]%Z) 1 true diag2) = true.
Proof. split; [discriminate|]. split; [cbn; lia|]. split; [split; reflexivity|reflexivity]. Qed.

(* The derivative is the derivative of the precision, for every notion of differentiation for which those of the spatial field are right;
   a parameter is shared by the two blocks of its order. *)
Theorem C73_derivative isderiv : notion_of_derivative isderiv ->
  forall mean n harmonics Q (dQ : nat -> Qc -> Qc -> matrix) ns, seasons mean n <> [] -> length harmonics = 2 * (n + (if mean then 1 else 0)) ->
  (forall a b, m_rows (Q a b) = ns /\ m_cols (Q a b) = ns) -> (forall i a b, m_rows (dQ i a b) = ns /\ m_cols (dQ i a b) = ns) ->
  (forall a b i j, i < ns -> j < ns -> isderiv (fun t => m_at (Q t b) i j) a (m_at (dQ 0 a b) i j) /\ isderiv (fun t => m_at (Q a t) i j) b (m_at (dQ 1 a b) i j)) ->
  forall p, p < length harmonics ->
  exists dM, seasonal_derivative harmonics n mean ns dQ p = Ok dM /\ m_rows dM = length (seasons mean n) * ns /\ m_cols dM = length (seasons mean n) * ns /\
    forall a b, a < m_rows dM -> b < m_cols dM ->
      exists q, (forall t, exists M, seasonal_precision (replaced harmonics p t) n mean Q = Ok M /\ m_at M a b = q t) /\
                isderiv q (vnth harmonics p) (m_at dM a b).
Proof.
  intros Hisd mean n harmonics Q dQ ns Hne Hl HQ HdQ Hd p Hp.
  assert (Hn : n + (if mean then 1 else 0) <> 0).
  { intros E. apply Hne. destruct mean; [lia|]. assert (n = 0) as -> by lia. reflexivity. }
  set (c := n_spatial_components n mean).
  set (DB := fun s => if p / 2 =? harmonic_index_for_spatial_component mean s then season_block mean harmonics (dQ (p mod 2)) s else empty_matrix ns).
  assert (HDB : forall s, s < c -> m_rows (DB s) = ns /\ m_cols (DB s) = ns).
  { intros s _. unfold DB. destruct (p / 2 =? _); [apply HdQ|split; reflexivity]. }
  assert (LS : list_sum (tab c (fun _ : nat => ns)) = length (seasons mean n) * ns).
  { rewrite seasons_length. fold c. clearbody c. clear. unfold tab. generalize 0. induction c as [|c' IH]; intros z; [reflexivity|]. cbn [seq map]. rewrite list_sum_cons, IH. reflexivity. }
  destruct (bd_dims c DB (fun _ => ns) HDB) as [D1 D2]. rewrite LS in D1, D2.
  exists (bd (tab c DB)). split; [unfold c, DB; apply seasonal_derivative_ok; [exact Hn|lia]|]. split; [exact D1|]. split; [exact D2|].
  intros a b Ha Hb. rewrite D1 in Ha. rewrite D2 in Hb.
  exists (fun t => m_at (bd (tab c (season_block mean (replaced harmonics p t) Q))) a b). split.
  - intros t. eexists. split; [apply seasonal_precision_ok; [exact Hn|rewrite replaced_length; lia]|reflexivity].
  - apply (bd_derivative isderiv c (fun s t => season_block mean (replaced harmonics p t) Q s) DB (fun _ => ns)); try assumption.
    + intros s t _. apply HQ.
    + intros s x y Hs Hx Hy. destruct Hisd as [Hconst Hext]. pose proof (season_index_lt mean n s Hs) as Hk. unfold DB, season_block.
      set (k := harmonic_index_for_spatial_component mean s) in *.
      assert (Hr : forall t, vnth (replaced harmonics p t) (2 * k) = (if 2 * k =? p then t else vnth harmonics (2 * k)) /\
                             vnth (replaced harmonics p t) (2 * k + 1) = (if 2 * k + 1 =? p then t else vnth harmonics (2 * k + 1))).
      { intros t. rewrite !replaced_at by lia. split; reflexivity. }
      destruct (Nat.eqb_spec (p / 2) k) as [E|E].
      * pose proof (Nat.div_mod p 2 ltac:(lia)) as Hdm. pose proof (Nat.mod_upper_bound p 2 ltac:(lia)) as Hm.
        destruct (p mod 2) as [|[|m]]; [| |lia].
        -- assert (p = 2 * k) as Ep by lia. replace (vnth harmonics p) with (vnth harmonics (2 * k)) by (rewrite Ep; reflexivity). eapply Hext; [|apply (Hd _ _ x y Hx Hy)]. intros u. cbn beta.
           destruct (Hr u) as [-> ->]. rewrite Ep, Nat.eqb_refl. replace (2 * k + 1 =? 2 * k) with false by (symmetry; apply Nat.eqb_neq; lia). reflexivity.
        -- assert (p = 2 * k + 1) as Ep by lia. replace (vnth harmonics p) with (vnth harmonics (2 * k + 1)) by (rewrite Ep; reflexivity). eapply Hext; [|apply (Hd _ _ x y Hx Hy)]. intros u. cbn beta.
           destruct (Hr u) as [-> ->]. rewrite Ep, Nat.eqb_refl. replace (2 * k =? 2 * k + 1) with false by (symmetry; apply Nat.eqb_neq; lia). reflexivity.
      * apply (Hext (fun _ => m_at (Q (vnth harmonics (2 * k)) (vnth harmonics (2 * k + 1))) x y)); [|apply Hconst]. intros u.
        destruct (Hr u) as [-> ->]. pose proof (Nat.div_mod p 2 ltac:(lia)) as Hdm. pose proof (Nat.mod_upper_bound p 2 ltac:(lia)) as Hm.
        replace (2 * k =? p) with false by (symmetry; apply Nat.eqb_neq; intros <-; apply E; rewrite Nat.mul_comm; apply Nat.div_mul; lia).
        replace (2 * k + 1 =? p) with false by (symmetry; apply Nat.eqb_neq; lia). reflexivity.
    + rewrite LS. exact Ha.
    + rewrite LS. exact Hb.
Qed.
Print Assumptions C73_derivative.
Example C73_derivative_nonvacuous : notion_of_derivative quadratic_derivative /\ seasons true 1 <> [] /\ length (map qz [1; 2; 3; 4]%Z) = 2 * (1 + 1) /\
  let Q a b := diag2 a (b * b)%Qc in let dQ (i : nat) (a b : Qc) := if i =? 0 then diag2 1 0 else diag2 0 (b + b)%Qc in
  (forall a b, m_rows (Q a b) = 2 /\ m_cols (Q a b) = 2) /\ (forall i a b, m_rows (dQ i a b) = 2 /\ m_cols (dQ i a b) = 2) /\
  (forall a b i j, i < 2 -> j < 2 -> quadratic_derivative (fun t => m_at (Q t b) i j) a (m_at (dQ 0 a b) i j) /\ quadratic_derivative (fun t => m_at (Q a t) i j) b (m_at (dQ 1 a b) i j)).
Proof.
  split; [apply quadratic_derivative_notion|]. split; [discriminate|]. split; [reflexivity|]. cbn zeta.
  split; [split; reflexivity|]. split; [intros [|i] a b; split; reflexivity|]. intros a b i j Hi Hj.
  destruct i as [|[|i]]; try lia; destruct j as [|[|j]]; try lia; cbn; split;
    first [exists 1%Qc; intros h; ring | exists 0%Qc; intros h; ring].
Qed.

(* With too few parameters for the harmonics of the model the precision is refused. *)
Theorem C73_too_few mean n harmonics Q : seasons mean n <> [] -> length harmonics < 2 * (n + (if mean then 1 else 0)) ->
  seasonal_precision harmonics n mean Q = Err IndexError.
Proof.
  intros Hne Hl. unfold seasonal_precision.
  assert (G : forall l, Exists (fun s => length harmonics < 2 * harmonic_index_for_spatial_component mean s + 2) l ->
    mapM (fun s => do ab <- harmonic_parameters harmonics (harmonic_index_for_spatial_component mean s); Ok (Q (fst ab) (snd ab))) l = Err IndexError).
  { induction 1 as [s l H|s l H IH]; cbn [mapM]; unfold harmonic_parameters at 1.
    - assert (E : nth_error harmonics (2 * harmonic_index_for_spatial_component mean s + 1) = None) by (apply nth_error_None; lia).
      rewrite E. destruct (nth_error harmonics (2 * harmonic_index_for_spatial_component mean s)); reflexivity.
    - destruct (nth_error harmonics (2 * harmonic_index_for_spatial_component mean s)); [|reflexivity].
      destruct (nth_error harmonics (2 * harmonic_index_for_spatial_component mean s + 1)); [|reflexivity]. cbn [bind]. rewrite IH. reflexivity. }
  rewrite G; [reflexivity|]. apply Exists_exists. exists (n_spatial_components n mean - 1).
  assert (Hn : n + (if mean then 1 else 0) <> 0) by lia.
  split; [apply in_seq; unfold n_spatial_components; destruct mean; lia|]. unfold n_spatial_components, harmonic_index_for_spatial_component. destruct mean; lia.
Qed.
Print Assumptions C73_too_few.
Example C73_too_few_nonvacuous : seasons true 1 <> [] /\ length (map qz [1; 2; 3]%Z) < 2 * (1 + 1).
Proof. split; [discriminate|cbn; lia]. Qed.

(* ================= C74: the bias element ================= *)

(* For each observation the prediction is the sum of the biases that the effect lists for it, each counted once; no effect, no bias. *)
Theorem C74_prediction observations biases (effect : list (nat * nat)) x :
  (forall i j, In (i, j) effect -> i < observations /\ j < biases) -> length x = biases ->
  exists A v, bias_matrix observations biases (Some (map (fun e => (Z.of_nat (fst e), Z.of_nat (snd e))) effect)) = Ok A /\
    d_function (linear_design A) x = Ok v /\ length v = observations /\
    forall i, i < observations -> exists js, NoDup js /\ (forall j, In j js <-> In (i, j) effect) /\ vnth v i = sumQ (map (vnth x) js).
Proof.
  intros He Hx. cbn [bias_matrix].
  assert (E : mapM (fun e => match wrap observations (fst e), wrap biases (snd e) with Some i, Some j => Ok (i, j) | _, _ => Err IndexError end)
                (map (fun e => (Z.of_nat (fst e), Z.of_nat (snd e))) effect) = Ok effect).
  { clear Hx. induction effect as [|[i j] l IH]; [reflexivity|]. cbn [map mapM fst snd]. destruct (He i j (or_introl eq_refl)) as [Hi Hj].
    rewrite !wrap_plain by assumption. cbn [bind]. rewrite IH by (intros; apply He; right; assumption). reflexivity. }
  rewrite E. cbn [bind]. eexists. eexists. split; [reflexivity|]. split; [apply mdot_ok; exact Hx|].
  split; [apply tab_length|]. cbn [m_rows]. intros i Hi.
  exists (filter (fun j => existsb (fun p => (fst p =? i) && (snd p =? j)) effect) (seq 0 biases)). split; [apply NoDup_filter, seq_NoDup|]. split.
  - intros j. rewrite filter_In, in_seq, existsb_exists. split.
    + intros [_ ([a b] & Hin & H)]. cbn in H. apply andb_true_iff in H. destruct H as [H1 H2]. apply Nat.eqb_eq in H1, H2. subst. exact Hin.
    + intros H. split; [pose proof (He i j H); lia|]. exists (i, j). split; [exact H|]. cbn. rewrite !Nat.eqb_refl. reflexivity.
  - rewrite vnth_tab by exact Hi. unfold times. cbn [m_cols m_at].
    assert (G : forall n s, s + n <= s + biases -> sumn n (fun j => ((if existsb (fun p => (fst p =? i) && (snd p =? j)) effect then 1 else 0) * vnth x j)%Qc) =
      sumQ (map (vnth x) (filter (fun j => existsb (fun p => (fst p =? i) && (snd p =? j)) effect) (seq 0 n)))).
    { induction n as [|n IHn]; intros s Hs; [reflexivity|]. cbn [sumn]. rewrite (IHn s ltac:(lia)). rewrite seq_S, filter_app, map_app. cbn [Nat.add filter].
      rewrite sumQ_app. f_equal. destruct (existsb _ effect); unfold sumQ; cbn; ring. }
    apply (G biases 0). lia.
Qed.
Print Assumptions C74_prediction.
Example C74_prediction_nonvacuous :
  (forall i j, In (i, j) [(0, 2); (2, 0); (2, 1); (2, 1)] -> i < 3 /\ j < 3) /\ length (map qz [10; 20; 30]%Z) = 3 /\
  (do A <- bias_matrix 3 3 (Some [(0, 2); (2, 0); (2, 1); (2, 1)]%Z); do v <- d_function (linear_design A) (map qz [10; 20; 30]%Z); Ok (map this v)) = Ok (map this (map qz [30; 0; 30]%Z)).
Proof.
  split; [|split; [reflexivity|vm_compute; reflexivity]]. intros i j H. cbn in H. repeat destruct H as [H|H]; try contradiction; injection H as <- <-; lia.
Qed.

(* Observations without any effect of this group have no bias. *)
Theorem C74_none observations biases x : length x = biases ->
  exists A v, bias_matrix observations biases None = Ok A /\ d_function (linear_design A) x = Ok v /\ v = zeros observations.
Proof.
  intros Hx. eexists. eexists. split; [reflexivity|]. split; [apply mdot_ok; exact Hx|]. cbn [m_rows].
  unfold zeros. rewrite repeat_tab. apply tab_ext. intros i _. unfold times. apply sumn_zero. intros j _. cbn [m_at]. ring.
Qed.
Print Assumptions C74_none.
Example C74_none_nonvacuous : length (map qz [10; 20; 30]%Z) = 3.
Proof. reflexivity. Qed.

(* An effect with an observation or a bias that does not exist is refused. *)
Theorem C74_refused observations biases effect : Exists (fun e => (Z.of_nat observations <= fst e \/ Z.of_nat biases <= snd e)%Z) effect ->
  bias_matrix observations biases (Some effect) = Err IndexError.
Proof.
  intros H. cbn [bias_matrix]. assert (E : mapM (fun e => match wrap observations (fst e), wrap biases (snd e) with Some i, Some j => Ok (i, j) | _, _ => Err IndexError end) effect = Err IndexError).
  { induction H as [e l H|e l H IH]; cbn [mapM].
    - assert (W : forall n i, (Z.of_nat n <= i)%Z -> wrap n i = None).
      { intros n i Hi. unfold wrap. replace (i <? Z.of_nat n)%Z with false by (symmetry; apply Z.ltb_ge; lia). rewrite andb_false_r. reflexivity. }
      destruct H as [H|H]; rewrite (W _ _ H); [reflexivity|]. destruct (wrap observations (fst e)); reflexivity.
    - destruct (wrap observations (fst e)); [|reflexivity]. destruct (wrap biases (snd e)); [|reflexivity]. cbn [bind]. rewrite IH. reflexivity. }
  rewrite E. reflexivity.
Qed.
Print Assumptions C74_refused.
Example C74_refused_nonvacuous : Exists (fun e => (Z.of_nat 3 <= fst e \/ Z.of_nat 2 <= snd e)%Z) [(0, 0); (1, 2)]%Z.
Proof. apply Exists_cons_tl, Exists_cons_hd. right. cbn. lia. Qed.

(* A negative number is not refused: it is taken from the end. *)
Theorem C74_negative_refuted : exists effect A, In (0, -1)%Z effect /\ bias_matrix 2 3 (Some effect) = Ok A /\ m_at A 0 2 = 1%Qc.
Proof. exists [(0, -1)%Z]. eexists. split; [left; reflexivity|]. split; [reflexivity|reflexivity]. Qed.
Print Assumptions C74_negative_refuted.

(* ================= C75: space-time products ================= *)

(* The Kronecker model: a field in space for each function of time. *)
Theorem C75_kronecker T S x : length x = m_cols T * m_cols S ->
  exists v, d_function (kronecker_design T S) x = Ok v /\ length v = m_rows T * m_rows S /\
    forall t i, t < m_rows T -> i < m_rows S ->
      vnth v (t * m_rows S + i) = sumn (m_cols T) (fun a => m_at T t a * sumn (m_cols S) (fun b => m_at S i b * vnth x (a * m_cols S + b)))%Qc.
Proof.
  intros Hx. exists (tab (m_rows (kron T S)) (times (kron T S) x)). split; [apply mdot_ok; exact Hx|]. split; [apply tab_length|].
  intros t i Ht Hi. rewrite vnth_tab by (cbn [kron m_rows]; nia). rewrite kron_times by exact Hi. apply sumn_ext. intros a Ha.
  rewrite <- sumn_mul_l. apply sumn_ext. intros b Hb. ring.
Qed.
Print Assumptions C75_kronecker.
Example C75_kronecker_nonvacuous : length (tab 6 (fun k => qz (Z.of_nat k))) = m_cols (row [qz 1; qz 2]) * m_cols ex_S.
Proof. reflexivity. Qed.

(* The factor model: the product of a field in space and a function of time; its Jacobian is exact up to the product of the two changes. *)
Theorem C75_factor T S x dx : m_rows T = 1 -> length x = m_cols S + m_cols T -> length dx = m_cols S + m_cols T ->
  let shifted := tab (length x) (fun k => vnth x k + vnth dx k)%Qc in
  exists v v' J jd, d_function (factor_design T S) x = Ok v /\ d_function (factor_design T S) shifted = Ok v' /\
    d_jacobian (factor_design T S) (Some x) = Ok J /\ m_rows J = m_rows S /\ m_cols J = d_dim (factor_design T S) /\ mdot J dx = Ok jd /\
    length v = m_rows S /\ length v' = m_rows S /\ length jd = m_rows S /\
    forall i, i < m_rows S ->
      vnth v i = (times S (firstn (m_cols S) x) i * times T (skipn (m_cols S) x) 0)%Qc /\
      vnth v' i = (vnth v i + vnth jd i + times S (firstn (m_cols S) dx) i * times T (skipn (m_cols S) dx) 0)%Qc.
Proof.
  intros HT Hx Hdx shifted. set (n := m_cols S) in *.
  assert (Hs : length shifted = n + m_cols T) by (unfold shifted; rewrite tab_length; exact Hx).
  assert (F : forall z, length z = n + m_cols T -> factor_function T S z = Ok (tab (m_rows S) (fun i => times S (firstn n z) i * times T (skipn n z) 0)%Qc)).
  { intros z Hz. unfold factor_function. fold n. rewrite !mdot_ok by (rewrite ?firstn_length, ?skipn_length; unfold n in *; lia). cbn [bind]. f_equal.
    rewrite map_tab. apply tab_ext. intros i _. rewrite vnth_tab by lia. reflexivity. }
  set (col := {| m_rows := m_rows S; m_cols := 1; m_at := fun i _ => vnth (tab (m_rows S) (times S (firstn n x))) i |}).
  set (JS := {| m_rows := m_rows S; m_cols := n; m_at := fun i j => (times T (skipn n x) 0 * m_at S i j)%Qc |}).
  assert (HJ : factor_jacobian T S (Some x) = Ok (hcols (m_rows S) [JS; kron T col])).
  { unfold factor_jacobian. fold n. rewrite !mdot_ok by (rewrite ?firstn_length, ?skipn_length; unfold n in *; lia). cbn [bind].
    rewrite tab_length. rewrite vnth_tab by lia. apply hstack_ok; [discriminate|]. constructor; [reflexivity|]. constructor; [|constructor]. cbn. rewrite HT. lia. }
  assert (HC : m_cols (hcols (m_rows S) [JS; kron T col]) = n + m_cols T) by (rewrite hcols_cols; cbn; lia).
  exists (tab (m_rows S) (fun i => times S (firstn n x) i * times T (skipn n x) 0)%Qc),
         (tab (m_rows S) (fun i => times S (firstn n shifted) i * times T (skipn n shifted) 0)%Qc),
         (hcols (m_rows S) [JS; kron T col]), (tab (m_rows S) (times (hcols (m_rows S) [JS; kron T col]) dx)).
  split; [apply F, Hx|]. split; [apply F, Hs|]. split; [exact HJ|]. split; [apply hcols_rows|]. split; [exact HC|].
  split; [rewrite mdot_ok by (rewrite HC; exact Hdx); rewrite hcols_rows; reflexivity|]. rewrite !tab_length.
  do 3 (split; [reflexivity|]). intros i Hi. rewrite !vnth_tab by exact Hi. split; [reflexivity|].
  rewrite hcols_times. cbn [length sumn nth map]. change (m_cols (kron T col)) with (m_cols T * 1). rewrite Nat.mul_1_r. change (m_cols JS) with n.
  assert (P0 : part [n; m_cols T] 0 dx = firstn n dx) by (apply part_0; lia).
  assert (P1 : part [n; m_cols T] 1 dx = skipn n dx).
  { rewrite part_S. rewrite part_0 by (rewrite skipn_length; lia). apply firstn_all2. rewrite skipn_length. lia. }
  rewrite P0, P1.
  assert (A1 : times JS (firstn n dx) i = (times T (skipn n x) 0 * times S (firstn n dx) i)%Qc).
  { transitivity (sumn n (fun j => times T (skipn n x) 0 * (m_at S i j * vnth (firstn n dx) j)))%Qc; [|apply sumn_mul_l].
    apply sumn_ext. intros j Hj. unfold JS. cbn [m_at]. ring. }
  assert (A2 : times (kron T col) (skipn n dx) i = (times S (firstn n x) i * times T (skipn n dx) 0)%Qc).
  { pose proof (kron_times T col (skipn n dx) 0 i Hi) as E. cbn [Nat.mul Nat.add] in E. rewrite E.
    transitivity (sumn (m_cols T) (fun a => times S (firstn n x) i * (m_at T 0 a * vnth (skipn n dx) a)))%Qc; [|apply sumn_mul_l].
    apply sumn_ext. intros a Ha. unfold col. cbn [m_cols m_at sumn]. rewrite vnth_tab by exact Hi. replace (a * 1 + 0) with a by lia. ring. }
  rewrite A1, A2.
  assert (B1 : times S (firstn n shifted) i = (times S (firstn n x) i + times S (firstn n dx) i)%Qc).
  { unfold times. fold n. rewrite <- sumn_add. apply sumn_ext. intros j Hj. rewrite !vnth_firstn by exact Hj. unfold shifted. rewrite vnth_tab by lia. ring. }
  assert (B2 : times T (skipn n shifted) 0 = (times T (skipn n x) 0 + times T (skipn n dx) 0)%Qc).
  { unfold times. rewrite <- sumn_add. apply sumn_ext. intros j Hj. rewrite !vnth_skipn. unfold shifted. rewrite vnth_tab by lia. ring. }
  rewrite B1, B2. ring.
Qed.
Print Assumptions C75_factor.
Example C75_factor_nonvacuous : m_rows (row [qz 1; qz 2]) = 1 /\ length (map qz [1; 2; 3; 4; 5]%Z) = m_cols ex_S + m_cols (row [qz 1; qz 2]) /\
  (do v <- d_function (factor_design (row [qz 1; qz 2]) ex_S) (map qz [1; 2; 3; 4; 5]%Z); Ok (map this v)) = Ok (map this (map qz [112; 952]%Z)).
Proof. split; [reflexivity|]. split; [reflexivity|]. vm_compute. reflexivity. Qed.

(* The initial state of the factor model has no field but a constant function of time, and is one on which the Jacobian is defined. *)
Theorem C75_factor_initial T S : length (d_initial (factor_design T S)) = d_dim (factor_design T S) /\
  d_nonlinear (factor_design T S) = true /\ d_jacobian (factor_design T S) None = Err TypeError /\
  (forall j, j < m_cols S -> vnth (d_initial (factor_design T S)) j = 0%Qc) /\
  (forall j, j < m_cols T -> vnth (d_initial (factor_design T S)) (m_cols S + j) = 1%Qc).
Proof.
  cbn [factor_design d_initial d_dim d_nonlinear d_jacobian]. split; [rewrite app_length; unfold zeros; rewrite !repeat_length; reflexivity|].
  split; [reflexivity|]. split; [reflexivity|]. unfold vnth, zeros. split; intros j Hj.
  - rewrite app_nth1 by (rewrite repeat_length; exact Hj). apply nth_repeat.
  - rewrite app_nth2 by (rewrite repeat_length; lia). rewrite repeat_length. replace (m_cols S + j - m_cols S) with j by lia.
    rewrite (nth_indep _ 0%Qc 1%Qc) by (rewrite repeat_length; exact Hj). apply nth_repeat.
Qed.
Print Assumptions C75_factor_initial.
Example C75_factor_initial_nonvacuous : d_initial (factor_design (row [qz 1; qz 2]) ex_A) = [0%Qc; 1%Qc; 1%Qc].
Proof. reflexivity. Qed.
