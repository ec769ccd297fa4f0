(* The theorems about the analysis system, for the properties C34-C37 and C69-C72. *)
From Coq Require Import QArith Qcanon.
From Verif Require Import Base Grid_Model Grid_Proofs Lin Ana_Model Ana_Spec Ana_Proofs.
Local Open Scope nat_scope.
Local Open Scope list_scope.

(* A small system for the examples: a space-time and a spatial component, each with one parameter seen by every observation. *)
Definition ex_matrix r c (f : nat -> nat -> Z) : matrix := {| m_rows := r; m_cols := c; m_at := fun i j => qz (f i j) |}.
Definition ex_element : element :=
  {| el_nonlinear := false; el_dim := 1; el_prior := [[qz 1]];
     el_jacobian := fun o _ => ex_matrix (length (o_vector o)) 1 (fun _ _ => 1%Z);
     el_function := fun o x => tab (length (o_vector o)) (fun _ => vnth x 0);
     el_initial := fun _ => [0%Qc] |}.
Definition ex_nonlinear : element :=
  {| el_nonlinear := true; el_dim := 1; el_prior := [[qz 1]];
     el_jacobian := fun o x => match x with
                               | Some x => {| m_rows := length (o_vector o); m_cols := 1; m_at := fun _ _ => (qz 2 * vnth x 0)%Qc |}
                               | None => ex_matrix (length (o_vector o)) 1 (fun _ _ => 0%Z)
                               end;
     el_function := fun o x => tab (length (o_vector o)) (fun _ => vnth x 0 * vnth x 0)%Qc;
     el_initial := fun _ => [qz 3] |}.
Definition ex_solve (p : table) (v : vec) : vec := [(vnth v 0 / vnth (nth 0 p []) 0)%Qc].
Definition ex_empty : store := {| s_state := None; s_meas := []; s_part := [] |}.
Definition ex_obs (t : Z) (v : list Z) : observations :=
  {| o_time := t; o_vector := map qz v; o_precision := ex_matrix (length v) (length v) (fun i j => if i =? j then 1%Z else 0%Z); o_label := 0 |}.
Definition ex_loaders : list loader := [(fun t => ex_obs t [t; 7]%Z); (fun t => ex_obs t []); (fun t => ex_obs t [10; t]%Z)].
Definition ex_comp (k : kind) (e : element) : component := {| c_kind := k; c_element := e |}.
Definition ex_other : store := {| s_state := None; s_meas := []; s_part := [(1%Z, [qz 4]); (2%Z, [qz 5])] |}.
Definition ex_sys (k : kind) (e : element) : system := [(ex_comp k e, ex_empty); (ex_comp Spatial ex_element, ex_other)].

Lemma ex_element_wf : wf_element ex_element.
Proof.
  split; [|split; [|split]]; [intros o x; split; reflexivity| |reflexivity|constructor; [reflexivity|constructor]].
  intros o x. apply tab_length.
Qed.
Lemma ex_nonlinear_wf : wf_element ex_nonlinear.
Proof.
  split; [|split; [|split]]; [intros o x; destruct x; split; reflexivity| |reflexivity|constructor; [reflexivity|constructor]].
  intros o x. apply tab_length.
Qed.
Lemma ex_sys_wf k : wf_system (ex_sys k ex_element) /\ wf_system (ex_sys k ex_nonlinear).
Proof. split; constructor; [apply ex_element_wf| |apply ex_nonlinear_wf| ]; constructor; try apply ex_element_wf; constructor. Qed.
Lemma ex_loaders_wf t : wf_loaders ex_loaders t /\ inputs ex_loaders t <> [].
Proof.
  split; [|discriminate]. intros l Hl. destruct Hl as [<-|[<-|[<-|[]]]]; (split; [reflexivity|split; reflexivity]).
Qed.
Ltac ex := first [ apply ex_sys_wf | apply ex_loaders_wf | discriminate | reflexivity ].

(* ---- C34 *)

(* A component that keeps measurements stores, for the time, exactly the information of the equations "design times state =
   observation minus the contributions of the others", one for each input that has observations. *)
Theorem C34_measurement (solve : table -> vec -> vec) sys loaders i t c s :
  wf_system sys -> nth_error sys i = Some (c, s) -> c_kind c <> Spatial -> wf_loaders loaders t -> inputs loaders t <> [] ->
  exists sys' s', update_component_time solve sys loaders i t = Ok sys' /\ nth_error sys' i = Some (c, s') /\
    assoc okey_eqb (s_meas s') (Some t) = Some (Some (information (el_dim (c_element c))
      (map (equation_for sys i c (point c s t (hd_error (inputs loaders t)))) (inputs loaders t)))) /\
    (forall k, k <> Some t -> assoc okey_eqb (s_meas s') k = assoc okey_eqb (s_meas s) k) /\
    (el_nonlinear (c_element c) = false -> s_state s' = s_state s /\ s_part s' = s_part s).
Proof.
  intros Hsys Hi Hk Hl Hin.
  assert (Hne : loaders <> []) by (intros ->; apply Hin; reflexivity).
  eexists. eexists. split; [apply (update_component_time_ok solve sys loaders i t c s Hsys Hi Hne Hl)|].
  split; [rewrite nth_set_store, Hi, Nat.eqb_refl; reflexivity|].
  unfold after_time. destruct (inputs loaders t) as [|o os]; [congruence|].
  assert (Hm : s_meas (stored_point c s t (o :: os)) = s_meas s).
  { unfold stored_point, linearisation. destruct (c_kind c); [reflexivity| |]; destruct (el_nonlinear (c_element c)); try reflexivity.
    - destruct (s_state s); reflexivity.
    - destruct (assoc _ _ _); reflexivity. }
  assert (Hmeas : forall k : option Z, assoc okey_eqb (assign okey_eqb (s_meas (stored_point c s t (o :: os))) (Some t)
     (Some (information (el_dim (c_element c)) (map (equation_for sys i c (point c s t (hd_error (o :: os)))) (o :: os))))) k
    = if okey_eqb k (Some t) then Some (Some (information (el_dim (c_element c)) (map (equation_for sys i c (point c s t (hd_error (o :: os)))) (o :: os))))
      else assoc okey_eqb (s_meas s) k).
  { intros k. rewrite assoc_assign, Hm by apply okey_eqb_iff. reflexivity. }
  destruct (c_kind c); [congruence| |]; cbn [s_meas with_meas s_state s_part];
    (split; [rewrite Hmeas; cbn [okey_eqb]; rewrite Z.eqb_refl; reflexivity|split;
      [intros k Hkt; rewrite Hmeas; destruct (okey_eqb k (Some t)) eqn:E; [apply okey_eqb_iff in E; congruence|reflexivity]|]]);
    intros Hlin; rewrite stored_point_linear by exact Hlin; split; reflexivity.
Qed.
Print Assumptions C34_measurement.
Example C34_measurement_nonvacuous :
  wf_system (ex_sys SpaceTime ex_nonlinear) /\ wf_loaders ex_loaders 1 /\ inputs ex_loaders 1 <> [] /\
  map this (snd (equation_for (ex_sys SpaceTime ex_nonlinear) 0 (ex_comp SpaceTime ex_nonlinear) (Some [qz 3]) (ex_obs 1 [10; 1]%Z)))
  = map inject_Z [10 - 4 - 9; 1 - 4 - 9]%Z.
Proof. split; [ex|split; [ex|split; [ex|]]]. vm_compute. reflexivity. Qed.

(* A spatial component solves for the state of the time from the same equations. *)
Theorem C34_spatial_state (solve : table -> vec -> vec) sys loaders i t c s :
  wf_system sys -> nth_error sys i = Some (c, s) -> c_kind c = Spatial -> wf_loaders loaders t -> inputs loaders t <> [] ->
  exists sys' s', update_component_time solve sys loaders i t = Ok sys' /\ nth_error sys' i = Some (c, s') /\
    assoc Z.eqb (s_part s') t = Some (posterior solve (el_dim (c_element c)) (el_prior (c_element c))
       (information (el_dim (c_element c)) (map (equation_for sys i c None) (inputs loaders t)))) /\
    forall t', t' <> t -> assoc Z.eqb (s_part s') t' = assoc Z.eqb (s_part s) t'.
Proof.
  intros Hsys Hi Hk Hl Hin.
  assert (Hne : loaders <> []) by (intros ->; apply Hin; reflexivity).
  eexists. eexists. split; [apply (update_component_time_ok solve sys loaders i t c s Hsys Hi Hne Hl)|].
  split; [rewrite nth_set_store, Hi, Nat.eqb_refl; reflexivity|].
  unfold after_time, point. rewrite Hk. destruct (inputs loaders t) as [|o os]; [congruence|]. cbn [s_part with_part].
  split.
  - rewrite assoc_assign, Z.eqb_refl by apply Z.eqb_eq. reflexivity.
  - intros t' Ht'. rewrite assoc_assign by apply Z.eqb_eq. apply Z.eqb_neq in Ht'. rewrite Ht'. reflexivity.
Qed.
Print Assumptions C34_spatial_state.
Example C34_spatial_state_nonvacuous :
  nth_error (ex_sys SpaceTime ex_element) 1 = Some (ex_comp Spatial ex_element, ex_other) /\
  wf_system (ex_sys SpaceTime ex_element) /\ wf_loaders ex_loaders 1 /\ inputs ex_loaders 1 <> [].
Proof. split; [ex|split; [ex|split; ex]]. Qed.

(* Updating a component leaves all the others as they are. *)
Theorem C34_others_kept (solve : table -> vec -> vec) sys loaders i t times sys' j :
  (update_component_time solve sys loaders i t = Ok sys' \/ update_component solve sys loaders i times = Ok sys') ->
  j <> i -> nth_error sys' j = nth_error sys j.
Proof.
  intros [H|H] Hj.
  - apply update_component_time_keeps in H. apply H, Hj.
  - apply update_component_keeps in H. apply H, Hj.
Qed.
Print Assumptions C34_others_kept.
Example C34_others_kept_nonvacuous :
  is_ok (update_component ex_solve (ex_sys SpaceTime ex_element) ex_loaders 0 [1; 2]%Z) = true.
Proof. vm_compute. reflexivity. Qed.

(* The order in which the system lists its components is irrelevant to what a component is fitted to. *)
Theorem C34_component_order (solve : table -> vec -> vec) sys i sys' i' c s loaders t :
  wf_system sys -> wf_system sys' -> same_others sys i sys' i' -> nth_error sys i = Some (c, s) ->
  loaders <> [] -> wf_loaders loaders t ->
  exists s1 r r', update_component_time solve sys loaders i t = Ok r /\ nth_error r i = Some (c, s1) /\
                  update_component_time solve sys' loaders i' t = Ok r' /\ nth_error r' i' = Some (c, s1).
Proof.
  intros Hsys Hsys' Hsame Hi Hne Hl.
  assert (Hi' : nth_error sys' i' = Some (c, s)) by (destruct Hsame as [H _]; congruence).
  exists (after_time solve sys i c s (inputs loaders t) t). eexists. eexists.
  split; [apply (update_component_time_ok solve sys loaders i t c s); assumption|].
  split; [rewrite nth_set_store, Hi, Nat.eqb_refl; reflexivity|].
  split; [apply (update_component_time_ok solve sys' loaders i' t c s); assumption|].
  rewrite nth_set_store, Hi', Nat.eqb_refl. f_equal. f_equal. unfold after_time.
  assert (He : forall x o, equation_for sys' i' c x o = equation_for sys i c x o).
  { intros x o. apply equation_for_ext. intros k. symmetry. apply residual_same_others, Hsame. }
  rewrite (map_ext _ _ (He (point c s t (hd_error (inputs loaders t)))) (inputs loaders t)). reflexivity.
Qed.
Print Assumptions C34_component_order.
Example C34_component_order_nonvacuous :
  same_others (ex_sys SpaceTime ex_element) 0 (rev (ex_sys SpaceTime ex_element)) 1 /\
  length (firstn 0 (ex_sys SpaceTime ex_element) ++ skipn 1 (ex_sys SpaceTime ex_element)) = 1.
Proof. split; [split; [reflexivity|apply Permutation_refl]|reflexivity]. Qed.

(* The component's own current value is not subtracted: for a linear component nothing it had before matters. *)
Theorem C34_own_value_not_subtracted (solve : table -> vec -> vec) sys i c s s2 loaders t :
  wf_system sys -> nth_error sys i = Some (c, s) -> el_nonlinear (c_element c) = false ->
  (forall o x y, el_jacobian (c_element c) o x = el_jacobian (c_element c) o y) ->
  c_kind c <> Spatial -> wf_loaders loaders t -> inputs loaders t <> [] ->
  exists r r2 s' s2', update_component_time solve sys loaders i t = Ok r /\ nth_error r i = Some (c, s') /\
    update_component_time solve (set_store sys i s2) loaders i t = Ok r2 /\ nth_error r2 i = Some (c, s2') /\
    assoc okey_eqb (s_meas s') (Some t) = assoc okey_eqb (s_meas s2') (Some t).
Proof.
  intros Hsys Hi Hlin Hj Hk Hl Hin.
  assert (Hi2 : nth_error (set_store sys i s2) i = Some (c, s2)) by (rewrite nth_set_store, Hi, Nat.eqb_refl; reflexivity).
  destruct (C34_measurement solve sys loaders i t c s Hsys Hi Hk Hl Hin) as (r & s' & H1 & H2 & H3 & _).
  destruct (C34_measurement solve (set_store sys i s2) loaders i t c s2 (set_store_wf sys i s2 Hsys) Hi2 Hk Hl Hin)
    as (r2 & s2' & K1 & K2 & K3 & _).
  exists r, r2, s', s2'. split; [exact H1|split; [exact H2|split; [exact K1|split; [exact K2|]]]].
  rewrite H3, K3. do 3 f_equal. apply map_ext. intros o. rewrite equation_for_set_store.
  unfold equation_for. rewrite Hlin. rewrite (Hj o (point c s2 t _) (point c s t (hd_error (inputs loaders t)))).
  destruct (c_kind c); reflexivity.
Qed.
Print Assumptions C34_own_value_not_subtracted.
Example C34_own_value_not_subtracted_nonvacuous :
  el_nonlinear ex_element = false /\ (forall o x y, el_jacobian ex_element o x = el_jacobian ex_element o y).
Proof. split; reflexivity. Qed.

(* A sweep over the system: when component k is updated, those before it are already the new ones and those after it (and
   itself) still the old ones. *)
Theorem C34_sweep (solve : table -> vec -> vec) sys loaders times sys' k :
  update solve sys loaders times = Ok sys' -> k < length sys ->
  exists before after, update_component solve before loaders k times = Ok after /\
    length before = length sys /\
    (forall j, j < k -> nth_error before j = nth_error sys' j) /\
    (forall j, k <= j -> nth_error before j = nth_error sys j) /\
    nth_error after k = nth_error sys' k /\ (forall j, j <> k -> nth_error after j = nth_error before j).
Proof.
  intros H Hk. unfold update in H.
  assert (Hsplit : seq 0 (length sys) = seq 0 k ++ k :: seq (S k) (length sys - S k)).
  { change (k :: seq (S k) (length sys - S k)) with (seq (0 + k) (S (length sys - S k))). rewrite <- seq_app. f_equal. lia. }
  rewrite Hsplit, foldM_app in H.
  assert (Hfold : forall l a b, foldM (fun sys i => update_component solve sys loaders i times) a l = Ok b ->
            length b = length a /\ forall j, ~ In j l -> nth_error b j = nth_error a j).
  { induction l as [|x l IH]; intros a b Hab; [injection Hab as <-; split; [reflexivity|intros; reflexivity]|].
    cbn [foldM] in Hab. destruct (update_component solve a loaders x times) as [a1|] eqn:E; [|discriminate]. cbn [bind] in Hab.
    destruct (update_component_keeps solve a loaders x times a1 E) as (E1 & E2 & _). destruct (IH a1 b Hab) as [I1 I2].
    split; [lia|]. intros j Hj. rewrite I2 by (intros Hin; apply Hj; right; exact Hin). apply E2. intros ->. apply Hj. left. reflexivity. }
  destruct (foldM _ sys (seq 0 k)) as [before|] eqn:E1; [|discriminate]. cbn [bind foldM] in H.
  destruct (update_component solve before loaders k times) as [after|] eqn:E2; [|discriminate]. cbn [bind] in H.
  exists before, after. split; [exact E2|].
  destruct (Hfold _ _ _ E1) as [F1 F2]. destruct (Hfold _ _ _ H) as [G1 G2].
  destruct (update_component_keeps solve before loaders k times after E2) as (U1 & U2 & _).
  split; [exact F1|split; [|split; [|split]]].
  - intros j Hj. rewrite (G2 j) by (rewrite in_seq; lia). symmetry. apply U2. lia.
  - intros j Hj. apply F2. rewrite in_seq. lia.
  - symmetry. apply G2. rewrite in_seq. lia.
  - exact U2.
Qed.
Print Assumptions C34_sweep.
Example C34_sweep_nonvacuous : is_ok (update ex_solve (ex_sys SpaceTime ex_element) ex_loaders [1; 2]%Z) = true.
Proof. vm_compute. reflexivity. Qed.

(* ---- C35 *)

(* The state a space-time component arrives at is the solution for the total information of all days and sources; a nonlinear
   one adds the step to its point of linearisation. *)
Theorem C35_total (solve : table -> vec -> vec) sys loaders i times c s :
  wf_system sys -> nth_error sys i = Some (c, s) -> c_kind c = SpaceTime -> loaders <> [] -> NoDup times ->
  (forall t, In t times -> wf_loaders loaders t /\ inputs loaders t <> []) -> stored_for times s ->
  (el_nonlinear (c_element c) = true -> (exists x, s_state s = Some x /\ length x = el_dim (c_element c)) /\
                                       forall p v, length (solve p v) = el_dim (c_element c)) ->
  exists sys' s', update_component solve sys loaders i times = Ok sys' /\ nth_error sys' i = Some (c, s') /\
    s_state s' = Some (new_state (c_element c) (s_state s) (posterior solve (el_dim (c_element c)) (el_prior (c_element c))
      (information (el_dim (c_element c))
        (flat_map (fun t => map (equation_for sys i c (s_state s)) (inputs loaders t)) times)))) /\
    stored_for times s'.
Proof.
  intros Hsys Hi Hk Hne Hnd Hl Hst Hnl.
  destruct (update_component_spacetime solve sys loaders i times c s Hsys Hi Hk Hne Hnd Hl Hst Hnl) as (times' & Hperm & H).
  eexists. eexists. split; [exact H|]. split; [rewrite nth_set_store, Hi, Nat.eqb_refl; reflexivity|]. split; [reflexivity|].
  unfold stored_for. cbn [s_meas]. rewrite map_map. cbn [fst]. split.
  - apply FinFun.Injective_map_NoDup; [intros a b E; congruence|]. apply (Permutation_NoDup (Permutation_sym Hperm) Hnd).
  - intros k Hin. apply in_map_iff in Hin. destruct Hin as (t & <- & Ht). exists t. split; [|reflexivity].
    apply (Permutation_in t Hperm Ht).
Qed.
Print Assumptions C35_total.
Example C35_total_nonvacuous : stored_for [1; 2]%Z ex_empty /\ NoDup [1; 2]%Z /\
  (forall t, In t [1; 2]%Z -> wf_loaders ex_loaders t /\ inputs ex_loaders t <> []).
Proof.
  split; [split; [constructor|intros k []]|split; [repeat constructor; cbn; intuition lia|intros; apply ex_loaders_wf]].
Qed.

(* The order of days and of sources does not matter. *)
Theorem C35_any_order (solve : table -> vec -> vec) sys loaders loaders' i times times' c s :
  wf_system sys -> nth_error sys i = Some (c, s) -> c_kind c = SpaceTime -> loaders <> [] -> NoDup times ->
  (forall t, In t times -> wf_loaders loaders t /\ inputs loaders t <> []) -> stored_for times s ->
  (el_nonlinear (c_element c) = true -> (exists x, s_state s = Some x /\ length x = el_dim (c_element c)) /\
                                       forall p v, length (solve p v) = el_dim (c_element c)) ->
  Permutation times times' -> Permutation loaders loaders' ->
  exists r r' s1 s1', update_component solve sys loaders i times = Ok r /\ nth_error r i = Some (c, s1) /\
    update_component solve sys loaders' i times' = Ok r' /\ nth_error r' i = Some (c, s1') /\ s_state s1 = s_state s1'.
Proof.
  intros Hsys Hi Hk Hne Hnd Hl Hst Hnl Hpt Hpl.
  assert (Hin : forall t, Permutation (inputs loaders t) (inputs loaders' t)).
  { intros t. unfold inputs. apply filter_perm. apply Permutation_map. exact Hpl. }
  destruct (C35_total solve sys loaders i times c s Hsys Hi Hk Hne Hnd Hl Hst Hnl) as (r & s1 & H1 & H2 & H3 & _).
  assert (Hne' : loaders' <> []) by (intros ->; apply Hne; apply Permutation_nil, Permutation_sym, Hpl).
  assert (Hl' : forall t, In t times' -> wf_loaders loaders' t /\ inputs loaders' t <> []).
  { intros t Ht. destruct (Hl t (Permutation_in t (Permutation_sym Hpt) Ht)) as [Hw Hi']. split.
    - intros l Hin'. apply Hw. apply (Permutation_in l (Permutation_sym Hpl) Hin').
    - intros E. apply Hi'. apply Permutation_nil. rewrite <- E. apply Permutation_sym, Hin. }
  assert (Hst' : stored_for times' s).
  { destruct Hst as [A B]. split; [exact A|]. intros k Hk'. destruct (B k Hk') as (t & Ht & E). exists t. split; [|exact E].
    apply (Permutation_in t Hpt Ht). }
  destruct (C35_total solve sys loaders' i times' c s Hsys Hi Hk Hne' (Permutation_NoDup Hpt Hnd) Hl' Hst' Hnl) as (r' & s1' & K1 & K2 & K3 & _).
  exists r, r', s1, s1'. split; [exact H1|split; [exact H2|split; [exact K1|split; [exact K2|]]]].
  rewrite H3, K3. do 3 f_equal. apply information_perm.
  eapply Permutation_trans; [apply flat_map_perm, Hpt|].
  clear -Hin. induction times' as [|t times' IH]; [constructor|]. cbn [flat_map].
  apply Permutation_app; [apply Permutation_map, Hin|exact IH].
Qed.
Print Assumptions C35_any_order.
Example C35_any_order_nonvacuous :
  Permutation [1; 2]%Z [2; 1]%Z /\ Permutation ex_loaders (rev ex_loaders) /\
  match update_component ex_solve (ex_sys SpaceTime ex_element) ex_loaders 0 [1; 2]%Z with
  | Ok r => match nth_error r 0 with Some (_, s) => option_map (map this) (s_state s) = Some [(4 # 9)%Q] | None => False end
  | Err _ => False
  end.
Proof. split; [apply perm_swap|split; [apply Permutation_rev|]]. vm_compute. reflexivity. Qed.

(* The total information is that of all equations stacked into one. *)
Theorem C35_stacked n q qs : wf_equation n q -> Forall (wf_equation n) qs ->
  wf_equation n (stack_all q qs) /\
  create_from_system_observations (fst (fst (stack_all q qs))) (snd (fst (stack_all q qs))) (snd (stack_all q qs))
  = Ok (information n (q :: qs)) /\
  exists u us, create_from_system_observations (fst (fst q)) (snd (fst q)) (snd q) = Ok u /\
    mapM (fun q => create_from_system_observations (fst (fst q)) (snd (fst q)) (snd q)) qs = Ok us /\
    foldM append_measurement_update u us = Ok (information n (q :: qs)).
Proof.
  intros Hq Hqs. pose proof (stack_all_wf n qs q Hq Hqs) as Hs. split; [exact Hs|split].
  - rewrite (create_ok n _ Hs), information_one, (stack_many n qs q Hq Hqs). reflexivity.
  - exists (information n [q]), (map (fun q => information n [q]) qs). rewrite (create_ok n q Hq), information_one.
    split; [reflexivity|split].
    + clear Hs Hq q. induction Hqs as [|q qs Hq Hqs IH]; [reflexivity|]. cbn [mapM map].
      rewrite (create_ok n q Hq), information_one. cbn [bind]. rewrite IH. reflexivity.
    + change (q :: qs) with ([q] ++ qs). generalize [q]. clear Hs Hqs Hq q. induction qs as [|q qs IH]; intros l.
      * cbn. rewrite app_nil_r. reflexivity.
      * cbn [map foldM]. rewrite append_informations. cbn [bind]. rewrite IH, <- app_assoc. reflexivity.
Qed.
Print Assumptions C35_stacked.
Example C35_stacked_nonvacuous :
  let q := equation_for (ex_sys SpaceTime ex_element) 0 (ex_comp SpaceTime ex_element) None (ex_obs 1 [10; 1]%Z) in
  wf_equation 1 q /\ map (map this) (i_precision (information 1 [q; q])) = [[inject_Z 4]].
Proof. split; [repeat split|vm_compute; reflexivity]. Qed.

(* Running the same update again, the other components being as they were, changes nothing: measurements are replaced, not
   counted twice. *)
Theorem C35_rerun (solve : table -> vec -> vec) sys loaders i times c s :
  wf_system sys -> nth_error sys i = Some (c, s) -> c_kind c = SpaceTime -> loaders <> [] -> NoDup times ->
  (forall t, In t times -> wf_loaders loaders t /\ inputs loaders t <> []) -> stored_for times s ->
  el_nonlinear (c_element c) = false -> (forall o x y, el_jacobian (c_element c) o x = el_jacobian (c_element c) o y) ->
  exists r r' s1 s2, update_component solve sys loaders i times = Ok r /\ nth_error r i = Some (c, s1) /\
    update_component solve r loaders i times = Ok r' /\ nth_error r' i = Some (c, s2) /\ s_state s1 = s_state s2.
Proof.
  intros Hsys Hi Hk Hne Hnd Hl Hst Hlin Hj.
  assert (Hnl : forall s', el_nonlinear (c_element c) = true -> (exists x, s_state s' = Some x /\ length x = el_dim (c_element c)) /\
                                       forall p v, length (solve p v) = el_dim (c_element c)) by (intros; congruence).
  destruct (C35_total solve sys loaders i times c s Hsys Hi Hk Hne Hnd Hl Hst (Hnl s)) as (r & s1 & H1 & H2 & H3 & H4).
  destruct (update_component_spacetime solve sys loaders i times c s Hsys Hi Hk Hne Hnd Hl Hst (Hnl s)) as (times' & _ & H5).
  rewrite H1 in H5. assert (Hr : r = set_store sys i s1).
  { injection H5 as H5. rewrite H5. f_equal. rewrite H5, nth_set_store, Hi, Nat.eqb_refl in H2. congruence. }
  assert (Hr_wf : wf_system r) by (rewrite Hr; apply set_store_wf, Hsys).
  destruct (C35_total solve r loaders i times c s1 Hr_wf H2 Hk Hne Hnd Hl H4 (Hnl s1)) as (r' & s2 & K1 & K2 & K3 & _).
  exists r, r', s1, s2. split; [exact H1|split; [exact H2|split; [exact K1|split; [exact K2|]]]].
  rewrite H3, K3. unfold new_state. rewrite Hlin. do 3 f_equal. apply flat_map_ext. intros t. apply map_ext. intros o.
  rewrite Hr, equation_for_set_store. unfold equation_for. rewrite Hlin, (Hj o (s_state s) (s_state s1)). destruct (c_kind c); reflexivity.
Qed.
Print Assumptions C35_rerun.
Example C35_rerun_nonvacuous :
  match update_component ex_solve (ex_sys SpaceTime ex_element) ex_loaders 0 [1; 2]%Z with
  | Ok r => is_ok (update_component ex_solve r ex_loaders 0 [1; 2]%Z) = true | Err _ => False end.
Proof. vm_compute. reflexivity. Qed.

(* ---- C36 *)

(* Measurements kept on file: merging returns the sum of them all, however often it is done. *)
Theorem C36_on_file n u us k h : shaped n u -> Forall (shaped n) us ->
  merge_repeatedly k h (OnFile (u :: us)) = Ok (repeat (Some (times_more n u us 1)) k).
Proof. intros Hu Hus. exact (merge_on_file n u us k h Hu Hus). Qed.
Print Assumptions C36_on_file.
Definition ex_info (a b : Z) : info := {| i_precision := [[qz a]]; i_vector := [qz b] |}.
Lemma ex_info_shaped a b : shaped 1 (ex_info a b).
Proof. repeat split; repeat constructor. Qed.
Example C36_on_file_nonvacuous : shaped 1 (ex_info 1 2) /\ Forall (shaped 1) [ex_info 3 4; ex_info 5 6] /\
  map this (i_vector (times_more 1 (ex_info 1 2) [ex_info 3 4; ex_info 5 6] 1)) = [inject_Z 12].
Proof. split; [apply ex_info_shaped|split; [repeat constructor|vm_compute; reflexivity]]. Qed.

(* Kept in memory, the first merge returns the sum, and every further one adds the other measurements again: the k-th call
   returns the first measurement plus k times the rest. *)
Theorem C36_in_memory n a rest u us k h :
  nth_error h a = Some u -> shaped n u -> ~ In a rest -> contents h rest us -> Forall (shaped n) us ->
  merge_repeatedly k h (InMemory (a :: rest)) = Ok (map (fun m => Some (times_more n u us m)) (seq 1 k)).
Proof.
  intros Ha Hu Hna Hc Hus. rewrite <- (times_more_0 n u us Hu) in Ha.
  rewrite (merge_in_memory n a rest u us k 0 h Ha Hna Hc Hus). cbn [Nat.add]. rewrite <- seq_shift, map_map. reflexivity.
Qed.
Print Assumptions C36_in_memory.
Example C36_in_memory_nonvacuous :
  contents [ex_info 3 4; ex_info 1 2; ex_info 5 6] [0; 2] [ex_info 3 4; ex_info 5 6] /\
  nth_error [ex_info 3 4; ex_info 1 2; ex_info 5 6] 1 = Some (ex_info 1 2).
Proof. split; [repeat constructor|reflexivity]. Qed.

(* So merging in memory is not repeatable: the full statement of C36 is false of the code. *)
Theorem C36_refuted : exists n h a rest r1 r2, (forall u, In u h -> shaped n u) /\ NoDup (a :: rest) /\
  merge_repeatedly 2 h (InMemory (a :: rest)) = Ok [Some r1; Some r2] /\
  info_at r1 0 0 <> info_at r2 0 0 /\ vnth (i_vector r1) 0 <> vnth (i_vector r2) 0.
Proof.
  exists 1, [ex_info 1 2; ex_info 3 4], 0, [1], (times_more 1 (ex_info 1 2) [ex_info 3 4] 1), (times_more 1 (ex_info 1 2) [ex_info 3 4] 2).
  split; [intros u [<-|[<-|[]]]; apply ex_info_shaped|]. split; [repeat constructor; cbn; intuition lia|].
  split; [|split].
  - apply (C36_in_memory 1 0 [1] (ex_info 1 2) [ex_info 3 4] 2 [ex_info 1 2; ex_info 3 4] eq_refl (ex_info_shaped 1 2)); [cbn; intuition lia|repeat constructor|].
    repeat constructor.
  - intros H. apply (f_equal this) in H. vm_compute in H. discriminate.
  - intros H. apply (f_equal this) in H. vm_compute in H. discriminate.
Qed.
Print Assumptions C36_refuted.

(* ---- C37 *)

(* In memory: what is read is what was written last under the same quantity and time; other writes do not interfere. *)
Theorem C37_memory ops q t :
  memory_read (fold_left memory_step ops empty_memory) q t = last_write qkey_eqb (state_writes ops) (q, t) /\
  memory_measurement_read (fold_left memory_step ops empty_memory) t
  = match last_write Z.eqb (measurement_writes ops) t with Some v => Ok v | None => Err KeyError end /\
  (In t (memory_timeindices (fold_left memory_step ops empty_memory)) <-> exists v, In (t, v) (measurement_writes ops)).
Proof.
  split; [|split].
  - rewrite memory_history. destruct (last_write _ _ _); [reflexivity|]. destruct q; reflexivity.
  - unfold memory_measurement_read. rewrite memory_measurements, assoc_assign_all by apply Z.eqb_eq. cbn.
    destruct (last_write Z.eqb (measurement_writes ops) t); reflexivity.
  - unfold memory_timeindices. rewrite memory_measurements. cbn [me_measurement empty_memory].
    pose proof (assoc_assign_all Z.eqb Z.eqb_eq (measurement_writes ops) t []) as Ha. cbn [assoc] in Ha. split.
    + intros Hin. assert (Hsome : forall d : list (Z * vec), In t (map fst d) -> assoc Z.eqb d t <> None).
      { induction d as [|[t' v] d IH]; [intros []|]. cbn [map fst assoc]. intros [->|H]; [rewrite Z.eqb_refl; discriminate|].
        destruct (t =? t')%Z; [discriminate|apply IH, H]. }
      apply Hsome in Hin. rewrite Ha in Hin.
      destruct (in_dec Z.eq_dec t (map fst (measurement_writes ops))) as [Hd|Hd].
      * apply in_map_iff in Hd. destruct Hd as ([t' v] & E & Hd). cbn in E. subst t'. exists v. exact Hd.
      * apply (last_write_None Z.eqb Z.eqb_eq) in Hd. rewrite Hd in Hin. congruence.
    + intros (v & Hin). destruct (last_write Z.eqb (measurement_writes ops) t) as [w|] eqn:El.
      * apply (assoc_In Z.eqb Z.eqb_eq) in Ha; [|apply (assign_all_NoDup Z.eqb Z.eqb_eq); constructor]. apply in_map_iff. exists (t, w). split; [reflexivity|exact Ha].
      * exfalso. apply (last_write_None Z.eqb Z.eqb_eq) in El. apply El. apply in_map_iff. exists (t, v). split; [reflexivity|exact Hin].
Qed.
Print Assumptions C37_memory.
Example C37_memory_nonvacuous :
  option_map (map this) (memory_read (fold_left memory_step
     [WriteQ State 1 [qz 5]; WriteQ Sample 1 [qz 6]; WriteQ State 2 [qz 7]; WriteM 1 [qz 8]; WriteQ State 1 [qz 9]] empty_memory) State 1)
  = Some [inject_Z 9].
Proof. vm_compute. reflexivity. Qed.

(* In files by time: the file of a time is the one at the last position at which the time is listed; times not listed are
   refused, both on writing and on reading. *)
Theorem C37_file_of_time x fs q t v l : ix_write x q = Some l -> ix_read x q = Some l ->
  (forall i f, last_position (match ix_times x with Some ts => ts | None => map Z.of_nat (seq 0 (number_of_substeps x)) end) t i ->
     nth_error l i = Some f -> indexed_write x fs q t v = Ok (writepickle fs f v) /\ indexed_read x fs q t = (do w <- readpickle fs f; Ok (Some w))) /\
  (~ In t (match ix_times x with Some ts => ts | None => map Z.of_nat (seq 0 (number_of_substeps x)) end) ->
     indexed_write x fs q t v = Err ValueError /\ indexed_read x fs q t = Err ValueError).
Proof.
  intros Hw Hr. unfold indexed_write, indexed_read, file_write, file_read, file_lookup. rewrite Hw, Hr. split.
  - intros i f Hp Hf. destruct (ix_times x) as [ts|]; apply dict_of_last in Hp; rewrite Hp, Hf; split; reflexivity.
  - intros Hn. destruct (ix_times x) as [ts|]; apply dict_of_None in Hn; rewrite Hn; split; reflexivity.
Qed.
Print Assumptions C37_file_of_time.
Definition ex_indexed : indexed :=
  {| ix_read := fun q => match q with State => Some [100; 101; 102]%Z | _ => None end;
     ix_write := fun q => match q with State => Some [100; 101; 102]%Z | _ => None end;
     ix_mread := None; ix_mwrite := None; ix_times := Some [7; 9; 7]%Z |}.
Example C37_file_of_time_nonvacuous : last_position [7; 9; 7]%Z 7%Z 2 /\ last_position [7; 9; 7]%Z 9%Z 1 /\ ~ In 8%Z [7; 9; 7]%Z.
Proof.
  split; [split; [reflexivity|]|split; [split; [reflexivity|]|cbn; intuition lia]]; intros j Hj; do 3 (destruct j as [|j]; [cbn; first [lia|discriminate]|]);
    destruct j; discriminate.
Qed.

(* Reading after any number of successful writes returns the last value written for that quantity and time. *)
Theorem C37_indexed x ws fs fs' q t : own_files x ->
  foldM (fun fs w => indexed_write x fs (fst (fst w)) (snd (fst w)) (snd w)) fs ws = Ok fs' ->
  indexed_read x fs' q t = match last_write qkey_eqb ws (q, t) with Some v => Ok (Some v) | None => indexed_read x fs q t end.
Proof. intros Hx H. exact (indexed_history x Hx ws fs fs' q t H). Qed.
Print Assumptions C37_indexed.
Example C37_indexed_nonvacuous : own_files ex_indexed /\
  is_ok (foldM (fun fs (w : (quantity * Z) * vec) => indexed_write ex_indexed fs (fst (fst w)) (snd (fst w)) (snd w)) []
     [((State, 7%Z), [qz 1]); ((State, 9%Z), [qz 2]); ((State, 7%Z), [qz 3])]) = true.
Proof.
  split; [|reflexivity]. split; [reflexivity|]. intros q q' l l' i i' f Hq Hq' Hi Hi'.
  destruct q; try discriminate. destruct q'; try discriminate. injection Hq as <-. injection Hq' as <-. split; [reflexivity|].
  do 3 (destruct i as [|i]; [injection Hi as <-; do 3 (destruct i' as [|i']; [first [reflexivity|discriminate]|]); destruct i'; discriminate|]).
  destruct i; discriminate.
Qed.

(* One file per quantity: with each quantity read where it is written, reads return the last write, whether or not copies
   are kept in memory. *)
Theorem C37_batched b ops fs fk' q : own_file b ->
  foldM (batched_step b) (fs, []) ops = Ok fk' ->
  batched_value b fk' q = match last_write quantity_eqb (batched_writes ops) q with Some v => Ok (Some v) | None => on_disk b fs q end.
Proof. intros Hb H. apply (batched_history b Hb ops (fs, []) fk' q); [intros _ q0 v0 H0; discriminate|exact H]. Qed.
Print Assumptions C37_batched.
Definition ex_batched (keep : bool) (r : filename) : batched :=
  {| bt_read := fun q => match q with State => Some r | _ => None end;
     bt_write := fun q => match q with State => Some 5%Z | _ => None end; bt_keep := keep |}.
Example C37_batched_nonvacuous : own_file (ex_batched true 5%Z) /\
  is_ok (foldM (batched_step (ex_batched true 5%Z)) ([], []) [BWrite State [qz 1]; BRead State; BWrite State [qz 2]]) = true.
Proof.
  split; [|reflexivity]. split; [intros []; reflexivity|]. intros [] [] f H H'; try discriminate; reflexivity.
Qed.

(* With different files for reading and for writing, which is how iterations are chained, the flag that is there to save time
   decides what is read after a write. *)
Theorem C37_keep_flag_refuted : exists r fs v old, v <> old /\
  (forall fk', foldM (batched_step (ex_batched true r)) (fs, []) [BWrite State v] = Ok fk' -> batched_value (ex_batched true r) fk' State = Ok (Some v)) /\
  (forall fk', foldM (batched_step (ex_batched false r)) (fs, []) [BWrite State v] = Ok fk' -> batched_value (ex_batched false r) fk' State = Ok (Some old)) /\
  is_ok (foldM (batched_step (ex_batched true r)) (fs, []) [BWrite State v]) = true /\
  is_ok (foldM (batched_step (ex_batched false r)) (fs, []) [BWrite State v]) = true.
Proof.
  exists 4%Z, [(4%Z, [qz 1])], [qz 2], [qz 1]. split; [intros H; apply (f_equal (map this)) in H; vm_compute in H; discriminate|].
  split; [|split; [|split; reflexivity]]; intros fk' H; injection H as <-; reflexivity.
Qed.
Print Assumptions C37_keep_flag_refuted.

(* The measurements of that storage cannot be read at all. *)
Theorem C37_batched_measurement_refuted mread : is_ok (batched_measurement_read mread) = false.
Proof. destruct mread; reflexivity. Qed.
Print Assumptions C37_batched_measurement_refuted.

(* ---- C69: times without observations *)

(* A spatial component skips them: its state at other times is as if they were not in the list, and at them what it was. *)
Theorem C69_spatial (solve : table -> vec -> vec) sys loaders i times c s :
  wf_system sys -> nth_error sys i = Some (c, s) -> c_kind c = Spatial -> loaders <> [] ->
  (forall t, In t times -> wf_loaders loaders t) ->
  exists sys' s', update_component solve sys loaders i times = Ok sys' /\ nth_error sys' i = Some (c, s') /\
    (forall t, In t times -> inputs loaders t <> [] ->
       assoc Z.eqb (s_part s') t = Some (posterior solve (el_dim (c_element c)) (el_prior (c_element c))
                  (information (el_dim (c_element c)) (map (equation_for sys i c None) (inputs loaders t))))) /\
    (forall t, ~ In t times \/ inputs loaders t = [] -> assoc Z.eqb (s_part s') t = assoc Z.eqb (s_part s) t).
Proof.
  intros Hsys Hi Hk Hne Hl.
  destruct (spatial_component_ok solve sys loaders i times c s Hsys Hi Hk Hne Hl) as (s' & H1 & _ & _ & H4).
  exists (set_store sys i s'), s'. split; [exact H1|split; [rewrite nth_set_store, Hi, Nat.eqb_refl; reflexivity|split]].
  - intros t Ht Hin. rewrite H4. apply (existsb_key Z.eqb Z.eqb_eq) in Ht. rewrite Ht. cbn [andb].
    destruct (inputs loaders t); [congruence|reflexivity].
  - intros t [Ht|Ht]; rewrite H4.
    + destruct (existsb (Z.eqb t) times) eqn:E; [|reflexivity]. apply (existsb_key Z.eqb Z.eqb_eq) in E. contradiction.
    + rewrite Ht, andb_false_r. reflexivity.
Qed.
Print Assumptions C69_spatial.
Definition ex_gap : list loader := [fun t => ex_obs t (if (t =? 2)%Z then [] else [t])].
Lemma ex_gap_wf t : wf_loaders ex_gap t.
Proof. intros l [<-|[]]. unfold ex_obs. destruct (t =? 2)%Z; split; try reflexivity; split; reflexivity. Qed.
Example C69_spatial_nonvacuous : (forall t, In t [1; 2; 3]%Z -> wf_loaders ex_gap t) /\ inputs ex_gap 2 = [] /\ inputs ex_gap 3 <> [].
Proof. split; [intros; apply ex_gap_wf|split; [reflexivity|discriminate]]. Qed.

(* A space-time component (with its measurements in memory) cannot be solved for as soon as one time has no observations. *)
Theorem C69_spacetime_refuted (solve : table -> vec -> vec) sys loaders i times c s t :
  wf_system sys -> nth_error sys i = Some (c, s) -> c_kind c = SpaceTime ->
  (el_nonlinear (c_element c) = true -> s_state s <> None) -> loaders <> [] ->
  (forall t, In t times -> wf_loaders loaders t) ->
  (forall k v, In (k, Some v) (s_meas s) -> shaped (el_dim (c_element c)) v) ->
  In t times -> inputs loaders t = [] ->
  update_component solve sys loaders i times = Err AttributeError.
Proof. intros. eapply empty_time_breaks; eassumption. Qed.
Print Assumptions C69_spacetime_refuted.
Example C69_spacetime_refuted_nonvacuous :
  update_component ex_solve (ex_sys SpaceTime ex_element) ex_gap 0 [1; 2; 3]%Z = Err AttributeError /\
  is_ok (update_component ex_solve (ex_sys SpaceTime ex_element) ex_gap 0 [1; 3]%Z) = true.
Proof. split; vm_compute; reflexivity. Qed.

(* ---- C70: several times in one call *)

Theorem C70_spatial (solve : table -> vec -> vec) sys i c s times loaders :
  wf_system sys -> nth_error sys i = Some (c, s) -> c_kind c = Spatial ->
  (forall t, In t times -> loaders t <> [] /\ wf_loaders (loaders t) t) ->
  update_component_times solve sys (map loaders times) i times
  = foldM (fun sys t => update_component_time solve sys (loaders t) i t) sys times.
Proof. intros. eapply batch_spatial_ok; eassumption. Qed.
Print Assumptions C70_spatial.
Example C70_spatial_nonvacuous :
  is_ok (update_component_times ex_solve (ex_sys SpaceTime ex_element) (map (fun _ => ex_loaders) [1; 2]%Z) 1 [1; 2]%Z) = true.
Proof. vm_compute. reflexivity. Qed.

(* A linear space-time component stores one measurement, the sum over all times, so that solving afterwards gives the same
   state as time by time (C35_total). *)
Theorem C70_spacetime (solve : table -> vec -> vec) sys i c s times loaders :
  wf_system sys -> nth_error sys i = Some (c, s) -> c_kind c = SpaceTime -> el_nonlinear (c_element c) = false ->
  times <> [] -> s_meas s = [] -> loaders <> [] ->
  (forall t, In t times -> wf_loaders loaders t /\ inputs loaders t <> []) ->
  exists mid s' sys', update_component_times solve sys (map (fun _ => loaders) times) i times = Ok mid /\
    update_component_solution solve mid i = Ok sys' /\ nth_error sys' i = Some (c, s') /\
    s_state s' = Some (posterior solve (el_dim (c_element c)) (el_prior (c_element c))
      (information (el_dim (c_element c)) (flat_map (fun t => map (equation_for sys i c (s_state s)) (inputs loaders t)) times))).
Proof.
  intros Hsys Hi Hk Hlin Ht Hm Hne Hl.
  assert (Hset : settled c s (fun _ => s_state s)).
  { split; [congruence|]. intros t o. unfold linearisation. rewrite Hk, Hlin. reflexivity. }
  pose proof (batch_ok solve sys i c s (fun _ => s_state s) times (fun _ => loaders) Hsys Hi Hset
    (fun t Hin => conj Hne (proj1 (Hl t Hin)))) as Hb. cbv zeta in Hb.
  rewrite Hm in Hb. cbn [assign] in Hb.
  assert (Hlast : exists t, last_time (fun _ => loaders) times None = Some t).
  { destruct (exists_last Ht) as (ts & t & ->). exists t. rewrite last_time_snoc.
    destruct (inputs loaders t) eqn:E; [|reflexivity]. exfalso. apply (proj2 (Hl t ltac:(apply in_app_iff; right; left; reflexivity))). exact E. }
  destruct Hlast as (tl & Hlast). rewrite Hlast in Hb.
  remember (flat_map (fun t => map (equation_for sys i c (s_state s)) (inputs loaders t)) times) as qs eqn:Hqs.
  assert (Hqn : qs <> []).
  { destruct times as [|t times]; [congruence|]. cbn [flat_map] in Hqs. destruct (inputs loaders t) eqn:E.
    - exfalso. apply (proj2 (Hl t (or_introl eq_refl))). exact E.
    - subst qs. discriminate. }
  destruct qs as [|q qs]; [congruence|]. clear Hqn.
  eexists. eexists. eexists. split; [exact Hb|].
  unfold update_component_solution, component_at. rewrite nth_set_store, Hi, Nat.eqb_refl. cbn [bind].
  unfold update_solution. rewrite Hk. cbn [s_meas with_meas append_all].
  rewrite blank_information, append_informations. cbn [bind app].
  rewrite posterior_ok by (first [apply (wf_at _ _ _ _ Hsys Hi)|apply information_shaped]). cbn [bind]. rewrite Hlin. cbn [bind].
  rewrite set_store_twice. split; [reflexivity|]. rewrite nth_set_store, Hi, Nat.eqb_refl. split; [reflexivity|]. reflexivity.
Qed.
Print Assumptions C70_spacetime.
Example C70_spacetime_nonvacuous :
  is_ok (update_component_times ex_solve (ex_sys SpaceTime ex_element) (map (fun _ => ex_loaders) [1; 2]%Z) 0 [1; 2]%Z) = true /\
  s_meas ex_empty = [].
Proof. split; vm_compute; reflexivity. Qed.

(* A delayed component must have one measurement per time; in one call all of them are added together under the last time, so
   the state of that time comes from the observations of every time and the other times get none. *)
Definition part_of (r : result system) (i : nat) (t : Z) : option (list Q) :=
  match r with
  | Ok sys => match nth_error sys i with Some (_, s) => option_map (map this) (assoc Z.eqb (s_part s) t) | None => None end
  | Err _ => None
  end.
Theorem C70_delayed_refuted : exists (solve : table -> vec -> vec) sys loaders i c s times,
  wf_system sys /\ nth_error sys i = Some (c, s) /\ c_kind c = Delayed /\ el_nonlinear (c_element c) = false /\
  times = [1; 2]%Z /\ (forall t, In t times -> wf_loaders loaders t /\ inputs loaders t <> []) /\
  let batch := do mid <- update_component_times solve sys (map (fun _ => loaders) times) i times; update_component_solution solve mid i in
  let single := update_component solve sys loaders i times in
  is_ok batch = true /\ part_of batch i 1 = None /\ part_of single i 1 <> None /\ part_of batch i 2 <> part_of single i 2.
Proof.
  exists ex_solve, (ex_sys Delayed ex_element), ex_loaders, 0, (ex_comp Delayed ex_element), ex_empty, [1; 2]%Z.
  split; [apply ex_sys_wf|split; [reflexivity|split; [reflexivity|split; [reflexivity|split; [reflexivity|split]]]]].
  - intros t _. apply ex_loaders_wf.
  - cbv zeta. split; [vm_compute; reflexivity|split; [vm_compute; reflexivity|split; vm_compute; discriminate]].
Qed.
Print Assumptions C70_delayed_refuted.

(* ---- C71: delayed solution of a spatial component *)

(* Keeping the measurements of every time and solving later gives the states that solving at once gives. *)
Theorem C71_delayed_is_spatial (solve : table -> vec -> vec) e s s' others before loaders times :
  wf_element e -> Forall (fun cs => wf_element (c_element (fst cs))) (before ++ others) ->
  el_nonlinear e = false -> (forall o x y, el_jacobian e o x = el_jacobian e o y) ->
  loaders <> [] -> NoDup times -> (forall t, In t times -> wf_loaders loaders t /\ inputs loaders t <> []) -> stored_for times s ->
  exists r r' d d',
    update_component solve (before ++ ({| c_kind := Delayed; c_element := e |}, s) :: others) loaders (length before) times = Ok r /\
    nth_error r (length before) = Some ({| c_kind := Delayed; c_element := e |}, d) /\
    update_component solve (before ++ ({| c_kind := Spatial; c_element := e |}, s') :: others) loaders (length before) times = Ok r' /\
    nth_error r' (length before) = Some ({| c_kind := Spatial; c_element := e |}, d') /\
    forall t, In t times -> exists x, assoc Z.eqb (s_part d) t = Some x /\ assoc Z.eqb (s_part d') t = Some x.
Proof.
  intros He Hoth Hlin Hj Hne Hnd Hl Hst.
  set (cd := {| c_kind := Delayed; c_element := e |}). set (cs := {| c_kind := Spatial; c_element := e |}).
  assert (Hwf : forall c s0, c_element c = e -> wf_system (before ++ (c, s0) :: others)).
  { intros c s0 Hc. apply Forall_app in Hoth. destruct Hoth as [H1 H2]. apply Forall_app. split; [exact H1|].
    constructor; [cbn [fst]; rewrite Hc; exact He|exact H2]. }
  assert (Hat : forall cs0 : component * store, nth_error (before ++ cs0 :: others) (length before) = Some cs0).
  { intros cs0. rewrite nth_error_app2 by lia. rewrite Nat.sub_diag. reflexivity. }
  destruct (delayed_component_ok solve _ loaders (length before) times cd s (Hwf cd s eq_refl) (Hat (cd, s)) eq_refl Hlin Hne Hnd Hl Hst)
    as (d & H1 & H2).
  destruct (spatial_component_ok solve _ loaders (length before) times cs s' (Hwf cs s' eq_refl) (Hat (cs, s')) eq_refl Hne
              (fun t Ht => proj1 (Hl t Ht))) as (d' & K1 & _ & _ & K2).
  eexists. eexists. exists d, d'. split; [exact H1|]. split; [rewrite nth_set_store, Hat, Nat.eqb_refl; reflexivity|].
  split; [exact K1|]. split; [rewrite nth_set_store, Hat, Nat.eqb_refl; reflexivity|].
  intros t Ht. rewrite H2, K2. pose proof Ht as Hin. apply (existsb_key Z.eqb Z.eqb_eq) in Ht. rewrite Ht. cbn [andb].
  destruct (inputs loaders t) as [|o os] eqn:E; [exfalso; apply (proj2 (Hl t Hin)), E|].
  cbn [negb]. eexists. split; [reflexivity|].
  assert (Heq : forall x o', equation_for (before ++ (cs, s') :: others) (length before) cs None o'
                           = equation_for (before ++ (cd, s) :: others) (length before) cd x o').
  { intros x o'. unfold equation_for. cbn [c_kind c_element cs cd]. rewrite Hlin, (Hj o' x None). f_equal. apply tab_ext. intros k _.
    rewrite (residual_ext_at before (cs, s') (cd, s) others o' k). reflexivity. }
  rewrite (map_ext _ _ (Heq (assoc Z.eqb (s_part s) t)) (o :: os)). reflexivity.
Qed.
Print Assumptions C71_delayed_is_spatial.
Example C71_delayed_is_spatial_nonvacuous :
  part_of (update_component ex_solve (ex_sys Delayed ex_element) ex_loaders 0 [1; 2]%Z) 0 2 = Some [(1 # 5)%Q] /\
  part_of (update_component ex_solve (ex_sys Spatial ex_element) ex_loaders 0 [1; 2]%Z) 0 2 = Some [(1 # 5)%Q].
Proof. split; vm_compute; reflexivity. Qed.

(* With a nonlinear element the delayed solution always fails. *)
Theorem C71_nonlinear_refuted (solve : table -> vec -> vec) sys i c s : wf_system sys -> nth_error sys i = Some (c, s) ->
  c_kind c = Delayed -> el_nonlinear (c_element c) = true -> s_meas s <> [] ->
  is_ok (update_component_solution solve sys i) = false.
Proof.
  intros Hsys Hi Hk Hnl Hm. unfold update_component_solution, component_at. rewrite Hi. cbn [bind]. unfold update_solution. rewrite Hk.
  destruct (s_meas s) as [|[t [m|]] ms]; [congruence| |reflexivity]. cbn [foldM update_delayed].
  destruct (append_measurement_update _ m); [|reflexivity]. cbn [bind]. destruct (maximum_a_posteriori _ _ _); [|reflexivity].
  cbn [bind]. rewrite Hnl. reflexivity.
Qed.
Print Assumptions C71_nonlinear_refuted.
Example C71_nonlinear_refuted_nonvacuous :
  is_ok (update_component_time ex_solve (ex_sys Delayed ex_nonlinear) ex_loaders 0 1) = true /\
  update_component ex_solve (ex_sys Delayed ex_nonlinear) ex_loaders 0 [1; 2]%Z = Err TypeError.
Proof. split; vm_compute; reflexivity. Qed.

(* ---- C72: what the system predicts *)

(* The value at each location is the sum over the components, whatever their order. *)
Theorem C72_sum sys sys' o : wf_system sys -> Permutation sys sys' ->
  exists v, evaluate_pointwise sys o = Ok v /\ evaluate_pointwise sys' o = Ok v /\ length v = length (o_vector o) /\
    forall k, k < length (o_vector o) -> vnth v k = sumQ (map (fun cs => vnth (expected_value (fst cs) (snd cs) o) k) sys).
Proof.
  intros Hsys Hp. eexists. split; [apply evaluate_ok, Hsys|]. split.
  - assert (Hsys' : wf_system sys') by (unfold wf_system in *; eapply Permutation_Forall; eassumption).
    rewrite (evaluate_ok sys' o Hsys'). f_equal. apply tab_ext. intros k _. apply sumQ_perm, Permutation_map, Permutation_sym, Hp.
  - split; [apply tab_length|]. intros k Hk. apply vnth_tab, Hk.
Qed.
Print Assumptions C72_sum.
Example C72_sum_nonvacuous : wf_system (ex_sys SpaceTime ex_element) /\
  match evaluate_pointwise (ex_sys SpaceTime ex_element) (ex_obs 1 [10; 1]%Z) with
  | Ok v => map this v = [inject_Z 4; inject_Z 4] | Err _ => False end.
Proof. split; [ex|vm_compute; reflexivity]. Qed.

(* The prediction and the residual a component is fitted to agree: observation = residual of [i] + prediction - contribution
   of [i]. *)
Theorem C72_closes sys i o v k : wf_system sys -> i < length sys -> evaluate_pointwise sys o = Ok v -> k < length (o_vector o) ->
  vnth (o_vector o) k = (residual sys i o k + (vnth v k - contribution sys i o k))%Qc.
Proof.
  intros Hsys Hi Hv Hk. rewrite (evaluate_ok sys o Hsys) in Hv. injection Hv as <-. rewrite vnth_tab by exact Hk.
  destruct (nth_error sys i) as [[c s]|] eqn:E; [|apply nth_error_None in E; lia].
  rewrite residual_others. unfold contribution. rewrite E.
  destruct (nth_error_split sys i E) as (l1 & l2 & -> & Hl). subst i.
  rewrite firstn_app, firstn_all, Nat.sub_diag, firstn_O, app_nil_r.
  replace (skipn (S (length l1)) (l1 ++ (c, s) :: l2)) with l2
    by (rewrite skipn_app, skipn_all2 by lia; replace (S (length l1) - length l1) with 1 by lia; reflexivity).
  rewrite !map_app, !sumQ_app. cbn [map fst snd]. rewrite sumQ_cons. ring.
Qed.
Print Assumptions C72_closes.
Example C72_closes_nonvacuous : wf_system (ex_sys SpaceTime ex_element) /\ 1 < length (ex_sys SpaceTime ex_element) /\
  is_ok (evaluate_pointwise (ex_sys SpaceTime ex_element) (ex_obs 1 [10; 1]%Z)) = true.
Proof. split; [ex|split; [cbn; lia|vm_compute; reflexivity]]. Qed.
