(* The settings of generated operations. *)
From Coq Require Import String Ascii ZifyBool.
From Verif Require Import Base Grid_Model Fill_Model Fill_Spec Fill_Proofs Fill_Chain Fill_Total Fill_Files.
Open Scope string_scope.
Open Scope list_scope.
Open Scope Z_scope.

Record fitted (f : filler) (t op : json) (once kept sampled prior : bool) (size : Z) : Prop := {
  t_land : get [K "runmodule"; K "insitu_biases"] op = Ok (f_land_biases f);
  t_global : get [K "runmodule"; K "global_biases"] op = Ok (f_global_biases f);
  t_uncertainties : get [K "runmodule"; K "compute_uncertainties"] op = Ok (JNum 0);
  t_method : get [K "runmodule"; K "method"] op = Ok (JStr "EXACT");
  t_sample : get [K "runmodule"; K "compute_sample"] op = Ok (JNum (if sampled then 1 else 0));
  t_prior : get [K "runmodule"; K "compute_prior_sample"] op = Ok (JNum (if prior then 1 else 0));
  t_size : get [K "runmodule"; K "sample_size"] op = Ok (JNum size);
  t_once : once = true -> get [K "step"] op = Ok (of_class "eumopps.catalogue.step.StepOnce") /\
           forall k, In k NOT_SOLVED -> get [K "runmodule"; K k] op = Err KeyError;
  t_daily : once = false -> get [K "step"; K "start"] op = Ok (JStr (f_start_date f ++ "000000")) /\ get [K "step"; K "end"] op = Ok (JStr (f_end_date f ++ "000000")) /\
            get [K "step"; K "python_class"] op = get [K "step"; K "python_class"] t;
  t_sources : kept = true -> get [K "runmodule"; K "inputsources"] op = get [K "runmodule"; K "inputsources"] t }.

Lemma solved_keys : ~ In "python_class" NOT_SOLVED /\ ~ In "datasetname" NOT_SOLVED.
Proof. split; intros H; repeat (destruct H as [H|H]; [discriminate H|]); destruct H. Qed.
Lemma grid_keys : ~ In "python_class" ["inputsources"; "time_index"] /\ ~ In "datasetname" ["inputsources"; "time_index"].
Proof. split; intros H; repeat (destruct H as [H|H]; [discriminate H|]); destruct H. Qed.

Ltac past := match goal with
  | E : put ?p ?v ?j = Ok ?j' |- context [get ?q ?j'] =>
      first [ unify p q; change (get q j') with (get p j'); rewrite (get_put_same p v j j' E) | rewrite (get_put_diverge p v j j' q E eq_refl) ]
  | E : add_dataset ?a ?b ?c ?j = Ok ?j' |- context [get ?q ?j'] => rewrite (proj1 (proj1 (add_dataset_effect a b c j j' [] E)) q eq_refl)
  | E : remove_keys NOT_SOLVED ?j = Ok ?j' |- context [get ?q ?j'] => rewrite (proj1 (remove_effect NOT_SOLVED j j' (proj1 solved_keys) (proj2 solved_keys) E) q eq_refl)
  | E : remove_keys ["inputsources"; "time_index"] ?j = Ok ?j' |- context [get ?q ?j'] => rewrite (proj1 (remove_effect ["inputsources"; "time_index"] j j' (proj1 grid_keys) (proj2 grid_keys) E) q eq_refl)
  | F : effect ?P ?L ?j ?j' |- context [get ?q ?j'] => rewrite (proj1 F q eq_refl)
  end.
Ltac settle := constructor;
  [ repeat past; reflexivity | repeat past; reflexivity | repeat past; reflexivity | repeat past; reflexivity | repeat past; reflexivity | repeat past; reflexivity | repeat past; reflexivity
  | intros O; first [discriminate O | split; [repeat past; reflexivity|intros k Ik; match goal with E : remove_keys NOT_SOLVED _ = Ok _ |- _ => exact (remove_gone _ _ _ _ Ik E) end]]
  | intros O; first [discriminate O | split; [repeat past; reflexivity|split; repeat past; reflexivity]]
  | intros O; first [discriminate O | repeat past; reflexivity] ].

Lemma measurement_fitted f t i c command dataset op : 0 <= i -> component c -> fill_single_measurement f t i c command dataset = Ok op -> fitted f t op false true false false 0.
Proof.
  intros Hi Hc H. unfold fill_single_measurement, fill_primary_keys in H. rewrite (storage_index c Hc) in H. open_binds.
  match goal with E : fill_secondary_keys _ _ _ _ = Ok _ |- _ => destruct (secondary_effect _ _ _ _ _ Hi Hc E) as (F & _) end. destruct Hc as [-> | [-> | ->]]; settle.
Qed.
Lemma batch_measurement_fitted f t i c command dataset op : 0 <= i -> component c -> fill_batch_measurement f t i c command dataset = Ok op -> fitted f t op false true false false 0.
Proof.
  intros Hi Hc H. unfold fill_batch_measurement, fill_primary_keys in H. rewrite (storage_index c Hc) in H. open_binds.
  match goal with E : fill_secondary_keys_batch _ _ _ _ = Ok _ |- _ => destruct (secondary_batch_effect _ _ _ _ _ Hi Hc E) as (F & _) end. destruct Hc as [-> | [-> | ->]]; settle.
Qed.

Lemma space_fitted f t (sampled : bool) i c op : 0 <= i -> component c -> fill_single_operation_space f t sampled i c = Ok op -> fitted f t op false true sampled sampled (if sampled then f_state_sample_size f else 0).
Proof.
  intros Hi Hc H. unfold fill_single_operation_space, fill_primary_keys, add_sample_information, add_prior_sample_information in H. rewrite (storage_index c Hc) in H. destruct sampled; open_binds.
  - match goal with E : fill_secondary_keys _ _ _ _ = Ok _ |- _ => destruct (secondary_effect _ _ _ _ _ Hi Hc E) as (F & _) end.
    match goal with E : (if ?b then _ else _) = Ok _ |- _ => destruct b end; open_binds; destruct Hc as [-> | [-> | ->]]; settle.
  - match goal with E : fill_secondary_keys _ _ _ _ = Ok _ |- _ => destruct (secondary_effect _ _ _ _ _ Hi Hc E) as (F & _) end. destruct Hc as [-> | [-> | ->]]; settle.
Qed.
Lemma solution_fitted f t (sampled : bool) i c command solution measurement op : component c -> fill_single_solution f t sampled i c command solution measurement = Ok op ->
  fitted f t op true false sampled sampled (if sampled then f_state_sample_size f else 0).
Proof.
  intros Hc H. unfold fill_single_solution, fill_primary_keys, add_sample_information, add_prior_sample_information, solve_once, solve_files in H. rewrite (storage_index c Hc) in H. destruct sampled; open_binds.
  - match goal with E : (if ?b then _ else _) = Ok _ |- _ => destruct b end; open_binds; destruct Hc as [-> | [-> | ->]]; settle.
  - destruct Hc as [-> | [-> | ->]]; settle.
Qed.
Lemma posterior_fitted f t (sampled : bool) i c command solution measurement op : component c -> fill_posterior_solution f t sampled i c command solution measurement = Ok op ->
  fitted f t op true false sampled false (if sampled then f_state_sample_size f else 0).
Proof.
  intros Hc H. unfold fill_posterior_solution, fill_primary_keys, add_sample_information, solve_once, solve_files in H. rewrite (storage_index c Hc) in H. destruct sampled; open_binds; destruct Hc as [-> | [-> | ->]]; settle.
Qed.
Lemma prior_fitted f t (sampled : bool) i c command solution op : component c -> fill_prior_solution f t sampled i c command solution = Ok op ->
  fitted f t op true false false sampled (if sampled then f_state_sample_size f else 0).
Proof.
  intros Hc H. unfold fill_prior_solution, fill_primary_keys, add_prior_sample_information, solve_once in H. rewrite (storage_index c Hc) in H. destruct sampled; open_binds.
  - match goal with E : (if ?b then _ else _) = Ok _ |- _ => destruct b end; open_binds; destruct Hc as [-> | [-> | ->]]; settle.
  - destruct Hc as [-> | [-> | ->]]; settle.
Qed.
Lemma gridding_fitted f t i op : fill_output_gridding f t i = Ok op -> fitted f t op false false false false OUTPUT_SAMPLE_SIZE.
Proof.
  intros H. unfold fill_output_gridding, fill_primary_keys in H. rewrite storages_names in H. cbn [map foldM] in H. unfold gridding_read in H. open_binds. settle.
Qed.
Lemma batch_gridding_fitted f t i out op : local_apart f -> fill_batch_output_gridding f t i out = Ok op -> fitted f t op false false false false OUTPUT_SAMPLE_SIZE.
Proof.
  intros (L0 & L1) H. unfold fill_batch_output_gridding, fill_primary_keys in H. rewrite storages_names in H. cbn [map foldM] in H. unfold batch_gridding_read in H.
  change (solution_name f 0) with (f_solution_climatology f) in H. change (solution_name f 1) with (f_solution_large_scale f) in H. change (solution_name f 2) with (f_solution_local_scale f) in H.
  rewrite (proj2 (String.eqb_neq _ _) L0), (proj2 (String.eqb_neq _ _) L1), String.eqb_refl in H. open_binds. settle.
Qed.

(* ---------- all operations *)

Definition undated (e : option string * json) : Prop := exists n, e = (Some n, JList [JStr (n ++ "/"); JStr (n ++ ".pickle")]).
Definition dated (fn : string) (e : option string * json) : Prop :=
  exists n fmt, e = (Some n, JList [JStr (n ++ "/%Y/"); JStr (n ++ (if String.eqb fn PROCESS_INPUTS_BATCH then "_%Y%m." else "_%Y%m%d.") ++ fmt)]).
Definition op_ok (f : filler) (loaded : string -> json) (op : json) : Prop :=
  exists t fn once kept sampled prior size, t = loaded fn /\ fitted f t op once kept sampled prior size /\ fn_of op = Some fn /\
  (fn = SOLVE -> once = true) /\ (once = true -> fn = SOLVE) /\ (In fn [PROCESS_INPUTS; PROCESS_INPUTS_BATCH] -> kept = true) /\
  (sampled = true -> exists k, component k /\ target k Sample op <> None) /\ (sampled = false -> forall k, component k -> target k Sample op = None) /\
  (prior = true -> exists k, component k /\ target k PriorSample op <> None) /\ (prior = false -> forall k, component k -> target k PriorSample op = None) /\
  (In fn [OUTPUT_GRID; OUTPUT_GRID_BATCH] \/ size = if sampled || prior then f_state_sample_size f else 0) /\
  (once = true -> Forall undated (declared_patterns op)) /\ (once = false -> Forall (dated fn) (declared_patterns op)) /\
  In fn [PROCESS_INPUTS; PROCESS_INPUTS_BATCH; SOLVE; OUTPUT_GRID; OUTPUT_GRID_BATCH].

Definition samples_ok (op : json) (sampled prior : bool) : Prop :=
  (sampled = true -> exists k, component k /\ target k Sample op <> None) /\ (sampled = false -> forall k, component k -> target k Sample op = None) /\
  (prior = true -> exists k, component k /\ target k PriorSample op <> None) /\ (prior = false -> forall k, component k -> target k PriorSample op = None).
Lemma samples_ok_of t op fn c R W D src tgt (sampled prior : bool) : outlines t op fn c R W D src tgt ->
  (if sampled then exists k, component k /\ tgt k Sample <> None else forall k, component k -> tgt k Sample = None) ->
  (if prior then exists k, component k /\ tgt k PriorSample <> None else forall k, component k -> tgt k PriorSample = None) -> samples_ok op sampled prior.
Proof.
  intros O HS HP. split; [|split; [|split]]; intros ->.
  - destruct HS as (k & Ck & N). exists k. split; [exact Ck|]. now rewrite (o_target _ _ _ _ _ _ _ _ _ O k Sample Ck).
  - intros k Ck. rewrite (o_target _ _ _ _ _ _ _ _ _ O k Sample Ck). now apply HS.
  - destruct HP as (k & Ck & N). exists k. split; [exact Ck|]. now rewrite (o_target _ _ _ _ _ _ _ _ _ O k PriorSample Ck).
  - intros k Ck. rewrite (o_target _ _ _ _ _ _ _ _ _ O k PriorSample Ck). now apply HP.
Qed.
Lemma op_ok_of f loaded t op fn c R W D src tgt once kept sampled prior size : outlines t op fn c R W D src tgt -> t = loaded fn -> fitted f t op once kept sampled prior size ->
  (fn = SOLVE -> once = true) -> (once = true -> fn = SOLVE) -> (In fn [PROCESS_INPUTS; PROCESS_INPUTS_BATCH] -> kept = true) ->
  (if sampled then exists k, component k /\ tgt k Sample <> None else forall k, component k -> tgt k Sample = None) ->
  (if prior then exists k, component k /\ tgt k PriorSample <> None else forall k, component k -> tgt k PriorSample = None) ->
  (In fn [OUTPUT_GRID; OUTPUT_GRID_BATCH] \/ size = if sampled || prior then f_state_sample_size f else 0) ->
  Forall (if once then undated else dated fn) D -> In fn [PROCESS_INPUTS; PROCESS_INPUTS_BATCH; SOLVE; OUTPUT_GRID; OUTPUT_GRID_BATCH] -> op_ok f loaded op.
Proof.
  intros O It F H1 H2 H3 HS HP H4 HD HF. destruct (samples_ok_of _ _ _ _ _ _ _ _ _ sampled prior O HS HP) as (S1 & S2 & S3 & S4). exists t, fn, once, kept, sampled, prior, size.
  repeat match goal with |- _ /\ _ => split end; try assumption; [exact (o_function _ _ _ _ _ _ _ _ _ O)| |]; intros ->; rewrite (announces_patterns _ _ (o_announces _ _ _ _ _ _ _ _ _ O)); exact HD.
Qed.

Ltac not_solve := let X := fresh in intros X; discriminate X.
Ltac kinds := unfold announced, announced_sample, announced_outputs; cbn [map outputs]; repeat (apply Forall_cons || apply Forall_nil);
  first [ eexists; reflexivity | (eexists _, _; reflexivity) ].
Lemma process_listed : ~ In SOLVE [PROCESS_INPUTS; PROCESS_INPUTS_BATCH].
Proof. intros [X|[X|[]]]; discriminate X. Qed.

Section Kinds.
  Variables (f : filler) (loaded : string -> json) (t : json) (i : Z).
  Hypotheses (S : settled f) (B : blank t) (Hi : 0 <= i).

  Lemma measurement_ok c command dataset op : t = loaded PROCESS_INPUTS -> component c -> fill_single_measurement f t i c command dataset = Ok op -> op_ok f loaded op.
  Proof.
    intros It Hc H. refine (op_ok_of _ _ _ _ _ _ _ _ _ _ _ _ _ _ _ _ (measurement_outline _ _ _ _ _ _ _ S B Hi Hc H) It (measurement_fitted _ _ _ _ _ _ _ Hi Hc H) _ _ _ _ _ _ _ _);
      [not_solve|not_solve|reflexivity|reflexivity|reflexivity|now right|kinds|cbn [In]; tauto].
  Qed.
  Lemma batch_measurement_ok c command dataset op : t = loaded PROCESS_INPUTS_BATCH -> component c -> fill_batch_measurement f t i c command dataset = Ok op -> op_ok f loaded op.
  Proof.
    intros It Hc H. refine (op_ok_of _ _ _ _ _ _ _ _ _ _ _ _ _ _ _ _ (batch_measurement_outline _ _ _ _ _ _ _ S B Hi Hc H) It (batch_measurement_fitted _ _ _ _ _ _ _ Hi Hc H) _ _ _ _ _ _ _ _);
      [not_solve|not_solve|reflexivity|reflexivity|reflexivity|now right|kinds|cbn [In]; tauto].
  Qed.
  Lemma stored_sample (sampled : bool) c name (w : kind) : component c -> In w [Sample; PriorSample] ->
    (if sampled then exists k, component k /\ stored sampled c name i k w <> None else forall k, component k -> stored sampled c name i k w = None).
  Proof.
    intros Hc Iw. destruct sampled.
    - exists c. split; [exact Hc|]. destruct Iw as [<-|[<-|[]]]; cbn [stored]; rewrite Z.eqb_refl; discriminate.
    - intros k _. destruct Iw as [<-|[<-|[]]]; cbn [stored]; now rewrite andb_false_r.
  Qed.
  Lemma local_ok (sampled : bool) op : t = loaded PROCESS_INPUTS -> fill_single_operation_space f t sampled i 2 = Ok op -> op_ok f loaded op.
  Proof.
    intros It H. assert (Hc : component 2) by (right; now right). refine (op_ok_of _ _ _ _ _ _ _ _ _ _ _ _ _ _ _ _ (local_outline _ _ _ _ _ S B Hi H) It (space_fitted _ _ _ _ _ _ Hi Hc H) _ _ _ _ _ _ _ _);
      [not_solve|not_solve|reflexivity|apply stored_sample; [exact Hc|now left]|apply stored_sample; [exact Hc|right; now left]|right; now destruct sampled|destruct sampled; kinds|cbn [In]; tauto].
  Qed.
  Lemma solution_ok (sampled : bool) c command solution measurement op : t = loaded SOLVE -> component c -> fill_single_solution f t sampled i c command solution measurement = Ok op -> op_ok f loaded op.
  Proof.
    intros It Hc H. refine (op_ok_of _ _ _ _ _ _ _ _ _ _ _ _ _ _ _ _ (solution_outline _ _ _ _ _ _ _ _ _ S B Hi Hc H) It (solution_fitted _ _ _ _ _ _ _ _ _ Hc H) _ _ _ _ _ _ _ _);
      [reflexivity|reflexivity|intros X; now apply process_listed in X|apply stored_sample; [exact Hc|now left]|apply stored_sample; [exact Hc|right; now left]|right; now destruct sampled|destruct sampled; kinds|cbn [In]; tauto].
  Qed.
  Lemma posterior_ok (sampled : bool) c command solution measurement op : t = loaded SOLVE -> component c -> fill_posterior_solution f t sampled i c command solution measurement = Ok op -> op_ok f loaded op.
  Proof.
    intros It Hc H. refine (op_ok_of _ _ _ _ _ _ _ _ _ _ _ _ _ _ _ _ (posterior_outline _ _ _ _ _ _ _ _ _ S B Hi Hc H) It (posterior_fitted _ _ _ _ _ _ _ _ _ Hc H) _ _ _ _ _ _ _ _);
      [reflexivity|reflexivity|intros X; now apply process_listed in X|apply (stored_sample sampled c solution Sample); [exact Hc|now left]|reflexivity|right; now destruct sampled|destruct sampled; kinds|cbn [In]; tauto].
  Qed.
  Lemma prior_ok c command solution op : t = loaded SOLVE -> component c -> fill_prior_solution f t true i c command solution = Ok op -> op_ok f loaded op.
  Proof.
    intros It Hc H. refine (op_ok_of _ _ _ _ _ _ _ _ _ _ _ _ _ _ _ _ (prior_outline _ _ _ _ _ _ _ S B Hi Hc H) It (prior_fitted _ _ _ _ _ _ _ _ Hc H) _ _ _ _ _ _ _ _);
      [reflexivity|reflexivity|intros X; now apply process_listed in X|reflexivity|exists c; split; [exact Hc|cbn [only]; rewrite Z.eqb_refl; discriminate]|now right|kinds|cbn [In]; tauto].
  Qed.
End Kinds.
Lemma gridding_ok f loaded t i op : settled f -> blank t -> grid_inputs t -> t = loaded OUTPUT_GRID -> fill_output_gridding f t i = Ok op -> op_ok f loaded op.
Proof.
  intros S B G It H. refine (op_ok_of _ _ _ _ _ _ _ _ _ _ _ _ _ _ _ _ (gridding_outline _ _ _ _ S B G H) It (gridding_fitted _ _ _ _ H) _ _ _ _ _ _ _ _);
    [not_solve|not_solve|intros [X|[X|[]]]; discriminate X|reflexivity|reflexivity|left; now left|kinds|cbn [In]; tauto].
Qed.
Lemma batch_gridding_ok f loaded t i out op : settled f -> blank t -> local_apart f -> t = loaded OUTPUT_GRID_BATCH -> fill_batch_output_gridding f t i out = Ok op -> op_ok f loaded op.
Proof.
  intros S B L It H. refine (op_ok_of _ _ _ _ _ _ _ _ _ _ _ _ _ _ _ _ (batch_gridding_outline _ _ _ _ _ S B (proj1 L) (proj2 L) H) It (batch_gridding_fitted _ _ _ _ _ L H) _ _ _ _ _ _ _ _);
    [not_solve|not_solve|intros [X|[X|[]]]; discriminate X|reflexivity|reflexivity|left; right; now left|kinds|cbn [In]; tauto].
Qed.

Lemma single_ok f loaded t sampled i ops : settled f -> blank t -> 0 <= i -> t = loaded PROCESS_INPUTS -> t = loaded SOLVE -> single_iteration f t sampled i = Ok ops -> Forall (op_ok f loaded) ops.
Proof.
  intros S B Hi It It' H. unfold single_iteration in H. apply bind_ok in H. destruct H as (a & E & H). apply bind_ok in H. destruct H as (b & E0 & H). apply bind_ok in H. destruct H as (c & E1 & H).
  apply bind_ok in H. destruct H as (d & E2 & H). apply bind_ok in H. destruct H as (e & E3 & [= <-]). repeat (apply Forall_cons || apply Forall_nil).
  - exact (measurement_ok f loaded t i S B Hi 0 _ _ _ It component_0 E).
  - exact (solution_ok f loaded t i S B Hi _ 0 _ _ _ _ It' component_0 E0).
  - exact (measurement_ok f loaded t i S B Hi 1 _ _ _ It component_1 E1).
  - exact (solution_ok f loaded t i S B Hi _ 1 _ _ _ _ It' component_1 E2).
  - exact (local_ok f loaded t i S B Hi _ _ It E3).
Qed.
Lemma batch_ok f loaded t tb sampled i ops : settled f -> blank t -> blank tb -> 0 <= i -> t = loaded PROCESS_INPUTS -> t = loaded SOLVE -> tb = loaded PROCESS_INPUTS_BATCH -> batch_iteration f t tb sampled i = Ok ops -> Forall (op_ok f loaded) ops.
Proof.
  intros S B BB Hi I1 I2 I3 H. unfold batch_iteration in H.
  apply bind_ok in H. destruct H as (a & Ha & H). apply bind_ok in H. destruct H as (b & Hb & H). apply bind_ok in H. destruct H as (pc & Hpc & H).
  apply bind_ok in H. destruct H as (c & Hc & H). apply bind_ok in H. destruct H as (d & Hd & H). apply bind_ok in H. destruct H as (pl & Hpl & H).
  apply bind_ok in H. destruct H as (e & He & [= <-]).
  constructor; [exact (batch_measurement_ok f loaded tb i S BB Hi 0 _ _ _ I3 component_0 Ha)|]. constructor; [exact (posterior_ok f loaded t i S B Hi _ 0 _ _ _ _ I2 component_0 Hb)|].
  apply Forall_app. split.
  { destruct (sampled i) eqn:E; [|injection Hpc as <-; constructor]. apply bind_ok in Hpc. destruct Hpc as (p & Hp & [= <-]). repeat constructor. exact (prior_ok f loaded t i S B Hi 0 _ _ _ I2 component_0 Hp). }
  constructor; [exact (batch_measurement_ok f loaded tb i S BB Hi 1 _ _ _ I3 component_1 Hc)|]. constructor; [exact (posterior_ok f loaded t i S B Hi _ 1 _ _ _ _ I2 component_1 Hd)|].
  apply Forall_app. split.
  { destruct (sampled i) eqn:E; [|injection Hpl as <-; constructor]. apply bind_ok in Hpl. destruct Hpl as (p & Hp & [= <-]). repeat constructor. exact (prior_ok f loaded t i S B Hi 1 _ _ _ I2 component_1 Hp). }
  repeat constructor. exact (local_ok f loaded t i S B Hi _ _ I1 He).
Qed.
Lemma mapM_ok {A} (P : A -> Prop) (Q : json -> Prop) g l its : (forall i ops, P i -> g i = Ok ops -> Forall Q ops) -> Forall P l -> mapM g l = Ok its -> Forall Q (concat its).
Proof.
  intros HG F. revert its. induction F as [|i l Pi F IH]; intros its H; cbn [mapM] in H; [injection H as <-; constructor|].
  apply bind_ok in H. destruct H as (o & Ho & H). apply bind_ok in H. destruct H as (os & Hos & [= <-]). cbn [concat]. apply Forall_app. split; [now apply (HG i)|now apply IH].
Qed.
(* The template that an operation is made from. *)
Definition template (a b c : json) (fn : string) : json :=
  if String.eqb fn OUTPUT_GRID then c else if String.eqb fn PROCESS_INPUTS_BATCH || String.eqb fn OUTPUT_GRID_BATCH then b else a.
Lemma filled_ok f d : ready f -> filled f d -> exists a b c, load_templates f = Ok (a, b, c) /\ Forall (op_ok f (template a b c)) (operations d).
Proof.
  intros R [n d' Hn H|n d' L Hn H|last grid d' L Hl H].
  - unfold fill_descriptor in H. apply bind_ok in H. destruct H as ([[a b] c] & Hl & H). exists a, b, c. split; [exact Hl|]. destruct (load_ready _ _ _ _ R Hl) as (S & Ba & Bb & Bc & Gc & _).
    destruct (n =? 0); [discriminate|]. apply bind_ok in H. destruct H as (its & Hi & H). apply bind_ok in H. destruct H as (g & Hg & [= <-]). rewrite catalogue_operations. apply Forall_app. split.
    + apply (mapM_ok (fun i => 0 <= i) _ (single_iteration f a (fun i => i =? n - 1)) (zrange 0 n)); [|apply zrange_nonneg; lia|exact Hi]. intros i ops Hp Ho. exact (single_ok f (template a b c) a _ i ops S Ba Hp eq_refl eq_refl Ho).
    + repeat constructor. apply (gridding_ok f (template a b c) c (n - 1) g S Bc Gc); [reflexivity|exact Hg].
  - unfold fill_batch_descriptor in H. apply bind_ok in H. destruct H as ([[a b] c] & Hl & H). exists a, b, c. split; [exact Hl|]. destruct (load_ready _ _ _ _ R Hl) as (S & Ba & Bb & Bc & Gc & _).
    destruct (n =? 0); [discriminate|]. apply bind_ok in H. destruct H as (its & Hi & H). apply bind_ok in H. destruct H as (g & Hg & [= <-]). rewrite catalogue_operations. apply Forall_app. split.
    + apply (mapM_ok (fun i => 0 <= i) _ (batch_iteration f a b (fun i => i =? n - 1)) (zrange 0 n)); [|apply zrange_nonneg; lia|exact Hi]. intros i ops Hp Ho. exact (batch_ok f (template a b c) a b _ i ops S Ba Bb Hp eq_refl eq_refl eq_refl Ho).
    + repeat constructor. apply (batch_gridding_ok f (template a b c) b (n - 1) (fun s => s) g S Bb L); [reflexivity|exact Hg].
  - rewrite range_unfold in H. apply bind_ok in H. destruct H as ([[a b] c] & Hl' & H). exists a, b, c. split; [exact Hl'|]. destruct (load_ready _ _ _ _ R Hl') as (S & Ba & Bb & Bc & Gc & _).
    destruct (last - 0 + 1 =? 0); [discriminate|]. apply bind_ok in H. destruct H as (its & Hi & [= <-]). rewrite catalogue_operations.
    apply (mapM_ok (fun i => 0 <= i) _ (range_step f a b last grid) (zrange 0 (last + 1))); [|apply zrange_nonneg; lia|exact Hi]. intros i ops Hp Ho. unfold range_step in Ho. apply bind_ok in Ho. destruct Ho as (os & Ho & Hg).
    pose proof (batch_ok f (template a b c) a b _ i os S Ba Bb Hp eq_refl eq_refl eq_refl Ho) as X. destruct ((i =? last) && grid); [|injection Hg as <-; exact X].
    apply bind_ok in Hg. destruct Hg as (g & Hg & [= <-]). apply Forall_app. split; [exact X|]. repeat constructor. apply (batch_gridding_ok f (template a b c) b i (fun s => numbered s i) g S Bb L); [reflexivity|exact Hg].
Qed.
