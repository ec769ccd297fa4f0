(* Properties of the descriptor of diagnostic operations: C177. *)
From Coq Require Import String Ascii ZifyBool.
From Verif Require Cat_Proofs.
From Verif Require Import Base Grid_Model NcObj_Model Fill_Model Fill_Spec Fill_Proofs Fill_Chain Fill_Total Fill_Templates Fill_Props Diagop_Model Diagop_Spec Diagop_Proofs.
Open Scope string_scope.
Open Scope list_scope.
Open Scope Z_scope.

Lemma mapM_pairs {A B} (g : A -> result B) l out : mapM g l = Ok out -> Forall2 (fun x y => g x = Ok y) l out.
Proof.
  revert out. induction l as [|x l IH]; intros out H; cbn [mapM] in H; [injection H as <-; constructor|].
  apply bind_ok in H. destruct H as (y & Hy & H). apply bind_ok in H. destruct H as (ys & Hs & [= <-]). constructor; auto.
Qed.
Lemma Forall2_nth {A B} (R : A -> B -> Prop) l m i x : Forall2 R l m -> nth_error l i = Some x -> exists y, nth_error m i = Some y /\ R x y.
Proof. intros F. revert i. induction F as [|a b l m Rab F IH]; intros [|i] H; try discriminate; cbn in *; [injection H as <-; eauto|now apply IH]. Qed.
Lemma Forall2_In_r {A B} (R : A -> B -> Prop) l m y : Forall2 R l m -> In y m -> exists x, In x l /\ R x y.
Proof. induction 1 as [|a b l m Rab F IH]; intros []; [subst; exists a; split; [now left|exact Rab]|]. destruct (IH H) as (x & I & Rx). exists x. split; [now right|exact Rx]. Qed.
Lemma Forall2_len {A B} (R : A -> B -> Prop) l m : Forall2 R l m -> List.length l = List.length m.
Proof. induction 1; cbn [List.length]; congruence. Qed.
Lemma NoDup_map_on {A B} (g : A -> B) l : (forall x y, In x l -> In y l -> g x = g y -> x = y) -> NoDup l -> NoDup (map g l).
Proof.
  intros J N. induction N as [|x l NI N IH]; [constructor|]. cbn [map]. constructor.
  - intros I. apply in_map_iff in I. destruct I as (y & E & I). apply NI. rewrite <- (J y x (or_intror I) (or_introl eq_refl) E). exact I.
  - apply IH. intros a b Ia Ib. apply J; now right.
Qed.
Lemma range_at n i : 0 <= i < n -> nth_error (zrange 0 n) (Z.to_nat i) = Some i.
Proof. intros H. rewrite Cat_Proofs.zrange_nth by lia. f_equal. lia. Qed.
Lemma diagnostic_extracts f n e : ready f -> large_apart f -> fill_diagnostic_descriptor f n = Ok e ->
  exists t, (forall d, reads t d -> given f d) /\
  Forall2 (fun i op => extracts f n t op i 1 "store_station_biases" "station_biases") (zrange 0 n) (operations e).
Proof.
  intros R A H. unfold fill_diagnostic_descriptor in H. apply bind_ok in H. destruct H as ([[a b] c] & Hl & H). destruct (load_ready _ _ _ _ R Hl) as (S & Ba & _ & _ & _ & Ra & _).
  destruct (n =? 0); [discriminate|]. apply bind_ok in H. destruct H as (ops & Ho & [= <-]). exists a. split; [exact Ra|].
  change (operations (catalogue_of ops)) with ops. apply mapM_pairs in Ho. clear - Ho S Ba A. induction Ho as [|i op l m X F IH]; constructor; [now apply extract_extracts|exact IH].
Qed.

(* ------------------------------------------------------------------ C177 *)

(* There is one operation for every iteration, in order. It is done once, extracts the biases of the large scale component from the
   solution of its own iteration, with the samples after the last one, and writes the biases of this iteration only. *)
Theorem C177_operations f n e : ready f -> f_solution_climatology f <> f_solution_large_scale f -> f_solution_local_scale f <> f_solution_large_scale f -> 0 <= n ->
  fill_diagnostic_descriptor f n = Ok e ->
  zlen (operations e) = n /\
  forall i, 0 <= i < n -> exists op, nth_error (operations e) (Z.to_nat i) = Some op /\
    calls op ["eustace.analysis.advanced_standard.examples.station_bias_model.extract_station_biases"] /\ once op /\
    get [K "runmodule"; K "component_index"] op = Ok (JNum 1) /\
    (forall d, In d (large_scale_sets f n i) -> reads op d) /\ (forall d, reads op d -> In d (large_scale_sets f n i) \/ given f d) /\
    (forall d, writes op d <-> d = biases_set i) /\ declared_patterns op = [(Some (biases_set i), JList (map JStr (biases_path i)))].
Proof.
  intros R A0 A2 Hn H. destruct (diagnostic_extracts f n e R (conj A0 A2) H) as (t & Kt & F). split.
  - unfold zlen. rewrite <- (Forall2_len _ _ _ F). change (zlen (zrange 0 n) = n). rewrite zlen_zrange by lia. lia.
  - intros i Hi. destruct (Forall2_nth _ _ _ (Z.to_nat i) i F) as (op & Ho & X).
    { apply range_at. lia. }
    exists op. split; [exact Ho|]. pose proof (x_outline _ _ _ _ _ _ _ _ X) as O. split; [|split; [|split; [|split; [|split; [|split]]]]].
    + eexists. split; [exact (o_function _ _ _ _ _ _ _ _ _ O)|]. now left.
    + exact (x_once _ _ _ _ _ _ _ _ X).
    + exact (o_component _ _ _ _ _ _ _ _ _ O 1 eq_refl).
    + exact (o_needs _ _ _ _ _ _ _ _ _ O).
    + intros d Rd. destruct (o_reads _ _ _ _ _ _ _ _ _ O d Rd); [right; auto|now left].
    + intros d. rewrite (o_writes _ _ _ _ _ _ _ _ _ O d). split; [intros [<-|[]]; reflexivity|intros ->; now left].
    + exact (announces_patterns _ _ (o_announces _ _ _ _ _ _ _ _ _ O)).
Qed.

(* What is left in the file: a descriptor with one operation for every iteration if it could be made, even if the check then fails; else
   what was there. *)
Theorem C177_file : forall f n check before after outcome, create_diagnostic_descriptor f n check before = (after, outcome) ->
  match fill_diagnostic_descriptor f n with
  | Ok e => after = Some e /\ (outcome = Ok tt <-> check = false \/ ~ holds_null e) /\ (outcome = Err ValueError <-> check = true /\ holds_null e) /\
      (ready f -> f_solution_climatology f <> f_solution_large_scale f -> f_solution_local_scale f <> f_solution_large_scale f -> 0 <= n -> zlen (operations e) = n)
  | Err x => after = before /\ outcome = Err x
  end.
Proof.
  intros f n check before after outcome H. unfold create_diagnostic_descriptor, create_from in H. destruct (fill_diagnostic_descriptor f n) as [e|x] eqn:F; injection H as <- <-; [|split; reflexivity].
  split; [reflexivity|]. rewrite <- and_assoc. split; [|intros R A0 A2 N; exact (proj1 (C177_operations f n e R A0 A2 N F))]. destruct check.
  - destruct (C102_check e) as [C1 C2]. split; [rewrite C1|rewrite C2]; split; intros X; try tauto. destruct X as [X|X]; [discriminate X|exact X].
  - split; split; intros X; try reflexivity; try discriminate X; try (now left). now destruct X.
Qed.
Print Assumptions C177_file.

(* The settings of an operation: bias terms as in the analysis, years of the period, no input of observations. *)
Theorem C177_settings f n e op : ready f -> f_solution_climatology f <> f_solution_large_scale f -> f_solution_local_scale f <> f_solution_large_scale f ->
  fill_diagnostic_descriptor f n = Ok e -> In op (operations e) ->
  get [K "runmodule"; K "insitu_biases"] op = Ok (f_land_biases f) /\ get [K "runmodule"; K "global_biases"] op = Ok (f_global_biases f) /\
  (String.length (f_start_date f) = 8%nat -> text_at [K "runmodule"; K "first_year"] op = Some (substring 0 4 (f_start_date f))) /\
  (String.length (f_end_date f) = 8%nat -> text_at [K "runmodule"; K "last_year"] op = Some (substring 0 4 (f_end_date f))) /\
  get [K "runmodule"; K "inputsources"] op = Err KeyError /\ (exists d, text_at [K "runmodule"; K "outputfile"; K "datasetname"] op = Some d /\ writes op d) /\
  get [K "runmodule"; K "method"] op = Ok (JStr "EXACT") /\ get [K "runmodule"; K "sample_size"] op = Ok (JNum 30) /\
  forall k, In k ["compute_uncertainties"; "compute_sample"; "compute_prior_sample"] -> get [K "runmodule"; K k] op = Ok (JNum 0).
Proof.
  intros R A0 A2 H I. destruct (diagnostic_extracts f n e R (conj A0 A2) H) as (t & Kt & F). destruct (Forall2_In_r _ _ _ op F I) as (i & _ & X).
  assert (SUB : forall s, String.length s = 8%nat -> substring 0 4 (s ++ "000000") = substring 0 4 s).
  { intros s L. do 4 (destruct s as [|? s]; [discriminate L|]). cbn [append substring]. destruct s; reflexivity. }
  split; [exact (x_land _ _ _ _ _ _ _ _ X)|]. split; [exact (x_global _ _ _ _ _ _ _ _ X)|]. split; [|split; [|split; [|split]]].
  - intros L. unfold text_at. rewrite (x_first _ _ _ _ _ _ _ _ X). now rewrite SUB.
  - intros L. unfold text_at. rewrite (x_last _ _ _ _ _ _ _ _ X). now rewrite SUB.
  - apply (x_gone _ _ _ _ _ _ _ _ X). now left.
  - exists (numbered "station_biases" i). split.
    + apply (text_of_get [K "runmodule"; K "outputfile"] op OUTPUT_FILE). exact (x_output _ _ _ _ _ _ _ _ X).
    + apply (o_writes _ _ _ _ _ _ _ _ _ (x_outline _ _ _ _ _ _ _ _ X)). now left.
  - split; [apply (x_fixed _ _ _ _ _ _ _ _ X); cbn; tauto|]. split; [apply (x_fixed _ _ _ _ _ _ _ _ X); cbn; tauto|].
    intros k [<-|[<-|[<-|[]]]]; apply (x_fixed _ _ _ _ _ _ _ _ X); cbn; tauto.
Qed.

(* Run after the analysis of as many iterations, every operation finds what it reads: it is made by an operation of the analysis. *)
Lemma analysis_makes f n d i s : ready f -> 1 <= n -> fill_descriptor f n = Ok d \/ (local_apart f /\ fill_batch_descriptor f n = Ok d) -> 0 <= i < n ->
  In s (large_scale_sets f n i) -> In s (flat_map declared (operations d)).
Proof.
  intros R Hn H Hi I.
  assert (G : forall sk fn, iterates f sk -> In s (flat_map names (whole sk fn f (fun s => s) n))).
  { intros sk fn IT. unfold whole. rewrite flat_map_app. apply in_app_iff. left. rewrite (run_names f) by exact IT. apply in_flat_map. exists i. split; [apply zrange_In; lia|].
    unfold large_scale_sets in I. destruct I as [<-|I].
    - apply (in_map (fun n => numbered n i)). exact (solution_listed f (i =? n - 1) 1 component_1).
    - destruct (i =? n - 1) eqn:Q; [|destruct I]. destruct I as [<-|[<-|[]]]; [apply (in_map (fun n => numbered n i) _ (sample_of (f_solution_large_scale f)))|apply (in_map (fun n => numbered n i) _ (prior_sample_of (f_solution_large_scale f)))];
        cbn; tauto. }
  destruct H as [H|[L H]].
  - rewrite (drawn_all_declared _ _ _ (descriptor_drawn f n d R H)). apply G. apply single_iterates.
  - rewrite (drawn_all_declared _ _ _ (batch_descriptor_drawn f n d R L H)). apply G. apply batch_iterates.
Qed.
Theorem C177_order f n d e : ready f -> f_solution_climatology f <> f_solution_large_scale f -> f_solution_local_scale f <> f_solution_large_scale f -> 1 <= n ->
  fill_descriptor f n = Ok d \/ (local_apart f /\ fill_batch_descriptor f n = Ok d) -> fill_diagnostic_descriptor f n = Ok e ->
  well_ordered (given f) (operations d ++ operations e).
Proof.
  intros R A0 A2 Hn H He before op after s E Rd. destruct (diagnostic_extracts f n e R (conj A0 A2) He) as (t & Kt & F).
  assert (W : well_ordered (given f) (operations d)).
  { apply (C58_order f d R). destruct H as [H|[L H]]; [exact (by_days f n d Hn H)|exact (by_batches f n d L Hn H)]. }
  assert (C : (exists a2, operations d = before ++ op :: a2) \/ (exists b2, before = operations d ++ b2 /\ In op (operations e))).
  { clear - E. revert before E. induction (operations d) as [|x l IH]; intros before E.
    - right. exists before. split; [reflexivity|]. cbn in E. rewrite E. apply in_app_iff. right. now left.
    - destruct before as [|y before]; [left; injection E as -> _; now exists l|]. injection E as -> E. destruct (IH before E) as [(a2 & ->)|(b2 & -> & I)]; [left; now exists a2|right; now exists b2]. }
  destruct C as [(a2 & E2)|(b2 & -> & I)]; [exact (W before op a2 s E2 Rd)|].
  destruct (Forall2_In_r _ _ _ op F I) as (i & Ii & X). apply zrange_In in Ii. destruct (o_reads _ _ _ _ _ _ _ _ _ (x_outline _ _ _ _ _ _ _ _ X) s Rd) as [Rt|Il]; [left; auto|right].
  rewrite flat_map_app. apply in_app_iff. left. exact (analysis_makes f n d i s R Hn H ltac:(lia) Il).
Qed.
(* The last operation reads the final state of the large scale component, and its samples. *)
Theorem C177_final f n d e op : ready f -> f_solution_climatology f <> f_solution_large_scale f -> f_solution_local_scale f <> f_solution_large_scale f -> 1 <= n ->
  fill_descriptor f n = Ok d \/ (local_apart f /\ fill_batch_descriptor f n = Ok d) -> fill_diagnostic_descriptor f n = Ok e ->
  nth_error (operations e) (Z.to_nat (n - 1)) = Some op -> source 1 State op = latest 1 State (operations d) /\ (exists s, source 1 Sample op = Some s) /\ exists s, source 1 PriorSample op = Some s.
Proof.
  intros R A0 A2 Hn H He Ho. destruct (diagnostic_extracts f n e R (conj A0 A2) He) as (t & Kt & F).
  destruct (Forall2_nth _ _ _ (Z.to_nat (n - 1)) (n - 1) F) as (op' & Ho' & X).
  { apply range_at. lia. }
  rewrite Ho in Ho'. injection Ho' as <-. pose proof (o_source _ _ _ _ _ _ _ _ _ (x_outline _ _ _ _ _ _ _ _ X)) as O.
  rewrite (C58_final f n d 1 R Hn ltac:(lia) H). rewrite !O by apply component_1. cbn [Z.eqb Pos.eqb]. rewrite Z.eqb_refl. cbn [when]. split; [reflexivity|]. split; eauto.
Qed.
(* No data set is declared twice by the analysis and the diagnostics together. *)
Theorem C177_distinct f n d e : ready f -> distinct_names f -> 1 <= n -> ~ In "station_biases" (bases f) -> (forall o i, In o (outputs f) -> 0 <= i -> o <> biases_set i) ->
  fill_descriptor f n = Ok d \/ (local_apart f /\ fill_batch_descriptor f n = Ok d) -> fill_diagnostic_descriptor f n = Ok e ->
  NoDup (flat_map declared (operations d ++ operations e)).
Proof.
  intros R N Hn NB NO H He. pose proof (C58_distinct f n d R N H) as N1.
  assert (A : large_apart f).
  { destruct N as (N & _ & _). unfold bases, solutions in N. cbn [app map] in N. split; intros X; [|symmetry in X].
    - inversion N as [|? ? _ N2]; subst. inversion N2 as [|? ? _ N3]; subst. inversion N3 as [|? ? Q _]; subst. apply Q. rewrite X. now left.
    - inversion N as [|? ? _ N2]; subst. inversion N2 as [|? ? _ N3]; subst. inversion N3 as [|? ? _ N4]; subst. inversion N4 as [|? ? Q _]; subst. apply Q. rewrite X. now left. }
  destruct (diagnostic_extracts f n e R A He) as (t & Kt & F).
  assert (D : flat_map declared (operations e) = map biases_set (zrange 0 n)).
  { clear - F. induction F as [|i op l m X F IH]; [reflexivity|]. cbn [flat_map map]. rewrite IH, (announces_declared _ _ (o_announces _ _ _ _ _ _ _ _ _ (x_outline _ _ _ _ _ _ _ _ X))). reflexivity. }
  rewrite flat_map_app, D. apply NoDup_join; [exact N1| |].
  - apply NoDup_map_on; [|apply zrange_NoDup]. intros i j Ii Ij E. apply zrange_In in Ii, Ij. apply numbered_inj in E; [tauto|lia|lia].
  - intros s I J. apply in_map_iff in J. destruct J as (i & <- & Ii). apply zrange_In in Ii.
    assert (G : forall sk fn, iterates f sk -> ~ In (biases_set i) (flat_map names (whole sk fn f (fun s => s) n))).
    { intros sk fn IT X. unfold whole in X. rewrite flat_map_app in X. apply in_app_iff in X. destruct X as [X|X].
      - apply (run_names_In f) in X; [|exact IT|lia]. destruct X as (b & k & Ib & Ik & E). apply numbered_inj in E; [|lia|lia]. destruct E as [<- _]. contradiction.
      - exact (NO (biases_set i) i X ltac:(lia) eq_refl). }
    destruct H as [H|[L H]].
    + rewrite (drawn_all_declared _ _ _ (descriptor_drawn f n d R H)) in I. exact (G _ _ (single_iterates f) I).
    + rewrite (drawn_all_declared _ _ _ (batch_descriptor_drawn f n d R L H)) in I. exact (G _ _ (batch_iterates f) I).
Qed.

(* The descriptor is made whenever the templates can be filled; none for no iteration. *)
Lemma goes_step v : goes (ok []) (ok []) (put [K "step"] (of_class v)).
Proof.
  intros j [[(m & ->) F] (l & G & N)]. cbn [put put1]. eexists. split; [reflexivity|].
  assert (Hj : put [K "step"] (of_class v) (JDict m) = Ok (JDict (dset "step" (of_class v) m))) by reflexivity.
  split; [split; [eauto|]|].
  - intros q I. rewrite app_nil_r in I. specialize (F q ltac:(rewrite app_nil_r; exact I)). destruct (keeps [K "step"] q) eqn:E; [exact (has_dict_put _ _ _ _ _ Hj E F)|].
    cbn [In DICTS] in I. destruct I as [<-|[<-|[<-|[<-|[<-|[<-|[<-|[]]]]]]]]; try discriminate E. eexists. exact (get_put_same _ _ _ _ Hj).
  - exists l. split; [|exact N]. rewrite <- G. apply (get_put_diverge _ _ _ _ _ Hj). reflexivity.
Qed.
Definition held (j : json) : Prop := has_dict [K "runmodule"] j /\ has_dict [K "runmodule"; K "storage_large_scale"] j.
Definition naming (name : string) (j : json) : result json :=
  do d <- get [K "newdatasets"; First] j; do d <- put [K "name"] (JStr name) d;
  do d <- put [K "subsets"; First; K "layout"; K "patterns"] (JList [JStr name; JStr (name ++ ".pickle")%string]) d; put [K "newdatasets"; First] d j.
Lemma goes_naming name : goes (ok []) held (naming name).
Proof.
  intros j [F (l & G & N)].
  assert (D0 : has_dict [K "newdatasets"; First] j) by (apply (proj2 F); cbn; tauto).
  assert (D1 : has_dict [K "newdatasets"; First; K "subsets"; First; K "layout"] j) by (apply (proj2 F); cbn; tauto).
  assert (D2 : held j) by (split; apply (proj2 F); cbn; tauto).
  destruct (list_first l j G D0) as (d & ds & -> & GF). destruct D0 as (m & D0). rewrite GF in D0. injection D0 as ->. unfold naming. rewrite GF. cbn [bind].
  destruct (put_total [] "name" (JStr name) (JDict m) (ex_intro _ m eq_refl)) as (d1 & H1). cbn [app] in H1. rewrite H1. cbn [bind].
  assert (HD : has_dict [K "subsets"; First; K "layout"] (JDict m)).
  { destruct D1 as (q & D1). change [K "newdatasets"; First; K "subsets"; First; K "layout"] with ([K "newdatasets"; First] ++ [K "subsets"; First; K "layout"]) in D1. rewrite get_app, GF in D1. now exists q. }
  assert (HD1 : has_dict [K "subsets"; First; K "layout"] d1) by exact (has_dict_put _ _ _ _ [K "subsets"; First; K "layout"] H1 eq_refl HD).
  destruct (put_total [K "subsets"; First; K "layout"] "patterns" (JList [JStr name; JStr (name ++ ".pickle")%string]) d1 HD1) as (d2 & H2). cbn [app] in H2. rewrite H2. cbn [bind].
  destruct F as [(mj & ->) F]. cbn [get] in G. apply bind_ok in G. destruct G as (x & Gx & [= ->]).
  assert (Hj : put [K "newdatasets"; First] d2 (JDict mj) = Ok (JDict (dset "newdatasets" (JList (d2 :: ds)) mj))) by (rewrite put_cons by discriminate; rewrite Gx; reflexivity).
  eexists. split; [exact Hj|]. destruct D2 as [Da Db]. split; [exact (has_dict_put _ _ _ _ [K "runmodule"] Hj eq_refl Da)|exact (has_dict_put _ _ _ _ [K "runmodule"; K "storage_large_scale"] Hj eq_refl Db)].
Qed.
Lemma goes_large key v : goes held held (put [K "runmodule"; K "storage_large_scale"; K key] v).
Proof.
  intros j [Da Db]. destruct (put_total [K "runmodule"; K "storage_large_scale"] key v j Db) as (j' & H). cbn [app] in H. exists j'. split; [exact H|].
  split; [exact (has_dict_put _ _ _ _ [K "runmodule"] H eq_refl Da)|exact (has_dict_put _ _ _ _ [K "runmodule"; K "storage_large_scale"] H eq_refl Db)].
Qed.
Lemma goes_state_input f n i : large_apart f -> goes held held (fill_state_inputs f n i (Some [f_solution_large_scale f])).
Proof.
  intros A j Hj. rewrite state_inputs_large by exact A. unfold state_input. cbn [existsb]. rewrite String.eqb_refl. cbn [orb negb]. pose proof Hj as [_ (m & Gm)]. rewrite Gm. cbn [bind].
  rewrite (proj2 (String.eqb_neq (f_solution_large_scale f) (f_solution_local_scale f))) by (destruct A; congruence). cbn [negb].
  destruct (goes_large "statefilename_read" (reference INPUT_FILE (numbered (f_solution_large_scale f) i)) j Hj) as (j1 & H1 & O1). rewrite H1. cbn [bind].
  destruct (i =? n - 1); [|eauto].
  destruct (goes_large "sample_filename_read" (reference INPUT_FILE (numbered (sample_of (f_solution_large_scale f)) i)) j1 O1) as (j2 & H2 & O2). rewrite H2. cbn [bind].
  exact (goes_large _ _ j2 O2).
Qed.
Lemma goes_extract f n i c command dataset : large_apart f -> goes (new []) (fun _ => True) (fun t => fill_extract_station_biases f n t i c command dataset).
Proof.
  intros A. unfold fill_extract_station_biases. apply goes_bind with (ok []); [apply goes_first; reflexivity|].
  apply goes_bind with (ok []); [putting|]. apply goes_bind with (ok []); [apply goes_step|]. do 12 (apply goes_bind with (ok []); [putting|]).
  intros j Hj. destruct (goes_naming (numbered dataset i) j Hj) as (b & Hb & Bb). unfold naming in Hb.
  apply bind_ok in Hb. destruct Hb as (d1 & E1 & Hb). rewrite E1. cbn [bind]. apply bind_ok in Hb. destruct Hb as (d2 & E2 & Hb). rewrite E2. cbn [bind].
  apply bind_ok in Hb. destruct Hb as (d3 & E3 & Hb). rewrite E3. cbn [bind]. rewrite Hb. cbn [bind].
  destruct (goes_state_input f n i A b Bb) as (e & He & ((m & Ge) & _)). rewrite He. cbn [bind]. unfold remove_keys. rewrite Ge. cbn [bind].
  destruct e as [| | | |me]; try discriminate. eexists. split; [reflexivity|exact I].
Qed.
Theorem C177_total f n : ready f -> complete f -> f_solution_climatology f <> f_solution_large_scale f -> f_solution_local_scale f <> f_solution_large_scale f ->
  (n <> 0 -> exists e, fill_diagnostic_descriptor f n = Ok e) /\ fill_diagnostic_descriptor f 0 = Err ValueError.
Proof.
  intros R C A0 A2. destruct (load_total f R C) as (a & b & c & Hl & Na & _). unfold fill_diagnostic_descriptor. rewrite Hl. cbn [bind]. split; [|reflexivity]. intros Hn. replace (n =? 0) with false by lia.
  destruct (mapM_total (fun i => fill_extract_station_biases f n a i 1 "store_station_biases" "station_biases") (zrange 0 n)) as (ops & Ho).
  { intros i _. destruct (goes_extract f n i 1 "store_station_biases" "station_biases" (conj A0 A2) a Na) as (y & Hy & _). eauto. }
  rewrite Ho. cbn [bind]. eauto.
Qed.
(* A negative number of iterations is not refused: the descriptor has no operation. *)
Theorem C177_negative_refuted f n : ready f -> complete f -> n < 0 -> exists e, fill_diagnostic_descriptor f n = Ok e /\ operations e = [].
Proof.
  intros R C Hn. destruct (load_total f R C) as (a & b & c & Hl & _). unfold fill_diagnostic_descriptor. rewrite Hl. cbn [bind]. replace (n =? 0) with false by lia.
  rewrite zrange_empty by lia. cbn [mapM bind]. eexists. split; reflexivity.
Qed.

(* An analysis made as a range of iterations without final grids has no samples: the last diagnostic operation reads data sets that
   nothing makes. *)
Lemma ex_large dates a b c d : f_solution_climatology (settings dates a b c d) <> f_solution_large_scale (settings dates a b c d) /\ f_solution_local_scale (settings dates a b c d) <> f_solution_large_scale (settings dates a b c d).
Proof. split; discriminate. Qed.
Theorem C177_range_refuted : exists f d e op s, ready f /\ complete f /\ local_apart f /\ fill_batch_descriptor_range f 0 1 false = Ok d /\ fill_diagnostic_descriptor f 2 = Ok e /\
  In op (operations e) /\ reads op s /\ ~ given f s /\ ~ In s (flat_map declared (operations d ++ operations e)).
Proof.
  destruct (C100_total ex_filler 0 1 false (shipped_ready _ _ _ _ _) (shipped_complete _ _ _ _ _) ltac:(lia)) as (d & Hd).
  destruct (proj1 (C177_total ex_filler 2 (shipped_ready _ _ _ _ _) (shipped_complete _ _ _ _ _) ltac:(discriminate) ltac:(discriminate)) ltac:(lia)) as (e & He).
  destruct (proj2 (C177_operations ex_filler 2 e (shipped_ready _ _ _ _ _) ltac:(discriminate) ltac:(discriminate) ltac:(lia) He) 1 ltac:(lia)) as (op & Ho & _ & _ & _ & Rd & _).
  exists ex_filler, d, e, op, "solution_large_scale_sample_1". split; [apply shipped_ready|]. split; [apply shipped_complete|]. split; [apply ex_apart|]. split; [exact Hd|]. split; [exact He|].
  split; [exact (nth_error_In _ _ Ho)|]. split; [apply Rd; right; now left|]. split.
  - intros [G|[G|G]]; revert G; apply (no_refs_sound (String.eqb "solution_large_scale_sample_1")); try reflexivity; vm_compute; reflexivity.
  - assert (E : flat_map declared (operations d ++ operations e) = match fill_batch_descriptor_range ex_filler 0 1 false, fill_diagnostic_descriptor ex_filler 2 with Ok d, Ok e => flat_map declared (operations d ++ operations e) | _, _ => [] end) by now rewrite Hd, He.
    rewrite E. vm_compute. intros G. repeat (destruct G as [G|G]; [discriminate G|]). destruct G.
Qed.

Print Assumptions C177_operations.
Print Assumptions C177_settings.
Print Assumptions C177_order.
Print Assumptions C177_final.
Print Assumptions C177_distinct.
Print Assumptions C177_total.
Print Assumptions C177_negative_refuted.
Print Assumptions C177_range_refuted.

(* The shipped templates and names meet the hypotheses, with three iterations. *)
Example C177_nonvacuous : ready ex_filler /\ complete ex_filler /\ distinct_names ex_filler /\ ~ In "station_biases" (bases ex_filler) /\
  (forall o i, In o (outputs ex_filler) -> 0 <= i -> o <> biases_set i) /\
  exists d e, fill_batch_descriptor ex_filler 3 = Ok d /\ fill_diagnostic_descriptor ex_filler 3 = Ok e /\
  flat_map declared (operations e) = ["station_biases_0"; "station_biases_1"; "station_biases_2"] /\
  map (fun op => text_at [K "runmodule"; K "first_year"] op) (operations e) = [Some "2010"; Some "2010"; Some "2010"].
Proof.
  split; [apply shipped_ready|]. split; [apply shipped_complete|]. split; [exact ex_distinct|]. split; [|split].
  - vm_compute. intros G. repeat (destruct G as [G|G]; [discriminate G|]). destruct G.
  - intros o i Io _ E. unfold biases_set, numbered in E. cbn in Io. repeat (destruct Io as [<-|Io]; [discriminate E|]). destruct Io.
  - destruct (proj2 (C58_total ex_filler 3 (shipped_ready _ _ _ _ _) (shipped_complete _ _ _ _ _) ltac:(discriminate))) as (d & Hd).
    destruct (proj1 (C177_total ex_filler 3 (shipped_ready _ _ _ _ _) (shipped_complete _ _ _ _ _) ltac:(discriminate) ltac:(discriminate)) ltac:(lia)) as (e & He).
    exists d, e. split; [exact Hd|]. split; [exact He|].
    assert (E : (flat_map declared (operations e), map (fun op => text_at [K "runmodule"; K "first_year"] op) (operations e)) = match fill_diagnostic_descriptor ex_filler 3 with Ok e => (flat_map declared (operations e), map (fun op => text_at [K "runmodule"; K "first_year"] op) (operations e)) | Err _ => ([], []) end) by now rewrite He.
    vm_compute in E. injection E as E1 E2. unfold declared, operations, text_at. split; assumption.
Qed.
