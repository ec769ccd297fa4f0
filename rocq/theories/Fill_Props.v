(* Properties of generated descriptors of an analysis: C58, C100, C101, C102. *)
From Coq Require Import String Ascii ZifyBool.
From Verif Require Time_Model Time_Spec Time_Proofs.
From Verif Require Import Base Fill_Model Fill_Spec Fill_Proofs Fill_Chain Fill_Total Fill_Files Fill_Templates.
Open Scope string_scope.
Open Scope list_scope.
Open Scope Z_scope.

(* ------------------------------------------------------------------ the shipped templates meet what is asked of templates *)
Fixpoint no_refs (which : string -> bool) (classes : list string) (j : json) : bool :=
  match j with
  | JDict m =>
      negb (match dget "python_class" m, dget "datasetname" m with Some (JStr c), Some (JStr d) => existsb (String.eqb c) classes && which d | _, _ => false end) &&
      (fix each (m : list (string * json)) := match m with [] => true | (_, v) :: m' => no_refs which classes v && each m' end) m
  | JList l => (fix each (l : list json) := match l with [] => true | v :: l' => no_refs which classes v && each l' end) l
  | _ => true
  end.
Lemma no_refs_list which classes l v : no_refs which classes (JList l) = true -> In v l -> no_refs which classes v = true.
Proof. cbn [no_refs]. induction l as [|x l IH]; intros H I; [destruct I|]. apply andb_true_iff in H. destruct H as [H H']. destruct I as [->|I]; auto. Qed.
Lemma no_refs_dict which classes m k v : no_refs which classes (JDict m) = true -> In (k, v) m -> no_refs which classes v = true.
Proof.
  cbn [no_refs]. intros H I. apply andb_true_iff in H. destruct H as [_ H]. induction m as [|[k' x] m IH]; [destruct I|]. apply andb_true_iff in H. destruct H as [H H'].
  destruct I as [[= -> ->]|I]; auto.
Qed.
Lemma no_refs_sound which classes d j : no_refs which classes j = true -> which d = true -> ~ refers classes d j.
Proof.
  intros H W R. induction R as [m c Ec Ic Ed|m k v I R IH|l v I R IH].
  - cbn [no_refs] in H. apply andb_true_iff in H. destruct H as [H _]. rewrite Ec, Ed, W, andb_true_r in H. apply negb_true_iff in H. rewrite <- not_true_iff_false in H. apply H. apply existsb_exists. exists c. split; [exact Ic|apply String.eqb_refl].
  - apply IH. exact (no_refs_dict _ _ _ _ _ H I).
  - apply IH. exact (no_refs_list _ _ _ _ H I).
Qed.
Lemma storage_cases c (P : string -> Prop) : P "storage_climatology" -> P "storage_large_scale" -> P "storage_local" -> P (storage_of c).
Proof. intros. unfold storage_of. destruct (c =? 0); [assumption|]. destruct (c =? 1); assumption. Qed.
Lemma blank_shipped t : In t [shipped_operation; shipped_batch_operation; shipped_outputgrid] -> blank t.
Proof.
  intros I. split; [|split].
  - intros c w. split; (destruct w; unfold source, target, either, entry; pattern (storage_of c); apply storage_cases; destruct I as [<-|[<-|[<-|[]]]]; reflexivity).
  - destruct I as [<-|[<-|[<-|[]]]]; eexists; reflexivity.
  - intros d. apply (no_refs_sound (fun _ => true)); [|reflexivity]. destruct I as [<-|[<-|[<-|[]]]]; vm_compute; reflexivity.
Qed.
Lemma shipped_ready dates a b c d : ready (settings dates a b c d).
Proof.
  split; [exact I|]. split; [exact I|]. split; [apply blank_shipped; now left|]. split; [apply blank_shipped; right; now left|]. split; [apply blank_shipped; right; right; now left|].
  intros k key Ik. pattern (storage_of k). apply storage_cases; destruct Ik as [<-|[<-|[<-|[]]]]; reflexivity.
Qed.
Lemma shipped_complete dates a b c d : complete (settings dates a b c d).
Proof.
  intros t It. cbn [f_operation f_batch_operation f_output_grid settings] in It. split.
  - unfold fillable, has_dict. repeat match goal with |- _ /\ _ => split end; try (destruct It as [<-|[<-|[<-|[]]]]; eexists; reflexivity).
    intros k. pattern (storage_of k). apply storage_cases; destruct It as [<-|[<-|[<-|[]]]]; eexists; reflexivity.
  - intros r s Hr Hs. destruct It as [<-|[<-|[<-|[]]]].
    + injection Hr as <-. cbn in Hs. injection Hs as <-. eexists. split; [reflexivity|]. intros x Ix. repeat (destruct Ix as [<-|Ix]; [eexists; reflexivity|]). destruct Ix.
    + injection Hr as <-. cbn in Hs. injection Hs as <-. eexists. split; [reflexivity|]. intros x Ix. repeat (destruct Ix as [<-|Ix]; [eexists; reflexivity|]). destruct Ix.
    + injection Hr as <-. discriminate Hs.
Qed.
Definition ex_filler : filler := settings ("20100101", "20101231") "eustace_infilled" "eustace_climatology" "eustace_large_scale" "eustace_local".
Lemma ex_apart dates a b c d : local_apart (settings dates a b c d).
Proof. split; discriminate. Qed.
Lemma ex_distinct : distinct_names ex_filler.
Proof.
  split; [|split].
  - cbn. repeat (apply NoDup_cons; [cbn; intros H; repeat (destruct H as [H|H]; [discriminate H|]); exact H|]). apply NoDup_nil.
  - cbn. repeat (apply NoDup_cons; [cbn; intros H; repeat (destruct H as [H|H]; [discriminate H|]); exact H|]). apply NoDup_nil.
  - intros o b i Io Ib _ E. unfold numbered in E. cbn in Io, Ib. repeat (destruct Io as [<-|Io]; [repeat (destruct Ib as [<-|Ib]; [discriminate E|]); destruct Ib|]). destruct Io.
Qed.
Lemma ex_clean : clean_names ex_filler.
Proof. intros s Is. unfold clean. cbn in Is. repeat (destruct Is as [<-|Is]; [cbn [without]; repeat split; discriminate|]). destruct Is. Qed.
Definition ex_operations (n : Z) : list json := match fill_batch_descriptor ex_filler n with Ok d => operations d | Err _ => [] end.

(* ------------------------------------------------------------------ C58 *)

(* Every data set that an operation reads is declared by an operation before it, or is one that the templates name. *)
Theorem C58_order f d : ready f -> filled f d -> well_ordered (given f) (operations d).
Proof. intros R H. destruct (filled_drawn f d R H) as (ss & D & C & _). exact (covered_ordered _ [] _ _ D C ltac:(intros x [])). Qed.

(* What an operation reads of a component is what was written most lately for this component. *)
Theorem C58_latest f d before op after k what s : ready f -> filled f d -> operations d = before ++ op :: after -> 0 <= k < 3 ->
  source k what op = Some s -> latest k what before = Some s.
Proof. intros R H E Hk Hs. destruct (filled_drawn f d R H) as (ss & D & _ & Q & _). exact (ops_latest _ _ _ D Q _ _ _ E _ _ _ Hk Hs). Qed.

(* An operation that confronts a component with observations is given the latest states of all the other components (none before
   there are any); one that works on batches is also given the latest state of its own. *)
Theorem C58_confront f d before op after c k : ready f -> filled f d -> operations d = before ++ op :: after -> 0 <= k < 3 -> confronts op c -> k <> c ->
  source k State op = latest k State before.
Proof. intros R H E Hk Hs N. destruct (filled_drawn f d R H) as (ss & D & _ & Q & _). exact (ops_confront _ _ _ D Q _ _ _ E _ _ Hs Hk N). Qed.
Theorem C58_confront_batch f d before op after k : ready f -> filled f d -> operations d = before ++ op :: after -> 0 <= k < 3 ->
  calls op ["eustace.analysis.advanced_standard.examples.moving_climatology.process_inputs_batch"] -> source k State op = latest k State before.
Proof. intros R H E Hk Hs. destruct (filled_drawn f d R H) as (ss & D & _ & Q & _). exact (ops_confront_batch _ _ _ D Q _ _ _ E _ Hs Hk). Qed.

(* An operation that solves for the state of a component is given measurements; one that makes grids is given the state, samples
   and prior samples of every component. *)
Theorem C58_solve f d before op after c s : ready f -> filled f d -> operations d = before ++ op :: after -> 0 <= c < 3 -> solves op c -> target c State op = Some s ->
  exists m, source c Measurement op = Some m.
Proof. intros R H E Hc Hs T. destruct (filled_drawn f d R H) as (ss & D & _ & Q & _). exact (ops_solve _ _ _ D Q _ _ _ E _ _ Hs Hc T). Qed.
Theorem C58_grid f d before op after k what : ready f -> filled f d -> operations d = before ++ op :: after -> 0 <= k < 3 -> grids op -> what <> Measurement ->
  exists s, source k what op = Some s.
Proof. intros R H E Hk Hg N. destruct (filled_drawn f d R H) as (ss & D & _ & Q & _). exact (ops_grid _ _ _ D Q _ _ _ E _ _ Hg Hk N). Qed.

(* An operation writes files of no other component than the one it works on; and it writes exactly the data sets that it declares. *)
Theorem C58_own f d before op after k what s : ready f -> filled f d -> operations d = before ++ op :: after -> 0 <= k < 3 -> target k what op = Some s ->
  get [K "runmodule"; K "component_index"] op = Ok (JNum k).
Proof. intros R H E Hk T. destruct (filled_drawn f d R H) as (ss & D & _ & Q & _). exact (ops_own _ _ _ D Q _ _ _ E _ _ _ Hk T). Qed.
Theorem C58_writes f d op s : ready f -> filled f d -> In op (operations d) -> (writes op s <-> In s (declared op)).
Proof. intros R H I. destruct (filled_drawn f d R H) as (ss & D & _ & _ & W). exact (drawn_writes _ _ _ _ D W I s). Qed.

(* No data set is declared twice, if the names are distinct. *)
Theorem C58_distinct f n d : ready f -> distinct_names f -> fill_descriptor f n = Ok d \/ (local_apart f /\ fill_batch_descriptor f n = Ok d) -> NoDup (flat_map declared (operations d)).
Proof.
  intros R N [H|[L H]].
  - rewrite (drawn_all_declared _ _ _ (descriptor_drawn f n d R H)). apply whole_NoDup; [apply single_iterates|exact N].
  - rewrite (drawn_all_declared _ _ _ (batch_descriptor_drawn f n d R L H)). apply whole_NoDup; [apply batch_iterates|exact N].
Qed.

(* The states after all iterations are those of the last iteration. *)
Theorem C58_final f n d k : ready f -> 1 <= n -> 0 <= k < 3 -> fill_descriptor f n = Ok d \/ (local_apart f /\ fill_batch_descriptor f n = Ok d) ->
  latest k State (operations d) = Some (numbered (nth (Z.to_nat k) (solutions f) "") (n - 1)).
Proof.
  intros R Hn Hk H. apply component_range in Hk as Ck.
  transitivity (Some (numbered (solution_name f k) (n - 1))); [|destruct Ck as [-> | [-> | ->]]; reflexivity].
  destruct H as [H|[L H]].
  - rewrite (latest_after _ _ _ k State Ck (descriptor_drawn f n d R H)). apply whole_state; [apply single_iterates|exact Hn|exact Ck].
  - rewrite (latest_after _ _ _ k State Ck (batch_descriptor_drawn f n d R L H)). apply whole_state; [apply batch_iterates|exact Hn|exact Ck].
Qed.

(* Number of operations. *)
Theorem C58_count f n d : ready f -> 1 <= n -> fill_descriptor f n = Ok d -> zlen (operations d) = 5 * n + 1.
Proof. intros R Hn H. rewrite (drawn_length _ _ _ (descriptor_drawn f n d R H)). now apply single_length. Qed.
Theorem C58_count_batch f n d : ready f -> local_apart f -> 1 <= n -> fill_batch_descriptor f n = Ok d -> zlen (operations d) = 5 * n + 3.
Proof. intros R L Hn H. rewrite (drawn_length _ _ _ (batch_descriptor_drawn f n d R L H)). now apply batch_length. Qed.

(* Descriptors are made whenever the templates have the parts to be filled and there are iterations; none is made of no iteration. *)
Theorem C58_total f n : ready f -> complete f -> n <> 0 -> (exists d, fill_descriptor f n = Ok d) /\ (exists d, fill_batch_descriptor f n = Ok d).
Proof. intros R C Hn. split; [now apply descriptor_total|now apply batch_descriptor_total]. Qed.
Theorem C58_none f : ready f -> complete f -> fill_descriptor f 0 = Err ValueError /\ fill_batch_descriptor f 0 = Err ValueError.
Proof. intros R C. destruct (load_total f R C) as (a & b & c & Hl & _). unfold fill_descriptor, fill_batch_descriptor. rewrite Hl. split; reflexivity. Qed.

(* A negative number of iterations is not refused: the only operation reads a data set that no operation makes. *)
Theorem C58_negative_refuted : exists f d op s, ready f /\ complete f /\ fill_descriptor f (-1) = Ok d /\ In op (operations d) /\ reads op s /\ ~ given f s /\ ~ In s (flat_map declared (operations d)).
Proof.
  destruct (proj1 (C58_total ex_filler (-1) (shipped_ready _ _ _ _ _) (shipped_complete _ _ _ _ _) ltac:(discriminate))) as (d & H).
  exists ex_filler, d. pose proof H as E. vm_compute in E. injection E as E. rewrite <- E. eexists. exists "solution_climatology_-2".
  split; [apply shipped_ready|]. split; [apply shipped_complete|]. split; [now rewrite E|]. split; [left; reflexivity|]. split; [|split].
  - eapply (refers_get _ _ [K "runmodule"; K "storage_climatology"; K "statefilename_read"]); [reflexivity|]. eapply refers_here; [reflexivity| |reflexivity]. now left.
  - intros [G|[G|G]]; revert G; apply (no_refs_sound (String.eqb "solution_climatology_-2")); try reflexivity; vm_compute; reflexivity.
  - vm_compute. intros G. repeat (destruct G as [G|G]; [discriminate G|]). destruct G.
Qed.

Lemma NoDup_rear {A} (l1 l2 : list A) : NoDup (l1 ++ l2) -> NoDup l2.
Proof. induction l1 as [|x l1 IH]; [auto|]. cbn [app]. inversion 1; auto. Qed.
(* The default names of the command line: the gridding operation declares one data set four times, so that the four outputs of a day
   have one file name. *)
Theorem C58_default_names_refuted dates first last d : 0 <= first <= last -> fill_batch_descriptor_range (defaults dates) first last true = Ok d ->
  exists before op pattern, operations d = before ++ [op] /\ declared_patterns op = repeat (Some (numbered "eustace_infilled" last), pattern) 4 /\ ~ NoDup (flat_map declared (operations d)).
Proof.
  intros Hl H. pose proof (range_drawn _ _ _ _ _ (shipped_ready dates _ _ _ _) (ex_apart dates _ _ _ _) Hl H) as D. apply Forall2_app_inv_r in D. destruct D as (before & l & D1 & D2 & E).
  inversion D2 as [|op s l' ss Dg Dn]; subst. inversion Dn; subst. exists before, op. eexists. split; [exact E|]. pose proof Dg as (t & _ & O). split.
  - exact (announces_patterns _ _ (o_announces _ _ _ _ _ _ _ _ _ O)).
  - rewrite E, flat_map_app. intros N. apply NoDup_rear in N. cbn [flat_map] in N. rewrite app_nil_r in N. rewrite (drawn_declared _ _ _ Dg) in N. cbn in N. inversion N as [|? ? X _]; subst. apply X. now left.
Qed.
(* Distinct base names may still clash: a solution named like the sample of another one. *)
Definition ex_clash : filler :=
  {| f_operation := shipped_operation; f_batch_operation := shipped_batch_operation; f_output_grid := shipped_outputgrid;
     f_start_date := "20100101"; f_end_date := "20101231"; f_land_biases := JNum 1; f_global_biases := JNum 1;
     f_measurement_climatology_command := "a"; f_measurement_climatology := "m_climatology"; f_solution_climatology_command := "b"; f_solution_climatology := "solution";
     f_measurement_large_scale_command := "c"; f_measurement_large_scale := "m_large"; f_solution_large_scale_command := "d"; f_solution_large_scale := "solution_sample";
     f_local_scale_command := "e"; f_solution_local_scale := "local"; f_output_grid_command := "f"; f_output_grid_name := "o1";
     f_output_climatology := "o2"; f_output_large_scale := "o3"; f_output_local := "o4"; f_state_sample_size := 10 |}.
Theorem C58_sample_name_refuted : exists f d, ready f /\ NoDup ([f_measurement_climatology f; f_measurement_large_scale f] ++ solutions f ++ outputs f) /\ filled f d /\ ~ NoDup (flat_map declared (operations d)).
Proof.
  destruct (proj1 (C58_total ex_clash 1 (shipped_ready ("20100101", "20101231") "" "" "" "") (shipped_complete ("20100101", "20101231") "" "" "" "") ltac:(discriminate))) as (d & H).
  exists ex_clash, d. split; [exact (shipped_ready ("20100101", "20101231") "" "" "" "")|]. split; [|split].
  - cbn. repeat (apply NoDup_cons; [cbn; intros X; repeat (destruct X as [X|X]; [discriminate X|]); exact X|]). apply NoDup_nil.
  - exact (by_days ex_clash 1 d ltac:(discriminate) H).
  - assert (E : flat_map declared (operations d) = match fill_descriptor ex_clash 1 with Ok d => flat_map declared (operations d) | Err _ => [] end) by now rewrite H.
    rewrite E. vm_compute. intros N. inversion N as [|? ? _ N1]. inversion N1 as [|? ? _ N2]. inversion N2 as [|? ? X _]. apply X. right. right. now left.
Qed.

Print Assumptions C58_order.
Print Assumptions C58_latest.
Print Assumptions C58_confront.
Print Assumptions C58_confront_batch.
Print Assumptions C58_solve.
Print Assumptions C58_grid.
Print Assumptions C58_own.
Print Assumptions C58_writes.
Print Assumptions C58_distinct.
Print Assumptions C58_final.
Print Assumptions C58_count.
Print Assumptions C58_count_batch.
Print Assumptions C58_total.
Print Assumptions C58_none.
Print Assumptions C58_negative_refuted.
Print Assumptions C58_default_names_refuted.
Print Assumptions C58_sample_name_refuted.
(* the shipped templates, two iterations in batches *)
Example C58_nonvacuous : exists d, ready ex_filler /\ complete ex_filler /\ local_apart ex_filler /\ distinct_names ex_filler /\ filled ex_filler d /\
  zlen (operations d) = 13 /\ match nth_error (operations d) 11 with
  | Some op => text_at [K "name"] op = Some "local_input_and_solve_1" /\ source 0 State op = Some "solution_climatology_1" /\ source 1 State op = Some "solution_large_scale_1" /\ source 2 State op = None /\
               target 2 State op = Some "solution_local_1" /\ target 2 Sample op = Some "solution_local_sample_1" /\ get [K "runmodule"; K "component_index"] op = Ok (JNum 2)
  | None => False end /\
  match nth_error (operations d) 5 with
  | Some op => calls op ["eustace.analysis.advanced_standard.examples.moving_climatology.process_inputs_batch"] /\ source 2 State op = Some "solution_local_0" /\ target 0 Measurement op = Some "measurement_climatology_1"
  | None => False end.
Proof.
  destruct (proj2 (C58_total ex_filler 2 (shipped_ready _ _ _ _ _) (shipped_complete _ _ _ _ _) ltac:(discriminate))) as (d & H). exists d.
  split; [apply shipped_ready|]. split; [apply shipped_complete|]. split; [apply ex_apart|]. split; [exact ex_distinct|]. split; [exact (by_batches _ 2 d (ex_apart _ _ _ _ _) ltac:(discriminate) H)|].
  assert (E : operations d = ex_operations 2) by (unfold ex_operations; now rewrite H). rewrite E. split; [vm_compute; reflexivity|]. split.
  - vm_compute. repeat split.
  - vm_compute. split; [eexists; split; [reflexivity|now left]|split; reflexivity].
Qed.

(* ------------------------------------------------------------------ C100 *)

(* Ranges of iterations join: the operations of a range are those of its first part followed by those of the rest. *)
Theorem C100_join f first m last grid d1 d2 : first <= m < last -> fill_batch_descriptor_range f first m false = Ok d1 -> fill_batch_descriptor_range f (m + 1) last grid = Ok d2 ->
  exists d, fill_batch_descriptor_range f first last grid = Ok d /\ operations d = operations d1 ++ operations d2.
Proof. apply range_chain. Qed.

Lemma Forall2_drawn_weaken (known known' : string -> Prop) ops ss : (forall s, known s -> known' s) -> Forall2 (drawn known) ops ss -> Forall2 (drawn known') ops ss.
Proof. intros W. induction 1 as [|op s ops ss (t & Kt & O) _ IH]; constructor; [|exact IH]. exists t. split; [auto|exact O]. Qed.
(* A later range relies only on the states of the iteration before it. *)
Theorem C100_order f first last (grid : bool) d : ready f -> local_apart f -> 0 <= first <= last -> fill_batch_descriptor_range f first last grid = Ok d ->
  well_ordered (fun s => given f s \/ 0 < first /\ In s (map (fun b => numbered b (first - 1)) (solutions f))) (operations d).
Proof.
  intros R L Hl H. apply (covered_ordered _ _ _ _ (Forall2_drawn_weaken _ _ _ _ (fun s G => or_introl G) (range_drawn f first last grid d R L Hl H)) (range_covered f first last grid Hl)).
  intros s I. right. destruct (0 <? first) eqn:E; [|destruct I]. split; [lia|]. exact I.
Qed.

(* The iterations are those of the descriptor of the whole analysis; only the names of the gridded outputs differ. *)
Theorem C100_same f n d d' : 1 <= n -> fill_batch_descriptor f n = Ok d -> fill_batch_descriptor_range f 0 (n - 1) true = Ok d' ->
  exists ops g g', operations d = ops ++ [g] /\ operations d' = ops ++ [g'].
Proof. apply range_same. Qed.

(* Ranges can be made whenever the templates can be filled. *)
Theorem C100_total f first last grid : ready f -> complete f -> first <= last -> exists d, fill_batch_descriptor_range f first last grid = Ok d.
Proof. intros R C H. apply range_total; [exact R|exact C|lia]. Qed.

(* Ranges for processing day by day cannot be made at all. *)
Theorem C100_days_refuted f first last grid : is_ok (fill_descriptor_range f first last grid) = false.
Proof.
  unfold fill_descriptor_range. destruct (load_templates f) as [[[a b] c]|e]; cbn [bind]; [|reflexivity]. destruct (last - first + 1 =? 0); [reflexivity|].
  destruct (mapM _ _); reflexivity.
Qed.

Print Assumptions C100_join.
Print Assumptions C100_order.
Print Assumptions C100_same.
Print Assumptions C100_total.
Print Assumptions C100_days_refuted.
Example C100_nonvacuous : exists d1 d2, fill_batch_descriptor_range ex_filler 0 1 false = Ok d1 /\ fill_batch_descriptor_range ex_filler 2 3 true = Ok d2 /\
  zlen (operations d1) = 10 /\ zlen (operations d2) = 13 /\ match operations d2 with op :: _ => reads op "solution_local_1" | [] => False end.
Proof.
  destruct (C100_total ex_filler 0 1 false (shipped_ready _ _ _ _ _) (shipped_complete _ _ _ _ _) ltac:(discriminate)) as (d1 & H1). destruct (C100_total ex_filler 2 3 true (shipped_ready _ _ _ _ _) (shipped_complete _ _ _ _ _) ltac:(discriminate)) as (d2 & H2).
  exists d1, d2. split; [exact H1|]. split; [exact H2|].
  assert (E1 : operations d1 = match fill_batch_descriptor_range ex_filler 0 1 false with Ok d => operations d | Err _ => [] end) by now rewrite H1.
  assert (E2 : operations d2 = match fill_batch_descriptor_range ex_filler 2 3 true with Ok d => operations d | Err _ => [] end) by now rewrite H2.
  rewrite E1, E2. clear. split; [vm_compute; reflexivity|]. split; [vm_compute; reflexivity|]. vm_compute.
  eapply (refers_get _ _ [K "runmodule"; K "storage_local"; K "statefilelist_read"]); [reflexivity|]. eapply refers_here; [reflexivity| |reflexivity]. vm_compute. tauto.
Qed.

(* ------------------------------------------------------------------ C101 *)

(* Every declared data set has file names, and data sets of different names have different ones, whatever the days. *)
Theorem C101_files_apart f n d e e' : ready f -> clean_names f -> fill_descriptor f n = Ok d \/ (local_apart f /\ fill_batch_descriptor f n = Ok d) ->
  In e (flat_map declared_patterns (operations d)) -> In e' (flat_map declared_patterns (operations d)) ->
  exists name name', fst e = Some name /\ fst e' = Some name' /\
  forall day day', exists path path', pathname day (snd e) = Ok path /\ pathname day' (snd e') = Ok path' /\ (path = path' -> name = name').
Proof.
  intros R C [H|[L H]] I I'.
  - apply (paths_apart _ _ _ e e' (descriptor_drawn f n d R H)); [|intros s; apply whole_clean; [apply single_iterates|exact C]|exact I|exact I'].
    unfold whole. apply Forall_app. split; [apply run_described; apply single_described|constructor; [apply gridding_described|constructor]].
  - apply (paths_apart _ _ _ e e' (batch_descriptor_drawn f n d R L H)); [|intros s; apply whole_clean; [apply batch_iterates|exact C]|exact I|exact I'].
    unfold whole. apply Forall_app. split; [apply run_described; apply batch_described|constructor; [apply gridding_described|constructor]].
Qed.

(* Data sets of the kinds with a file for each day have different files on different days. *)
Theorem C101_days_apart name fmt kd p t t' : clean name -> In kd ["measurement"; "space_solution"; "space_uncertainty"; "space_sample"] -> return_output_patterns name fmt kd = Ok p ->
  Time_Model.valid_datetime t = true -> Time_Model.valid_datetime t' = true -> pathname (Some t) p = pathname (Some t') p -> Time_Spec.date_of t = Time_Spec.date_of t'.
Proof.
  intros [Cs _] Ik Hp V V' E.
  assert (X : p = JList [JStr (name ++ "/%Y/"); JStr (name ++ "_%Y%m%d." ++ fmt)]) by (destruct Ik as [<-|[<-|[<-|[<-|[]]]]]; injection Hp as <-; reflexivity). subst p.
  unfold pathname in E. cbn [texts] in E. assert (O : is_ok (Time_Model.filename_from_patterns [(name ++ "/%Y/")%string; (name ++ "_%Y%m%d." ++ fmt)%string] t) = true) by reflexivity.
  destruct (Time_Model.filename_from_patterns [(name ++ "/%Y/")%string; (name ++ "_%Y%m%d." ++ fmt)%string] t) as [path|e] eqn:Ep; [|discriminate O].
  apply (Time_Proofs.same_name_same_date [(name ++ "/%Y/")%string; (name ++ "_%Y%m%d." ++ fmt)%string] t t' path); [| | | |exact V|exact V'|exact Ep|now symmetry].
  - intros q [<-|[]]. change ("_%Y%m%d." ++ fmt)%string with (String "_" ("%Y%m%d." ++ fmt)). apply slash_clean; [exact Cs|discriminate].
  - exists (name ++ "/%Y/")%string. split; [now left|]. apply Time_Proofs.contains2_occurs. exists (name ++ "/")%string, "/". now rewrite app_assoc_string.
  - exists (name ++ "_%Y%m%d." ++ fmt)%string. split; [right; now left|]. apply Time_Proofs.contains2_occurs. exists (name ++ "_%Y")%string, ("%d." ++ fmt)%string. now rewrite app_assoc_string.
  - exists (name ++ "_%Y%m%d." ++ fmt)%string. split; [right; now left|]. apply Time_Proofs.contains2_occurs. exists (name ++ "_%Y%m")%string, ("." ++ fmt)%string. now rewrite app_assoc_string.
Qed.

(* A date field within a name may make two data sets share a file. *)
Theorem C101_field_refuted : exists name name' day p p' path, name <> name' /\ return_output_patterns name "nc" "measurement" = Ok p /\ return_output_patterns name' "nc" "measurement" = Ok p' /\
  pathname (Some day) p = Ok path /\ pathname (Some day) p' = Ok path.
Proof.
  exists "grid_%Y", "grid_2010", (Time_Model.ymd2ord 2010 1 1 * Time_Model.DAY). do 3 eexists. split; [discriminate|]. split; [reflexivity|]. split; [reflexivity|]. split; [vm_compute; reflexivity|vm_compute; reflexivity].
Qed.

Print Assumptions C101_files_apart.
Print Assumptions C101_days_apart.
Print Assumptions C101_field_refuted.
Example C101_nonvacuous : clean_names ex_filler /\ ready ex_filler /\
  match flat_map declared_patterns (ex_operations 2) with
  | (Some a, p) :: _ => a = "measurement_climatology_0" /\ pathname (Some (Time_Model.ymd2ord 2010 3 1 * Time_Model.DAY)) p = Ok "measurement_climatology_0/2010/measurement_climatology_0_201003.pickle"
  | _ => False end /\ zlen (flat_map declared_patterns (ex_operations 2)) = 20.
Proof. split; [exact ex_clean|]. split; [apply shipped_ready|]. split; [vm_compute; split; reflexivity|vm_compute; reflexivity]. Qed.

(* ------------------------------------------------------------------ C102 *)

(* The check passes exactly if the value holds no null. *)
Theorem C102_check j : (check_none j = Ok tt <-> ~ holds_null j) /\ (check_none j = Err ValueError <-> holds_null j).
Proof. destruct (check_none_spec j) as [[-> N]|[-> N]]; split; split; intros H; try tauto; discriminate H. Qed.

(* What is left in the file: the descriptor, if it could be made, even if the check then fails; else what was there. *)
Theorem C102_file f n check before after outcome create fill : In (create, fill) [(create_descriptor, fill_descriptor); (create_batch_descriptor, fill_batch_descriptor)] ->
  create f n check before = (after, outcome) ->
  match fill f n with
  | Ok d => after = Some d /\ (outcome = Ok tt <-> check = false \/ ~ holds_null d) /\ (outcome = Err ValueError <-> check = true /\ holds_null d)
  | Err e => after = before /\ outcome = Err e
  end.
Proof.
  intros I H. assert (E : create f n check before = create_from (fill f n) check before) by (destruct I as [[= <- <-]|[[= <- <-]|[]]]; reflexivity). rewrite E in H. unfold create_from in H.
  destruct (fill f n) as [d|e]; injection H as <- <-; [|split; reflexivity]. split; [reflexivity|]. destruct check.
  - destruct (C102_check d) as [C1 C2]. split; [rewrite C1|rewrite C2]; split; intros X; try tauto. destruct X as [X|X]; [discriminate X|exact X].
  - split; split; intros X; try reflexivity; try discriminate X; try (now left). now destruct X.
Qed.

(* With the shipped template for batches, whose component is null, the check can never pass, and the file that it refuses stays. *)
Theorem C102_batch_refuted f n before : ready f -> complete f -> local_apart f -> n <> 0 -> get [K "runmodule"; K "component_index"] (f_batch_operation f) = Ok JNull ->
  exists d, holds_null d /\ create_batch_descriptor f n true before = (Some d, Err ValueError).
Proof.
  intros R C L Hn G. destruct (batch_descriptor_total f n R C Hn) as (d & H). pose proof (batch_null f n d R L G H) as Hd. exists d. split; [exact Hd|]. unfold create_batch_descriptor, create_from. rewrite H.
  now rewrite (proj2 (proj2 (C102_check d)) Hd).
Qed.

(* Of the sources of observations in a template, those with the five known names are kept, in order. *)
Theorem C102_sources f a b c : load_templates f = Ok (a, b, c) -> forall t t' l, In (t, t') [(f_operation f, a); (f_batch_operation f, b); (f_output_grid f, c)] ->
  get [K "runmodule"; K "inputsources"] t = Ok (JList l) -> get [K "runmodule"; K "inputsources"] t' = Ok (JList (filter listed l)).
Proof.
  intros H t t' l I G. unfold load_templates in H. apply bind_ok in H. destruct H as (a0 & Ha & H). apply bind_ok in H. destruct H as (b0 & Hb & H). apply bind_ok in H. destruct H as (c0 & Hc & [= <- <- <-]).
  destruct I as [[= <- <-]|[[= <- <-]|[[= <- <-]|[]]]]; (eapply restrict_sources; [eassumption|exact G]).
Qed.

Print Assumptions C102_check.
Print Assumptions C102_file.
Print Assumptions C102_batch_refuted.
Print Assumptions C102_sources.
(* the shipped templates: day by day nothing is left empty, in batches the component of the gridding operation is *)
Example C102_nonvacuous : snd (create_descriptor ex_filler 2 true None) = Ok tt /\ is_ok (snd (create_batch_descriptor ex_filler 2 true None)) = false /\
  get [K "runmodule"; K "component_index"] (f_batch_operation ex_filler) = Ok JNull /\
  match get [K "runmodule"; K "inputsources"] (f_operation ex_filler) with Ok (JList l) => zlen (filter listed l) = 5 | _ => False end.
Proof. split; [vm_compute; reflexivity|]. split; [vm_compute; reflexivity|]. split; vm_compute; reflexivity. Qed.
