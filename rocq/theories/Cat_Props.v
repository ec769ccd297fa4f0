(* Properties C10-C16, C59 and C60: references, catalogue building and catalogue updates. *)
From Coq Require Import String Ascii.
From Verif Require Import Base Work_Model Work_Spec Work_Proofs Cat_Model Cat_Spec Cat_Proofs.
Local Open Scope Z_scope.
Local Open Scope list_scope.

(* ============================================================ C10 *)

Theorem C10_round_trip : forall refs, reference_integers_to_list (reference_list_to_integers refs) = Ok refs.
Proof.
  intros refs. apply trios_iff. induction refs as [|[d s e] refs IH]; cbn; [constructor|]. constructor. exact IH.
Qed.
Print Assumptions C10_round_trip.

Theorem C10_reverse_round_trip : forall ints refs,
  reference_integers_to_list ints = Ok refs -> reference_list_to_integers refs = ints.
Proof.
  intros ints refs E. apply trios_iff in E. induction E as [|d s e l refs _ IH]; [reflexivity|].
  change (d :: s :: e :: reference_list_to_integers refs = d :: s :: e :: l). now rewrite IH.
Qed.
Print Assumptions C10_reverse_round_trip.

Theorem C10_accepts_exactly_whole_trios : forall ints,
  (zlen ints mod 3 = 0 -> exists refs, reference_integers_to_list ints = Ok refs /\ 3 * zlen refs = zlen ints) /\
  (zlen ints mod 3 <> 0 -> reference_integers_to_list ints = Err IndexError).
Proof.
  fix IH 1. intros [|a [|b [|c rest]]].
  - split; [exists []; split; reflexivity|]. cbn. intros C; now destruct C.
  - split; [cbn; discriminate|reflexivity].
  - split; [cbn; discriminate|reflexivity].
  - destruct (IH rest) as [H1 H2]. rewrite !zlen_cons.
    replace ((1 + (1 + (1 + zlen rest))) mod 3) with (zlen rest mod 3) by lia. cbn [reference_integers_to_list]. split.
    + intros E. destruct (H1 E) as (refs & -> & L). cbn [bind]. eexists. split; [reflexivity|]. rewrite zlen_cons. lia.
    + intros E. rewrite (H2 E). reflexivity.
Qed.
Print Assumptions C10_accepts_exactly_whole_trios.

Example C10_nonvacuous :
  reference_integers_to_list [2; 0; -1; 5; 1; 7] =
    Ok [{| ref_dataset := 2; ref_subset := 0; ref_entry := -1 |}; {| ref_dataset := 5; ref_subset := 1; ref_entry := 7 |}] /\
  reference_integers_to_list [2; 0; -1; 5; 1] = Err IndexError.
Proof. split; reflexivity. Qed.

(* ------------------------------------------------------------ a worked example used below *)

Local Open Scope string_scope.

(* Days 0..3; the pattern ["day"; ...] determines the day, other patterns do not. *)
Definition ex_name (s : Z) : string := String (ascii_of_nat (65 + Z.to_nat s)) "".
Definition ex_step : step :=
  {| st_count := 4;
     st_index_at_time := fun t => match t with Some v => Ok v | None => Err AttributeError end;
     st_time_at_index := fun s => Ok (100 + s);
     st_output_entry := fun pats s => Ok {| en_name := match pats with "fixed" :: _ => "Z" | _ => ex_name s end; en_time := Some s |};
     st_unique := fun pats => match pats with "day" :: _ => true | _ => false end |}.
Definition ex_subset (pats : list string) (days : list Z) : subset :=
  {| ss_patterns := Some pats; ss_matches := map (fun s => {| en_name := ex_name s; en_time := Some s |}) days |}.
Definition ex_inputs : dataset :=   (* day 2 is missing; day 1 has two files *)
  {| ds_name := "in"; ds_path := Some "/in/"; ds_subsets := [ex_subset ["day"] [3; 1; 0; 1]; ex_subset ["fixed"] []] |}.
Definition ex_outputs : dataset :=
  {| ds_name := "out"; ds_path := None; ds_subsets := [ex_subset ["day"] []; ex_subset ["fixed"] []] |}.
Definition ex_in (k : Z) (p : missing_policy) : input_file := {| in_dataset := "in"; in_subset := k; in_missing := p |}.
Definition ex_out (k : Z) : output_file := {| out_dataset := "out"; out_subset := k |}.
Definition ex_request : operation_request :=
  {| rq_name := Some "op"; rq_class := None; rq_function := Some "module.run";
     rq_runmodule := BNode [("inputs", BInputFileList (ex_in 0 SkipMissing)); ("when", BStepTime);
                            ("nested", BNode [("index", BStepIndex); ("output", BOutputFile (ex_out 0))]); ("common", BOutputFile (ex_out 1))];
     rq_step := ex_step; rq_newdatasets := [ex_outputs] |}.
Definition ex_tc (m : string) : result (list string) := Ok ["v1"].
Local Close Scope string_scope.

(* ============================================================ C11 *)

(* Every step's references name the existing data set and subset asked for, and within it exactly the entries
   whose files belong to the step; without any such entry the references are the missing marker (allowed) or
   none (skip and unrecognised policies); with policy not_allowed no step is without an entry. *)
Theorem C11_references_valid_and_complete :
  forall datasets st inp request_skip refs request_skip',
  length request_skip = Z.to_nat (st_count st) ->
  find_references datasets st inp request_skip = Ok (refs, request_skip') ->
  exists i d ss patterns,
    subset_of datasets (in_dataset inp) (in_subset inp) i d ss /\ ss_patterns ss = Some patterns /\
    zlen refs = Z.max 0 (st_count st) /\
    forall s, 0 <= s < st_count st -> exists es ints,
      nth_error refs (Z.to_nat s) = Some ints /\
      files_of_step st patterns (ss_matches ss) s es /\
      trios ints (map (fun e => {| ref_dataset := Z.of_nat i; ref_subset := in_subset inp; ref_entry := e |})
                      (match es, in_missing inp with
                       | [], Allowed => [-1]
                       | _, _ => map Z.of_nat es
                       end)) /\
      (in_missing inp = NotAllowed -> es <> []).
Proof.
  intros ds st inp skip refs skip' Hl E. apply find_references_spec in E; [|assumption].
  destruct E as [(i & d & ss & pats & Hsub & Hp & Hz & Hall) _]. exists i, d, ss, pats. repeat (split; [assumption|]).
  intros s Hs. destruct (Hall s Hs) as (es & Hes & Hr & Hna). exists es. eexists. split; [exact Hr|]. split; [assumption|]. split; [|assumption].
  unfold step_refs.
  assert (match es with [] => if policy_eqb (in_missing inp) Allowed then [-1] else [] | _ => map Z.of_nat es end =
          match es, in_missing inp with [], Allowed => [-1] | _, _ => map Z.of_nat es end) as ->.
  { destruct es; [destruct (in_missing inp); reflexivity|reflexivity]. }
  generalize (match es, in_missing inp with [], Allowed => [-1] | _, _ => map Z.of_nat es end).
  clear. induction l as [|e l IH]; cbn; constructor; assumption.
Qed.
Print Assumptions C11_references_valid_and_complete.

(* Policy not_allowed: if the files can be assigned to steps and one step has none, the call fails. *)
Theorem C11_not_allowed_is_an_error :
  forall datasets st inp request_skip i d ss patterns groups s,
  subset_of datasets (in_dataset inp) (in_subset inp) i d ss -> ss_patterns ss = Some patterns ->
  step_to_matchgroup st patterns (ss_matches ss) = Ok groups ->
  in_missing inp = NotAllowed -> 0 <= s < st_count st -> files_of_step st patterns (ss_matches ss) s [] ->
  find_references datasets st inp request_skip = Err OperationException.
Proof. intros. eapply find_references_not_allowed; eassumption. Qed.
Print Assumptions C11_not_allowed_is_an_error.

(* Policy skip: exactly the steps without a file are added to the skip requests; no other policy requests a skip. *)
Theorem C11_skip_requests :
  forall datasets st inp request_skip refs request_skip',
  length request_skip = Z.to_nat (st_count st) ->
  find_references datasets st inp request_skip = Ok (refs, request_skip') ->
  length request_skip' = length request_skip /\
  forall n, (n < length request_skip)%nat ->
    (nth_error request_skip' n = Some true <->
     nth_error request_skip n = Some true \/
     (in_missing inp = SkipMissing /\ exists i d ss patterns,
        subset_of datasets (in_dataset inp) (in_subset inp) i d ss /\ ss_patterns ss = Some patterns /\
        files_of_step st patterns (ss_matches ss) (Z.of_nat n) [])).
Proof. intros ds st inp skip refs skip' Hl E. apply find_references_spec in E; [|assumption]. apply E. Qed.
Print Assumptions C11_skip_requests.

(* An input that stands for one file: no step has more than one. *)
Theorem C11_single_file_per_step :
  forall datasets st inp request_skip refs request_skip',
  length request_skip = Z.to_nat (st_count st) ->
  find_single_references datasets st inp request_skip = Ok (refs, request_skip') ->
  exists i d ss patterns,
    subset_of datasets (in_dataset inp) (in_subset inp) i d ss /\ ss_patterns ss = Some patterns /\
    forall s e e', 0 <= s < st_count st ->
      belongs st patterns (ss_matches ss) s e -> belongs st patterns (ss_matches ss) s e' -> e = e'.
Proof.
  intros ds st inp skip refs skip' Hl E. apply find_single_spec in E. destruct E as [E Hshort].
  apply find_references_spec in E; [|assumption]. destruct E as [(i & d & ss & pats & Hsub & Hp & Hz & Hall) _].
  exists i, d, ss, pats. split; [assumption|]. split; [assumption|]. intros s e e' Hs He He'.
  destruct (Hall s Hs) as (es & [_ Hes] & Hr & _). apply Hes in He, He'.
  assert ((3 <? zlen (step_refs i (in_subset inp) (in_missing inp) es)) = false) as H3 by (apply Hshort; eapply nth_error_In; eassumption).
  destruct es as [|a [|b es]]; [contradiction| |].
  - destruct He as [<-|[]], He' as [<-|[]]. reflexivity.
  - exfalso. unfold step_refs in H3. cbn [map flat_map app] in H3. rewrite !zlen_cons in H3.
    pose proof (zlen_nonneg (flat_map (fun e : Z => [Z.of_nat i; in_subset inp; e]) (map Z.of_nat es))). lia.
Qed.
Print Assumptions C11_single_file_per_step.

(* A data set or subset that the catalogue does not have is refused. *)
Theorem C11_unknown_dataset_refused :
  forall datasets st inp request_skip,
  (forall i d ss, ~ subset_of datasets (in_dataset inp) (in_subset inp) i d ss) ->
  find_references datasets st inp request_skip = Err OperationException.
Proof.
  intros ds st inp skip H. unfold find_references. destruct (datasubset ds (in_dataset inp) (in_subset inp)) as [ss|] eqn:E; [|reflexivity].
  apply datasubset_spec in E. destruct E as (i & d & E). now destruct (H i d ss).
Qed.
Print Assumptions C11_unknown_dataset_refused.

(* Finding: a policy that is none of the three is accepted, and a step without files silently gets an empty list. *)
Theorem C11_unrecognised_policy_refuted :
  exists datasets inp refs,
    in_missing inp = OtherPolicy /\
    find_references datasets ex_step inp [false; false; false; false] = Ok (refs, [false; false; false; false]) /\
    nth_error refs 2 = Some [].
Proof. exists [ex_inputs], (ex_in 0 OtherPolicy). eexists. repeat split. Qed.
Print Assumptions C11_unrecognised_policy_refuted.

Example C11_nonvacuous :
  find_references [ex_outputs; ex_inputs] ex_step (ex_in 0 SkipMissing) [false; false; false; false] =
    Ok ([[1; 0; 2]; [1; 0; 1; 1; 0; 3]; []; [1; 0; 0]], [false; false; true; false]) /\
  find_references [ex_inputs] ex_step (ex_in 0 NotAllowed) [false; false; false; false] = Err OperationException /\
  find_references [ex_inputs] ex_step (ex_in 0 Allowed) [false; false; false; false] =
    Ok ([[0; 0; 2]; [0; 0; 1; 0; 0; 3]; [0; 0; -1]; [0; 0; 0]], [false; false; false; false]) /\
  find_single_references [ex_inputs] ex_step (ex_in 0 Allowed) [false; false; false; false] = Err OperationException.
Proof. repeat split; reflexivity. Qed.

(* ============================================================ C12 *)

(* [kept]: the steps that are not skipped. *)
Theorem C12_skipped_steps_removed_consistently :
  forall tc datasets pathdefault rq datasets' op,
  resolve_operation_references tc datasets pathdefault rq = Ok (datasets', op) ->
  exists new kept,
    mapM (with_path pathdefault) (rq_newdatasets rq) = Ok new /\
    StronglySorted Z.lt kept /\
    (forall s, In s kept <-> 0 <= s < st_count (rq_step rq) /\ ~ should_skip (datasets ++ new) (rq_step rq) (rq_runmodule rq) s) /\
    op_count op = zlen kept /\
    lists_have_length (op_count op) (op_runmodule op) /\
    (* operation k, read from any later state of the catalogue, receives what the template says for the k-th kept step *)
    forall join final timestamp k s v,
      datasets_kept datasets' (ct_datasets final) ->
      nth_error kept k = Some s ->
      parameters_of (as_file join final) (op_count op) k timestamp (op_runmodule op) v ->
      receives join (datasets ++ new) (ct_datasets final) (ct_identifier final) timestamp (rq_step rq) s (rq_runmodule rq) v.
Proof.
  intros tc ds pd rq ds' op E. apply resolve_operation_parts in E. destruct E as (new & m & skip & q & Hnew & Ei & Eo & Hc & Hq & _).
  exists new, (not_skipped skip). split; [assumption|]. split; [apply not_skipped_sorted|]. pose proof (kept_steps _ _ _ _ _ Ei) as Hk.
  split; [assumption|]. split; [assumption|]. rewrite Hc, Hq.
  assert (forall s, In s (not_skipped skip) -> 0 <= s < st_count (rq_step rq) /\ ~ should_skip (ds ++ new) (rq_step rq) (rq_runmodule rq) s) as Hk' by (intros s; apply Hk).
  split.
  - apply (resolve_sound (fun a b => a) (ds ++ new) (rq_step rq) EmptyString EmptyString [] (rq_runmodule rq) _ _ _ _ _ _ _ ds' (init_skip_length _) Ei Hk' (datasets_kept_refl _) Eo (datasets_kept_refl _)).
  - intros join final ts k s v Kf Hn Hp.
    destruct (resolve_sound join (ds ++ new) (rq_step rq) (ct_identifier final) ts (ct_operations final) (rq_runmodule rq)
                _ _ _ _ _ _ _ (ct_datasets final) (init_skip_length _) Ei Hk' (datasets_kept_refl _) Eo Kf) as (_ & H & _).
    eapply H; eassumption.
Qed.
Print Assumptions C12_skipped_steps_removed_consistently.

(* And it does receive something: if the data sets have paths, and optional inputs come from subsets that are not
   empty, the parameters of every operation can be read from any later state of the catalogue. *)
Theorem C12_every_operation_has_its_parameters :
  forall tc datasets pathdefault rq datasets' op,
  resolve_operation_references tc datasets pathdefault rq = Ok (datasets', op) ->
  exists new, mapM (with_path pathdefault) (rq_newdatasets rq) = Ok new /\
  (files_reachable (datasets ++ new) (rq_runmodule rq) ->
   forall join final timestamp k, datasets_kept datasets' (ct_datasets final) -> Z.of_nat k < op_count op ->
   exists v, parameters_of (as_file join final) (op_count op) k timestamp (op_runmodule op) v).
Proof.
  intros tc ds pd rq ds' op E. apply resolve_operation_parts in E. destruct E as (new & m & skip & q & Hnew & Ei & Eo & Hc & Hq & _).
  exists new. split; [assumption|]. intros Hre join final ts k Kf Hlt. rewrite Hc, Hq in *.
  assert (forall s, In s (not_skipped skip) -> 0 <= s < st_count (rq_step rq) /\ ~ should_skip (ds ++ new) (rq_step rq) (rq_runmodule rq) s) as Hk' by (intros s; apply (kept_steps _ _ _ _ _ Ei)).
  destruct (resolve_sound join (ds ++ new) (rq_step rq) (ct_identifier final) ts (ct_operations final) (rq_runmodule rq)
                _ _ _ _ _ _ _ (ct_datasets final) (init_skip_length _) Ei Hk' (datasets_kept_refl _) Eo Kf) as (_ & _ & H).
  destruct (nth_error (not_skipped skip) k) as [s|] eqn:En; [|apply nth_error_None in En; unfold zlen in Hlt; lia].
  eapply H; eassumption.
Qed.
Print Assumptions C12_every_operation_has_its_parameters.

Definition ex_result : list dataset * operation :=
  Eval vm_compute in
  match resolve_operation_references ex_tc [ex_inputs] (Some "/out/"%string) ex_request with Ok r => r | Err _ => ([], {|
    op_name := None; op_class := None; op_function := None; op_count := 0; op_toolchain := []; op_runmodule := PLit 0 |}) end.
Definition ex_catalogue : catalogue := {| ct_identifier := "id1"%string; ct_datasets := fst ex_result; ct_operations := [snd ex_result] |}.

Example C12_nonvacuous :
  resolve_operation_references ex_tc [ex_inputs] (Some "/out/"%string) ex_request = Ok ex_result /\
  op_count (snd ex_result) = 3 /\
  resolve_single (as_file String.append ex_catalogue) 3 2 "now"%string (op_runmodule (snd ex_result)) =
    Ok (VNode [("inputs"%string, VPaths [Some "/in/D"%string]); ("when"%string, VLit 103);
               ("nested"%string, VNode [("index"%string, VLit 3); ("output"%string, VPath (Some "/out/D"%string))]);
               ("common"%string, VPath (Some "/out/Z"%string))]).
Proof. repeat split; reflexivity. Qed.

(* ============================================================ C13 *)

(* After an operation has been resolved, the subset of each output placeholder has no two entries of one name, has
   the entry of every kept step's output name, and no entry that does not come from a kept step. *)
Theorem C13_output_entries_unique_and_complete :
  forall tc datasets pathdefault rq datasets' op out,
  resolve_operation_references tc datasets pathdefault rq = Ok (datasets', op) ->
  has_output out (rq_runmodule rq) ->
  exists new i d ss patterns,
    mapM (with_path pathdefault) (rq_newdatasets rq) = Ok new /\
    subset_of datasets' (out_dataset out) (out_subset out) i d ss /\ ss_patterns ss = Some patterns /\
    NoDup (map en_name (ss_matches ss)) /\
    (forall f, In f (ss_matches ss) -> exists s, 0 <= s < st_count (rq_step rq) /\
       ~ should_skip (datasets ++ new) (rq_step rq) (rq_runmodule rq) s /\ st_output_entry (rq_step rq) patterns s = Ok f) /\
    (forall s, 0 <= s < st_count (rq_step rq) -> ~ should_skip (datasets ++ new) (rq_step rq) (rq_runmodule rq) s ->
       exists o f, st_output_entry (rq_step rq) patterns s = Ok o /\ In f (ss_matches ss) /\ en_name f = en_name o).
Proof.
  intros tc ds pd rq ds' op out E Ho. apply resolve_operation_parts in E. destruct E as (new & m & skip & q & Hnew & Ei & Eo & _).
  destruct (resolve_steps _ _ _ _ _ _ _ _ _ _ Ei Eo) as (outs & S & Houts). apply Houts in Ho.
  destruct (output_steps_targets _ _ _ _ _ _ S Ho) as (i & d & ss & d' & ss' & pats & _ & _ & H1 & H2 & H3 & H4 & H5).
  exists new, i, d', ss', pats. repeat (split; [assumption|]). split.
  - intros f Hf. destruct (H4 f Hf) as (s & Hs & Hf'). apply (kept_steps _ _ _ _ _ Ei) in Hs. exists s. intuition.
  - intros s Hs Hn. apply H5. apply (kept_steps _ _ _ _ _ Ei). auto.
Qed.
Print Assumptions C13_output_entries_unique_and_complete.

(* The references themselves: the k-th points at the entry named for the k-th operation; two operations share an
   entry exactly if the pattern gives them the same name; every entry is referenced. *)
Theorem C13_output_references :
  forall datasets st out indices refs datasets',
  operation_output_resolve datasets st out indices = Ok (refs, datasets') ->
  exists i d ss patterns es,
    subset_of datasets' (out_dataset out) (out_subset out) i d ss /\ ss_patterns ss = Some patterns /\
    refs = map (fun e => [Z.of_nat i; out_subset out; Z.of_nat e]) es /\
    Forall2 (fun s e => exists o f, st_output_entry st patterns s = Ok o /\ nth_error (ss_matches ss) e = Some f /\ en_name f = en_name o) indices es /\
    (forall k k' s s' e e' o o', nth_error indices k = Some s -> nth_error indices k' = Some s' ->
       nth_error es k = Some e -> nth_error es k' = Some e' ->
       st_output_entry st patterns s = Ok o -> st_output_entry st patterns s' = Ok o' ->
       (e = e' <-> en_name o = en_name o')) /\
    (forall e, (e < length (ss_matches ss))%nat -> In e es).
Proof.
  intros ds st out idx refs ds' E. pose proof (output_resolve_kept _ _ _ _ _ _ E) as K. apply output_resolve_spec in E.
  destruct E as (i & d & ss & pats & m & es & Hsub & Hm & Hp & E & Er & ND & F & Hnew).
  destruct (subset_of_kept _ _ _ _ _ _ _ K Hsub) as (d' & ss' & Hsub' & Kd & Ks).
  assert (ss_matches ss' = m) as Hm'.
  { destruct Hsub as (R & Hk & Hn). destruct Hsub' as (R' & _ & Hn'). pose proof R as (En & _). pose proof R' as (En' & _).
    rewrite E, nth_error_update_nth, En, Nat.eqb_refl in En'. cbn in En'. injection En' as <-. cbn [ds_subsets set_subsets] in Hn'.
    rewrite nth_error_update_nth, Hn, Nat.eqb_refl in Hn'. cbn in Hn'. injection Hn' as <-. reflexivity. }
  assert (Forall (fun e => 0 <= e) es) as Hpos. { clear -F. induction F as [|? ? ? ? (? & ? & _ & ? & _) _ IH]; constructor; auto. }
  exists i, d', ss', pats, (map Z.to_nat es). split; [assumption|]. split; [destruct Ks as [-> _]; assumption|]. rewrite Hm'.
  split.
  { rewrite Er, map_map. apply map_ext_in. intros e He. rewrite Forall_forall in Hpos. specialize (Hpos e He). now rewrite Z2Nat.id. }
  assert (Forall2 (fun s e => exists o f, st_output_entry st pats s = Ok o /\ nth_error m e = Some f /\ en_name f = en_name o) idx (map Z.to_nat es)) as F'.
  { clear -F. induction F as [|? ? ? ? (o & f & ? & ? & ? & ?) _ IH]; constructor; eauto. }
  split; [assumption|]. split.
  - intros k k' s s' e e' o o' H1 H2 H3 H4 H5 H6.
    destruct (Forall2_nth_l _ _ _ _ _ F' H1) as (e1 & G1 & o1 & f1 & G2 & G3 & G4). destruct (Forall2_nth_l _ _ _ _ _ F' H2) as (e2 & G5 & o2 & f2 & G6 & G7 & G8).
    assert (e1 = e) by congruence. assert (e2 = e') by congruence. assert (o1 = o) by congruence. assert (o2 = o') by congruence. subst e1 e2 o1 o2.
    split; [intros ->; congruence|]. intros Hn. apply (proj1 (NoDup_nth_error (map en_name m)) ND).
    + rewrite map_length. apply nth_error_Some. congruence.
    + rewrite !nth_error_map, G3, G7. cbn. congruence.
  - intros e He. destruct (nth_error m e) as [f|] eqn:Ef; [|apply nth_error_None in Ef; lia]. destruct (Hnew e f Ef) as [H _].
    apply in_map_iff. exists (Z.of_nat e). split; [lia|assumption].
Qed.
Print Assumptions C13_output_references.

Example C13_nonvacuous :
  exists refs0 refs1 ds0 ds1,
  operation_output_resolve [ex_inputs; ex_outputs] ex_step (ex_out 0) [0; 1; 3] = Ok (refs0, ds0) /\
  refs0 = [[1; 0; 0]; [1; 0; 1]; [1; 0; 2]] /\
  operation_output_resolve [ex_inputs; ex_outputs] ex_step (ex_out 1) [0; 1; 3] = Ok (refs1, ds1) /\
  refs1 = [[1; 1; 0]; [1; 1; 0]; [1; 1; 0]].
Proof. do 4 eexists. repeat split. Qed.

(* ============================================================ C14 *)

(* Success only if every output's data set and subset exist and have no entries. *)
Theorem C14_outputs_only_into_empty_subsets :
  forall tc datasets pathdefault rq datasets' op out,
  resolve_operation_references tc datasets pathdefault rq = Ok (datasets', op) ->
  has_output out (rq_runmodule rq) ->
  exists new i d ss,
    mapM (with_path pathdefault) (rq_newdatasets rq) = Ok new /\
    subset_of (datasets ++ new) (out_dataset out) (out_subset out) i d ss /\ ss_matches ss = [].
Proof.
  intros tc ds pd rq ds' op out E Ho. apply resolve_operation_parts in E. destruct E as (new & m & skip & q & Hnew & Ei & Eo & _).
  destruct (resolve_steps _ _ _ _ _ _ _ _ _ _ Ei Eo) as (outs & S & Houts). apply Houts in Ho.
  destruct (output_steps_targets _ _ _ _ _ _ S Ho) as (i & d & ss & d' & ss' & pats & H1 & H2 & _).
  exists new, i, d, ss. auto.
Qed.
Print Assumptions C14_outputs_only_into_empty_subsets.

(* The refusal itself, for one output. *)
Theorem C14_refused_otherwise :
  forall datasets st out indices,
  (forall i d ss, subset_of datasets (out_dataset out) (out_subset out) i d ss -> ss_matches ss <> []) ->
  operation_output_resolve datasets st out indices = Err OperationException.
Proof.
  intros ds st out idx H. unfold operation_output_resolve. destruct (datasubset ds (out_dataset out) (out_subset out)) as [ss|] eqn:E; [|reflexivity].
  apply datasubset_spec in E. destruct E as (i & d & E). pose proof (H i d ss E) as Hne.
  assert (datasetindex ds (out_dataset out) = Some i) as -> by (apply datasetindex_spec; exists d; apply E).
  destruct (0 <? zlen (ss_matches ss)) eqn:El; [reflexivity|]. destruct (ss_matches ss) as [|x l]; [contradiction|].
  rewrite zlen_cons in El. pose proof (zlen_nonneg l). lia.
Qed.
Print Assumptions C14_refused_otherwise.

(* Subsets that no output placeholder names are left exactly as they were. *)
Theorem C14_other_subsets_untouched :
  forall tc datasets pathdefault rq datasets' op,
  resolve_operation_references tc datasets pathdefault rq = Ok (datasets', op) ->
  exists new, mapM (with_path pathdefault) (rq_newdatasets rq) = Ok new /\
  length datasets' = length (datasets ++ new) /\
  forall i k d ss,
    nth_error (datasets ++ new) i = Some d -> nth_error (ds_subsets d) k = Some ss ->
    (forall out, has_output out (rq_runmodule rq) -> ~ (subset_of (datasets ++ new) (out_dataset out) (out_subset out) i d ss /\ out_subset out = Z.of_nat k)) ->
    exists d', nth_error datasets' i = Some d' /\ ds_name d' = ds_name d /\ ds_path d' = ds_path d /\ nth_error (ds_subsets d') k = Some ss.
Proof.
  intros tc ds pd rq ds' op E. apply resolve_operation_parts in E. destruct E as (new & m & skip & q & Hnew & Ei & Eo & _).
  destruct (resolve_steps _ _ _ _ _ _ _ _ _ _ Ei Eo) as (outs & S & Houts). exists new. split; [assumption|].
  pose proof (output_steps_shape _ _ _ _ _ S) as F. split; [symmetry; eapply Forall2_len; eassumption|].
  intros i k d ss Hd Hs Hno. destruct (output_steps_untouched _ _ _ _ _ S i k d ss Hd Hs) as [(out & H1 & H2 & H3)|(d' & H1 & H2)].
  - exfalso. apply (Hno out); [now apply Houts|]. split; [|assumption]. split; [assumption|]. split; [lia|]. rewrite H2. now rewrite Nat2Z.id.
  - exists d'. destruct (Forall2_nth_l _ _ _ _ _ F Hd) as (d2 & G1 & (G2 & G3 & _)). assert (d2 = d') by congruence. subst d2. auto.
Qed.
Print Assumptions C14_other_subsets_untouched.

Example C14_nonvacuous :
  operation_output_resolve [ex_inputs] ex_step {| out_dataset := "in"%string; out_subset := 0 |} [0] = Err OperationException /\
  operation_output_resolve [ex_inputs] ex_step (ex_out 0) [0] = Err OperationException /\
  is_ok (operation_output_resolve [ex_inputs; ex_outputs] ex_step (ex_out 0) [0]) = true /\
  (* a second operation into the same subset *)
  resolve_operation_references ex_tc (fst ex_result) (Some "/out/"%string)
    {| rq_name := None; rq_class := None; rq_function := Some "g"%string; rq_runmodule := BOutputFile (ex_out 0);
       rq_step := ex_step; rq_newdatasets := [] |} = Err OperationException.
Proof. repeat split; reflexivity. Qed.

(* ============================================================ C15 *)

(* One call of the catalogue builder. *)
Record build_call := { bc_identifier : string; bc_description : option descriptor; bc_filter : option string;
                       bc_update : bool; bc_overwrite : bool; bc_pathdefault : option string; bc_path : string;
                       bc_tc : string -> result (list string); bc_search : dataset -> dataset }.
Definition run_call (savable : catalogue -> bool) (fs : filesystem) (c : build_call) : filesystem :=
  fst (build_from_json_file (bc_tc c) (bc_search c) (bc_identifier c) savable fs (bc_description c) (bc_path c)
         (bc_filter c) (bc_update c) (bc_overwrite c) (bc_pathdefault c)).

(* Data sets and operations are kept, at the same index and (for subsets that had entries) with the same content. *)
Definition catalogue_kept (old new : catalogue) : Prop :=
  datasets_kept (ct_datasets old) (ct_datasets new) /\ exists added, ct_operations new = ct_operations old ++ added.

Lemma run_call_kept savable (Hsav : forall c, savable c = true) fs c path old :
  (bc_path c = path -> bc_update c = true \/ bc_overwrite c = false) -> fs path = Some (Complete old) ->
  exists new, run_call savable fs c path = Some (Complete new) /\ catalogue_kept old new.
Proof.
  intros Hc Hfs. assert (catalogue_kept old old) as Krefl. { split; [apply datasets_kept_refl|]. exists []. now rewrite app_nil_r. }
  unfold run_call, build_from_json_file. destruct (bc_description c) as [d|]; [|exists old; split; assumption].
  assert (forall b, (bc_path c = path -> bc_update c = true) -> exists new, fst (build (bc_tc c) (bc_search c) (bc_identifier c) savable fs d (bc_path c) (bc_update c) (bc_filter c) b) path = Some (Complete new) /\ catalogue_kept old new) as Hb.
  { intros b Hup. destruct (build (bc_tc c) (bc_search c) (bc_identifier c) savable fs d (bc_path c) (bc_update c) (bc_filter c) b) as [fs' [[]|e]] eqn:E.
    - apply build_saved in E. destruct E as (od & oo & ds' & ops' & Hold & _ & Er & ->). cbn [fst]. unfold fs_write.
      destruct (String.eqb_spec path (bc_path c)) as [->|Hne].
      + rewrite (Hup eq_refl) in Hold. destruct Hold as (old' & Ho & -> & ->). assert (old' = old) by congruence. subst old'.
        eexists. split; [reflexivity|]. split; cbn; [|eauto]. eapply datasets_kept_trans; [apply datasets_kept_app|eapply resolve_all_kept; eassumption].
      + exists old. auto.
    - apply build_failed in E; [|assumption]. subst fs'. exists old. auto. }
  destruct (fs (bc_path c)) as [x|] eqn:Ex.
  - destruct (negb (bc_update c) && negb (bc_overwrite c)) eqn:Ef; [exists old; auto|]. apply Hb. intros Hp. destruct (Hc Hp) as [H|H]; [assumption|].
    rewrite H in Ef. destruct (bc_update c); [reflexivity|discriminate].
  - apply Hb. intros Hp. rewrite Hp in Ex. congruence.
Qed.

(* Histories: any number of builder calls, successful or not, of which none overwrites this catalogue; catalogues
   at other paths may be built, updated or overwritten in between. *)
Theorem C15_updates_preserve_history :
  forall savable calls fs path old,
  (forall c, savable c = true) ->
  (forall c, In c calls -> bc_path c = path -> bc_update c = true \/ bc_overwrite c = false) ->
  fs path = Some (Complete old) ->
  exists new, fold_left (run_call savable) calls fs path = Some (Complete new) /\ catalogue_kept old new.
Proof.
  intros savable calls fs path old Hs. revert fs old. induction calls as [|c calls IH]; intros fs old Hc Hfs.
  - exists old. split; [assumption|]. split; [apply datasets_kept_refl|]. exists []. now rewrite app_nil_r.
  - destruct (run_call_kept savable Hs fs c path old (Hc c (or_introl eq_refl)) Hfs) as (mid & Hm & K1 & a1 & O1).
    destruct (IH _ mid (fun c' H' => Hc c' (or_intror H')) Hm) as (new & Hn & K2 & a2 & O2). exists new. split; [exact Hn|].
    split; [eapply datasets_kept_trans; eassumption|]. exists (a1 ++ a2). rewrite O2, O1. now rewrite app_assoc.
Qed.
Print Assumptions C15_updates_preserve_history.

(* So every stored operation keeps its meaning: what it would be run with is the same afterwards, apart from the
   identifier of the catalogue. *)
Theorem C15_operations_keep_their_meaning :
  forall join old new op k timestamp v,
  catalogue_kept old new -> In op (ct_operations old) ->
  parameters_of (as_file join old) (op_count op) k timestamp (op_runmodule op) v ->
  In op (ct_operations new) /\
  exists v', parameters_of (as_file join new) (op_count op) k timestamp (op_runmodule op) v' /\ same_but_identifier (ct_identifier new) v v'.
Proof.
  intros join old new op k ts v [K [added Hops]] Hin H. split; [rewrite Hops; apply in_or_app; now left|]. eapply parameters_kept; eassumption.
Qed.
Print Assumptions C15_operations_keep_their_meaning.

(* Finding: "same content" is too strong. An update may add entries to an existing data set, if its subset was empty. *)
Theorem C15_same_content_refuted :
  exists datasets rq datasets' op,
    rq_newdatasets rq = [] /\
    resolve_operation_references ex_tc datasets None rq = Ok (datasets', op) /\
    nth_error datasets 1 = Some ex_outputs /\ nth_error datasets' 1 <> Some ex_outputs.
Proof.
  exists [ex_inputs; ex_outputs], {| rq_name := None; rq_class := None; rq_function := Some "g"%string; rq_runmodule := BOutputFile (ex_out 0);
       rq_step := ex_step; rq_newdatasets := [] |}. do 2 eexists. split; [reflexivity|]. split; [reflexivity|]. split; [reflexivity|]. discriminate.
Qed.
Print Assumptions C15_same_content_refuted.

(* Finding: an update may add an operation of a name that is already used; then neither can be run by name. *)
Theorem C15_name_clash_refuted :
  exists (savable : catalogue -> bool) fs path call old new op,
    (forall c, savable c = true) /\ fs path = Some (Complete old) /\ bc_update call = true /\
    run_call savable fs call path = Some (Complete new) /\
    load_operation (as_file String.append old) "op" = Ok op /\
    load_operation (as_file String.append new) "op" = Err ValueError.
Proof.
  exists (fun _ => true), (fun _ => Some (Complete ex_catalogue)), "cat"%string.
  exists {| bc_identifier := "id2"%string; bc_description := Some {| dc_datasets := []; dc_operations :=
              [{| rq_name := Some "op"%string; rq_class := None; rq_function := Some "other.run"%string; rq_runmodule := BStepIndex;
                  rq_step := ex_step; rq_newdatasets := [] |}] |};
            bc_filter := None; bc_update := true; bc_overwrite := false; bc_pathdefault := None; bc_path := "cat"%string; bc_tc := ex_tc; bc_search := fun d => d |}.
  do 3 eexists. repeat split; vm_compute; reflexivity.
Qed.
Print Assumptions C15_name_clash_refuted.

Definition ex_fs : filesystem := fun p => if String.eqb p "cat" then Some (Complete ex_catalogue) else None.
Definition ex_update : build_call :=
  {| bc_identifier := "id2"%string; bc_description := Some {| dc_datasets := [ex_inputs]; dc_operations :=
       [{| rq_name := Some "later"%string; rq_class := None; rq_function := Some "later.run"%string;
           rq_runmodule := BNode [("in"%string, BInputFile {| in_dataset := "out"%string; in_subset := 0; in_missing := SkipMissing |})];
           rq_step := ex_step; rq_newdatasets := [] |}] |};
     bc_filter := None; bc_update := true; bc_overwrite := false; bc_pathdefault := None; bc_path := "cat"%string; bc_tc := ex_tc; bc_search := fun d => d |}.
Example C15_nonvacuous :
  exists new, fold_left (run_call (fun _ => true)) [ex_update; ex_update] ex_fs "cat"%string = Some (Complete new) /\
    zlen (ct_datasets new) = 4 /\ zlen (ct_operations new) = 3 /\
    resolve_single (as_file String.append new) 3 1 "now"%string (op_runmodule (nth 1 (ct_operations new) (snd ex_result))) =
      Ok (VNode [("in"%string, VPath (Some "/out/B"%string))]).
Proof. eexists. split; [vm_compute; reflexivity|]. repeat split; vm_compute; reflexivity. Qed.

(* ============================================================ C16 *)

Section C16.
  Variables (tc : string -> result (list string)) (search : dataset -> dataset) (newid : string) (savable : catalogue -> bool).
  Notation call := (build_from_json_file tc search newid savable).

  (* Neither update nor overwrite: an existing file is refused and nothing is written. *)
  Theorem C16_existing_catalogue_refused :
    forall fs description path filter pathdefault content,
    fs path = Some content ->
    call fs description path filter false false pathdefault = (fs, Err ValueError).
  Proof. intros fs [d|] path filter pd content H; cbn; [rewrite H|]; reflexivity. Qed.

  (* An update of a file that is not there, or not complete, fails and nothing is written. *)
  Theorem C16_update_needs_a_catalogue :
    forall fs description path filter overwrite pathdefault,
    (forall c, fs path <> Some (Complete c)) ->
    exists e, call fs description path filter true overwrite pathdefault = (fs, Err e).
  Proof.
    intros fs [d|] path filter ow pd H; cbn [build_from_json_file]; [|eauto].
    assert (exists e, build tc search newid savable fs d path true filter pd = (fs, Err e)) as [e He].
    { unfold build. destruct (truthy_string filter); [destruct (datasetindex _ _); eauto|]. unfold fs_load.
      destruct (fs path) as [[c|]|] eqn:E; cbn; [|eauto|eauto]. exfalso. eapply H. reflexivity. }
    destruct (fs path) as [c|]; [|eauto]. cbn. eauto.
  Qed.

  (* Only the named path is ever written. *)
  Theorem C16_only_the_named_path_is_written :
    forall fs description path filter update overwrite pathdefault p,
    p <> path -> fst (call fs description path filter update overwrite pathdefault) p = fs p.
  Proof.
    intros fs [d|] path filter up ow pd p Hp; cbn [build_from_json_file]; [|reflexivity].
    assert (fst (build tc search newid savable fs d path up filter pd) p = fs p) as Hb.
    { unfold build. destruct (truthy_string filter); [reflexivity|].
      destruct (if up then do old <- fs_load fs path; Ok (ct_datasets old ++ map search (dc_datasets d), ct_operations old)
              else Ok (map search (dc_datasets d), [])) as [[ds ops]|]; [|reflexivity].
      destruct (resolve_all _ _ _ _) as [[ds' ops']|]; [|reflexivity].
      destruct (savable _); cbn; unfold fs_write; destruct (String.eqb_spec p path); congruence. }
    destruct (fs path); [|assumption]. destruct (negb up && negb ow); [reflexivity|assumption].
  Qed.

  (* If everything can be written, a failed call leaves the file system as it was, and a successful one leaves a
     complete catalogue at the path. *)
  Theorem C60_all_or_nothing_partial :
    forall fs description path filter update overwrite pathdefault fs' r,
    (forall c, savable c = true) ->
    call fs description path filter update overwrite pathdefault = (fs', r) ->
    match r with
    | Err _ => fs' = fs
    | Ok _ => exists c, fs' path = Some (Complete c) /\ ct_identifier c = newid
    end.
  Proof.
    intros fs [d|] path filter up ow pd fs' r Hs; cbn [build_from_json_file]; [|intros E; injection E as <- <-; reflexivity].
    assert (build tc search newid savable fs d path up filter pd = (fs', r) ->
       match r with Err _ => fs' = fs | Ok _ => exists c, fs' path = Some (Complete c) /\ ct_identifier c = newid end) as Hb.
    { intros E. destruct r as [[]|e].
      - apply build_saved in E. destruct E as (? & ? & ? & ? & _ & _ & _ & ->). eexists. unfold fs_write. rewrite String.eqb_refl. split; reflexivity.
      - eapply build_failed; eassumption. }
    destruct (fs path); [|exact Hb]. destruct (negb up && negb ow); [intros E; injection E as <- <-; reflexivity|exact Hb].
  Qed.

  (* Finding: a data set filter always fails. *)
  Theorem C16_dataset_filter_refuted :
    forall fs description path filter update overwrite pathdefault,
    truthy_string filter = true ->
    exists e, call fs description path filter update overwrite pathdefault = (fs, Err e).
  Proof.
    intros fs [d|] path filter up ow pd H; cbn [build_from_json_file]; [|eauto].
    assert (exists e, build tc search newid savable fs d path up filter pd = (fs, Err e)) as [e He].
    { unfold build. rewrite H. destruct (datasetindex _ _); eauto. }
    destruct (fs path); [|eauto]. destruct (negb up && negb ow); eauto.
  Qed.
End C16.
Print Assumptions C16_existing_catalogue_refused.
Print Assumptions C16_update_needs_a_catalogue.
Print Assumptions C16_only_the_named_path_is_written.
Print Assumptions C60_all_or_nothing_partial.
Print Assumptions C16_dataset_filter_refuted.

(* Finding: saving is not atomic. The file is emptied before the new contents are written, so an update that fails
   while writing destroys the catalogue that was there. *)
Theorem C60_failed_save_refuted :
  exists savable fs call old e,
    fs (bc_path call) = Some (Complete old) /\ bc_update call = true /\
    snd (build_from_json_file (bc_tc call) (bc_search call) (bc_identifier call) savable fs (bc_description call) (bc_path call)
         (bc_filter call) (bc_update call) (bc_overwrite call) (bc_pathdefault call)) = Err e /\
    run_call savable fs call (bc_path call) = Some Truncated.
Proof. exists (fun _ => false), ex_fs, ex_update. do 2 eexists. repeat split; vm_compute; reflexivity. Qed.
Print Assumptions C60_failed_save_refuted.

Example C16_nonvacuous :
  run_call (fun _ => true) ex_fs {| bc_identifier := "id2"%string; bc_description := bc_description ex_update; bc_filter := None;
     bc_update := false; bc_overwrite := false; bc_pathdefault := None; bc_path := "cat"%string; bc_tc := ex_tc; bc_search := fun d => d |} "cat"%string
    = Some (Complete ex_catalogue) /\
  (exists c, run_call (fun _ => true) ex_fs ex_update "cat"%string = Some (Complete c) /\ c <> ex_catalogue) /\
  run_call (fun _ => true) (fun _ => None) ex_update "cat"%string = None.
Proof. split; [vm_compute; reflexivity|]. split; [|vm_compute; reflexivity]. eexists. split; [vm_compute; reflexivity|]. discriminate. Qed.

(* ============================================================ C59 *)

(* An operation whose optional input comes from a subset without entries is accepted by the catalogue builder with
   the missing marker, but reading its parameters then fails. *)
Theorem C59_missing_optional_input_refuted :
  exists rq datasets' op,
    rq_runmodule rq = BInputFile (ex_in 1 Allowed) /\
    resolve_operation_references ex_tc [ex_inputs] None rq = Ok (datasets', op) /\
    op_count op = 4 /\
    forall join c timestamp k v, ct_datasets c = datasets' ->
      ~ parameters_of (as_file join c) (op_count op) k timestamp (op_runmodule op) v.
Proof.
  exists {| rq_name := None; rq_class := None; rq_function := Some "g"%string; rq_runmodule := BInputFile (ex_in 1 Allowed);
       rq_step := ex_step; rq_newdatasets := [] |}. do 2 eexists. split; [reflexivity|]. split; [vm_compute; reflexivity|]. split; [reflexivity|].
  intros join c ts k v Hc H. apply po_ref_inv in H. destruct H as (ints & refs & paths & _ & H1 & H2 & H3 & _).
  destruct k as [|[|[|[|k]]]]; cbn in H1; [| | | |destruct k; discriminate]; injection H1 as <-;
    (inversion H2 as [|? ? ? ? ? H4]; subst; inversion H4; subst; cbn in H3; rewrite Hc in H3; vm_compute in H3; discriminate).
Qed.
Print Assumptions C59_missing_optional_input_refuted.

(* From a subset with at least one entry the marker does give "no file". *)
Theorem C59_missing_optional_input_from_nonempty_subset :
  forall join datasets name k i d ss,
  subset_of datasets name k i d ss -> ss_matches ss <> [] ->
  load_data_pathnames join datasets [{| ref_dataset := Z.of_nat i; ref_subset := k; ref_entry := -1 |}] = Ok [None].
Proof.
  intros join ds name k i d ss ((E & _) & Hk & Hn) Hne. unfold load_data_pathnames. cbn [mapM]. unfold load_one_pathname. cbn [ref_dataset ref_subset ref_entry].
  replace ((Z.of_nat i <? 0) || (k <? 0)) with false by lia. rewrite Nat2Z.id, E, Hn. destruct (ss_matches ss); [contradiction|reflexivity].
Qed.
Print Assumptions C59_missing_optional_input_from_nonempty_subset.

Example C59_nonvacuous :
  load_data_pathnames String.append [ex_inputs] [{| ref_dataset := 0; ref_subset := 0; ref_entry := -1 |}] = Ok [None].
Proof. reflexivity. Qed.
