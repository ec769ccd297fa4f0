(* Proofs about the descriptor of diagnostic operations. *)
From Coq Require Import String Ascii ZifyBool.
From Verif Require Import Base Grid_Model NcObj_Model Fill_Model Fill_Spec Fill_Proofs Fill_Chain Fill_Total Diagop_Model Diagop_Spec.
Open Scope string_scope.
Open Scope list_scope.
Open Scope Z_scope.

Definition large_apart (f : filler) : Prop := f_solution_climatology f <> f_solution_large_scale f /\ f_solution_local_scale f <> f_solution_large_scale f.

Lemma state_input_skipped f n i j s d large : d <> large -> state_input f n i (Some [large]) j (s, d) = Ok j.
Proof. intros N. unfold state_input. cbn [existsb]. now rewrite (proj2 (String.eqb_neq _ _) N). Qed.
Lemma state_inputs_large f n i j : large_apart f ->
  fill_state_inputs f n i (Some [f_solution_large_scale f]) j = state_input f n i (Some [f_solution_large_scale f]) j ("storage_large_scale", f_solution_large_scale f).
Proof.
  intros [N0 N2]. unfold fill_state_inputs. cbn [STORAGE_LIST solution_names combine]. rewrite foldM_three, (state_input_skipped f n i j) by exact N0. cbn [bind].
  destruct (state_input f n i (Some [f_solution_large_scale f]) j ("storage_large_scale", f_solution_large_scale f)) as [j'|e]; cbn [bind]; [|reflexivity].
  rewrite state_input_skipped by exact N2. reflexivity.
Qed.

Definition large_key (key : string) : list step := [K "runmodule"; K "storage_large_scale"; K key].
Definition LARGE_KEYS : list (list step) := map large_key ["statefilename_read"; "sample_filename_read"; "prior_sample_filename_read"].

Lemma state_input_large f n i j j' : large_apart f -> state_input f n i (Some [f_solution_large_scale f]) j ("storage_large_scale", f_solution_large_scale f) = Ok j' ->
  effect LARGE_KEYS (map (fun d => (INPUT_FILE, d)) (large_scale_sets f n i)) j j' /\
  get (large_key "statefilename_read") j' = Ok (reference INPUT_FILE (numbered (f_solution_large_scale f) i)) /\
  (i = n - 1 -> get (large_key "sample_filename_read") j' = Ok (reference INPUT_FILE (numbered (sample_of (f_solution_large_scale f)) i)) /\
     get (large_key "prior_sample_filename_read") j' = Ok (reference INPUT_FILE (numbered (prior_sample_of (f_solution_large_scale f)) i))) /\
  (i <> n - 1 -> get (large_key "sample_filename_read") j' = get (large_key "sample_filename_read") j /\
     get (large_key "prior_sample_filename_read") j' = get (large_key "prior_sample_filename_read") j).
Proof.
  intros [_ N2] H. unfold state_input in H. cbn [existsb] in H. rewrite String.eqb_refl in H. cbn [orb negb] in H. apply bind_ok in H. destruct H as (r & _ & H).
  destruct r as [| | | |m]; try discriminate. rewrite (proj2 (String.eqb_neq (f_solution_large_scale f) (f_solution_local_scale f))) in H by congruence. cbn [negb] in H.
  unfold large_scale_sets. apply bind_ok in H. destruct H as (j1 & E1 & H). destruct (i =? n - 1) eqn:Q.
  - apply bind_ok in H. destruct H as (j2 & E2 & H). split; [|split; [|split]].
    + change (large_key "statefilename_read") with [K "runmodule"; K "storage_large_scale"; K "statefilename_read"] in *.
      refine (effect_trans [large_key "statefilename_read"; large_key "sample_filename_read"] [(INPUT_FILE, numbered (f_solution_large_scale f) i); (INPUT_FILE, numbered (sample_of (f_solution_large_scale f)) i)]
                [large_key "prior_sample_filename_read"] [(INPUT_FILE, numbered (prior_sample_of (f_solution_large_scale f)) i)] _ _ _ _ _).
      * refine (effect_trans [_] [_] [_] [_] _ _ _ _ _); [eff_one E1|eff_one E2].
      * eff_one H.
    + unfold large_key. rewrite (get_put_diverge _ _ _ _ _ H) by reflexivity. rewrite (get_put_diverge _ _ _ _ _ E2) by reflexivity. exact (get_put_same _ _ _ _ E1).
    + intros _. unfold large_key. split; [rewrite (get_put_diverge _ _ _ _ _ H) by reflexivity; exact (get_put_same _ _ _ _ E2)|exact (get_put_same _ _ _ _ H)].
    + intros X. lia.
  - injection H as <-. split; [|split; [|split]].
    + eapply effect_weaken; [eff_one E1| |apply incl_refl]. intros x [<-|[]]. now left.
    + exact (get_put_same _ _ _ _ E1).
    + intros X. lia.
    + intros _. unfold large_key. split; apply (get_put_diverge _ _ _ _ _ E1); reflexivity.
Qed.

(* the assignments between the primary keys and the data set *)
Definition SETTINGS : list (list step) :=
  [[K "runmodule"; K "component_index"]; [K "step"]; [K "runmodule"; K "python_function"]; [K "name"]; [K "runmodule"; K "insitu_biases"]; [K "runmodule"; K "global_biases"];
   [K "runmodule"; K "compute_uncertainties"]; [K "runmodule"; K "method"]; [K "runmodule"; K "compute_sample"]; [K "runmodule"; K "sample_size"]; [K "runmodule"; K "compute_prior_sample"];
   [K "runmodule"; K "first_year"]; [K "runmodule"; K "last_year"]; [K "runmodule"; K "outputfile"]].

Record extracts (f : filler) (n : Z) (t op : json) (i c : Z) (command dataset : string) : Prop := {
  x_outline : outlines t op EXTRACT_STATION_BIASES (Some c) (large_scale_sets f n i) [numbered dataset i]
     [(Some (numbered dataset i), JList [JStr (numbered dataset i); JStr (numbered dataset i ++ ".pickle")%string])]
     (fun k w => if k =? 1 then match w with State => Some (numbered (f_solution_large_scale f) i)
        | Sample => when (i =? n - 1) (numbered (sample_of (f_solution_large_scale f)) i) | PriorSample => when (i =? n - 1) (numbered (prior_sample_of (f_solution_large_scale f)) i) | Measurement => None end else None)
     nowhere;
  x_once : get [K "step"] op = Ok (of_class "eumopps.catalogue.step.StepOnce");
  x_name : get [K "name"] op = Ok (JStr (numbered command i));
  x_land : get [K "runmodule"; K "insitu_biases"] op = Ok (f_land_biases f);
  x_global : get [K "runmodule"; K "global_biases"] op = Ok (f_global_biases f);
  x_first : get [K "runmodule"; K "first_year"] op = Ok (JStr (substring 0 4 (f_start_date f ++ "000000")));
  x_last : get [K "runmodule"; K "last_year"] op = Ok (JStr (substring 0 4 (f_end_date f ++ "000000")));
  x_output : get [K "runmodule"; K "outputfile"] op = Ok (reference OUTPUT_FILE (numbered dataset i));
  x_gone : forall k, In k NOT_SOLVED -> get [K "runmodule"; K k] op = Err KeyError;
  x_fixed : forall k v, In (k, v) [("compute_uncertainties", JNum 0); ("method", JStr "EXACT"); ("compute_sample", JNum 0); ("sample_size", JNum 30); ("compute_prior_sample", JNum 0)] ->
    get [K "runmodule"; K k] op = Ok v }.

Lemma extract_extracts f n t i c command dataset op : settled f -> blank t -> large_apart f -> fill_extract_station_biases f n t i c command dataset = Ok op ->
  extracts f n t op i c command dataset.
Proof.
  intros S B A H. unfold fill_extract_station_biases in H. rename i into it. apply bind_ok in H. destruct H as (t0 & H0 & H). pose proof B as (BS & (d0 & BD) & BW).
  destruct (primary_effect _ _ _ _ _ _ _ S H0) as [F0 A0]. specialize (A0 d0 BD).
  do 14 (apply bind_ok in H; let j := fresh "a" in let E := fresh "P" in destruct H as (j & E & H)).
  apply bind_ok in H. destruct H as (d1 & G1 & H). apply bind_ok in H. destruct H as (d2 & G2 & H). apply bind_ok in H. destruct H as (d3 & G3 & H).
  apply bind_ok in H. destruct H as (b & H1 & H). apply bind_ok in H. destruct H as (e & H2 & H3). rewrite state_inputs_large in H2 by exact A.
  set (name := numbered dataset it) in *.
  assert (F1 : effect SETTINGS [(OUTPUT_FILE, name)] t0 a12).
  { destruct S as [SL SG]. clear - SL SG P P0 P1 P2 P3 P4 P5 P6 P7 P8 P9 P10 P11 P12.
    refine (effect_trans (removelast SETTINGS) [] [_] [_] _ _ _ _ _); [|eff_one P12]. clear P12. eapply effect_weaken; [eff| |apply incl_refl]. apply incl_refl. }
  assert (DD : describe d3 = (Some name, JList [JStr name; JStr (name ++ ".pickle")%string])).
  { unfold describe, text_at. rewrite (get_put_diverge _ _ _ _ _ G3) by reflexivity. rewrite (get_put_same _ _ _ _ G2), (get_put_same _ _ _ _ G3). reflexivity. }
  assert (RD : forall C x, refers C x d3 -> refers C x d1).
  { intros C x R. destruct (refers_put _ _ _ _ _ _ G3 ltac:(discriminate) eq_refl R) as [R'|R'].
    - destruct (refers_put _ _ _ _ _ _ G2 ltac:(discriminate) eq_refl R') as [R''|R'']; [exact R''|inversion R''].
    - inversion R' as [| |l v I R'']; subst. destruct I as [<-|[<-|[]]]; inversion R''. }
  assert (F2 : effect [[K "newdatasets"]] [] a12 b) by (apply (put_first_effect _ _ _ H1); intros C x X; apply (refers_get C x _ _ _ G1); now apply RD).
  destruct (state_input_large _ _ _ _ _ A H2) as (F3 & L1 & L2 & L3). pose proof (not_solved_effect _ _ H3) as F4.
  pose proof (effect_trans _ _ _ _ _ _ _ (effect_trans _ _ _ _ _ _ _ (effect_trans _ _ _ _ _ _ _ (effect_trans _ _ _ _ _ _ _ F0 F1) F2) F3) F4) as FF.
  pose proof (effect_trans _ _ _ _ _ _ _ (effect_trans _ _ _ _ _ _ _ F2 F3) F4) as FT.
  assert (SET : forall q v, forallb (fun p => diverge p q) ([[K "newdatasets"]] ++ LARGE_KEYS ++ GONE) = true -> get q a12 = Ok v -> get q op = Ok v).
  { intros q v D G. rewrite (proj1 FT); [exact G|]. rewrite <- app_assoc. exact D. }
  assert (NAMES : exists ds, get [K "newdatasets"] op = Ok (JList ds) /\ map describe ds = [(Some name, JList [JStr name; JStr (name ++ ".pickle")%string])]).
  { destruct A0 as (ds & Gd & Md). destruct ds as [|x [|y l]]; try discriminate Md. exists [d3]. split; [|cbn [map]; now rewrite DD].
    rewrite (proj1 F4) by reflexivity. rewrite (proj1 F3) by reflexivity. change [K "newdatasets"; First] with ([K "newdatasets"] ++ [First]) in H1.
    rewrite (get_put_prefix [K "newdatasets"] [First] _ _ _ ltac:(discriminate) H1). rewrite (proj1 F1) by reflexivity. rewrite Gd. reflexivity. }
  assert (LK : forall key v, In key ["statefilename_read"; "sample_filename_read"; "prior_sample_filename_read"] -> get (large_key key) e = v -> get (large_key key) op = v).
  { intros key v I <-. apply (proj1 F4). destruct I as [<-|[<-|[<-|[]]]]; reflexivity. }
  assert (EB : forall k key, component k -> In key ["statefilename_read"; "statefilelist_read"; "sample_filename_read"; "sample_filelist_read"; "prior_sample_filename_read"; "prior_sample_filelist_read"; "measurementfilelist_read"] -> entry k key t = None).
  { intros k key Ck I. pose proof (proj1 (BS k State)) as QS. pose proof (proj1 (BS k Sample)) as QA. pose proof (proj1 (BS k PriorSample)) as QP. pose proof (proj1 (BS k Measurement)) as QM.
    unfold source, either in QS, QA, QP, QM. clear - QS QA QP QM I.
    destruct (entry k "statefilename_read" t) eqn:?; [discriminate|]. destruct (entry k "sample_filename_read" t) eqn:?; [discriminate|]. destruct (entry k "prior_sample_filename_read" t) eqn:?; [discriminate|].
    cbn [In] in I. intuition (subst key; assumption). }
  constructor.
  - constructor.
    + unfold text_at. rewrite (SET [K "runmodule"; K "python_function"] (JStr EXTRACT_STATION_BIASES)); [reflexivity|reflexivity|]. repeat (back; try reflexivity).
    + intros c' [= <-]. apply SET; [reflexivity|]. repeat (back; try reflexivity).
    + intros X; discriminate X.
    + intros d R. destruct (reads_effect _ _ _ _ FF d R) as [R'|(x & I & J)]; [now left|right]. rewrite !in_app_iff in I. destruct I as [[[[[]|I]|[]]|I]|[]].
      * destruct I as [[= <- <-]|[]]. now apply output_file_in in J.
      * apply in_map_iff in I. destruct I as (y & [= <- <-] & I). exact I.
    + intros d I. unfold large_scale_sets in I. destruct I as [<-|I].
      * apply (refers_get _ _ (large_key "statefilename_read") op (reference INPUT_FILE (numbered (f_solution_large_scale f) it))); [|apply refers_this, input_file_in]. apply LK; [now left|exact L1].
      * destruct (it =? n - 1) eqn:Q; [|destruct I]. destruct (L2 ltac:(lia)) as [LA LB]. destruct I as [<-|[<-|[]]].
        -- apply (refers_get _ _ (large_key "sample_filename_read") op (reference INPUT_FILE (numbered (sample_of (f_solution_large_scale f)) it))); [|apply refers_this, input_file_in]. apply LK; [right; now left|exact LA].
        -- apply (refers_get _ _ (large_key "prior_sample_filename_read") op (reference INPUT_FILE (numbered (prior_sample_of (f_solution_large_scale f)) it))); [|apply refers_this, input_file_in]. apply LK; [right; right; now left|exact LB].
    + intros d. split.
      * intros W. destruct (writes_effect _ _ _ _ FF BW d W) as (x & I & J). rewrite !in_app_iff in I. destruct I as [[[[[]|I]|[]]|I]|[]].
        -- destruct I as [[= <- <-]|[]]. now left.
        -- apply in_map_iff in I. destruct I as (y & [= <- <-] & I). now apply input_file_out in J.
      * intros [<-|[]]. apply (refers_get _ _ [K "runmodule"; K "outputfile"] op (reference OUTPUT_FILE name)); [|apply refers_this, output_file_out].
        apply SET; [reflexivity|]. exact (get_put_same _ _ _ _ P12).
    + exact NAMES.
    + intros k w Ck. destruct (k =? 1) eqn:Q.
      * assert (k = 1) as -> by lia. destruct w.
        -- unfold source, either. rewrite (entry_get 1 "statefilename_read" op INPUT_FILE (numbered (f_solution_large_scale f) it)); [reflexivity|]. apply LK; [now left|exact L1].
        -- unfold source, either. destruct (it =? n - 1) eqn:Qi; cbn [when].
           ++ rewrite (entry_get 1 "sample_filename_read" op INPUT_FILE (numbered (sample_of (f_solution_large_scale f)) it)); [reflexivity|]. apply LK; [right; now left|exact (proj1 (L2 ltac:(lia)))].
           ++ assert (Z1 : entry 1 "sample_filename_read" op = None).
              { rewrite <- (EB 1 "sample_filename_read" Ck ltac:(cbn; tauto)). unfold entry. apply (text_of_same [K "runmodule"; K (storage_of 1); K "sample_filename_read"] [K "datasetname"]).
                change (get (large_key "sample_filename_read") op = get (large_key "sample_filename_read") t). rewrite (LK "sample_filename_read" (get (large_key "sample_filename_read") b) ltac:(right; now left) (proj1 (L3 ltac:(lia)))).
                apply (proj1 (effect_trans _ _ _ _ _ _ _ (effect_trans _ _ _ _ _ _ _ F0 F1) F2)). reflexivity. }
              rewrite Z1. rewrite <- (EB 1 "sample_filelist_read" Ck ltac:(cbn; tauto)). apply (entry_same _ _ _ _ _ _ FF). reflexivity.
        -- unfold source, either. destruct (it =? n - 1) eqn:Qi; cbn [when].
           ++ rewrite (entry_get 1 "prior_sample_filename_read" op INPUT_FILE (numbered (prior_sample_of (f_solution_large_scale f)) it)); [reflexivity|]. apply LK; [right; right; now left|exact (proj2 (L2 ltac:(lia)))].
           ++ assert (Z1 : entry 1 "prior_sample_filename_read" op = None).
              { rewrite <- (EB 1 "prior_sample_filename_read" Ck ltac:(cbn; tauto)). unfold entry. apply (text_of_same [K "runmodule"; K (storage_of 1); K "prior_sample_filename_read"] [K "datasetname"]).
                change (get (large_key "prior_sample_filename_read") op = get (large_key "prior_sample_filename_read") t). rewrite (LK "prior_sample_filename_read" (get (large_key "prior_sample_filename_read") b) ltac:(right; right; now left) (proj2 (L3 ltac:(lia)))).
                apply (proj1 (effect_trans _ _ _ _ _ _ _ (effect_trans _ _ _ _ _ _ _ F0 F1) F2)). reflexivity. }
              rewrite Z1. rewrite <- (EB 1 "prior_sample_filelist_read" Ck ltac:(cbn; tauto)). apply (entry_same _ _ _ _ _ _ FF). reflexivity.
        -- unfold source. rewrite <- (EB 1 "measurementfilelist_read" Ck ltac:(cbn; tauto)). apply (entry_same _ _ _ _ _ _ FF). reflexivity.
      * rewrite <- (proj1 (BS k w)). apply (source_same _ _ _ _ _ _ FF). destruct w, Ck as [-> | [-> | ->]]; first [discriminate Q|reflexivity].
    + intros k w Ck. unfold nowhere. rewrite <- (proj2 (BS k w)). apply (target_same _ _ _ _ _ _ FF). destruct w, Ck as [-> | [-> | ->]]; reflexivity.
  - apply SET; [reflexivity|]. repeat (back; try reflexivity).
  - apply SET; [reflexivity|]. repeat (back; try reflexivity).
  - apply SET; [reflexivity|]. repeat (back; try reflexivity).
  - apply SET; [reflexivity|]. repeat (back; try reflexivity).
  - apply SET; [reflexivity|]. repeat (back; try reflexivity).
  - apply SET; [reflexivity|]. repeat (back; try reflexivity).
  - apply SET; [reflexivity|]. exact (get_put_same _ _ _ _ P12).
  - intros k I. exact (remove_gone _ _ _ _ I H3).
  - intros k v I. destruct I as [[= <- <-]|[[= <- <-]|[[= <- <-]|[[= <- <-]|[[= <- <-]|[]]]]]]; (apply SET; [reflexivity|]; repeat (back; try reflexivity)).
Qed.
