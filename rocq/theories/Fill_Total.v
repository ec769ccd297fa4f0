(* Descriptors are always generated from templates that have the parts that are filled. *)
From Coq Require Import String Ascii ZifyBool.
From Verif Require Import Base Grid_Model Fill_Model Fill_Spec Fill_Proofs Fill_Chain.
Open Scope string_scope.
Open Scope list_scope.
Open Scope Z_scope.

Lemma put1_total s v j x : get1 s j = Ok x -> exists j', put1 s v j = Ok j'.
Proof. destruct s, j as [| | |[|y l]|d]; cbn; try discriminate; eauto. Qed.
Lemma put_total q k v j : has_dict q j -> exists j', put (q ++ [K k]) v j = Ok j'.
Proof.
  revert j. induction q as [|s q IH]; intros j (m & G).
  - cbn in G. injection G as ->. cbn. eauto.
  - cbn [get] in G. apply bind_ok in G. destruct G as (x & Gx & G). destruct (IH x (ex_intro _ m G)) as (x' & Hx).
    change ((s :: q) ++ [K k]) with (s :: (q ++ [K k])). rewrite put_cons by (destruct q; discriminate). rewrite Gx. cbn [bind]. rewrite Hx. cbn [bind]. now apply (put1_total s x' j x).
Qed.

(* q keeps being a dictionary when p is assigned *)
Fixpoint inside (p q : list step) : bool :=
  match p, q with
  | K _ :: _, [] => true
  | a :: p', b :: q' => step_eqb a b && inside p' q'
  | _, _ => false
  end.
Definition keeps (p q : list step) : bool := diverge p q || inside p q.
Lemma inside_spec p q : inside p q = true -> exists k r, p = q ++ K k :: r.
Proof.
  revert q. induction p as [|a p IH]; intros [|b q] H; cbn [inside] in H; try discriminate.
  - destruct a; [|discriminate]. now exists k, p.
  - assert (H' : (step_eqb a b && inside p q)%bool = true) by (destruct a; exact H). apply andb_true_iff in H'. destruct H' as [E I]. destruct (step_eqb_spec a b); [subst|discriminate].
    destruct (IH q I) as (k & r & ->). now exists k, r.
Qed.
Lemma put_dict k r v j j' : put (K k :: r) v j = Ok j' -> exists m, j' = JDict m.
Proof.
  destruct r as [|s r].
  - cbn. destruct j; try discriminate. intros [= <-]. eauto.
  - rewrite put_cons by discriminate. intros H. apply bind_ok in H. destruct H as (x & _ & H). apply bind_ok in H. destruct H as (y & _ & H). cbn in H. destruct j; try discriminate. injection H as <-. eauto.
Qed.
Lemma has_dict_put p v j j' q : put p v j = Ok j' -> keeps p q = true -> has_dict q j -> has_dict q j'.
Proof.
  intros H K (m & G). apply orb_true_iff in K. destruct K as [D|I].
  - exists m. now rewrite (get_put_diverge _ _ _ _ _ H D).
  - apply inside_spec in I. destruct I as (k & r & ->). unfold has_dict. rewrite (get_put_prefix q (Fill_Model.K k :: r) v j j' ltac:(discriminate) H), G. cbn [bind].
    pose proof (get_put_prefix q (Fill_Model.K k :: r) v j j' ltac:(discriminate) H) as G'. rewrite G in G'. cbn [bind] in G'.
    destruct (put (Fill_Model.K k :: r) v (JDict m)) as [y|e] eqn:P; [destruct (put_dict _ _ _ _ _ P) as (m' & ->); eauto|].
    exfalso. clear - H G P. revert j j' H G. induction q as [|s q IH]; intros j j' H G.
    + cbn in G. injection G as ->. cbn [app] in H. congruence.
    + cbn [get] in G. apply bind_ok in G. destruct G as (x & Gx & G). change ((s :: q) ++ Fill_Model.K k :: r) with (s :: (q ++ Fill_Model.K k :: r)) in H. rewrite put_cons in H by (destruct q; discriminate).
      rewrite Gx in H. cbn [bind] in H. apply bind_ok in H. destruct H as (x' & Hx & _). exact (IH x x' Hx G).
Qed.

Definition DICTS : list (list step) :=
  [[K "runmodule"]; [K "step"]; [K "runmodule"; K "storage_climatology"]; [K "runmodule"; K "storage_large_scale"]; [K "runmodule"; K "storage_local"];
   [K "newdatasets"; First]; [K "newdatasets"; First; K "subsets"; First; K "layout"]].
Definition GRID_DICTS : list (list step) :=
  flat_map (fun s => map (fun key => [K "runmodule"; K s; K key]) READ_KEYS) STORAGE_LIST.
Definition fits (L : list (list step)) (j : json) : Prop := (exists m, j = JDict m) /\ forall q, In q (DICTS ++ L) -> has_dict q j.
Definition named (j : json) : Prop := exists l, get [K "newdatasets"] j = Ok (JList l) /\ forall d, In d l -> exists n, get [K "name"] d = Ok n.
Definition ok (L : list (list step)) (j : json) : Prop := fits L j /\ named j.

Definition goes (P Q : json -> Prop) (g : json -> result json) : Prop := forall j, P j -> exists j', g j = Ok j' /\ Q j'.
Lemma goes_bind P Q R g h : goes P Q g -> goes Q R h -> goes P R (fun j => do x <- g j; h x).
Proof. intros G H j Pj. destruct (G j Pj) as (x & E & Qx). destruct (H x Qx) as (y & E' & Ry). exists y. now rewrite E. Qed.
Lemma goes_id P : goes P P (fun j => Ok j).
Proof. intros j H. eauto. Qed.

Lemma fits_put L p v j j' : put p v j = Ok j' -> p <> [] -> forallb (keeps p) (DICTS ++ L) = true -> fits L j -> fits L j'.
Proof.
  intros H N KP [(m & ->) F]. rewrite forallb_forall in KP. split.
  - destruct p as [|[k|] p]; [contradiction|exact (put_dict _ _ _ _ _ H)|]. destruct p; discriminate.
  - intros q I. apply (has_dict_put p v (JDict m) j' q H); [now apply KP|now apply F].
Qed.
Fixpoint path_eqb (p q : list step) : bool := match p, q with [], [] => true | a :: p', b :: q' => step_eqb a b && path_eqb p' q' | _, _ => false end.
Lemma path_eqb_eq p q : path_eqb p q = true -> p = q.
Proof.
  revert q. induction p as [|a p IH]; intros [|b q] H; cbn [path_eqb] in H; try discriminate; [reflexivity|]. apply andb_true_iff in H. destruct H as [E H]. destruct (step_eqb_spec a b); [|discriminate]. subst. f_equal. now apply IH.
Qed.
Definition settable (L : list (list step)) (p : list step) : bool :=
  match rev p with K _ :: r => match r with [] => true | _ => existsb (fun q => path_eqb q (rev r)) (DICTS ++ L) end | _ => false end
  && forallb (keeps p) (DICTS ++ L).
Lemma goes_fits L p v : settable L p = true -> goes (fits L) (fits L) (put p v).
Proof.
  intros H j F. unfold settable in H. apply andb_true_iff in H. destruct H as [H KP].
  destruct (rev p) as [|[k|] r] eqn:E; try discriminate. assert (Ep : p = rev r ++ [K k]) by (rewrite <- (rev_involutive p), E; reflexivity).
  assert (T : exists j', put p v j = Ok j').
  { rewrite Ep. apply put_total. destruct r as [|s r]; [destruct F as [(m & ->) _]; cbn; exists m; reflexivity|]. apply existsb_exists in H. destruct H as (q & I & Q).
    apply path_eqb_eq in Q. rewrite <- Q. now apply (proj2 F). }
  destruct T as (j' & T). exists j'. split; [exact T|]. apply (fits_put L p v j j' T); [|exact KP|exact F]. rewrite Ep. destruct (rev r); discriminate.
Qed.
Lemma goes_put L p v : settable L p = true -> diverge p [K "newdatasets"] = true -> goes (ok L) (ok L) (put p v).
Proof.
  intros S D j [F (l & G & N)]. destruct (goes_fits L p v S j F) as (j' & H & F'). exists j'. split; [exact H|]. split; [exact F'|]. exists l. split; [|exact N].
  now rewrite (get_put_diverge _ _ _ _ _ H D).
Qed.

Lemma name_dataset_total dataset fmt kind d : (exists m, d = JDict m) -> has_dict [K "subsets"; First; K "layout"] d -> is_ok (return_output_patterns dataset fmt kind) = true ->
  exists d', name_dataset dataset fmt kind d = Ok d' /\ (exists m, d' = JDict m) /\ has_dict [K "subsets"; First; K "layout"] d' /\ get [K "name"] d' = Ok (JStr dataset).
Proof.
  intros (m & ->) HD P. unfold name_dataset. destruct (put_total [] "name" (JStr dataset) (JDict m) (ex_intro _ m eq_refl)) as (d1 & H1). cbn [app] in H1. rewrite H1. cbn [bind].
  destruct (return_output_patterns dataset fmt kind) as [p|]; [|discriminate]. cbn [bind].
  assert (HD1 : has_dict [K "subsets"; First; K "layout"] d1) by exact (has_dict_put _ _ _ _ [K "subsets"; First; K "layout"] H1 eq_refl HD).
  destruct (put_total [K "subsets"; First; K "layout"] "patterns" p d1 HD1) as (d2 & H2). exists d2. cbn [app] in H2. split; [exact H2|]. split; [exact (put_dict _ _ _ _ _ H2)|].
  split; [exact (has_dict_put _ _ _ _ [K "subsets"; First; K "layout"] H2 eq_refl HD1)|]. rewrite (get_put_diverge _ _ _ _ [K "name"] H2 eq_refl). exact (get_put_same _ _ _ _ H1).
Qed.

Lemma list_first l j : get [K "newdatasets"] j = Ok (JList l) -> has_dict [K "newdatasets"; First] j -> exists d ds, l = d :: ds /\ get [K "newdatasets"; First] j = Ok d.
Proof.
  intros G (m & H). change [K "newdatasets"; First] with ([K "newdatasets"] ++ [First]) in *. rewrite get_app, G in H |- *. cbn [bind get get1] in *. destruct l as [|d ds]; [discriminate|]. cbn [bind] in *. eauto.
Qed.
Lemma is_list j : has_dict [K "newdatasets"; First] j -> exists l, get [K "newdatasets"] j = Ok (JList l).
Proof.
  intros (m & H). change [K "newdatasets"; First] with ([K "newdatasets"] ++ [First]) in *. rewrite get_app in H. destruct (get [K "newdatasets"] j) as [[| | |l|]|]; try discriminate. eauto.
Qed.
Lemma goes_add_dataset L dataset fmt kind : is_ok (return_output_patterns dataset fmt kind) = true -> forallb (fun q => diverge [K "newdatasets"] q) L = true -> goes (ok L) (ok L) (add_dataset dataset fmt kind).
Proof.
  intros P DL j [F (l & G & N)]. unfold add_dataset.
  assert (D0 : has_dict [K "newdatasets"; First] j) by (apply (proj2 F); cbn; tauto).
  assert (D1 : has_dict [K "newdatasets"; First; K "subsets"; First; K "layout"] j) by (apply (proj2 F); cbn; tauto).
  destruct (list_first l j G D0) as (d & ds & -> & GF). rewrite GF. cbn [bind].
  destruct (name_dataset_total dataset fmt kind d) as (d' & H & _ & _ & Nd); [|destruct D1 as (m & D1)|exact P|].
  - destruct D0 as (m & D0). rewrite GF in D0. injection D0 as ->. eauto.
  - change [K "newdatasets"; First; K "subsets"; First; K "layout"] with ([K "newdatasets"; First] ++ [K "subsets"; First; K "layout"]) in D1. rewrite get_app, GF in D1. now exists m.
  - rewrite H. cbn [bind]. unfold append_to. rewrite G. cbn [bind]. destruct F as [(m & ->) F]. destruct (put_total [] "newdatasets" (JList ((d :: ds) ++ [d'])) (JDict m) (ex_intro _ m eq_refl)) as (j' & Hj). cbn [app] in Hj. exists j'. split; [exact Hj|].
    assert (X : forall r, get ([K "newdatasets"; First] ++ r) j' = get ([K "newdatasets"; First] ++ r) (JDict m)).
    { intros r. rewrite (get_put_in [K "newdatasets"] (First :: r) _ _ _ Hj : get ([K "newdatasets"; First] ++ r) j' = _). rewrite (get_app [K "newdatasets"; First]), GF. reflexivity. }
    split; [split|].
    + exact (put_dict _ _ _ _ _ Hj).
    + intros q I. destruct (diverge [K "newdatasets"] q) eqn:Dq.
      * apply (has_dict_put _ _ _ _ _ Hj); [unfold keeps; now rewrite Dq|now apply F].
      * assert (Q : q = [K "newdatasets"; First] ++ [] \/ q = [K "newdatasets"; First] ++ [K "subsets"; First; K "layout"]).
        { apply in_app_iff in I. destruct I as [I|I]; [|rewrite forallb_forall in DL; specialize (DL q I); congruence].
          cbn [In DICTS] in I. destruct I as [<-|[<-|[<-|[<-|[<-|[<-|[<-|[]]]]]]]]; try discriminate Dq; [now left|now right]. }
        destruct (F q I) as (mq & Gq). exists mq. destruct Q as [-> | ->]; now rewrite X.
    + exists ((d :: ds) ++ [d']). split; [exact (get_put_same _ _ _ _ Hj)|]. intros x I. apply in_app_iff in I. destruct I as [I|[<-|[]]]; [now apply N|eauto].
Qed.

Lemma goes_primary L f command dataset fmt kind : is_ok (return_output_patterns dataset fmt kind) = true -> forallb (fun q => diverge [K "newdatasets"; First] q) L = true ->
  forallb (fun k => settable L [K "runmodule"; K k]) ["insitu_biases"; "global_biases"; "compute_uncertainties"; "method"; "compute_sample"; "sample_size"; "compute_prior_sample"] = true ->
  settable L [K "name"] = true -> settable L [K "step"; K "start"] = true -> settable L [K "step"; K "end"] = true ->
  goes (fun j => fits L j /\ exists d, get [K "newdatasets"] j = Ok (JList [d])) (ok L) (fill_primary_keys f command dataset fmt kind).
Proof.
  intros P DL S1 S2 S3 S4 j0 (F0 & (d0 & G0)). unfold fill_primary_keys. cbn [forallb] in S1. rewrite !andb_true_iff in S1. destruct S1 as (Sa & Sb & Sc & Sd & Se & Sf & Sg & _).
  assert (Step : forall p v, settable L p = true -> diverge p [K "newdatasets"] = true ->
     goes (fun j => fits L j /\ exists d, get [K "newdatasets"] j = Ok (JList [d])) (fun j => fits L j /\ exists d, get [K "newdatasets"] j = Ok (JList [d])) (put p v)).
  { intros p v S D j (F & (d & G)). destruct (goes_fits L p v S j F) as (j' & H & F'). exists j'. split; [exact H|]. split; [exact F'|]. exists d. now rewrite (get_put_diverge _ _ _ _ _ H D). }
  assert (I0 : fits L j0 /\ exists d, get [K "newdatasets"] j0 = Ok (JList [d])) by eauto. clear F0 d0 G0.
  destruct (Step [K "name"] (JStr command) S2 eq_refl _ I0) as (j1 & H1 & I1). rewrite H1. cbn [bind]. clear H1 I0.
  destruct (Step [K "runmodule"; K "insitu_biases"] (f_land_biases f) Sa eq_refl _ I1) as (j2 & H1 & I2). rewrite H1. cbn [bind]. clear H1 I1.
  destruct (Step [K "runmodule"; K "global_biases"] (f_global_biases f) Sb eq_refl _ I2) as (j3 & H1 & I3). rewrite H1. cbn [bind]. clear H1 I2.
  destruct (Step [K "runmodule"; K "compute_uncertainties"] (JNum 0) Sc eq_refl _ I3) as (j4 & H1 & I4). rewrite H1. cbn [bind]. clear H1 I3.
  destruct (Step [K "runmodule"; K "method"] (JStr "EXACT") Sd eq_refl _ I4) as (j5 & H1 & I5). rewrite H1. cbn [bind]. clear H1 I4.
  destruct (Step [K "runmodule"; K "compute_sample"] (JNum 0) Se eq_refl _ I5) as (j6 & H1 & I6). rewrite H1. cbn [bind]. clear H1 I5.
  destruct (Step [K "runmodule"; K "sample_size"] (JNum 0) Sf eq_refl _ I6) as (j7 & H1 & I7). rewrite H1. cbn [bind]. clear H1 I6.
  destruct (Step [K "runmodule"; K "compute_prior_sample"] (JNum 0) Sg eq_refl _ I7) as (j8 & H1 & I8). rewrite H1. cbn [bind]. clear H1 I7.
  destruct (Step [K "step"; K "start"] (JStr (f_start_date f ++ "000000")) S3 eq_refl _ I8) as (j9 & H1 & I9). rewrite H1. cbn [bind]. clear H1 I8.
  destruct (Step [K "step"; K "end"] (JStr (f_end_date f ++ "000000")) S4 eq_refl _ I9) as (j10 & H1 & (F & (d0 & G))). rewrite H1. cbn [bind]. clear H1 I9.
  assert (D0 : has_dict [K "newdatasets"; First] j10) by (apply (proj2 F); cbn; tauto).
  assert (D1 : has_dict [K "newdatasets"; First; K "subsets"; First; K "layout"] j10) by (apply (proj2 F); cbn; tauto).
  destruct (list_first _ j10 G D0) as (d & ds & El & GF). injection El as <- <-. rewrite GF. cbn [bind].
  destruct (name_dataset_total dataset fmt kind d0) as (d' & H & (md & ->) & HD & Nd); [|destruct D1 as (m & D1)|exact P|].
  - destruct D0 as (m & D0). rewrite GF in D0. injection D0 as ->. eauto.
  - change [K "newdatasets"; First; K "subsets"; First; K "layout"] with ([K "newdatasets"; First] ++ [K "subsets"; First; K "layout"]) in D1. rewrite get_app, GF in D1. now exists m.
  - rewrite H. cbn [bind]. rewrite put_cons by discriminate. cbn [get] in G. apply bind_ok in G. destruct G as (x & Gx & [= ->]). rewrite Gx. cbn [bind put put1].
    destruct F as [(m & ->) F]. cbn [put1]. eexists. split; [reflexivity|].
    assert (Hj : put [K "newdatasets"; First] (JDict md) (JDict m) = Ok (JDict (dset "newdatasets" (JList [JDict md]) m))) by (rewrite put_cons by discriminate; rewrite Gx; reflexivity).
    split; [split; [eauto|]|].
    + intros q I. destruct (diverge [K "newdatasets"; First] q) eqn:Dq.
      * apply (has_dict_put _ _ _ _ _ Hj); [unfold keeps; now rewrite Dq|now apply F].
      * apply in_app_iff in I. destruct I as [I|I]; [|rewrite forallb_forall in DL; specialize (DL q I); congruence].
        cbn [In DICTS] in I. destruct I as [<-|[<-|[<-|[<-|[<-|[<-|[<-|[]]]]]]]]; try discriminate Dq.
        -- exists md. exact (get_put_same _ _ _ _ Hj).
        -- destruct HD as (m' & HD). exists m'. rewrite <- HD. exact (get_put_in [K "newdatasets"; First] [K "subsets"; First; K "layout"] _ _ _ Hj).
    + exists [JDict md]. split; [|intros x [<-|[]]; eauto]. cbn. now rewrite dget_dset_same.
Qed.

Lemma goes_remove L keys : forallb (fun q => forallb (fun k => diverge [K "runmodule"; K k] q || diverge [K "runmodule"] q || match q with [K _] => true | _ => false end) keys) (DICTS ++ L) = true -> goes (ok L) (ok L) (remove_keys keys).
Proof.
  intros H j [F (l & G & N)]. unfold remove_keys. destruct (proj2 F [K "runmodule"] ltac:(cbn; tauto)) as (r & Gr). rewrite Gr. cbn [bind].
  destruct F as [(m & ->) F]. cbn [put put1]. eexists. split; [reflexivity|].
  set (j' := JDict (dset "runmodule" (JDict (fold_left (fun d k => ddel k d) keys r)) m)).
  assert (Hj : put [K "runmodule"] (JDict (fold_left (fun d k => ddel k d) keys r)) (JDict m) = Ok j') by reflexivity.
  split; [split; [unfold j'; eauto|]|].
  - intros q I. rewrite forallb_forall in H. specialize (H q I). rewrite forallb_forall in H. destruct (F q I) as (mq & Gq).
    destruct q as [|[k|] q]; [exists (dset "runmodule" (JDict (fold_left (fun d k => ddel k d) keys r)) m); reflexivity| |cbn in Gq; discriminate].
    destruct (String.eqb_spec k "runmodule") as [->|Nk].
    + destruct q as [|s q]; [eexists; exact (get_put_same _ _ _ _ Hj)|]. unfold has_dict. change (K "runmodule" :: s :: q) with ([K "runmodule"] ++ (s :: q)) in Gq |- *.
      rewrite (get_put_in _ _ _ _ _ Hj). rewrite get_app, Gr in Gq. cbn [bind] in Gq. exists mq. rewrite <- Gq. destruct s as [k|]; [|reflexivity]. cbn [get get1].
      rewrite ddel_list_get; [reflexivity|]. intros Ik. specialize (H k Ik). change (([K "runmodule"] ++ K k :: q)) with (K "runmodule" :: K k :: q) in H. cbn [diverge step_eqb] in H. rewrite !String.eqb_refl in H. cbn [diverge] in H. destruct q; discriminate.
    + exists mq. rewrite <- Gq. apply (get_put_diverge _ _ _ _ _ Hj). cbn [diverge step_eqb]. destruct (String.eqb_spec "runmodule" k); [congruence|reflexivity].
  - exists l. split; [|exact N]. rewrite <- G. apply (get_put_diverge _ _ _ _ _ Hj). reflexivity.
Qed.

Ltac putting := apply goes_put; [vm_compute; reflexivity|reflexivity].

Lemma storage_at f k : -2 <= k <= 2 -> exists s d, py_index STORAGE_LIST k = Ok s /\ py_index (solution_names f) k = Ok d /\ In s STORAGE_LIST.
Proof.
  intros H. assert (C : k = -2 \/ k = -1 \/ k = 0 \/ k = 1 \/ k = 2) by lia.
  destruct C as [-> | [-> | [-> | [-> | ->]]]]; do 2 eexists; (split; [reflexivity|split; [reflexivity|cbn; tauto]]).
Qed.
Lemma goes_secondary f i c : component c -> goes (ok []) (ok []) (fill_secondary_keys f i c).
Proof.
  intros Hc. unfold fill_secondary_keys. apply goes_bind with (ok []); [putting|]. apply goes_bind with (ok []).
  - destruct (c =? 2); [apply goes_id|putting].
  - assert (St : forall s, s = 1 \/ s = 2 -> goes (ok []) (ok []) (fun j => secondary_step f i c j s)).
    { intros s Hs. unfold secondary_step. destruct (storage_at f (c - s)) as (x & d & Ex & Ed & Ix); [unfold component in Hc; lia|]. rewrite Ex, Ed. cbn [bind].
      destruct ((0 <=? c - s) && (0 <=? i)); [destruct Ix as [<-|[<-|[<-|[]]]]; putting|]. destruct ((c - s <? 0) && (0 <? i)); [destruct Ix as [<-|[<-|[<-|[]]]]; putting|apply goes_id]. }
    change (zrange 1 3) with [1; 2]. intros j Hj. rewrite foldM_two.
    destruct (St 1 (or_introl eq_refl) j Hj) as (j1 & H1 & O1). rewrite H1. cbn [bind]. destruct (St 2 (or_intror eq_refl) j1 O1) as (j2 & H2 & O2). rewrite H2. cbn [bind]. eauto.
Qed.
Lemma goes_secondary_batch f i c : component c -> goes (ok []) (ok []) (fill_secondary_keys_batch f i c).
Proof.
  intros Hc. unfold fill_secondary_keys_batch. apply goes_bind with (ok []); [putting|].
  assert (Rd : forall k n, component k -> goes (ok []) (ok []) (secondary_batch_read f k n)).
  { intros k n Ck. unfold secondary_batch_read. destruct (storage_at f k) as (x & d & Ex & Ed & Ix); [unfold component in Ck; lia|]. rewrite Ex, Ed. cbn [bind].
    destruct (k =? 2); destruct Ix as [<-|[<-|[<-|[]]]]; first [putting|apply goes_bind with (ok []); putting]. }
  assert (St : forall k, component k -> goes (ok []) (ok []) (fun j => secondary_batch_step f i c j k)).
  { intros k Ck. unfold secondary_batch_step. destruct ((k <? c) && (0 <=? i)); [now apply Rd|]. destruct ((c <=? k) && (0 <? i)); [now apply Rd|apply goes_id]. }
  change (zrange 0 3) with [0; 1; 2]. intros j Hj. rewrite foldM_three.
  destruct (St 0 component_0 j Hj) as (j1 & H1 & O1). rewrite H1. cbn [bind]. destruct (St 1 component_1 j1 O1) as (j2 & H2 & O2). rewrite H2. cbn [bind]. destruct (St 2 component_2 j2 O2) as (j3 & H3 & O3). rewrite H3. cbn [bind]. eauto.
Qed.

Lemma goes_storage c p (g : string -> json -> result json) : component c -> (forall s, In s STORAGE_LIST -> goes p p (g s)) -> goes p p (fun j => do s <- py_index STORAGE_LIST c; g s j).
Proof. intros Hc G. rewrite (storage_index c Hc). cbn [bind]. apply G. destruct Hc as [-> | [-> | ->]]; cbn; tauto. Qed.
Ltac storages := let s := fresh "s" in intros s [<-|[<-|[<-|[]]]].

Lemma goes_sample f c dataset fmt kind : component c -> is_ok (return_output_patterns dataset fmt kind) = true -> goes (ok []) (ok []) (add_sample_information f c dataset fmt kind).
Proof.
  intros Hc P. unfold add_sample_information. apply (goes_storage c (ok [])); [exact Hc|]. storages; (apply goes_bind with (ok []); [putting|]); (apply goes_bind with (ok []); [putting|]); (apply goes_bind with (ok []); [putting|]); apply goes_add_dataset; auto.
Qed.
Lemma named_in_total dataset j : named j -> exists b, named_in dataset j = Ok b.
Proof.
  intros (l & G & N). unfold named_in. rewrite G. cbn [bind]. clear G.
  assert (X : forall b, exists b', foldM (fun found d => do n <- get [K "name"] d; Ok (found || match n with JStr s => String.eqb s dataset | _ => false end)) b l = Ok b'); [|apply X].
  induction l as [|d l IH]; intros b; cbn [foldM]; [eauto|].
  destruct (N d (or_introl eq_refl)) as (n & E). rewrite E. cbn [bind]. apply IH. intros x I. apply N. now right.
Qed.
Lemma goes_prior_sample f c dataset fmt kind : component c -> is_ok (return_output_patterns dataset fmt kind) = true -> goes (ok []) (ok []) (add_prior_sample_information f c dataset fmt kind).
Proof.
  intros Hc P. unfold add_prior_sample_information. apply (goes_storage c (ok [])); [exact Hc|]. storages; (apply goes_bind with (ok []); [putting|]); (apply goes_bind with (ok []); [putting|]); (apply goes_bind with (ok []); [putting|]);
  intros j Hj; destruct (named_in_total dataset j (proj2 Hj)) as (b & E); rewrite E; cbn [bind]; (destruct b; [eauto|]); apply (goes_add_dataset []); auto.
Qed.
Definition new (L : list (list step)) (j : json) : Prop := fits L j /\ exists d, get [K "newdatasets"] j = Ok (JList [d]).
Lemma goes_first f command dataset fmt kind : is_ok (return_output_patterns dataset fmt kind) = true -> goes (new []) (ok []) (fill_primary_keys f command dataset fmt kind).
Proof. intros P. apply goes_primary; [exact P|reflexivity|vm_compute; reflexivity..]. Qed.

Lemma goes_measurement f i c command dataset : component c -> goes (new []) (ok []) (fun t => fill_single_measurement f t i c command dataset).
Proof.
  intros Hc. unfold fill_single_measurement. apply goes_bind with (ok []); [apply goes_first; reflexivity|]. apply goes_bind with (ok []); [now apply goes_secondary|]. apply goes_bind with (ok []); [putting|].
  apply goes_storage; [exact Hc|]. storages; (apply goes_bind with (ok []); putting).
Qed.
Lemma goes_batch_measurement f i c command dataset : component c -> goes (new []) (ok []) (fun t => fill_batch_measurement f t i c command dataset).
Proof.
  intros Hc. unfold fill_batch_measurement. apply goes_bind with (ok []); [apply goes_first; reflexivity|]. apply goes_bind with (ok []); [now apply goes_secondary_batch|]. apply goes_bind with (ok []); [putting|].
  apply goes_storage; [exact Hc|]. storages; putting.
Qed.
Lemma goes_local f (sampled : bool) i : goes (new []) (ok []) (fun t => fill_single_operation_space f t sampled i 2).
Proof.
  unfold fill_single_operation_space. apply goes_bind with (ok []); [apply goes_first; reflexivity|]. apply goes_bind with (ok []); [apply goes_secondary, component_2|]. apply goes_bind with (ok []).
  - destruct sampled; [|apply goes_id]. apply goes_bind with (ok []); [apply goes_sample|apply goes_prior_sample]; first [apply component_2|reflexivity].
  - apply goes_bind with (ok []); [putting|]. apply goes_storage; [apply component_2|]. storages; (apply goes_bind with (ok []); putting).
Qed.
Lemma goes_solve_once c : goes (ok []) (ok []) (solve_once c).
Proof.
  unfold solve_once. apply goes_bind with (ok []); [putting|]. apply goes_bind with (ok []); [|putting].
  intros j [[(m & ->) F] (l & G & N)]. cbn [put put1]. eexists. split; [reflexivity|].
  assert (Hj : put [K "step"] (of_class "eumopps.catalogue.step.StepOnce") (JDict m) = Ok (JDict (dset "step" (of_class "eumopps.catalogue.step.StepOnce") m))) by reflexivity.
  split; [split; [eauto|]|].
  - intros q I. rewrite app_nil_r in I. specialize (F q ltac:(rewrite app_nil_r; exact I)). destruct (keeps [K "step"] q) eqn:E; [exact (has_dict_put _ _ _ _ _ Hj E F)|].
    cbn [In DICTS] in I. destruct I as [<-|[<-|[<-|[<-|[<-|[<-|[<-|[]]]]]]]]; try discriminate E. eexists. exact (get_put_same _ _ _ _ Hj).
  - exists l. split; [|exact N]. rewrite <- G. apply (get_put_diverge _ _ _ _ _ Hj). reflexivity.
Qed.
Lemma goes_solve_files c m n : component c -> goes (ok []) (ok []) (solve_files c m n).
Proof. intros Hc. unfold solve_files. apply goes_storage; [exact Hc|]. storages; (apply goes_bind with (ok []); putting). Qed.
Lemma goes_solution f (sampled : bool) i c command solution measurement : component c -> goes (new []) (ok []) (fun t => fill_single_solution f t sampled i c command solution measurement).
Proof.
  intros Hc. unfold fill_single_solution. apply goes_bind with (ok []); [apply goes_first; reflexivity|]. apply goes_bind with (ok []).
  - destruct sampled; [|apply goes_id]. apply goes_bind with (ok []); [apply goes_sample|apply goes_prior_sample]; first [exact Hc|reflexivity].
  - apply goes_bind with (ok []); [apply goes_solve_once|]. apply goes_bind with (ok []); [now apply goes_solve_files|]. apply goes_remove. vm_compute. reflexivity.
Qed.
Lemma goes_posterior f (sampled : bool) i c command solution measurement : component c -> goes (new []) (ok []) (fun t => fill_posterior_solution f t sampled i c command solution measurement).
Proof.
  intros Hc. unfold fill_posterior_solution. apply goes_bind with (ok []); [apply goes_first; reflexivity|]. apply goes_bind with (ok []).
  - destruct sampled; [|apply goes_id]. apply goes_sample; first [exact Hc|reflexivity].
  - apply goes_bind with (ok []); [apply goes_solve_once|]. apply goes_bind with (ok []); [now apply goes_solve_files|]. apply goes_remove. vm_compute. reflexivity.
Qed.
Lemma goes_prior f (sampled : bool) i c command solution : component c -> goes (new []) (ok []) (fun t => fill_prior_solution f t sampled i c command solution).
Proof.
  intros Hc. unfold fill_prior_solution. apply goes_bind with (ok []); [apply goes_first; reflexivity|]. apply goes_bind with (ok []).
  - destruct sampled; [|apply goes_id]. apply goes_prior_sample; first [exact Hc|reflexivity].
  - apply goes_bind with (ok []); [apply goes_solve_once|]. apply goes_remove. vm_compute. reflexivity.
Qed.
Lemma goes_gridding f i : goes (new GRID_DICTS) (ok GRID_DICTS) (fun t => fill_output_gridding f t i).
Proof.
  unfold fill_output_gridding. apply goes_bind with (ok GRID_DICTS); [apply goes_primary; [reflexivity|reflexivity|vm_compute; reflexivity..]|].
  do 6 (apply goes_bind with (ok GRID_DICTS); [putting|]). apply goes_bind with (ok GRID_DICTS).
  - rewrite storages_names. cbn [map]. assert (St : forall k, component k -> goes (ok GRID_DICTS) (ok GRID_DICTS) (fun j => gridding_read i j (storage_of k, solution_name f k))).
    { intros k [-> | [-> | ->]]; unfold gridding_read; do 2 (apply goes_bind with (ok GRID_DICTS); [putting|]); putting. }
    intros j Hj. rewrite foldM_three. destruct (St 0 component_0 j Hj) as (j1 & H1 & O1). rewrite H1. cbn [bind]. destruct (St 1 component_1 j1 O1) as (j2 & H2 & O2). rewrite H2. cbn [bind]. destruct (St 2 component_2 j2 O2) as (j3 & H3 & O3). rewrite H3. cbn [bind]. eauto.
  - do 2 (apply goes_bind with (ok GRID_DICTS); [apply goes_add_dataset; reflexivity|]). apply goes_add_dataset; reflexivity.
Qed.
Lemma goes_batch_gridding f i out : goes (new []) (ok []) (fun t => fill_batch_output_gridding f t i out).
Proof.
  unfold fill_batch_output_gridding. apply goes_bind with (ok []); [apply goes_first; reflexivity|].
  do 6 (apply goes_bind with (ok []); [putting|]). apply goes_bind with (ok []).
  - rewrite storages_names. cbn [map]. assert (St : forall k, component k -> goes (ok []) (ok []) (fun j => batch_gridding_read f i j (storage_of k, solution_name f k))).
    { intros k Ck; unfold batch_gridding_read; destruct (String.eqb _ _); destruct Ck as [-> | [-> | ->]]; repeat (apply goes_bind with (ok []); [putting|]); putting. }
    intros j Hj. rewrite foldM_three. destruct (St 0 component_0 j Hj) as (j1 & H1 & O1). rewrite H1. cbn [bind]. destruct (St 1 component_1 j1 O1) as (j2 & H2 & O2). rewrite H2. cbn [bind]. destruct (St 2 component_2 j2 O2) as (j3 & H3 & O3). rewrite H3. cbn [bind]. eauto.
  - do 3 (apply goes_bind with (ok []); [apply goes_add_dataset; reflexivity|]). apply goes_bind with (ok []); [apply goes_remove; vm_compute; reflexivity|]. putting.
Qed.

(* ---------- templates *)

Lemma storage_cases c : storage_of c = "storage_climatology" \/ storage_of c = "storage_large_scale" \/ storage_of c = "storage_local".
Proof. unfold storage_of. destruct (c =? 0); [tauto|]. destruct (c =? 1); tauto. Qed.
Lemma fillable_fits t : fillable t -> fits [] t.
Proof.
  intros (H1 & H2 & H3 & H4 & H5). split.
  - destruct H1 as (m & G). destruct t as [| | | |d]; try discriminate. eauto.
  - rewrite app_nil_r. intros q I. cbn [In DICTS] in I. destruct I as [<-|[<-|[<-|[<-|[<-|[<-|[<-|[]]]]]]]]; try assumption; [exact (H3 0)|exact (H3 1)|exact (H3 2)].
Qed.
Lemma grid_fits t : fillable t -> grid_inputs t -> fits GRID_DICTS t.
Proof.
  intros F G. destruct (fillable_fits t F) as [D H]. split; [exact D|]. intros q I. apply in_app_iff in I. destruct I as [I|I]; [apply H; now rewrite app_nil_r|].
  unfold GRID_DICTS in I. apply in_flat_map in I. destruct I as (s & Is & I). apply in_map_iff in I. destruct I as (key & <- & Ik).
  assert (X : exists c, s = storage_of c) by (destruct Is as [<-|[<-|[<-|[]]]]; [now exists 0|now exists 1|now exists 2]). destruct X as (c & ->).
  specialize (G c key Ik). unfold text_at in G. change [K "runmodule"; K (storage_of c); K key; K "python_class"] with ([K "runmodule"; K (storage_of c); K key] ++ [K "python_class"]) in G.
  rewrite get_app in G. unfold has_dict. destruct (get _ t) as [v|]; [|discriminate]. cbn [bind get get1] in G. destruct v as [| | | |m]; try discriminate. eauto.
Qed.
Lemma restrict_total L t : fits L t -> sources_named t -> forallb (keeps [K "runmodule"; K "inputsources"]) L = true -> (exists d, get [K "newdatasets"] t = Ok (JList [d])) -> exists t', restrict_inputs t = Ok t' /\ new L t'.
Proof.
  intros F SN KL D. unfold restrict_inputs. destruct (proj2 F [K "runmodule"] ltac:(cbn; tauto)) as (r & G). rewrite G. cbn [bind].
  destruct (dget "inputsources" r) as [s|] eqn:E; [|exists t; split; [reflexivity|split; assumption]].
  destruct (SN r s G E) as (l & -> & Nl).
  assert (X : forall acc, exists kept, foldM (fun kept source => do name <- get [K "name"] source; Ok (if existsb (fun s => match name with JStr n => String.eqb n s | _ => false end) INPUTSOURCE_LIST then kept ++ [source] else kept)) acc l = Ok kept).
  { clear - Nl. induction l as [|x l IH]; intros acc; cbn [foldM]; [eauto|]. destruct (Nl x (or_introl eq_refl)) as (n & En). rewrite En. cbn [bind]. apply IH. intros y I. apply Nl. now right. }
  destruct (X []) as (kept & Hk). rewrite Hk. cbn [bind].
  destruct (goes_fits L [K "runmodule"; K "inputsources"] (JList kept)) with (j := t) as (t' & H & F'); [|exact F|].
  - unfold settable. rewrite forallb_app, KL. reflexivity.
  - exists t'. split; [exact H|]. split; [exact F'|]. destruct D as (d & D). exists d. rewrite <- D. now apply (get_put_diverge _ _ _ _ _ H).
Qed.
Lemma load_total f : ready f -> (forall t, In t [f_operation f; f_batch_operation f; f_output_grid f] -> fillable t /\ sources_named t) ->
  exists a b c, load_templates f = Ok (a, b, c) /\ new [] a /\ new [] b /\ new GRID_DICTS c.
Proof.
  intros (_ & _ & B1 & B2 & B3 & G) H. destruct (H _ (or_introl eq_refl)) as [F1 N1]. destruct (H _ (or_intror (or_introl eq_refl))) as [F2 N2]. destruct (H _ (or_intror (or_intror (or_introl eq_refl)))) as [F3 N3].
  destruct (restrict_total [] _ (fillable_fits _ F1) N1 eq_refl (proj1 (proj2 B1))) as (a & Ha & Oa). destruct (restrict_total [] _ (fillable_fits _ F2) N2 eq_refl (proj1 (proj2 B2))) as (b & Hb & Ob).
  destruct (restrict_total GRID_DICTS _ (grid_fits _ F3 G) N3 eq_refl (proj1 (proj2 B3))) as (c & Hc & Oc).
  exists a, b, c. unfold load_templates. rewrite Ha, Hb, Hc. cbn [bind]. auto.
Qed.
Lemma mapM_total {A B} (g : A -> result B) l : (forall x, In x l -> exists y, g x = Ok y) -> exists ys, mapM g l = Ok ys.
Proof.
  induction l as [|x l IH]; intros H; cbn [mapM]; [eauto|]. destruct (H x (or_introl eq_refl)) as (y & E). rewrite E. cbn [bind]. destruct IH as (ys & E'); [intros z I; apply H; now right|]. rewrite E'. cbn [bind]. eauto.
Qed.
Lemma single_iteration_total f a sampled i : new [] a -> exists ops, single_iteration f a sampled i = Ok ops.
Proof.
  intros N. unfold single_iteration.
  destruct (goes_measurement f i 0 (f_measurement_climatology_command f) (f_measurement_climatology f) component_0 a N) as (x0 & H0 & _). rewrite H0. cbn [bind].
  destruct (goes_solution f (sampled i) i 0 (f_solution_climatology_command f) (f_solution_climatology f) (f_measurement_climatology f) component_0 a N) as (x1 & H1 & _). rewrite H1. cbn [bind].
  destruct (goes_measurement f i 1 (f_measurement_large_scale_command f) (f_measurement_large_scale f) component_1 a N) as (x2 & H2 & _). rewrite H2. cbn [bind].
  destruct (goes_solution f (sampled i) i 1 (f_solution_large_scale_command f) (f_solution_large_scale f) (f_measurement_large_scale f) component_1 a N) as (x3 & H3 & _). rewrite H3. cbn [bind].
  destruct (goes_local f (sampled i) i a N) as (x4 & H4 & _). rewrite H4. cbn [bind]. eauto.
Qed.
Lemma batch_iteration_total f a b sampled i : new [] a -> new [] b -> exists ops, batch_iteration f a b sampled i = Ok ops.
Proof.
  intros N NB. unfold batch_iteration.
  destruct (goes_batch_measurement f i 0 (f_measurement_climatology_command f) (f_measurement_climatology f) component_0 b NB) as (x0 & H0 & _). rewrite H0. cbn [bind].
  destruct (goes_posterior f (sampled i) i 0 (f_solution_climatology_command f) (f_solution_climatology f) (f_measurement_climatology f) component_0 a N) as (x1 & H1 & _). rewrite H1. cbn [bind].
  destruct (goes_prior f (sampled i) i 0 (f_solution_climatology_command f) (f_solution_climatology f) component_0 a N) as (x2 & H2 & _). rewrite H2.
  destruct (goes_batch_measurement f i 1 (f_measurement_large_scale_command f) (f_measurement_large_scale f) component_1 b NB) as (x3 & H3 & _). rewrite H3.
  destruct (goes_posterior f (sampled i) i 1 (f_solution_large_scale_command f) (f_solution_large_scale f) (f_measurement_large_scale f) component_1 a N) as (x4 & H4 & _). rewrite H4.
  destruct (goes_prior f (sampled i) i 1 (f_solution_large_scale_command f) (f_solution_large_scale f) component_1 a N) as (x5 & H5 & _). rewrite H5.
  destruct (goes_local f (sampled i) i a N) as (x6 & H6 & _). rewrite H6.
  destruct (sampled i); cbn [bind]; eauto.
Qed.
Lemma descriptor_total f n : ready f -> complete f -> n <> 0 -> exists d, fill_descriptor f n = Ok d.
Proof.
  intros R H Hn. destruct (load_total f R H) as (a & b & c & Hl & Oa & Ob & Oc). unfold fill_descriptor. rewrite Hl. cbn [bind]. replace (n =? 0) with false by lia.
  destruct (mapM_total (single_iteration f a (fun i => i =? n - 1)) (zrange 0 n)) as (its & Hi); [intros i _; now apply single_iteration_total|]. rewrite Hi. cbn [bind].
  destruct (goes_gridding f (n - 1) c Oc) as (g & Hg & _). rewrite Hg. cbn [bind]. eauto.
Qed.
Lemma batch_descriptor_total f n : ready f -> complete f -> n <> 0 -> exists d, fill_batch_descriptor f n = Ok d.
Proof.
  intros R H Hn. destruct (load_total f R H) as (a & b & c & Hl & Oa & Ob & Oc). unfold fill_batch_descriptor. rewrite Hl. cbn [bind]. replace (n =? 0) with false by lia.
  destruct (mapM_total (batch_iteration f a b (fun i => i =? n - 1)) (zrange 0 n)) as (its & Hi); [intros i _; now apply batch_iteration_total|]. rewrite Hi. cbn [bind].
  destruct (goes_batch_gridding f (n - 1) (fun s => s) b Ob) as (g & Hg & _). rewrite Hg. cbn [bind]. eauto.
Qed.
