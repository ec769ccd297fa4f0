(* Proofs about the workflow of separate processes. *)
From Coq Require Import QArith Qcanon String.
From Verif Require Import Base Grid_Model Lin Ana_Model Ana_Spec Ana_Proofs Ana_Props Dist_Model Dist_Spec.
Local Open Scope nat_scope.
Local Open Scope list_scope.

(* ---- reasoning about programs *)

Section Programs.
Variable R : string -> option content -> Prop.   (* what may be read *)
Variable W : string -> content -> Prop.          (* what is allowed to be written *)

Fixpoint wp {A} (p : program A) (Q : result A -> Prop) : Prop :=
  match p with
  | Ret r => Q r
  | Read f k => forall c, R f c -> wp (k c) Q
  | Write f c p => W f c /\ wp p Q
  end.

Lemma wp_weaken {A} (p : program A) : forall (Q Q' : result A -> Prop), (forall r, Q r -> Q' r) -> wp p Q -> wp p Q'.
Proof.
  induction p as [r|f k IH|f c p IH]; intros Q Q' HQ H; cbn in *.
  - apply HQ, H.
  - intros c Hc. apply (IH c Q Q' HQ), H, Hc.
  - destruct H as [Hw H]. split; [exact Hw|]. apply (IH Q Q' HQ), H.
Qed.
Lemma wp_bind {A B} (p : program A) (q : A -> program B) Q :
  wp p (fun r => match r with Ok a => wp (q a) Q | Err e => Q (Err e) end) -> wp (andthen p q) Q.
Proof.
  induction p as [[a|e]|f k IH|f c p IH]; cbn [wp andthen]; intros H; [exact H|exact H| |].
  - intros c Hc. apply IH, H, Hc.
  - destruct H as [Hw H]. split; [exact Hw|apply IH, H].
Qed.

Variable lenient : bool.
(* as expected, or failed when failing is allowed for *)
Definition upto {A} (a : A) (r : result A) : Prop := r = Ok a \/ (lenient = true /\ exists e, r = Err e).

Lemma wp_seq {A B} (p : program A) (q : A -> program B) a b :
  wp p (upto a) -> wp (q a) (upto b) -> wp (andthen p q) (upto b).
Proof.
  intros Hp Hq. apply wp_bind. eapply wp_weaken; [|exact Hp]. intros r [->|[Hl [e ->]]]; [exact Hq|].
  right. split; [exact Hl|exists e; reflexivity].
Qed.
Lemma wp_ret {A} (r : result A) a : r = Ok a -> wp (Ret r) (upto a).
Proof. intros ->. left. reflexivity. Qed.

Lemma wp_fold {A B} (f : A -> B -> program A) (g : A -> B -> result A) : forall l a b,
  (forall x y z, In y l -> g x y = Ok z -> wp (f x y) (upto z)) ->
  foldM g a l = Ok b -> wp (foldP f a l) (upto b).
Proof.
  induction l as [|y l IH]; intros a b Hf H.
  - injection H as <-. left. reflexivity.
  - cbn [foldM] in H. destruct (g a y) as [z|] eqn:E; [|discriminate]. cbn [bind] in H. cbn [foldP].
    apply wp_seq with (a := z); [apply Hf; [left; reflexivity|exact E]|].
    apply IH; [|exact H]. intros x y' z' Hin. apply Hf. right. exact Hin.
Qed.

Definition bad (c : option content) : Prop := c = None \/ c = Some Damaged.

Lemma wp_readstate f v : (forall c, R f c -> c = Some (PState v) \/ (lenient = true /\ bad c)) -> wp (readstate f) (upto v).
Proof.
  intros H. unfold readstate, readpickle. cbn [andthen wp]. intros c Hc. destruct (H c Hc) as [->|[Hl [->| ->]]]; cbn.
  - left. reflexivity.
  - right. split; [exact Hl|eexists; reflexivity].
  - right. split; [exact Hl|eexists; reflexivity].
Qed.
Lemma wp_readmeasurement f m : (forall c, R f c -> c = Some (PMeasurement m) \/ (lenient = true /\ bad c)) -> wp (readmeasurement f) (upto m).
Proof.
  intros H. unfold readmeasurement, readpickle. cbn [andthen wp]. intros c Hc. destruct (H c Hc) as [->|[Hl [->| ->]]]; cbn.
  - left. reflexivity.
  - right. split; [exact Hl|eexists; reflexivity].
  - right. split; [exact Hl|eexists; reflexivity].
Qed.

(* ---- one operation against the in-memory system *)

Definition sees (t : Z) (cs : component * storage) (cm : component * store) : Prop :=
  fst cs = fst cm /\
  match c_kind (fst cs), snd cs with
  | SpaceTime, SpaceTimeFiles s => wp (state_read s) (upto (s_state (snd cm)))
  | Spatial, SpatialFiles s => wp (partial_state_read s (Some t)) (upto (assoc Z.eqb (s_part (snd cm)) t))
  | _, _ => False
  end.

Lemma wp_expected t c s st o : sees t (c, s) (c, st) -> o_time o = t ->
  wp (expected_value_f c s o) (upto (expected_value c st o)).
Proof.
  intros [_ H] Ht. cbn [fst snd] in H. unfold expected_value_f, expected_value.
  destruct (c_kind c), s as [s|s]; try contradiction.
  - rewrite Ht. apply (wp_seq _ _ _ _ H). apply wp_ret. reflexivity.
  - apply (wp_seq _ _ _ _ H). apply wp_ret. reflexivity.
Qed.

Lemma wp_offset t i o off : o_time o = t -> forall fsys sys,
  Forall2 (sees t) fsys sys -> subtract_offset sys i o = Ok off -> wp (subtract_offset_f fsys i o) (upto off).
Proof.
  intros Ht fsys sys HF. unfold subtract_offset, subtract_offset_f.
  generalize (zeros (length (o_vector o))). generalize 0%nat. revert off.
  induction HF as [|[c s] [c' st] fsys sys Hs HF IH]; intros off base acc H.
  - injection H as <-. left. reflexivity.
  - cbn [length seq combine foldM] in H. cbn [length seq combine foldP].
    assert (c' = c) by (destruct Hs as [E _]; cbn in E; congruence). subst c'.
    destruct (negb (base =? i)) eqn:Ei.
    + destruct (vadd acc (expected_value c st o)) as [acc'|] eqn:Ev; [|discriminate]. cbn [bind] in H.
      apply wp_seq with (a := acc').
      * apply (wp_seq _ _ _ _ (wp_expected t c s st o Hs Ht)). apply wp_ret. exact Ev.
      * apply (IH off (S base) acc' H).
    + cbn [bind] in H. apply wp_seq with (a := acc); [apply wp_ret; reflexivity|]. apply (IH off (S base) acc H).
Qed.

Definition strip (so : solution) : fsolution := (so_meas so, so_time so).

Lemma wp_process_observations t c s so o off so' : sees t (c, s) (c, so_store so) -> el_nonlinear (c_element c) = false ->
  process_observations c so o off = Ok so' ->
  so_store so' = so_store so /\ wp (process_observations_f c s (strip so) o off) (upto (strip so')).
Proof.
  intros [_ Hs] Hlin H. cbn [fst snd] in Hs. unfold process_observations in H. unfold process_observations_f, strip. cbn [fst snd].
  unfold check_time in H.
  destruct (match so_time so with None => Ok (o_time o) | Some t0 => if (t0 =? o_time o)%Z then Ok t0 else Err ValueError end) as [t0|] eqn:Et; [|discriminate].
  cbn [bind] in H. destruct (vsub (o_vector o) off) as [rel|] eqn:Er; [|discriminate]. cbn [bind] in H.
  assert (HL : exists x, linearisation c t0 (so_store so) o = (x, so_store so) /\ wp (linearisation_f c s o) (upto x)).
  { unfold linearisation, linearisation_f. destruct (c_kind c), s as [s|s]; try contradiction.
    - exists None. split; [reflexivity|apply wp_ret; reflexivity].
    - rewrite Hlin. eexists. split; [reflexivity|]. apply (wp_seq _ _ _ _ Hs). apply wp_ret. reflexivity. }
  destruct HL as (x & HL & Hwp). rewrite HL in H. rewrite Hlin in H. rewrite Hlin.
  set (rel' := match c_kind c with Spatial => Ok rel | _ => match x with Some _ => Ok rel | None => Ok rel end end) in H.
  assert (Hrel : rel' = Ok rel) by (unfold rel'; destruct (c_kind c), x; reflexivity).
  assert (Hrel2 : forall z : option vec, (match c_kind c, z with
     | SpaceTime, Some _ | Delayed, Some _ => Ok rel | _, _ => Ok rel end) = Ok rel) by (intros z; destruct (c_kind c), z; reflexivity).
  match type of H with bind ?X _ = _ => replace X with (Ok rel) in H by (destruct (c_kind c); reflexivity) end.
  cbn [bind] in H.
  destruct (create_from_system_observations (el_jacobian (c_element c) o x) (o_precision o) rel) as [u|] eqn:Eu; [|discriminate].
  cbn [bind] in H.
  match type of H with bind ?X _ = _ => destruct X as [m|] eqn:Em; [|discriminate] end. cbn [bind] in H.
  injection H as <-. cbn [so_store so_meas so_time]. split; [reflexivity|].
  apply wp_seq with (a := t0); [apply wp_ret; reflexivity|].
  apply wp_seq with (a := rel); [apply wp_ret; reflexivity|].
  apply wp_seq with (a := x); [exact Hwp|].
  apply wp_seq with (a := rel); [apply wp_ret; destruct (c_kind c); reflexivity|].
  apply wp_seq with (a := u); [apply wp_ret; exact Eu|].
  apply wp_seq with (a := m); [apply wp_ret; exact Em|]. apply wp_ret. reflexivity.
Qed.

Lemma wp_process_inputs t fsys sys i c s so o so' : Forall2 (sees t) fsys sys -> sees t (c, s) (c, so_store so) ->
  el_nonlinear (c_element c) = false -> o_time o = t -> process_inputs sys i c so o = Ok so' ->
  so_store so' = so_store so /\ wp (process_inputs_f fsys i c s (strip so) o) (upto (strip so')).
Proof.
  intros HF Hs Hlin Ht H. unfold process_inputs in H. unfold process_inputs_f. destruct (0 <? length (o_vector o)).
  - destruct (subtract_offset sys i o) as [off|] eqn:Eo; [|discriminate]. cbn [bind] in H.
    destruct (wp_process_observations t c s so o off so' Hs Hlin H) as [Hst Hwp]. split; [exact Hst|].
    apply (wp_seq _ _ off _ (wp_offset t i o off Ht fsys sys HF Eo)). exact Hwp.
  - injection H as <-. split; [reflexivity|apply wp_ret; reflexivity].
Qed.

Lemma wp_process_all t fsys sys i c s : Forall2 (sees t) fsys sys -> el_nonlinear (c_element c) = false -> forall loaders so so',
  sees t (c, s) (c, so_store so) -> (forall l, In l loaders -> o_time (l t) = t) ->
  foldM (fun so l => process_inputs sys i c so (l t)) so loaders = Ok so' ->
  wp (foldP (fun so l => process_inputs_f fsys i c s so (l t)) (strip so) loaders) (upto (strip so')).
Proof.
  intros HF Hlin. induction loaders as [|l loaders IH]; intros so so' Hs Hl H.
  - injection H as <-. apply wp_ret. reflexivity.
  - cbn [foldM] in H. destruct (process_inputs sys i c so (l t)) as [so1|] eqn:E; [|discriminate]. cbn [bind] in H.
    destruct (wp_process_inputs t fsys sys i c s so (l t) so1 HF Hs Hlin (Hl l (or_introl eq_refl)) E) as [Hst Hwp].
    cbn [foldP]. apply (wp_seq _ _ _ _ Hwp). apply IH; [rewrite Hst; exact Hs| |exact H].
    intros l' Hin. apply Hl. right. exact Hin.
Qed.

Lemma wp_writepickle c f : W f Damaged -> W f c -> wp (writepickle c f) (upto tt).
Proof. intros H1 H2. cbn. split; [exact H1|split; [exact H2|left; reflexivity]]. Qed.
End Programs.

(* ---- the in-memory analysis *)

Section InMemory.
Variable name : slot -> string.
Variable solve : table -> vec -> vec.
Variable components : list component.
Variable loaders : list loader.
Variable times : list Z.
Hypothesis Hrun : runnable name components loaders times.

Definition good (k : nat) (c : component) (s : store) : Prop :=
  match c_kind c with
  | SpaceTime => stored_for times s /\ (k = 0 -> s_state s = None) /\ (k <> 0 -> exists x, s_state s = Some x)
  | Spatial => (k = 0 -> s_part s = []) /\ (k <> 0 -> forall t, In t times -> exists x, assoc Z.eqb (s_part s) t = Some x)
  | Delayed => False
  end.

Lemma times_cons : exists t rest, times = t :: rest.
Proof. destruct Hrun as (_ & _ & _ & H & _). destruct times as [|t rest]; [congruence|]. exists t, rest. reflexivity. Qed.
Lemma loaders_cons : loaders <> [].
Proof.
  destruct Hrun as (_ & _ & _ & _ & H). destruct times_cons as (t & rest & E).
  destruct (H t) as [_ Hin]; [rewrite E; left; reflexivity|]. intros ->. apply Hin. reflexivity.
Qed.

(* what fitting one component leaves in its storage *)
Definition fitted (before : system) (i : nat) (c : component) (s s' : store) : Prop :=
  let n := el_dim (c_element c) in
  match c_kind c with
  | SpaceTime =>
      s_state s' = Some (posterior solve n (el_prior (c_element c)) (information n (flat_map (day before i c (fun _ => s_state s) loaders) times))) /\
      (forall t, In t times -> assoc okey_eqb (s_meas s') (Some t) = Some (Some (information n (day before i c (fun _ => s_state s) loaders t))))
  | _ => forall t, In t times -> assoc Z.eqb (s_part s') t
           = Some (posterior solve n (el_prior (c_element c)) (information n (day before i c (fun _ => None) loaders t)))
  end.

Lemma assoc_map_some {V} (f : Z -> V) t : forall l, In t l -> assoc okey_eqb (map (fun t => (Some t, f t)) l) (Some t) = Some (f t).
Proof.
  induction l as [|a l IH]; intros H; [destruct H|]. cbn [map assoc okey_eqb]. destruct (Z.eqb_spec t a) as [->|Hne]; [reflexivity|].
  apply IH. destruct H as [->|H]; [congruence|exact H].
Qed.

Lemma fit_component before i c s k : wf_system before -> nth_error before i = Some (c, s) -> good k c s ->
  el_nonlinear (c_element c) = false ->
  exists s', update_component solve before loaders i times = Ok (set_store before i s') /\ good (S k) c s' /\ fitted before i c s s'.
Proof.
  intros Hwf Hi Hg Hlin. pose proof loaders_cons as Hne. destruct Hrun as (_ & _ & Hnd & _ & Hl).
  unfold good, fitted in *. destruct (c_kind c) eqn:Ek.
  - destruct (spatial_component_ok solve before loaders i times c s Hwf Hi Ek Hne (fun t Ht => proj1 (Hl t Ht)))
      as (s' & H & _ & _ & Hp).
    exists s'. split; [exact H|].
    assert (Hall : forall t, In t times -> assoc Z.eqb (s_part s') t = Some (posterior solve (el_dim (c_element c)) (el_prior (c_element c))
        (information (el_dim (c_element c)) (day before i c (fun _ => None) loaders t)))).
    { intros t Ht. rewrite Hp. assert (He : existsb (Z.eqb t) times = true) by (apply existsb_exists; exists t; split; [exact Ht|apply Z.eqb_refl]).
      rewrite He. destruct (Hl t Ht) as [_ Hin]. unfold day. destruct (inputs loaders t); [congruence|]. reflexivity. }
    split; [split; [discriminate|]|exact Hall]. intros _ t Ht. eexists. apply Hall, Ht.
  - destruct Hg as (Hst & _).
    destruct (update_component_spacetime solve before loaders i times c s Hwf Hi Ek Hne Hnd Hl Hst) as (times' & Hperm & H);
      [rewrite Hlin; discriminate|].
    eexists. split; [exact H|]. cbn [s_state s_meas s_part]. unfold new_state. rewrite Hlin.
    assert (Hp : forall t, In t times <-> In t times').
    { intros t. split; apply Permutation_in; [apply Permutation_sym|]; exact Hperm. }
    split; [split|split].
    + unfold stored_for. cbn [s_meas]. rewrite map_map. cbn [fst]. split.
      * apply FinFun.Injective_map_NoDup; [intros a b e; congruence|].
        apply (Permutation_NoDup (Permutation_sym Hperm) Hnd).
      * intros k' Hk. apply in_map_iff in Hk. destruct Hk as (t & <- & Ht). exists t. split; [apply Hp, Ht|reflexivity].
    + split; [discriminate|]. intros _. eexists. reflexivity.
    + reflexivity.
    + intros t Ht. apply (assoc_map_some (fun t => Some (information (el_dim (c_element c)) (day before i c (fun _ => s_state s) loaders t)))).
      apply Hp, Ht.
  - destruct Hg.
Qed.

(* all stores of a system *)
Definition all_good (f : nat -> nat) (sys : system) : Prop :=
  map fst sys = components /\ forall j c s, nth_error sys j = Some (c, s) -> good (f j) c s.

Lemma components_at (sys : system) j c s : map fst sys = components -> nth_error sys j = Some (c, s) -> nth_error components j = Some c.
Proof. intros E H. rewrite <- E, nth_error_map, H. reflexivity. Qed.
Lemma component_ok j c : nth_error components j = Some c ->
  wf_element (c_element c) /\ el_nonlinear (c_element c) = false /\ c_kind c <> Delayed.
Proof. intros H. destruct Hrun as (_ & HF & _). rewrite Forall_forall in HF. apply HF. apply nth_error_In with (n := j). exact H. Qed.
Lemma all_wf (sys : system) : map fst sys = components -> wf_system sys.
Proof.
  intros H. unfold wf_system. apply Forall_forall. intros [c s] Hin. apply In_nth_error in Hin. destruct Hin as [j Hj].
  apply (component_ok j). apply (components_at sys j c s H Hj).
Qed.
Lemma set_store_components sys i s : map fst (set_store sys i s) = map fst sys.
Proof.
  apply nth_error_eq. intros k. rewrite !nth_error_map, nth_set_store. destruct (nth_error sys k) as [[c s']|]; reflexivity.
Qed.

Lemma sweep_good : forall l f sys, NoDup l -> (forall i, In i l -> i < length components) -> all_good f sys ->
  exists sys', foldM (fun sys i => update_component solve sys loaders i times) sys l = Ok sys' /\
    all_good (fun j => if existsb (Nat.eqb j) l then S (f j) else f j) sys'.
Proof.
  induction l as [|i l IH]; intros f sys Hnd Hlt Hg.
  - exists sys. split; [reflexivity|exact Hg].
  - destruct Hg as [Hc Hg]. inversion Hnd as [|? ? Hni Hnd']; subst.
    assert (Hi : exists c s, nth_error sys i = Some (c, s)).
    { destruct (nth_error sys i) as [[c s]|] eqn:E; [exists c, s; reflexivity|]. apply nth_error_None in E.
      specialize (Hlt i (or_introl eq_refl)). rewrite <- Hc, map_length in Hlt. lia. }
    destruct Hi as (c & s & Hi). destruct (component_ok i c (components_at sys i c s Hc Hi)) as (_ & Hlin & _).
    destruct (fit_component sys i c s (f i) (all_wf sys Hc) Hi (Hg i c s Hi) Hlin) as (s' & Hu & Hg' & _).
    cbn [foldM]. rewrite Hu. cbn [bind].
    destruct (IH (fun j => if j =? i then S (f j) else f j) (set_store sys i s') Hnd') as (sys' & H & Hg'').
    + intros j Hj. apply Hlt. right. exact Hj.
    + split; [rewrite set_store_components; exact Hc|]. intros j c0 s0 Hj. rewrite nth_set_store in Hj.
      destruct (nth_error sys j) as [[c1 s1]|] eqn:Ej; [|discriminate]. injection Hj as <- <-.
      destruct (Nat.eqb_spec j i) as [->|Hne].
      * rewrite Hi in Ej. injection Ej as <- _. exact Hg'.
      * apply (Hg j c1 s1 Ej).
    + exists sys'. split; [exact H|]. destruct Hg'' as [Hc'' Hg'']. split; [exact Hc''|]. intros j c0 s0 Hj. specialize (Hg'' j c0 s0 Hj).
      cbn [existsb]. destruct (Nat.eqb_spec j i) as [->|Hne].
      * cbn [orb]. destruct (existsb (Nat.eqb i) l) eqn:E.
        -- exfalso. apply Hni. apply existsb_exists in E. destruct E as (x & Hx & Hx'). apply Nat.eqb_eq in Hx'. subst. exact Hx.
        -- exact Hg''.
      * cbn [orb]. exact Hg''.
Qed.

Lemma in_memory_good k : exists sys, in_memory solve components loaders times k = Ok sys /\ all_good (fun _ => k) sys.
Proof.
  induction k as [|k (sys & Hk & Hg)].
  - eexists. split; [reflexivity|]. split.
    + rewrite map_map. cbn [fst]. apply map_id.
    + intros j c s Hj. rewrite nth_error_map in Hj. destruct (nth_error components j) as [c0|] eqn:E; [|discriminate].
      injection Hj as -> <-. destruct (component_ok j c E) as (_ & _ & Hk). unfold good. destruct (c_kind c); [| |congruence].
      * split; [reflexivity|congruence].
      * split; [split; [constructor|intros k0 []]|split; [reflexivity|congruence]].
  - destruct (sweep_good (seq 0 (length sys)) (fun _ => k) sys (seq_NoDup _ _)) as (sys' & H & Hg').
    + intros i Hi. apply in_seq in Hi. destruct Hg as [Hc _]. rewrite <- Hc, map_length. lia.
    + exact Hg.
    + exists sys'. cbn [in_memory]. rewrite Hk. cbn [bind]. split; [exact H|].
      destruct Hg' as [Hc' Hg']. split; [exact Hc'|]. intros j c s Hj. specialize (Hg' j c s Hj).
      assert (He : existsb (Nat.eqb j) (seq 0 (length sys)) = true).
      { apply existsb_exists. exists j. split; [|apply Nat.eqb_refl]. apply in_seq.
        assert (j < length sys') by (apply nth_error_Some; congruence).
        destruct Hg as [Hc _]. rewrite <- (map_length fst sys'), Hc', <- Hc, map_length in H0. lia. }
      rewrite He in Hg'. exact Hg'.
Qed.

(* the system as component [i] finds it in iteration [k + 1] *)
Lemma before_component k i c : nth_error components i = Some c ->
  exists old new before s s',
    in_memory solve components loaders times k = Ok old /\ in_memory solve components loaders times (S k) = Ok new /\
    map fst before = components /\ (forall j, j < i -> nth_error before j = nth_error new j) /\
    (forall j, i <= j -> nth_error before j = nth_error old j) /\
    nth_error before i = Some (c, s) /\ nth_error new i = Some (c, s') /\
    all_good (fun _ => k) old /\ all_good (fun _ => S k) new /\ fitted before i c s s'.
Proof.
  intros Hc. destruct (in_memory_good k) as (old & Ho & Hgo). destruct (in_memory_good (S k)) as (new & Hn & Hgn).
  pose proof Hn as Hu. cbn [in_memory] in Hu. rewrite Ho in Hu. cbn [bind] in Hu.
  assert (Hlen : length old = length components) by (destruct Hgo as [E _]; rewrite <- E, map_length; reflexivity).
  assert (Hlen' : length new = length components) by (destruct Hgn as [E _]; rewrite <- E, map_length; reflexivity).
  assert (Hi : i < length components) by (apply nth_error_Some; congruence).
  destruct (C34_sweep solve old loaders times new i Hu ltac:(lia)) as (before & after & Hb & Hbl & Hlt & Hge & Ha & _).
  exists old, new, before.
  assert (Hcb : map fst before = components).
  { apply nth_error_eq. intros j. rewrite nth_error_map.
    destruct (Nat.lt_ge_cases j i) as [Hj|Hj]; [rewrite (Hlt j Hj)|rewrite (Hge j Hj)]; rewrite <- nth_error_map.
    - destruct Hgn as [E _]. rewrite E. reflexivity.
    - destruct Hgo as [E _]. rewrite E. reflexivity. }
  destruct (nth_error before i) as [[c0 s]|] eqn:Ei; [|apply nth_error_None in Ei; lia].
  pose proof (components_at before i c0 s Hcb Ei) as Hc0. rewrite Hc in Hc0. injection Hc0 as <-.
  destruct (component_ok i c Hc) as (_ & Hlin & _).
  assert (Hgs : good k c s).
  { rewrite (Hge i (Nat.le_refl i)) in Ei. destruct Hgo as [_ Hgo]. apply (Hgo i c s Ei). }
  destruct (fit_component before i c s k (all_wf before Hcb) Ei Hgs Hlin) as (s' & Hu' & _ & Hfit).
  rewrite Hb in Hu'. injection Hu' as ->. rewrite nth_set_store, Ei, Nat.eqb_refl in Ha.
  exists s, s'. repeat (split; [first [assumption|reflexivity|congruence]|]). exact Hfit.
Qed.
End InMemory.

(* ---- the operations of the workflow *)

Section Operations.
Variable name : slot -> string.
Variable solve : table -> vec -> vec.
Variable components : list component.
Variable loaders : list loader.
Variable times : list Z.
Hypothesis Hrun : runnable name components loaders times.
Notation memory := (in_memory solve components loaders times).
Notation heldin := (held solve components loaders times).

Lemma with_storages_nth f j : nth_error (with_storages components f) j = option_map (fun c => (c, f j c)) (nth_error components j).
Proof.
  unfold with_storages. rewrite nth_error_map, combine_seq_nth. destruct (nth_error components j); reflexivity.
Qed.
Lemma Forall2_nth {A B} (P : A -> B -> Prop) (l : list A) (m : list B) : length l = length m ->
  (forall k a b, nth_error l k = Some a -> nth_error m k = Some b -> P a b) -> Forall2 P l m.
Proof.
  revert m. induction l as [|a l IH]; intros [|b m] Hlen H; try discriminate; [constructor|]. constructor.
  - apply (H 0); reflexivity.
  - apply IH; [cbn in Hlen; lia|]. intros k. apply (H (S k)).
Qed.

(* the slots an operation reads and the one it writes *)
Definition measure_inputs (k i : nat) (t : Z) (sl : slot) : Prop :=
  exists j c, nth_error components j = Some c /\ newest k i j <> 0 /\
    sl = match c_kind c with Spatial => SLocal (newest k i j) j t | _ => SState (newest k i j) j end.
Definition measure_output (k i : nat) (t : Z) (c : component) : slot :=
  match c_kind c with Spatial => SLocal k i t | _ => SMeasurement k i t end.
Definition solve_inputs (k i : nat) (sl : slot) : Prop := exists t, In t times /\ sl = SMeasurement k i t.

Variable lenient : bool.
Variable R : string -> option content -> Prop.
Variable W : string -> content -> Prop.
Definition reads_right (inputs : slot -> Prop) : Prop :=
  forall sl, inputs sl -> forall c, R (name sl) c -> c = heldin sl \/ (lenient = true /\ bad c).
Definition writes_right (sl : slot) : Prop := W (name sl) Damaged /\ forall c, heldin sl = Some c -> W (name sl) c.

Lemma measuring_sees k i t before old new : In t times ->
  memory k = Ok old -> memory (S k) = Ok new -> map fst before = components ->
  (forall j, j < i -> nth_error before j = nth_error new j) -> (forall j, i <= j -> nth_error before j = nth_error old j) ->
  all_good components times (fun _ => k) old -> all_good components times (fun _ => S k) new ->
  reads_right (measure_inputs (S k) i t) ->
  Forall2 (sees R W lenient t) (measuring name components (S k) i t) before.
Proof.
  intros Hti Ho Hn Hc Hlt Hge Hgo Hgn HR. apply Forall2_nth.
  - unfold measuring, with_storages. rewrite map_length, combine_length, seq_length, <- Hc, map_length. lia.
  - intros j [c s] [c' st] Hj Hb. unfold measuring in Hj. rewrite with_storages_nth in Hj.
    destruct (nth_error components j) as [c0|] eqn:Ec; [|discriminate]. cbn [option_map] in Hj. injection Hj as -> <-.
    pose proof (components_at components before j c' st Hc Hb) as Ec'. rewrite Ec in Ec'. injection Ec' as <-.
    (* the system of the newest iteration *)
    assert (HN : exists sys, memory (newest (S k) i j) = Ok sys /\ nth_error sys j = Some (c, st) /\ good times (newest (S k) i j) c st).
    { unfold newest. destruct (Nat.ltb_spec j i) as [Hji|Hji].
      - exists new. rewrite <- (Hlt j Hji). split; [exact Hn|split; [exact Hb|]]. apply (proj2 Hgn j). rewrite <- (Hlt j Hji). exact Hb.
      - exists old. replace (S k - 1) with k by lia. rewrite <- (Hge j Hji). split; [exact Ho|split; [exact Hb|]]. apply (proj2 Hgo j).
        rewrite <- (Hge j Hji). exact Hb. }
    destruct HN as (sys & Hs & Hsj & Hg).
    assert (Hin : newest (S k) i j <> 0 -> measure_inputs (S k) i t
              (match c_kind c with Spatial => SLocal (newest (S k) i j) j t | _ => SState (newest (S k) i j) j end)).
    { intros H0. exists j, c. split; [exact Ec|split; [exact H0|reflexivity]]. }
    destruct (component_ok name components loaders times Hrun j c Ec) as (_ & _ & Hk).
    split; [reflexivity|]. cbn [fst snd]. unfold good in Hg. destruct (c_kind c) eqn:Ek; [| |congruence].
    + unfold spatial_storage, partial_state_read, reads. cbn [pf_state_read pf_time].
      destruct (newest (S k) i j) as [|n] eqn:En.
      * apply wp_ret. destruct Hg as [Hg _]. rewrite (Hg eq_refl). reflexivity.
      * unfold okey_eqb. rewrite Z.eqb_refl. cbn [negb].
        destruct Hg as [_ Hg]. destruct (Hg ltac:(lia) t Hti) as [x Hx]. rewrite Hx.
        apply wp_seq with (a := x); [|apply wp_ret; reflexivity]. apply wp_readstate. intros c0 Hc0.
        destruct (HR _ (Hin ltac:(lia)) c0 Hc0) as [->|Hbad]; [left|right; exact Hbad].
        unfold held. rewrite Hs, Hsj, Hx. reflexivity.
    + unfold measuring_storage, state_read, reads. cbn [sf_state_read].
      destruct (newest (S k) i j) as [|n] eqn:En.
      * apply wp_ret. destruct Hg as (_ & Hg & _). rewrite (Hg eq_refl). reflexivity.
      * destruct Hg as (_ & _ & Hg). destruct (Hg ltac:(lia)) as [x Hx]. rewrite Hx.
        apply wp_seq with (a := x); [|apply wp_ret; reflexivity]. apply wp_readstate. intros c0 Hc0.
        destruct (HR _ (Hin ltac:(lia)) c0 Hc0) as [->|Hbad]; [left|right; exact Hbad].
        unfold held. rewrite Hs, Hsj, Hx. reflexivity.
Qed.

(* an operation reads what it needs and then writes one file *)
Definition reads_then_writes (p : program unit) (sl : slot) : Prop :=
  exists A (r : program A) a q v, p = andthen r q /\ wp R W r (upto lenient a) /\ q a = writepickle v (name sl) /\ heldin sl = Some v.
Lemma wp_operation p sl : reads_then_writes p sl -> writes_right sl -> wp R W p (upto lenient tt).
Proof.
  intros (A & r & a & q & v & -> & Hr & Hq & Hv) [HW1 HW2]. apply (wp_seq R W lenient _ _ _ _ Hr). rewrite Hq.
  apply wp_writepickle; [exact HW1|apply HW2, Hv].
Qed.

Lemma measure_shape k i t c : nth_error components i = Some c -> In t times -> reads_right (measure_inputs (S k) i t) ->
  reads_then_writes (update_component_time_f solve (measuring name components (S k) i t) loaders i t) (measure_output (S k) i t c).
Proof.
  intros Hc Ht HR.
  destruct (before_component name solve components loaders times Hrun k i c Hc)
    as (old & new & before & s & s' & Ho & Hn & Hcb & Hlt & Hge & Hbi & Hni & Hgo & Hgn & Hfit).
  pose proof (measuring_sees k i t before old new Ht Ho Hn Hcb Hlt Hge Hgo Hgn HR) as HF.
  pose proof (loaders_cons name components loaders times Hrun) as Hne.
  assert (Hl : wf_loaders loaders t /\ inputs loaders t <> []) by (destruct Hrun as (_ & _ & _ & _ & H); apply H, Ht).
  destruct Hl as [Hl Hin].
  destruct (component_ok name components loaders times Hrun i c Hc) as (Hwf & Hlin & Hk).
  unfold update_component_time_f. destruct loaders as [|l0 ls] eqn:El; [congruence|]. rewrite <- El in *. clear El.
  replace (length loaders =? 0) with false by (symmetry; apply Nat.eqb_neq; destruct loaders; [congruence|discriminate]).
  assert (Hfi : exists st, nth_error (measuring name components (S k) i t) i = Some (c, st) /\
     st = match c_kind c with Spatial => spatial_storage name (S k) i i t | _ => measuring_storage name (S k) i i t end).
  { unfold measuring. rewrite with_storages_nth, Hc. eexists. split; reflexivity. }
  destruct Hfi as (st & Hfi & Hst). rewrite Hfi.
  assert (Hsee : sees R W lenient t (c, st) (c, s)).
  { assert (H : forall l m, Forall2 (sees R W lenient t) l m -> forall n a b, nth_error l n = Some a -> nth_error m n = Some b -> sees R W lenient t a b).
    { induction 1 as [|a b l m H1 H2 IH]; intros [|n] x y Hx Hy; try discriminate; [injection Hx as <-; injection Hy as <-; exact H1|].
      apply (IH n x y Hx Hy). }
    apply (H _ _ HF i); assumption. }
  pose proof (process_all before i c s t loaders (all_wf name components loaders times Hrun before Hcb) Hwf Hl) as Hpa.
  pose proof (wp_process_all R W lenient t _ before i c st HF Hlin loaders (component_solution s) _ Hsee (fun l Hl0 => proj1 (Hl l Hl0)) Hpa) as Hwp.
  destruct (inputs loaders t) as [|o os] eqn:Ein; [congruence|].
  eexists. eexists. eexists. eexists. exists (match heldin (measure_output (S k) i t c) with Some v => v | None => Damaged end).
  split; [reflexivity|]. split; [exact Hwp|]. clear Hwp Hpa.
  unfold progress, strip. cbn [so_meas so_time].
  cbn [map hd_error]. rewrite <- (map_cons (equation_for before i c _) o os), <- Ein.
  unfold update_time_step_f, measure_output, fitted in *. rewrite Hst. unfold good in *.
  destruct (c_kind c) eqn:Ek; [| |congruence].
  - unfold spatial_storage, partial_state_write. cbn [pf_state_write pf_time]. rewrite Nat.eqb_refl.
    replace (point c s t (Some o)) with (@None vec) by (unfold point; rewrite Ek; reflexivity).
    rewrite posterior_ok by (try exact Hwf; apply information_shaped). cbn [andthen].
    unfold okey_eqb. rewrite Z.eqb_refl. cbn [negb].
    unfold held. rewrite Hn, Hni. rewrite (Hfit t Ht). split; reflexivity.
  - unfold measuring_storage, measurement_write. cbn [sf_meas_write sf_time fst snd]. rewrite Nat.eqb_refl.
    unfold okey_eqb at 1. rewrite Z.eqb_refl. cbn [negb].
    unfold held. rewrite Hn, Hni. destruct Hfit as [_ Hfit]. rewrite (Hfit t Ht). cbn [option_map].
    unfold day. replace (point c s t (Some o)) with (s_state s); [split; reflexivity|].
    unfold point. rewrite Ek, Hlin. destruct (s_state s); reflexivity.
Qed.

Lemma foldM_positions {A B} (h : A -> B -> result A) (whole : list B) : forall l base a,
  (forall k, nth_error l k = nth_error whole (base + k)) ->
  foldM (fun a z => match nth_error whole (Z.to_nat z) with Some b => h a b | None => Err IndexError end) a
        (map Z.of_nat (seq base (length l))) = foldM h a l.
Proof.
  induction l as [|b l IH]; intros base a H; [reflexivity|]. cbn [length seq map foldM].
  rewrite Nat2Z.id. pose proof (H 0) as H0. cbn [nth_error] in H0. rewrite Nat.add_0_r in H0. rewrite <- H0.
  destruct (h a b) as [a'|]; [|reflexivity]. cbn [bind]. apply IH. intros k.
  rewrite Nat.add_succ_comm, <- (H (S k)). reflexivity.
Qed.
Lemma zrange_seq n : zrange 0 (Z.of_nat n) = map Z.of_nat (seq 0 n).
Proof. unfold zrange. rewrite Z.sub_0_r, Nat2Z.id. apply map_ext. intros k. reflexivity. Qed.

Lemma foldM_append n (E : Z -> list equation) : forall l qs,
  foldM (fun u t => append_measurement_update u (information n (E t))) (information n qs) l = Ok (information n (qs ++ flat_map E l)).
Proof.
  induction l as [|t l IH]; intros qs; [cbn; rewrite app_nil_r; reflexivity|].
  cbn [foldM flat_map]. rewrite append_informations. cbn [bind]. rewrite IH, app_assoc. reflexivity.
Qed.

Lemma solve_shape k i c : nth_error components i = Some c -> c_kind c = SpaceTime -> reads_right (solve_inputs (S k) i) ->
  reads_then_writes (update_component_solution_f solve (solving name components times (S k) i) i) (SState (S k) i).
Proof.
  intros Hc Ek HR.
  destruct (before_component name solve components loaders times Hrun k i c Hc)
    as (old & new & before & s & s' & Ho & Hn & Hcb & Hlt & Hge & Hbi & Hni & Hgo & Hgn & Hfit).
  destruct (component_ok name components loaders times Hrun i c Hc) as (Hwf & Hlin & _).
  unfold update_component_solution_f. unfold solving. rewrite with_storages_nth, Hc. cbn [option_map]. rewrite Ek.
  unfold update_solution_f, solving_storage. rewrite Ek, Hlin. rewrite Nat.eqb_refl.
  unfold fitted in Hfit. rewrite Ek in Hfit. destruct Hfit as [Hstate Hmeas].
  set (fs := map (fun t => name (SMeasurement (S k) i t)) times).
  set (st := {| sf_state_read := _; sf_state_write := _; sf_time := _; sf_meas_write := _; sf_meas_list := _ |}).
  assert (Hti : timeindices_read st = Some (map Z.of_nat (seq 0 (length times)))).
  { unfold timeindices_read. cbn [sf_meas_list st]. destruct (times_cons name components loaders times Hrun) as (t & rest & E).
    assert (Hfs : fs <> []) by (unfold fs; rewrite E; discriminate).
    destruct fs as [|f0 fs0] eqn:Efs; [congruence|]. rewrite <- Efs. f_equal. unfold zlen.
    replace (length fs) with (length times) by (unfold fs; rewrite map_length; reflexivity). apply zrange_seq. }
  rewrite Hti. set (n := el_dim (c_element c)) in *. set (E := day before i c (fun _ => s_state s) loaders) in *.
  exists info. eexists. exists (information n (flat_map E times)). eexists. eexists. split; [reflexivity|]. split; [|split].
  - apply wp_fold with (g := fun u z => match nth_error times (Z.to_nat z) with
                                        | Some t => append_measurement_update u (information n (E t)) | None => Err IndexError end).
    + intros u z u' Hz Hu. apply in_map_iff in Hz. destruct Hz as (m & <- & Hm). apply in_seq in Hm. rewrite Nat2Z.id in Hu.
      destruct (nth_error times m) as [t|] eqn:Et; [|discriminate].
      assert (Ht : In t times) by (apply nth_error_In with (n := m); exact Et).
      unfold measurement_read. cbn [sf_meas_list st]. unfold fs, zlen. rewrite map_length.
      replace ((Z.of_nat m <? 0) || (Z.of_nat (length times) <=? Z.of_nat m))%Z with false by lia.
      rewrite Nat2Z.id, nth_error_map, Et. cbn [option_map].
      apply wp_seq with (a := Some (information n (E t))).
      * apply wp_readmeasurement. intros c0 Hc0. destruct (HR _ (ex_intro _ t (conj Ht eq_refl)) c0 Hc0) as [->|Hb]; [left|right; exact Hb].
        unfold held. rewrite Hn, Hni, (Hmeas t Ht). reflexivity.
      * apply wp_ret. exact Hu.
    + rewrite (foldM_positions (fun u t => append_measurement_update u (information n (E t))) times times 0) by (intros; reflexivity).
      rewrite blank_information. apply foldM_append.
  - rewrite posterior_ok by (try exact Hwf; apply information_shaped). cbn [andthen]. reflexivity.
  - unfold held. rewrite Hn, Hni, Hstate. reflexivity.
Qed.
End Operations.

(* ---- all histories *)

Section Histories.
Variable name : slot -> string.
Variable solve : table -> vec -> vec.
Variable components : list component.
Variable loaders : list loader.
Variable times : list Z.
Hypothesis Hrun : runnable name components loaders times.
Notation heldin := (held solve components loaders times).
Notation ops := (operations name solve components loaders times).

(* an operation is a measurement or a solution *)
Lemma operation_cases n p : In p (ops n) -> exists k i c, 1 <= S k <= n /\ nth_error components i = Some c /\
  ((exists t, In t times /\ p = update_component_time_f solve (measuring name components (S k) i t) loaders i t) \/
   (c_kind c = SpaceTime /\ p = update_component_solution_f solve (solving name components times (S k) i) i)).
Proof.
  intros H. unfold operations in H. apply in_flat_map in H. destruct H as (k & Hk & H). apply in_seq in Hk.
  apply in_flat_map in H. destruct H as (i & Hi & H). apply in_seq in Hi.
  destruct k as [|k]; [lia|]. destruct (nth_error components i) as [c|] eqn:Ec; [|apply nth_error_None in Ec; lia].
  exists k, i, c. split; [lia|split; [exact Ec|]]. unfold operations_for in H. rewrite Ec in H. apply in_app_or in H.
  destruct H as [H|H].
  - left. apply in_map_iff in H. destruct H as (t & <- & Ht). exists t. split; [exact Ht|reflexivity].
  - right. destruct (c_kind c); [destruct H| |destruct H]. destruct H as [<-|[]]. split; reflexivity.
Qed.

Definition Rany (f : string) (c : option content) : Prop := forall sl, f = name sl -> c = heldin sl \/ bad c.
Definition Wany (f : string) (c : content) : Prop := exists sl, f = name sl /\ (c = Damaged \/ Some c = heldin sl).

Lemma name_inj a b : name a = name b -> a = b.
Proof. destruct Hrun as (H & _). apply H. Qed.

Lemma operations_safe n p : In p (ops n) -> wp Rany Wany p (fun _ => True).
Proof.
  intros H. destruct (operation_cases n p H) as (k & i & c & _ & Hc & Hcase).
  assert (HR : forall inputs, reads_right name solve components loaders times true Rany inputs).
  { intros inputs sl _ x Hx. destruct (Hx sl eq_refl) as [->|Hb]; [left; reflexivity|right; split; [reflexivity|exact Hb]]. }
  assert (HW : forall sl, writes_right name solve components loaders times Wany sl).
  { intros sl. split; [exists sl; split; [reflexivity|left; reflexivity]|].
    intros x Hx. exists sl. split; [reflexivity|right; symmetry; exact Hx]. }
  destruct Hcase as [(t & Ht & ->)|[Hk ->]].
  - eapply wp_weaken; [|apply (wp_operation _ _ _ _ _ _ _ _ _ _ (measure_shape name solve components loaders times Hrun true Rany Wany k i t c Hc Ht (HR _)) (HW _))]. trivial.
  - eapply wp_weaken; [|apply (wp_operation _ _ _ _ _ _ _ _ _ _ (solve_shape name solve components loaders times Hrun true Rany Wany k i c Hc Hk (HR _)) (HW _))]. trivial.
Qed.

Definition safe_world (w : world) : Prop :=
  (forall f, Rany f (w_disk w f)) /\ forall k p, w_live w k = Some p -> wp Rany Wany p (fun _ => True).

Lemma happen_safe n w e : safe_world w -> safe_world (happen (ops n) w e).
Proof.
  intros [Hd Hl]. destruct e as [k|k|k]; cbn [happen].
  - split; [exact Hd|]. intros j p. cbn [set_live w_live]. destruct (j =? k); [|apply Hl].
    intros H. apply operations_safe with (n := n). apply nth_error_In with (n := k). exact H.
  - split; [exact Hd|]. intros j p. cbn [set_live w_live]. destruct (j =? k); [discriminate|apply Hl].
  - destruct (w_live w k) as [[r|f q|f c q]|] eqn:E.
    + split; [exact Hd|]. intros j p. cbn [set_live w_live]. destruct (j =? k); [discriminate|apply Hl].
    + specialize (Hl k _ E) as Hq. cbn [wp] in Hq. split; [exact Hd|]. intros j p. cbn [set_live w_live].
      destruct (j =? k); [|apply Hl]. intros H. injection H as <-. apply Hq, Hd.
    + specialize (Hl k _ E) as Hq. cbn [wp] in Hq. destruct Hq as [Hw Hq]. split.
      * cbn [w_disk]. intros g sl Hg. unfold put. destruct (String.eqb_spec g f) as [->|Hne]; [|apply Hd, Hg].
        destruct Hw as (sl' & Hf & Hc). rewrite Hg in Hf. apply name_inj in Hf. subst sl'.
        destruct Hc as [->|Hc]; [right; right; reflexivity|left; exact Hc].
      * intros j p. cbn [w_live]. destruct (j =? k); [|apply Hl]. intros H. injection H as <-. exact Hq.
    + split; assumption.
Qed.
Lemma history_safe n es : forall w, safe_world w -> safe_world (history (ops n) w es).
Proof. induction es as [|e es IH]; intros w H; [exact H|]. cbn [history fold_left]. apply IH, happen_safe, H. Qed.

(* files of no slot are left alone *)
Lemma happen_others n w e f : safe_world w -> (forall sl, f <> name sl) -> w_disk (happen (ops n) w e) f = w_disk w f.
Proof.
  intros [Hd Hl] Hf. destruct e as [k|k|k]; cbn [happen]; [reflexivity|reflexivity|].
  destruct (w_live w k) as [[r|g q|g c q]|] eqn:E; try reflexivity.
  specialize (Hl k _ E) as Hq. cbn [wp] in Hq. destruct Hq as [(sl & -> & _) _]. cbn [w_disk]. unfold put.
  destruct (String.eqb_spec f (name sl)) as [->|Hne]; [|reflexivity]. destruct (Hf sl eq_refl).
Qed.
Lemma history_others n es f : (forall sl, f <> name sl) -> forall w, safe_world w -> w_disk (history (ops n) w es) f = w_disk w f.
Proof.
  intros Hf. induction es as [|e es IH]; intros w H; [reflexivity|]. cbn [history fold_left].
  change (w_disk (history (ops n) (happen (ops n) w e) es) f = w_disk w f).
  rewrite (IH _ (happen_safe n w e H)). apply happen_others; assumption.
Qed.
End Histories.

(* ---- running to the end *)

Lemma exec_reads {A B} (r : program A) (q : A -> program B) a d :
  wp (fun f c => c = d f) (fun _ _ => False) r (upto false a) -> execute (andthen r q) d = execute (q a) d.
Proof.
  induction r as [x|f k IH|f c p IH]; cbn [wp andthen execute]; intros H.
  - destruct H as [->|[H _]]; [reflexivity|discriminate].
  - apply IH, H. reflexivity.
  - destruct H as [[] _].
Qed.
Lemma execute_all_app a : forall b d, execute_all (a ++ b) d =
  (fst (execute_all b (fst (execute_all a d))), snd (execute_all a d) ++ snd (execute_all b (fst (execute_all a d)))).
Proof.
  induction a as [|p a IH]; intros b d; cbn [app execute_all fst snd].
  - destruct (execute_all b d); reflexivity.
  - destruct (execute p d) as [d1 r]. rewrite IH. destruct (execute_all a d1) as [d2 rs]. reflexivity.
Qed.

Section Completion.
Variable name : slot -> string.
Variable solve : table -> vec -> vec.
Variable components : list component.
Variable loaders : list loader.
Variable times : list Z.
Hypothesis Hrun : runnable name components loaders times.
Notation heldin := (held solve components loaders times).
Notation ops := (operations name solve components loaders times).
Notation opsfor := (operations_for name solve components loaders times).

Definition has (d : disk) (sl : slot) : Prop := exists v, d (name sl) = Some v /\ heldin sl = Some v /\ v <> Damaged.
Definition ready (d : disk) (inputs : slot -> Prop) : Prop := forall sl, inputs sl -> has d sl.

Lemma held_not_damaged sl v : heldin sl = Some v -> v <> Damaged.
Proof.
  unfold held. intros H ->. destruct sl as [k j|k j t|k j t]; destruct (in_memory solve components loaders times k) as [sys|]; try discriminate;
    destruct (nth_error sys j) as [[c s]|]; try discriminate.
  - destruct (s_state s); discriminate.
  - destruct (assoc _ _ _); discriminate.
  - destruct (assoc _ _ _); discriminate.
Qed.

Lemma execute_shape p sl d :
  reads_then_writes name solve components loaders times false (fun f c => c = d f) (fun _ _ => False) p sl ->
  exists d', execute p d = (d', Ok tt) /\ has d' sl /\ (forall sl', has d sl' -> has d' sl') /\
             forall f, f <> name sl -> d' f = d f.
Proof.
  intros (A & r & a & q & v & -> & Hr & Hq & Hv).
  exists (put (put d (name sl) Damaged) (name sl) v). split; [|split; [|split]].
  - rewrite (exec_reads r q a d Hr), Hq. reflexivity.
  - exists v. split; [unfold put; rewrite String.eqb_refl; reflexivity|]. split; [exact Hv|apply (held_not_damaged sl v Hv)].
  - intros sl' (w & H1 & H2 & H3). exists w. split; [|split; [exact H2|exact H3]]. unfold put.
    destruct (String.eqb_spec (name sl') (name sl)) as [E|_]; [|exact H1].
    apply (name_inj name components loaders times Hrun) in E. subst sl'. congruence.
  - intros f Hf. unfold put. apply String.eqb_neq in Hf. rewrite Hf. reflexivity.
Qed.

Lemma ready_right d inputs : ready d inputs -> reads_right name solve components loaders times false (fun f c => c = d f) inputs.
Proof. intros H sl Hsl c ->. left. destruct (H sl Hsl) as (v & H1 & H2 & _). congruence. Qed.

Lemma execute_measure k i t c d : nth_error components i = Some c -> In t times -> ready d (measure_inputs components (S k) i t) ->
  exists d', execute (update_component_time_f solve (measuring name components (S k) i t) loaders i t) d = (d', Ok tt) /\
    has d' (measure_output (S k) i t c) /\ (forall sl', has d sl' -> has d' sl') /\ forall f, f <> name (measure_output (S k) i t c) -> d' f = d f.
Proof.
  intros Hc Ht Hr. apply execute_shape. apply measure_shape; try assumption. apply ready_right, Hr.
Qed.
Lemma execute_solve k i c d : nth_error components i = Some c -> c_kind c = SpaceTime -> ready d (solve_inputs times (S k) i) ->
  exists d', execute (update_component_solution_f solve (solving name components times (S k) i) i) d = (d', Ok tt) /\
    has d' (SState (S k) i) /\ (forall sl', has d sl' -> has d' sl') /\ forall f, f <> name (SState (S k) i) -> d' f = d f.
Proof.
  intros Hc Ek Hr. apply execute_shape. apply (solve_shape name solve components loaders times Hrun _ _ _ k i c Hc Ek). apply ready_right, Hr.
Qed.

(* the slots written by the operations on component [i] in iteration [k] *)
Definition output (k i : nat) (sl : slot) : Prop :=
  exists c, nth_error components i = Some c /\
    ((exists t, In t times /\ sl = measure_output k i t c) \/ (c_kind c = SpaceTime /\ sl = SState k i)).
Definition done (k i : nat) (sl : slot) : Prop :=
  exists k' i', 1 <= k' /\ output k' i' sl /\ (k' < k \/ (k' = k /\ i' < i)).

Lemma inputs_done k i t sl : In t times -> measure_inputs components (S k) i t sl -> done (S k) i sl.
Proof.
  intros Ht (j & c & Hc & Hn & ->). exists (newest (S k) i j), j.
  split; [lia|split].
  - exists c. split; [exact Hc|]. destruct (component_ok name components loaders times Hrun j c Hc) as (_ & _ & Hk).
    unfold measure_output. destruct (c_kind c) eqn:Ek; [left; exists t; split; [exact Ht|reflexivity]|right; split; reflexivity|congruence].
  - unfold newest in *. destruct (Nat.ltb_spec j i); [right|left]; lia.
Qed.

Definition all_ok (rs : list (result unit)) : Prop := Forall (fun r => r = Ok tt) rs.

Lemma run_times k i c : nth_error components i = Some c -> forall l d, incl l times -> ready d (done (S k) i) ->
  exists d' rs, execute_all (map (fun t => update_component_time_f solve (measuring name components (S k) i t) loaders i t) l) d = (d', rs) /\
    all_ok rs /\ (forall sl, has d sl -> has d' sl) /\ forall t, In t l -> has d' (measure_output (S k) i t c).
Proof.
  intros Hc. induction l as [|t l IH]; intros d Hincl Hr.
  - exists d. eexists. split; [reflexivity|split; [constructor|split; [auto|intros t []]]].
  - assert (Ht : In t times) by (apply Hincl; left; reflexivity).
    destruct (execute_measure k i t c d Hc Ht) as (d1 & He & Hh & Hkeep & _).
    { intros sl Hsl. apply Hr. apply (inputs_done k i t sl Ht Hsl). }
    destruct (IH d1) as (d2 & rs & He2 & Hok & Hkeep2 & Hall).
    { intros x Hx. apply Hincl. right. exact Hx. }
    { intros sl Hsl. apply Hkeep, Hr, Hsl. }
    exists d2. eexists. cbn [map execute_all]. rewrite He, He2. split; [reflexivity|]. split; [constructor; [reflexivity|exact Hok]|].
    split; [intros sl Hsl; apply Hkeep2, Hkeep, Hsl|]. intros t' [<-|Ht']; [apply Hkeep2, Hh|apply Hall, Ht'].
Qed.

Lemma run_component k i c d : nth_error components i = Some c -> ready d (done (S k) i) ->
  exists d' rs, execute_all (opsfor (S k) i) d = (d', rs) /\ all_ok rs /\ (forall sl, has d sl -> has d' sl) /\ ready d' (done (S k) (S i)).
Proof.
  intros Hc Hr. unfold operations_for. rewrite Hc, execute_all_app.
  destruct (run_times k i c Hc times d (incl_refl _) Hr) as (d1 & rs & He & Hok & Hkeep & Hall). rewrite He. cbn [fst snd].
  assert (Hlast : exists d2 rs2, execute_all (match c_kind c with SpaceTime => [update_component_solution_f solve (solving name components times (S k) i) i] | _ => [] end) d1 = (d2, rs2) /\
     all_ok rs2 /\ (forall sl, has d1 sl -> has d2 sl) /\ (c_kind c = SpaceTime -> has d2 (SState (S k) i))).
  { destruct (c_kind c) eqn:Ek.
    - exists d1, []. split; [reflexivity|split; [constructor|split; [auto|discriminate]]].
    - destruct (execute_solve k i c d1 Hc Ek) as (d2 & He2 & Hh & Hkeep2 & _).
      { intros sl (t & Ht & ->). specialize (Hall t Ht). unfold measure_output in Hall. rewrite Ek in Hall. exact Hall. }
      exists d2. eexists. cbn [execute_all]. rewrite He2. split; [reflexivity|]. split; [constructor; [reflexivity|constructor]|].
      split; [exact Hkeep2|intros _; exact Hh].
    - exists d1, []. split; [reflexivity|split; [constructor|split; [auto|discriminate]]]. }
  destruct Hlast as (d2 & rs2 & He2 & Hok2 & Hkeep2 & Hs). rewrite He2. cbn [fst snd].
  exists d2. eexists. split; [reflexivity|]. split; [apply Forall_app; split; assumption|]. split; [intros sl Hsl; apply Hkeep2, Hkeep, Hsl|].
  intros sl (k' & i' & Hk' & Hout & Hlt).
  assert (Hcase : (k' < S k \/ k' = S k /\ i' < i) \/ (k' = S k /\ i' = i)) by lia.
  destruct Hcase as [Hold|[-> ->]].
  - apply Hkeep2, Hkeep, Hr. exists k', i'. split; [exact Hk'|split; [exact Hout|exact Hold]].
  - destruct Hout as (c' & Hc' & Hout). rewrite Hc in Hc'. injection Hc' as <-. destruct Hout as [(t & Ht & ->)|[Ek ->]].
    + apply Hkeep2, Hall, Ht.
    + apply Hs, Ek.
Qed.

Lemma run_sweep k : forall m i d, i + m = length components -> ready d (done (S k) i) ->
  exists d' rs, execute_all (flat_map (opsfor (S k)) (seq i m)) d = (d', rs) /\ all_ok rs /\ ready d' (done (S (S k)) 0).
Proof.
  induction m as [|m IH]; intros i d Hm Hr.
  - exists d, []. split; [reflexivity|split; [constructor|]]. intros sl (k' & i' & Hk' & Hout & Hlt). apply Hr.
    exists k', i'. split; [exact Hk'|split; [exact Hout|]]. assert (Hcase : k' < S k \/ k' = S k) by lia.
    destruct Hcase as [H|H]; [left; exact H|right; split; [exact H|]]. destruct Hout as (c & Hc & _).
    assert (i' < length components) by (apply nth_error_Some; congruence). lia.
  - destruct (nth_error components i) as [c|] eqn:Hc; [|apply nth_error_None in Hc; lia].
    destruct (run_component k i c d Hc Hr) as (d1 & rs & He & Hok & _ & Hr1).
    destruct (IH (S i) d1 ltac:(lia) Hr1) as (d2 & rs2 & He2 & Hok2 & Hr2).
    exists d2. eexists. cbn [seq flat_map]. rewrite execute_all_app, He. cbn [fst snd]. rewrite He2. cbn [fst snd].
    split; [reflexivity|]. split; [apply Forall_app; split; assumption|exact Hr2].
Qed.

Lemma run_iterations : forall m k d, ready d (done (S k) 0) ->
  exists d' rs, execute_all (flat_map (fun k => flat_map (opsfor k) (seq 0 (length components))) (seq (S k) m)) d = (d', rs) /\ all_ok rs /\
    ready d' (done (S k + m) 0).
Proof.
  induction m as [|m IH]; intros k d Hr.
  - exists d, []. split; [reflexivity|split; [constructor|]]. rewrite Nat.add_0_r. exact Hr.
  - destruct (run_sweep k (length components) 0 d eq_refl Hr) as (d1 & rs & He & Hok & Hr1).
    destruct (IH (S k) d1 Hr1) as (d2 & rs2 & He2 & Hok2 & Hr2).
    exists d2. eexists. cbn [seq flat_map]. rewrite execute_all_app, He. cbn [fst snd]. rewrite He2. cbn [fst snd].
    split; [reflexivity|]. split; [apply Forall_app; split; assumption|]. replace (S k + S m) with (S (S k) + m) by lia. exact Hr2.
Qed.

Lemma run_all n d : exists d' rs, execute_all (ops n) d = (d', rs) /\ all_ok rs /\ ready d' (done (S n) 0).
Proof.
  destruct (run_iterations n 0 d) as (d' & rs & He & Hok & Hr).
  - intros sl (k' & i' & Hk' & _ & Hlt). lia.
  - exists d', rs. split; [exact He|split; [exact Hok|exact Hr]].
Qed.
End Completion.

(* execution as events *)
Lemma steps_execute ops k : forall p w, w_live w k = Some p ->
  exists m, w_disk (history ops w (repeat (Step k) m)) = fst (execute p (w_disk w)).
Proof.
  induction p as [r|f q IH|f c p IH]; intros w Hw.
  - exists 0. reflexivity.
  - destruct (IH (w_disk w f) (set_live w k (Some (q (w_disk w f))))) as [m Hm].
    + cbn. rewrite Nat.eqb_refl. reflexivity.
    + exists (S m). cbn [repeat history fold_left happen]. rewrite Hw. exact Hm.
  - destruct (IH {| w_disk := put (w_disk w) f c; w_live := fun j => if j =? k then Some p else w_live w j |}) as [m Hm].
    + cbn. rewrite Nat.eqb_refl. reflexivity.
    + exists (S m). cbn [repeat history fold_left happen]. rewrite Hw. exact Hm.
Qed.
Lemma history_app ops w a b : history ops w (a ++ b) = history ops (history ops w a) b.
Proof. apply fold_left_app. Qed.
Lemma events_execute ops : forall l base w, (forall j, nth_error l j = nth_error ops (base + j)) ->
  exists es, w_disk (history ops w es) = fst (execute_all l (w_disk w)).
Proof.
  induction l as [|p l IH]; intros base w Hl.
  - exists []. reflexivity.
  - pose proof (Hl 0) as H0. cbn [nth_error] in H0. rewrite Nat.add_0_r in H0.
    destruct (steps_execute ops base p (set_live w base (Some p))) as [m Hm]; [cbn; rewrite Nat.eqb_refl; reflexivity|].
    set (w1 := history ops w (Start base :: repeat (Step base) m)).
    assert (Hw1 : w_disk w1 = fst (execute p (w_disk w))).
    { unfold w1. cbn [history fold_left happen]. rewrite <- H0. exact Hm. }
    destruct (IH (S base) w1) as [es Hes].
    + intros j. rewrite Nat.add_succ_comm, <- (Hl (S j)). reflexivity.
    + exists ((Start base :: repeat (Step base) m) ++ es). rewrite history_app. fold w1. rewrite Hes, Hw1. cbn [execute_all].
      destruct (execute p (w_disk w)) as [d r]. cbn [fst]. destruct (execute_all l d); reflexivity.
Qed.

(* ---- failures *)

Fixpoint readonly {A} (p : program A) : Prop :=
  match p with Ret _ => True | Read _ k => forall c, readonly (k c) | Write _ _ _ => False end.
Lemma readonly_bind {A B} (p : program A) (q : A -> program B) : readonly p -> (forall a, readonly (q a)) -> readonly (andthen p q).
Proof.
  induction p as [[a|e]|f k IH|f c p IH]; cbn; intros Hp Hq; [apply Hq|exact I| |destruct Hp].
  intros c. apply IH; [apply Hp|exact Hq].
Qed.
Lemma readonly_fold {A B} (f : A -> B -> program A) : (forall a b, readonly (f a b)) -> forall l a, readonly (foldP f a l).
Proof. intros H. induction l as [|b l IH]; intros a; [exact I|]. cbn [foldP]. apply readonly_bind; [apply H|apply IH]. Qed.
Lemma execute_readonly {A} (p : program A) d : readonly p -> fst (execute p d) = d.
Proof. induction p as [r|f k IH|f c p IH]; cbn; intros H; [reflexivity|apply IH, H|destruct H]. Qed.
Lemma execute_bind {A B} (p : program A) (q : A -> program B) d : execute (andthen p q) d =
  match execute p d with (d', Ok a) => execute (q a) d' | (d', Err e) => (d', Err e) end.
Proof.
  revert d. induction p as [[a|e]|f k IH|f c p IH]; intros d; cbn [andthen execute]; [reflexivity|reflexivity|apply IH|apply IH].
Qed.
Lemma execute_bind_ro {A B} (p : program A) (q : A -> program B) d : readonly p -> execute (andthen p q) d =
  match snd (execute p d) with Ok a => execute (q a) d | Err e => (d, Err e) end.
Proof.
  intros H. rewrite execute_bind. pose proof (execute_readonly p d H) as E. destruct (execute p d) as [d' r]. cbn [fst snd] in *. subst d'.
  destruct r; reflexivity.
Qed.

Lemma readstate_ro f : readonly (readstate f). Proof. intros c. destruct c as [[]|]; exact I. Qed.
Lemma readmeasurement_ro f : readonly (readmeasurement f). Proof. intros c. destruct c as [[]|]; exact I. Qed.
Lemma state_read_ro s : readonly (state_read s).
Proof. unfold state_read. destruct (sf_state_read s); [|exact I]. apply readonly_bind; [apply readstate_ro|intros; exact I]. Qed.
Lemma partial_state_read_ro s t : readonly (partial_state_read s t).
Proof.
  unfold partial_state_read. destruct (pf_state_read s); [|exact I]. destruct (negb _); [exact I|].
  apply readonly_bind; [apply readstate_ro|intros; exact I].
Qed.
Lemma expected_value_ro c s o : readonly (expected_value_f c s o).
Proof.
  unfold expected_value_f. destruct (c_kind c), s as [s|s]; try exact I.
  - apply readonly_bind; [apply partial_state_read_ro|intros; exact I].
  - apply readonly_bind; [apply state_read_ro|intros; exact I].
Qed.
Lemma subtract_offset_ro fsys i o : readonly (subtract_offset_f fsys i o).
Proof.
  unfold subtract_offset_f. apply readonly_fold. intros a [k [c s]]. destruct (negb _); [|exact I].
  apply readonly_bind; [apply expected_value_ro|intros; exact I].
Qed.
Lemma linearisation_ro c s o : el_nonlinear (c_element c) = false -> readonly (linearisation_f c s o).
Proof.
  intros H. unfold linearisation_f. rewrite H. destruct (c_kind c), s as [s|s]; try exact I.
  apply readonly_bind; [apply state_read_ro|intros; exact I].
Qed.
Lemma process_observations_ro c s so o off : el_nonlinear (c_element c) = false -> readonly (process_observations_f c s so o off).
Proof.
  intros H. unfold process_observations_f.
  apply readonly_bind; [exact I|intros t]. apply readonly_bind; [exact I|intros rel].
  apply readonly_bind; [apply linearisation_ro, H|intros x]. apply readonly_bind; [exact I|intros rel'].
  apply readonly_bind; [exact I|intros u]. apply readonly_bind; [exact I|intros m]. exact I.
Qed.
Lemma process_inputs_ro fsys i c s so o : el_nonlinear (c_element c) = false -> readonly (process_inputs_f fsys i c s so o).
Proof.
  intros H. unfold process_inputs_f. destruct (0 <? length (o_vector o)); [|exact I].
  apply readonly_bind; [apply subtract_offset_ro|intros; apply process_observations_ro, H].
Qed.

(* a last write succeeds or does not happen *)
Definition writes_last (p : program unit) : Prop := forall d, snd (execute p d) = Ok tt \/ fst (execute p d) = d.
Lemma writes_last_bind {A} (p : program A) q : readonly p -> (forall a, writes_last (q a)) -> writes_last (andthen p q).
Proof.
  intros Hp Hq d. rewrite execute_bind_ro by exact Hp. destruct (snd (execute p d)) as [a|e]; [apply Hq|right; reflexivity].
Qed.
Lemma writes_last_pickle c f : writes_last (writepickle c f). Proof. intros d. left. reflexivity. Qed.
Lemma writes_last_ret r : writes_last (Ret r). Proof. intros d. right. reflexivity. Qed.

Section Failures.
Variable solve : table -> vec -> vec.

Lemma measure_writes_last fsys loaders i t : (forall c s, nth_error fsys i = Some (c, s) -> el_nonlinear (c_element c) = false) ->
  writes_last (update_component_time_f solve fsys loaders i t).
Proof.
  intros H. unfold update_component_time_f. destruct (length loaders =? 0); [apply writes_last_ret|].
  destruct (nth_error fsys i) as [[c s]|] eqn:E; [|apply writes_last_ret]. specialize (H c s eq_refl).
  apply writes_last_bind; [apply readonly_fold; intros; apply process_inputs_ro, H|]. intros so. unfold update_time_step_f.
  destruct (c_kind c), s as [s|s]; try apply writes_last_ret.
  - destruct so as [[u|] [t'|]]; try apply writes_last_ret. apply writes_last_bind; [exact I|]. intros x. unfold partial_state_write.
    destruct (pf_state_write s); [|apply writes_last_ret]. destruct (negb _); [apply writes_last_ret|apply writes_last_pickle].
  - unfold measurement_write. destruct (sf_meas_write s); [|apply writes_last_ret].
    destruct (negb _); [apply writes_last_ret|apply writes_last_pickle].
Qed.

Lemma measurement_read_ro s k : readonly (measurement_read s k).
Proof.
  unfold measurement_read. destruct (sf_meas_list s) as [fs|]; [|exact I]. destruct (_ || _); [exact I|].
  destruct (nth_error fs (Z.to_nat k)); [apply readmeasurement_ro|exact I].
Qed.
Lemma solve_writes_last fsys i : writes_last (update_component_solution_f solve fsys i).
Proof.
  unfold update_component_solution_f. destruct (nth_error fsys i) as [[c s]|]; [|apply writes_last_ret]. unfold update_solution_f.
  destruct (c_kind c), s as [s|s]; try apply writes_last_ret. apply writes_last_bind.
  - destruct (timeindices_read s); [|exact I]. apply readonly_fold. intros u k. apply readonly_bind; [apply measurement_read_ro|intros; exact I].
  - intros u. apply writes_last_bind; [exact I|]. intros x. apply writes_last_bind.
    + destruct (el_nonlinear _); [|exact I]. apply readonly_bind; [apply state_read_ro|intros; exact I].
    + intros y. unfold state_write. destruct (sf_state_write s); [apply writes_last_pickle|apply writes_last_ret].
Qed.

Definition fails {A} (p : program A) (d : disk) : Prop := exists e, snd (execute p d) = Err e.
Lemma fails_bind_first {A B} (p : program A) (q : A -> program B) d : fails p d -> fails (andthen p q) d.
Proof.
  intros [e H]. exists e. rewrite execute_bind. destruct (execute p d) as [d' r]. cbn in *. subst r. reflexivity.
Qed.
Lemma fails_bind {A B} (p : program A) (q : A -> program B) d : readonly p -> (forall a, fails (q a) d) -> fails (andthen p q) d.
Proof.
  intros Hp Hq. unfold fails. rewrite execute_bind_ro by exact Hp. destruct (snd (execute p d)) as [a|e]; [apply Hq|exists e; reflexivity].
Qed.
Lemma fails_fold {A B} (f : A -> B -> program A) d : (forall a b, readonly (f a b)) -> forall l b0, In b0 l -> (forall a, fails (f a b0) d) ->
  forall a, fails (foldP f a l) d.
Proof.
  intros Hro. induction l as [|b l IH]; intros b0 Hin Hf a; [destruct Hin|]. cbn [foldP]. destruct Hin as [->|Hin].
  - apply fails_bind_first, Hf.
  - apply fails_bind; [apply Hro|]. intros a'. apply (IH b0 Hin Hf).
Qed.
Lemma readstate_fails f d : bad (d f) -> fails (readstate f) d.
Proof. intros [H|H]; unfold fails; cbn; rewrite H; eexists; reflexivity. Qed.
Lemma readmeasurement_fails f d : bad (d f) -> fails (readmeasurement f) d.
Proof. intros [H|H]; unfold fails; cbn; rewrite H; eexists; reflexivity. Qed.

Lemma solve_fails fsys i c s fs f d : nth_error fsys i = Some (c, SpaceTimeFiles s) -> c_kind c = SpaceTime ->
  sf_meas_list s = Some fs -> In f fs -> bad (d f) -> fails (update_component_solution_f solve fsys i) d.
Proof.
  intros Hi Hk Hfs Hin Hb. unfold update_component_solution_f. rewrite Hi. unfold update_solution_f. rewrite Hk.
  apply fails_bind_first. unfold timeindices_read. rewrite Hfs. destruct fs as [|f0 fs0] eqn:E; [destruct Hin|]. rewrite <- E in *.
  apply In_nth_error in Hin. destruct Hin as [m Hm].
  assert (Hlt : m < length fs) by (apply nth_error_Some; congruence).
  apply (fails_fold _ d) with (b0 := Z.of_nat m).
  - intros u k. apply readonly_bind; [apply measurement_read_ro|intros; exact I].
  - unfold zlen. rewrite zrange_seq. apply in_map. apply in_seq. lia.
  - intros u. apply fails_bind_first. unfold measurement_read. rewrite Hfs. unfold zlen.
    replace ((Z.of_nat m <? 0) || (Z.of_nat (length fs) <=? Z.of_nat m))%Z with false by lia.
    rewrite Nat2Z.id, Hm. apply readmeasurement_fails, Hb.
Qed.

Definition state_file (s : storage) : option string :=
  match s with SpaceTimeFiles s => sf_state_read s | SpatialFiles s => pf_state_read s end.
Lemma expected_value_fails c s o f d : state_file s = Some f -> bad (d f) -> fails (expected_value_f c s o) d.
Proof.
  intros Hf Hb. unfold expected_value_f. destruct (c_kind c), s as [s|s]; cbn in Hf; try (eexists; reflexivity); apply fails_bind_first.
  - unfold partial_state_read. rewrite Hf. destruct (negb _); [eexists; reflexivity|]. apply fails_bind_first, readstate_fails, Hb.
  - unfold state_read. rewrite Hf. apply fails_bind_first, readstate_fails, Hb.
Qed.
Lemma offset_fails fsys i j c s o f d : nth_error fsys j = Some (c, s) -> j <> i -> state_file s = Some f -> bad (d f) ->
  fails (subtract_offset_f fsys i o) d.
Proof.
  intros Hj Hne Hf Hb. unfold subtract_offset_f. apply (fails_fold _ d) with (b0 := (j, (c, s))).
  - intros a [k [c' s']]. destruct (negb _); [|exact I]. apply readonly_bind; [apply expected_value_ro|intros; exact I].
  - apply nth_error_In with (n := j). rewrite combine_seq_nth, Hj. reflexivity.
  - intros a. apply Nat.eqb_neq in Hne. rewrite Hne. cbn [negb]. apply fails_bind_first. apply (expected_value_fails c s o f d Hf Hb).
Qed.
Lemma measure_fails fsys loaders i t c s j c' s' f d :
  nth_error fsys i = Some (c, s) -> el_nonlinear (c_element c) = false -> inputs loaders t <> [] ->
  nth_error fsys j = Some (c', s') -> j <> i -> state_file s' = Some f -> bad (d f) ->
  fails (update_component_time_f solve fsys loaders i t) d.
Proof.
  intros Hi Hlin Hin Hj Hne Hf Hb. unfold update_component_time_f.
  destruct (length loaders =? 0); [eexists; reflexivity|]. rewrite Hi. apply fails_bind_first.
  assert (Hl : exists l, In l loaders /\ nonempty (l t) = true).
  { unfold inputs in Hin. destruct (filter nonempty (map (fun l => l t) loaders)) as [|o os] eqn:E; [congruence|].
    assert (Ho : In o (filter nonempty (map (fun l => l t) loaders))) by (rewrite E; left; reflexivity).
    apply filter_In in Ho. destruct Ho as [Ho Hn]. apply in_map_iff in Ho. destruct Ho as (l & <- & Hl). exists l. split; assumption. }
  destruct Hl as (l & Hl & Hn). apply (fails_fold _ d) with (b0 := l).
  - intros so l'. apply process_inputs_ro, Hlin.
  - exact Hl.
  - intros so. unfold process_inputs_f. unfold nonempty in Hn. rewrite Hn. apply fails_bind_first.
    apply (offset_fails fsys i j c' s' (l t) f d Hj Hne Hf Hb).
Qed.
Lemma measure_fails_own fsys loaders i t c s f d :
  nth_error fsys i = Some (c, SpaceTimeFiles s) -> c_kind c = SpaceTime -> el_nonlinear (c_element c) = false -> inputs loaders t <> [] ->
  sf_state_read s = Some f -> bad (d f) ->
  fails (update_component_time_f solve fsys loaders i t) d.
Proof.
  intros Hi Hk Hlin Hin Hf Hb. unfold update_component_time_f.
  destruct (length loaders =? 0); [eexists; reflexivity|]. rewrite Hi. apply fails_bind_first.
  assert (Hl : exists l, In l loaders /\ nonempty (l t) = true).
  { unfold inputs in Hin. destruct (filter nonempty (map (fun l => l t) loaders)) as [|o os] eqn:E; [congruence|].
    assert (Ho : In o (filter nonempty (map (fun l => l t) loaders))) by (rewrite E; left; reflexivity).
    apply filter_In in Ho. destruct Ho as [Ho Hn]. apply in_map_iff in Ho. destruct Ho as (l & <- & Hl). exists l. split; assumption. }
  destruct Hl as (l & Hl & Hn). apply (fails_fold _ d) with (b0 := l).
  - intros so l'. apply process_inputs_ro, Hlin.
  - exact Hl.
  - intros so. unfold process_inputs_f. unfold nonempty in Hn. rewrite Hn.
    apply fails_bind; [apply subtract_offset_ro|]. intros off. unfold process_observations_f.
    apply fails_bind; [exact I|intros t0]. apply fails_bind; [exact I|intros rel]. apply fails_bind_first.
    unfold linearisation_f. rewrite Hk. apply fails_bind_first. unfold state_read. rewrite Hf. apply fails_bind_first, readstate_fails, Hb.
Qed.

(* a time with no observations *)
Lemma no_inputs fsys i c s t : forall loaders so, inputs loaders t = [] ->
  foldP (fun so l => process_inputs_f fsys i c s so (l t)) so loaders = Ret (Ok so).
Proof.
  induction loaders as [|l loaders IH]; intros so H; [reflexivity|]. cbn [foldP]. unfold inputs in H. cbn [map filter] in H.
  destruct (nonempty (l t)) eqn:E; [discriminate|]. unfold process_inputs_f. unfold nonempty in E. rewrite E. cbn [andthen].
  apply IH. exact H.
Qed.
End Failures.

(* the time of what has been accumulated *)
Lemma process_time fsys i c s so o d so' : ((fst so = None /\ snd so = None) \/ (fst so <> None /\ snd so = Some (o_time o))) ->
  snd (execute (process_inputs_f fsys i c s so o) d) = Ok so' ->
  (nonempty o = false /\ so' = so) \/ (fst so' <> None /\ snd so' = Some (o_time o)).
Proof.
  intros Hso. unfold process_inputs_f, nonempty. destruct (0 <? length (o_vector o)); [|cbn; intros H; left; split; [reflexivity|congruence]].
  rewrite execute_bind_ro by apply subtract_offset_ro. destruct (snd (execute (subtract_offset_f fsys i o) d)) as [off|]; [|discriminate].
  unfold process_observations_f. cbn [andthen].
  assert (Ht : (match snd so with None => Ok (o_time o) | Some t => if (t =? o_time o)%Z then Ok t else Err ValueError end) = Ok (o_time o)).
  { destruct Hso as [[_ ->] | [_ ->]]; [reflexivity|]. rewrite Z.eqb_refl. reflexivity. }
  rewrite Ht. destruct (vsub (o_vector o) off) as [rel|]; [|discriminate].
  rewrite execute_bind. destruct (execute (linearisation_f c s o) d) as [d' [x|]]; [|discriminate].
  match goal with |- context [match ?X with Ok a => _ | Err e => Ret (Err e) end] => destruct X as [rel'|] end; [|discriminate].
  destruct (create_from_system_observations _ _ _) as [u|]; [|discriminate].
  match goal with |- context [match ?X with Ok a => _ | Err e => Ret (Err e) end] => destruct X as [m|] end; [|discriminate].
  cbn. intros H. injection H as <-. right. split; [discriminate|reflexivity].
Qed.
Lemma fold_time fsys i c s t d : el_nonlinear (c_element c) = false -> forall loaders so so', (forall l, In l loaders -> o_time (l t) = t) ->
  ((fst so = None /\ snd so = None /\ inputs loaders t <> []) \/ (fst so <> None /\ snd so = Some t)) ->
  snd (execute (foldP (fun so l => process_inputs_f fsys i c s so (l t)) so loaders) d) = Ok so' -> fst so' <> None /\ snd so' = Some t.
Proof.
  intros Hlin. induction loaders as [|l loaders IH]; intros so so' Hl Hso H.
  - cbn in H. injection H as <-. destruct Hso as [(_ & _ & Hso)|Hso]; [destruct (Hso eq_refl)|exact Hso].
  - cbn [foldP] in H. rewrite execute_bind_ro in H by (apply process_inputs_ro, Hlin).
    destruct (snd (execute (process_inputs_f fsys i c s so (l t)) d)) as [so1|] eqn:E; [|discriminate].
    pose proof (Hl l (or_introl eq_refl)) as Ht.
    assert (Hp := process_time fsys i c s so (l t) d so1). rewrite Ht in Hp.
    assert (Hpre : (fst so = None /\ snd so = None) \/ (fst so <> None /\ snd so = Some t)).
    { destruct Hso as [(H1 & H2 & _)|Hso]; [left; split; assumption|right; exact Hso]. }
    specialize (Hp Hpre E).
    apply IH in H; [exact H|intros l' Hl'; apply Hl; right; exact Hl'|].
    destruct Hp as [[Hn ->]|Hp]; [|right; exact Hp].
    destruct Hso as [(H1 & H2 & H3)|Hso]; [left; split; [exact H1|split; [exact H2|]]|right; exact Hso].
    unfold inputs in *. cbn [map filter] in H3. rewrite Hn in H3. exact H3.
Qed.
