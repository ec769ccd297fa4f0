(* Parts of values, catalogues that come back as they are, what classes are given. *)
From Coq Require Import QArith Qcanon String Ascii Lia.
From Verif Require Import Base Time_Model Time_Spec Time_Proofs NcObj_Model Json_Model Json_Spec Json_Proofs Json_Proofs2.
Local Open Scope Z_scope.
Local Open Scope list_scope.

(* ---- catalogues that come back as they are *)
Lemma some_text_id o : stated EmptyString o -> some_text o = o.
Proof. unfold stated. destruct o as [[|]|]; cbn; congruence. Qed.
Lemma some_list_id {A} (o : option (list A)) : stated [] o -> some_list o = o.
Proof. unfold stated. destruct o as [[|]|]; cbn; congruence. Qed.
Lemma some_number_id o : stated 0 o -> some_number o = o.
Proof. unfold stated. destruct o as [[| |]|]; cbn; congruence. Qed.
Lemma map_same {A} (f : A -> A) l : Forall (fun x => f x = x) l -> map f l = l.
Proof. induction 1; cbn; congruence. Qed.
Lemma option_map_same {A} (f : A -> A) l : whenever (Forall (fun x => f x = x)) l -> option_map (map f) l = l.
Proof. destruct l as [l|]; cbn; [|reflexivity]. intros H. now rewrite map_same. Qed.
Lemma entry_same e : entry_stated e -> entry_again e = e.
Proof. intros (A & B & C & D & E). destruct e as [n t g c s]. unfold entry_again. cbn in *. rewrite some_text_id, some_list_id, some_text_id, some_number_id by assumption. f_equal. destruct t; [|reflexivity]. cbn in *. now rewrite B. Qed.
Lemma subset_same s : Forall entry_stated (su_matches s) -> subset_again s = s.
Proof. intros F. destruct s as [l m e u]. unfold subset_again. cbn in *. f_equal. apply map_same. eapply Forall_impl; [|exact F]. apply entry_same. Qed.
Lemma whenever_impl {A} (P Q : A -> Prop) o : (forall a, P a -> Q a) -> whenever P o -> whenever Q o.
Proof. destruct o; cbn; auto. Qed.
Lemma dataset_same d : dataset_stated d -> dataset_again d = d.
Proof.
  intros (A & B & C & D & E & F). destruct d as [n p t s m]. unfold dataset_again. cbn in *. rewrite !some_text_id, !some_list_id by assumption. f_equal. apply option_map_same. eapply whenever_impl; [|exact E]. intros l. apply Forall_impl. intros a. apply subset_same.
Qed.
Lemma operation_same module_again o : module_again (op_module o) = op_module o -> operation_stated o -> operation_again module_again o = o.
Proof.
  intros M (A & B & C & D & E & F). destruct o as [m s n t d c]. unfold operation_again. cbn in *. rewrite M, some_text_id, !some_list_id, some_number_id by assumption. f_equal.
  - destruct s as [|a b]; [reflexivity|]. destruct A as [A B']. cbn. now rewrite A, B'.
  - apply option_map_same. eapply whenever_impl; [|exact E]. intros l. apply Forall_impl. intros a. apply dataset_same.
Qed.
Lemma catalogue_same module_again c : (forall o, In o (ca_operations c) -> module_again (op_module o) = op_module o) -> catalogue_stated c -> catalogue_again module_again c = c.
Proof.
  intros M (A & B). destruct c as [d o i]. unfold catalogue_again. cbn in *. f_equal; apply map_same.
  - eapply Forall_impl; [|exact A]. apply dataset_same.
  - rewrite Forall_forall in *. intros x I. apply operation_same; auto.
Qed.

(* ---- parts *)
Lemma part_truth x v : part_of x v -> (exists l, v = PArray l /\ x = v) \/ x = v \/ truth v = Ok true.
Proof. destruct 1 as [|l y I _|d k y I _|c a k y I _ _]; [tauto| | |]; right; right; [now destruct l|now destruct d|reflexivity]. Qed.
Lemma encode_items_err k x l : In (k, x) l -> (exists e, truth x = Err e) \/ (truth x = Ok true /\ exists e, encode x = Err e) -> exists e, encode_items l = Err e.
Proof.
  intros I H. induction l as [|[k' y] l IH]; [destruct I|]. cbn. destruct I as [E|I].
  - injection E as -> ->. destruct H as [[e ->]|[-> [e ->]]]; eexists; reflexivity.
  - destruct (IH I) as [e E]. destruct (truth y) as [[|]|]; cbn [bind]; [|eauto|eauto]. destruct (encode y); cbn [bind]; [rewrite E; cbn [bind]|]; eauto.
Qed.
Lemma array_error l v : (2 <= List.length l)%nat -> part_of (PArray l) v -> encode v = Err ValueError.
Proof.
  intros L P. assert (exists e, encode v = Err e) as [e E]; [|rewrite E; f_equal; exact (encode_error _ _ E)].
  assert (TA : truth (PArray l) = Err ValueError) by (destruct l as [|a [|b l]]; cbn in L; first [lia | reflexivity]).
  induction P as [|l' y I P [e IH]|d k y I P [e IH]|c a k y I N P [e IH]].
  - eexists. reflexivity.
  - rewrite encode_list. destruct (mapM_in_err encode l' y e I IH) as [e2 ->]. eexists. reflexivity.
  - rewrite encode_dict. destruct (mapM_in_err encode_entry d (k, y) e I) as [e2 ->]; [unfold encode_entry; cbn [fst snd]; now rewrite IH|]. eexists. reflexivity.
  - rewrite encode_obj. destruct (encode_items_err k y a I) as [e2 ->]; [|eexists; reflexivity].
    destruct (part_truth _ _ P) as [(l2 & -> & E2)|[<-|T]]; [left; rewrite <- E2; eauto|left; eauto|right; eauto].
Qed.
Lemma put_keeps {A} k k' (x a : A) d : k <> k' -> In (k, x) d -> In (k, x) (put k' a d).
Proof. intros N. induction d as [|[k2 y] d IH]; [intros []|]. cbn. destruct (String.eqb_spec k2 k') as [E|E]; intros [I|I]; try (injection I as -> ->; congruence); cbn; auto. Qed.
Lemma mapM_in {A B} (f : A -> result B) l r x : mapM f l = Ok r -> In x l -> exists y, f x = Ok y /\ In y r.
Proof.
  revert r. induction l as [|z l IH]; intros r E I; [destruct I|]. cbn in E. destruct (f z) as [y|] eqn:F; [|discriminate]. cbn [bind] in E. destruct (mapM f l) as [r'|]; [|discriminate]. cbn [bind] in E. injection E as <-.
  destruct I as [->|I]; [exists y; split; [exact F|now left]|]. destruct (IH r' eq_refl I) as (w & E & J). exists w. split; [exact E|now right].
Qed.
Lemma encode_items_in l js k x : encode_items l = Ok js -> In (k, x) l -> truth x = Ok true -> exists j, encode x = Ok j /\ In (k, j) js.
Proof.
  revert js. induction l as [|[k' y] l IH]; intros js E I T; [destruct I|]. cbn in E. destruct I as [F|I].
  - injection F as -> ->. rewrite T in E. cbn [bind] in E. destruct (encode x) as [j|]; [|discriminate]. cbn [bind] in E. destruct (encode_items l) as [r|]; [|discriminate]. injection E as <-. exists j. split; [reflexivity|now left].
  - destruct (truth y) as [[|]|]; [|apply (IH js E I T)|discriminate]. cbn [bind] in E. destruct (encode y) as [j|]; [|discriminate]. cbn [bind] in E. destruct (encode_items l) as [r|]; [|discriminate]. injection E as <-.
    destruct (IH r eq_refl I T) as (j' & E & J). exists j'. split; [exact E|now right].
Qed.
Lemma part_within x v j : part_of x v -> truth x = Ok true -> encode v = Ok j -> exists jx, encode x = Ok jx /\ within jx j.
Proof.
  intros P T. revert j. induction P as [|l y I P IH|d k y I P IH|c a k y I N P IH]; intros j E.
  - exists j. split; [exact E|constructor].
  - rewrite encode_list in E. destruct (mapM encode l) as [js|] eqn:M; [|discriminate]. cbn [bind] in E. injection E as <-. destruct (mapM_in _ _ _ _ M I) as (jy & EY & J). destruct (IH jy EY) as (jx & EX & W). exists jx. split; [exact EX|]. econstructor; eassumption.
  - rewrite encode_dict in E. destruct (mapM encode_entry d) as [js|] eqn:M; [|discriminate]. cbn [bind] in E. injection E as <-. destruct (mapM_in _ _ _ _ M I) as ([k' jy] & EY & J). unfold encode_entry in EY. cbn [fst snd] in EY. destruct (encode y) as [jy'|]; [|discriminate]. cbn [bind] in EY. injection EY as <- <-.
    destruct (IH jy' eq_refl) as (jx & EX & W). exists jx. split; [exact EX|]. econstructor; eassumption.
  - rewrite encode_obj in E. destruct (encode_items a) as [js|] eqn:M; [|discriminate]. cbn [bind] in E. destruct (is_ascii c); [|discriminate]. injection E as <-.
    assert (TY : truth y = Ok true). { destruct (part_truth _ _ P) as [(l2 & -> & E2)|[<-|TY]]; [now rewrite <- E2|exact T|exact TY]. }
    destruct (encode_items_in a js k y M I TY) as (jy & EY & J). destruct (IH jy EY) as (jx & EX & W). exists jx. split; [exact EX|]. eapply within_object; [|exact W]. apply put_keeps; [exact N|exact J].
Qed.

(* ---- what a class is given *)
Lemma mapM_fst make d d' : mapM (load_entry make) d = Ok d' -> map fst d' = map fst d.
Proof.
  revert d'. induction d as [|[k j] d IH]; intros d' E; cbn in E; [injection E as <-; reflexivity|]. unfold load_entry at 1 in E. cbn [fst snd] in E. destruct (load make j); [|discriminate]. cbn [bind] in E. destruct (mapM (load_entry make) d) as [r|]; [|discriminate]. cbn [bind] in E. injection E as <-. cbn. f_equal. now apply IH.
Qed.
Lemma settle_fst make d d' : mapM (settle_entry make) d = Ok d' -> map fst d' = map fst d.
Proof.
  revert d'. induction d as [|[k j] d IH]; intros d' E; cbn in E; [injection E as <-; reflexivity|]. unfold settle_entry at 1 in E. cbn [fst snd] in E. destruct (load_object make j); [|discriminate]. cbn [bind] in E. destruct (mapM (settle_entry make) d) as [r|]; [|discriminate]. cbn [bind] in E. injection E as <-. cbn. f_equal. now apply IH.
Qed.
Lemma remove_key_fst k d : map fst (remove_key k d) = filter (fun x => negb (String.eqb x k)) (map fst d).
Proof. induction d as [|[k' v] d IH]; [reflexivity|]. cbn. destruct (String.eqb k' k); cbn; congruence. Qed.
Lemma get_in {A} (d : list (string * A)) k a : get d k = Some a -> In (k, a) d.
Proof. unfold get. destruct (find _ d) as [[k' a']|] eqn:F; [|discriminate]. intros E. cbn in E. injection E as <-. apply find_some in F. destruct F as [I E]. cbn in E. apply String.eqb_eq in E. now subst. Qed.
Lemma get_nodup {A} (d : list (string * A)) k a : NoDup (map fst d) -> In (k, a) d -> get d k = Some a.
Proof.
  intros N I. unfold get. induction d as [|[k' a'] d IH]; [destruct I|]. cbn in N. inversion N as [|? ? NI N']; subst. cbn. destruct I as [E|I]; [injection E as -> ->; now rewrite String.eqb_refl|].
  destruct (String.eqb_spec k' k) as [->|_]; [exfalso; apply NI; apply (in_map fst) in I; exact I|]. now apply IH.
Qed.
Lemma load_class make d cls v : NoDup (map fst d) -> get d CLASSID = Some (JStr cls) -> cls <> DATETIME_CLASS -> load make (JObj d) = Ok v ->
  has_dot cls = true /\ exists arguments, make cls arguments = Ok v /\ (forall k, In k (map fst arguments) <-> In k (map fst d) /\ k <> CLASSID).
Proof.
  intros N G ND E. rewrite load_dict in E. destruct (mapM (load_entry make) d) as [d'|] eqn:M; [|discriminate]. cbn [bind] in E.
  assert (N' : NoDup (map fst d')) by (now rewrite (mapM_fst _ _ _ M)). rewrite dict_of_nodup in E by exact N'. rewrite load_object_dict in E.
  assert (GC : get d' CLASSID = Some (PUni cls)).
  { destruct (mapM_in _ _ _ _ M (get_in _ _ _ G)) as ([k y] & EY & J). unfold load_entry in EY. cbn in EY. injection EY as <- <-. now apply get_nodup. }
  rewrite GC in E. destruct (has_dot cls); [|discriminate]. cbn [negb] in E. split; [reflexivity|]. destruct (String.eqb_spec cls DATETIME_CLASS) as [->|_]; [congruence|].
  destruct (mapM (settle_entry make) d') as [ps|] eqn:S; [|discriminate]. cbn [bind] in E. exists (remove_key CLASSID ps). split; [exact E|]. intros k. rewrite remove_key_fst, filter_In, (settle_fst _ _ _ S), (mapM_fst _ _ _ M). destruct (String.eqb_spec k CLASSID); cbn; intuition congruence.
Qed.
Lemma bind_given params arguments env : bind_arguments params arguments = Ok env -> (forall k, In k (map fst arguments) -> In k (map fst params)) /\ (forall k, In (k, None) params -> In k (map fst arguments)).
Proof.
  unfold bind_arguments. destruct (forallb _ _) eqn:F; [|discriminate]. intros M. split.
  - intros k I. apply in_map_iff in I. destruct I as ([k' a] & <- & I). rewrite forallb_forall in F. specialize (F _ I). apply existsb_exists in F. destruct F as ([k2 o] & J & E). apply String.eqb_eq in E. cbn in E |- *. subst. apply (in_map fst) in J. exact J.
  - intros k I. destruct (mapM_in _ _ _ _ M I) as (y & E & _). cbn [fst snd] in E. destruct (get arguments k) as [v|] eqn:G; [|discriminate]. apply get_in in G. apply (in_map fst) in G. exact G.
Qed.
Definition same_signature (params : list (string * option py)) (sig : list (string * bool)) : Prop := map (fun p => (fst p, match snd p with None => true | Some _ => false end)) params = sig.
Lemma signature_given params sig arguments env : same_signature params sig -> bind_arguments params arguments = Ok env ->
  (forall k, In k (map fst arguments) -> In k (map fst sig)) /\ (forall k, In (k, true) sig -> In k (map fst arguments)).
Proof.
  unfold same_signature. intros <- B. apply bind_given in B. destruct B as [B C]. split; [intros k I; rewrite map_map; cbn; now apply B|]. intros k I. apply C. apply in_map_iff in I. destruct I as ([k' [o|]] & E & I); cbn in E; [discriminate|]. injection E as <-. exact I.
Qed.
Lemma make_binds fresh runs other cls sig arguments v : get signatures cls = Some sig -> construct fresh runs other cls arguments = Ok v ->
  exists params env, same_signature params sig /\ bind_arguments params arguments = Ok env.
Proof.
  unfold get, signatures. cbn [find fst snd].
  assert (PL : forall d, construct_plain cls d arguments = Ok v -> exists env, bind_arguments (c_params d) arguments = Ok env).
  { intros d. unfold construct_plain. destruct (bind_arguments _ _); [eauto|discriminate]. }
  repeat match goal with |- context [String.eqb ?s cls] => destruct (String.eqb_spec s cls) as [<-|_];
    [intros E; injection E as <-; intros E; first
      [ apply PL in E; destruct E as [env E]; eexists; exists env; split; [|exact E]; reflexivity
      | unfold construct in E; cbn [String.eqb Ascii.eqb Bool.eqb CATALOGUE OPERATION STEP_DAILY] in E; unfold construct_catalogue, construct_operation, construct_step_daily in E;
        match type of E with bind (bind_arguments ?p _) _ = _ => destruct (bind_arguments p arguments) as [env|] eqn:B; [|discriminate]; exists p, env; split; [reflexivity|exact B] end ]|] end.
  discriminate.
Qed.
