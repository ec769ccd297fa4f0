(* Proofs about the descriptor fillers. *)
From Coq Require Import String Ascii ZifyBool.
From Verif Require Name_Model.
From Verif Require Import Base Grid_Model NcObj_Model NcObj_Proofs Fill_Model Fill_Spec.
Open Scope string_scope.
Open Scope list_scope.
Open Scope Z_scope.

(* ---------- values *)

Lemma bind_ok {A B} (r : result A) (g : A -> result B) b : bind r g = Ok b -> exists a, r = Ok a /\ g a = Ok b.
Proof. destruct r as [a|e]; cbn; [eauto|discriminate]. Qed.

Ltac open_binds :=
  repeat match goal with
         | H : bind _ _ = Ok _ |- _ => let x := fresh "j" in let E := fresh "E" in apply bind_ok in H; destruct H as (x & E & H)
         | H : Ok _ = Ok _ |- _ => injection H; clear H; intros; subst
         end.

Lemma dget_dset_same k v d : dget k (dset k v d) = Some v.
Proof.
  induction d as [|[k' v'] d IH]; cbn [dset dget].
  - now rewrite String.eqb_refl.
  - destruct (String.eqb k' k) eqn:E; cbn [dget]; [now rewrite String.eqb_refl|now rewrite E].
Qed.
Lemma dget_dset_other k v d q : k <> q -> dget q (dset k v d) = dget q d.
Proof.
  intros N. induction d as [|[k' v'] d IH]; cbn [dset dget].
  - destruct (String.eqb_spec k q); congruence.
  - destruct (String.eqb_spec k' k) as [->|]; cbn [dget].
    + destruct (String.eqb_spec k q); congruence.
    + now rewrite IH.
Qed.
Lemma dget_In k d v : dget k d = Some v -> In (k, v) d.
Proof.
  induction d as [|[k' v'] d IH]; cbn [dget]; [discriminate|]. destruct (String.eqb_spec k' k) as [->|]; [intros [= ->]; now left|intros H; right; auto].
Qed.
Lemma dset_In k v d e : In e (dset k v d) -> e = (k, v) \/ In e d.
Proof.
  induction d as [|[k' v'] d IH]; cbn [dset].
  - intros [<-|[]]. now left.
  - destruct (String.eqb_spec k' k) as [->|]; intros [<-|H]; cbn [In]; auto. destruct (IH H); auto.
Qed.
Lemma dget_ddel k d q : k <> q -> dget q (ddel k d) = dget q d.
Proof.
  intros N. unfold ddel. induction d as [|[k' v'] d IH]; cbn [filter dget fst]; [reflexivity|].
  destruct (String.eqb_spec k' k) as [->|]; cbn [negb dget].
  - rewrite IH. destruct (String.eqb_spec k q); congruence.
  - now rewrite IH.
Qed.
Lemma dget_ddel_same k d : dget k (ddel k d) = None.
Proof.
  unfold ddel. induction d as [|[k' v'] d IH]; cbn [filter dget fst]; [reflexivity|].
  destruct (String.eqb_spec k' k) as [->|]; cbn [negb dget]; [exact IH|]. destruct (String.eqb_spec k' k); congruence.
Qed.
Lemma ddel_In k d e : In e (ddel k d) -> In e d.
Proof. unfold ddel. rewrite filter_In. tauto. Qed.

(* ---------- places *)

Definition step_eqb (a b : step) : bool := match a, b with K x, K y => String.eqb x y | First, First => true | _, _ => false end.
Lemma step_eqb_spec a b : reflect (a = b) (step_eqb a b).
Proof.
  destruct a as [x|], b as [y|]; cbn; try (constructor; congruence). destruct (String.eqb_spec x y); constructor; congruence.
Qed.
(* two places with a common start and then different keys *)
Fixpoint diverge (p q : list step) : bool :=
  match p, q with
  | a :: p', b :: q' => if step_eqb a b then diverge p' q' else match a, b with K _, K _ => true | _, _ => false end
  | _, _ => false
  end.

Lemma get_app p q j : get (p ++ q) j = bind (get p j) (get q).
Proof. revert j. induction p as [|s p IH]; intros j; cbn [app get]; [reflexivity|]. destruct (get1 s j); cbn [bind]; [apply IH|reflexivity]. Qed.

Lemma get1_put1_same s v j j' : put1 s v j = Ok j' -> get1 s j' = Ok v.
Proof.
  destruct s as [k|], j as [| | |[|x l]|d]; cbn; try discriminate; intros [= <-]; cbn; [now rewrite dget_dset_same|reflexivity].
Qed.
Lemma get1_put1_other k q v j j' : k <> q -> put1 (K k) v j = Ok j' -> get1 (K q) j' = get1 (K q) j.
Proof. intros N. destruct j as [| | | |d]; cbn; try discriminate. intros [= <-]. cbn. now rewrite dget_dset_other. Qed.

Lemma put_cons s p v j : p <> [] -> put (s :: p) v j = (do x <- get1 s j; do x' <- put p v x; put1 s x' j).
Proof. destruct p; [congruence|reflexivity]. Qed.

Lemma get_put_in p r v j j' : put p v j = Ok j' -> get (p ++ r) j' = get r v.
Proof.
  revert j j'. induction p as [|s p IH]; intros j j' E; cbn [app].
  - cbn in E. now injection E as ->.
  - destruct p as [|s' p].
    + cbn in E. cbn [app get]. now rewrite (get1_put1_same _ _ _ _ E).
    + rewrite put_cons in E by discriminate. apply bind_ok in E. destruct E as (x & Ex & E). apply bind_ok in E. destruct E as (x' & Ex' & E).
      cbn [get]. rewrite (get1_put1_same _ _ _ _ E). cbn [bind]. exact (IH _ _ Ex').
Qed.
Lemma get_put_same p v j j' : put p v j = Ok j' -> get p j' = Ok v.
Proof. intros E. rewrite <- (app_nil_r p). now rewrite (get_put_in _ _ _ _ _ E). Qed.

Lemma get_put_diverge p v j j' q : put p v j = Ok j' -> diverge p q = true -> get q j' = get q j.
Proof.
  revert j j' q. induction p as [|s p IH]; intros j j' q E D; [discriminate|]. destruct q as [|b q]; [discriminate|]. cbn [diverge] in D.
  destruct (step_eqb_spec s b) as [<-|N].
  - destruct p as [|s' p]; [discriminate|]. rewrite put_cons in E by discriminate. apply bind_ok in E. destruct E as (x & Ex & E). apply bind_ok in E. destruct E as (x' & Ex' & E).
    cbn [get]. rewrite (get1_put1_same _ _ _ _ E), Ex. cbn [bind]. exact (IH _ _ _ Ex' D).
  - destruct s as [k|], b as [k'|]; try discriminate. assert (k <> k') by congruence. cbn [get]. f_equal.
    destruct p as [|s' p].
    + now apply (get1_put1_other k k' v).
    + rewrite put_cons in E by discriminate. apply bind_ok in E. destruct E as (x & Ex & E). apply bind_ok in E. destruct E as (x' & Ex' & E).
      now apply (get1_put1_other k k' x').
Qed.

(* a place that leads on to the one assigned *)
Lemma get_put_prefix p r v j j' : r <> [] -> put (p ++ r) v j = Ok j' -> get p j' = bind (get p j) (put r v).
Proof.
  intros Nr. revert j j'. induction p as [|s p IH]; intros j j' E; cbn [app] in E.
  - cbn [get bind]. congruence.
  - rewrite put_cons in E by (destruct p; [exact Nr|discriminate]). apply bind_ok in E. destruct E as (x & Ex & E). apply bind_ok in E. destruct E as (x' & Ex' & E).
    cbn [get]. rewrite (get1_put1_same _ _ _ _ E), Ex. cbn [bind]. exact (IH _ _ Ex').
Qed.

(* ---------- references *)

Lemma refers_get C d p j v : get p j = Ok v -> refers C d v -> refers C d j.
Proof.
  revert j. induction p as [|s p IH]; intros j E R; cbn [get] in E; [now injection E as ->|].
  apply bind_ok in E. destruct E as (x & Ex & E). specialize (IH _ E R). destruct s as [k|], j as [| | |[|y l]|m]; cbn in Ex; try discriminate.
  - destruct (dget k m) as [z|] eqn:Ez; [|discriminate]. injection Ex as ->. apply dget_In in Ez. now apply (refers_dict _ _ _ k x).
  - injection Ex as ->. apply (refers_list _ _ _ x); [now left|exact IH].
Qed.

Lemma refers_reference C d c d' : refers C d (reference c d') -> In c C /\ d = d'.
Proof.
  intros R. inversion R as [m c' E1 E2 E3| m k v I R'|]; subst.
  - cbn in E1, E3. injection E1 as ->. injection E3 as ->. auto.
  - destruct I as [[= <- <-]|[[= <- <-]|[]]]; inversion R'.
Qed.
Lemma refers_reference_allowed C d c d' : refers C d (reference_allowed c d') -> In c C /\ d = d'.
Proof.
  intros R. inversion R as [m c' E1 E2 E3| m k v I R'|]; subst.
  - cbn in E1, E3. injection E1 as ->. injection E3 as ->. auto.
  - destruct I as [[= <- <-]|[[= <- <-]|[[= <- <-]|[]]]]; inversion R'.
Qed.
Lemma refers_this C c d : In c C -> refers C d (reference c d).
Proof. intros I. now apply (refers_here _ _ _ c). Qed.
Lemma refers_this_allowed C c d : In c C -> refers C d (reference_allowed c d).
Proof. intros I. now apply (refers_here _ _ _ c). Qed.
Lemma refers_class C d c : ~ refers C d (of_class c).
Proof. intros R. inversion R as [m c' E1 E2 E3| m k v I R'|]; subst; [discriminate|]. destruct I as [[= <- <-]|[]]; inversion R'. Qed.
Lemma refers_plain C d j : plain j -> ~ refers C d j.
Proof. intros P R. destruct j; cbn in P; try contradiction; inversion R. Qed.

Definition key_ok (s : step) : bool := match s with K k => negb (String.eqb k "python_class") && negb (String.eqb k "datasetname") | First => true end.
Lemma key_ok_spec k : key_ok (K k) = true -> k <> "python_class" /\ k <> "datasetname".
Proof. cbn. destruct (String.eqb_spec k "python_class"), (String.eqb_spec k "datasetname"); cbn; try discriminate. auto. Qed.

Lemma refers_put1 C d s v j j' : key_ok s = true -> put1 s v j = Ok j' -> refers C d j' -> refers C d j \/ refers C d v.
Proof.
  intros O. destruct s as [k|], j as [| | |[|y l]|m]; cbn [put1]; try discriminate; intros [= <-] R.
  - apply key_ok_spec in O. destruct O as [O1 O2].
    inversion R as [m' c E1 E2 E3|m' k' v' I R'|]; subst.
    + rewrite dget_dset_other in E1 by assumption. rewrite dget_dset_other in E3 by assumption. left. now apply (refers_here _ _ _ c).
    + apply dset_In in I. destruct I as [[= -> ->]|I]; [now right|left; now apply (refers_dict _ _ _ k' v')].
  - inversion R as [| |l' v' I R']; subst. destruct I as [->|I]; [now right|left]. apply (refers_list _ _ _ v'); [now right|exact R'].
Qed.
Lemma refers_put C d p v j j' : put p v j = Ok j' -> p <> [] -> forallb key_ok p = true -> refers C d j' -> refers C d j \/ refers C d v.
Proof.
  revert j j'. induction p as [|s p IH]; intros j j' E N O R; [congruence|]. cbn [forallb] in O. apply andb_true_iff in O. destruct O as [O1 O2].
  destruct p as [|s' p]; [now apply (refers_put1 C d s v j j')|].
  rewrite put_cons in E by discriminate. apply bind_ok in E. destruct E as (x & Ex & E). apply bind_ok in E. destruct E as (x' & Ex' & E).
  destruct (refers_put1 _ _ _ _ _ _ O1 E R) as [H|H]; [now left|]. destruct (IH x x' Ex' ltac:(discriminate) O2 H) as [H'|H']; [left|now right].
  apply (refers_get C d [s] j x); [cbn [get]; now rewrite Ex|exact H'].
Qed.
Lemma refers_put_name C d p s c j j' : forallb key_ok p = true -> put (p ++ [K "datasetname"]) (JStr s) j = Ok j' ->
  get (p ++ [K "python_class"]) j = Ok (JStr c) -> refers C d j' -> refers C d j \/ (In c C /\ d = s).
Proof.
  revert j j'. induction p as [|a p IH]; intros j j' O E G R; cbn [app] in E, G.
  - destruct j as [| | | |m]; cbn in E; try discriminate. injection E as <-. cbn in G. destruct (dget "python_class" m) as [z|] eqn:Z; [|discriminate]. injection G as ->.
    inversion R as [m' c' E1 E2 E3|m' k' v' I R'|]; subst.
    + right. rewrite dget_dset_other in E1 by discriminate. rewrite dget_dset_same in E3. split; congruence.
    + apply dset_In in I. destruct I as [[= -> ->]|I]; [inversion R'|left; now apply (refers_dict _ _ _ k' v')].
  - cbn [forallb] in O. apply andb_true_iff in O. destruct O as [O1 O2].
    rewrite put_cons in E by (destruct p; discriminate). apply bind_ok in E. destruct E as (x & Ex & E). apply bind_ok in E. destruct E as (x' & Ex' & E).
    cbn [get] in G. rewrite Ex in G. cbn [bind] in G.
    destruct (refers_put1 _ _ _ _ _ _ O1 E R) as [H|H]; [now left|]. destruct (IH x x' O2 Ex' G H) as [H'|H']; [left|now right].
    apply (refers_get C d [a] j x); [cbn [get]; now rewrite Ex|exact H'].
Qed.

(* ---------- what a sequence of assignments leaves alone, and what it can add *)

Definition effect (P : list (list step)) (L : list (string * string)) (t j : json) : Prop :=
  (forall q, forallb (fun p => diverge p q) P = true -> get q j = get q t) /\
  (forall C d, refers C d j -> refers C d t \/ exists c, In (c, d) L /\ In c C).

Lemma effect_refl j : effect [] [] j j.
Proof. split; auto. Qed.
Lemma effect_trans P L P' L' t j k : effect P L t j -> effect P' L' j k -> effect (P ++ P') (L ++ L') t k.
Proof.
  intros [G R] [G' R']. split.
  - intros q D. rewrite forallb_app in D. apply andb_true_iff in D. destruct D as [D D']. now rewrite G', G.
  - intros C d H. destruct (R' C d H) as [H'|(c & I & J)]; [|right; exists c; rewrite in_app_iff; auto].
    destruct (R C d H') as [H''|(c & I & J)]; [now left|right; exists c; rewrite in_app_iff; auto].
Qed.
Lemma effect_put p v j j' L : put p v j = Ok j' -> p <> [] -> forallb key_ok p = true ->
  (forall C d, refers C d v -> exists c, In (c, d) L /\ In c C) -> effect [p] L j j'.
Proof.
  intros E N O V. split.
  - intros q D. cbn [forallb] in D. rewrite andb_true_r in D. now apply (get_put_diverge p v).
  - intros C d R. destruct (refers_put C d p v j j' E N O R); auto.
Qed.
Lemma effect_put_plain p v j j' : put p v j = Ok j' -> p <> [] -> forallb key_ok p = true -> (forall C d, ~ refers C d v) -> effect [p] [] j j'.
Proof. intros E N O V. apply (effect_put p v); try assumption. intros C d R. now destruct (V C d). Qed.
Lemma effect_put_reference p c d j j' : put p (reference c d) j = Ok j' -> p <> [] -> forallb key_ok p = true -> effect [p] [(c, d)] j j'.
Proof. intros E N O. apply (effect_put _ _ _ _ _ E N O). intros C x R. apply refers_reference in R. destruct R as [I ->]. exists c. split; [now left|exact I]. Qed.
Lemma effect_put_allowed p c d j j' : put p (reference_allowed c d) j = Ok j' -> p <> [] -> forallb key_ok p = true -> effect [p] [(c, d)] j j'.
Proof. intros E N O. apply (effect_put _ _ _ _ _ E N O). intros C x R. apply refers_reference_allowed in R. destruct R as [I ->]. exists c. split; [now left|exact I]. Qed.
Lemma effect_weaken P L P' L' t j : effect P L t j -> incl P P' -> incl L L' -> effect P' L' t j.
Proof.
  intros [G R] HP HL. split.
  - intros q D. apply G. rewrite forallb_forall in D |- *. auto.
  - intros C d H. destruct (R C d H) as [H'|(c & I & J)]; [now left|right; exists c; auto].
Qed.

Lemma refers_num C d n : ~ refers C d (JNum n).
Proof. now apply refers_plain. Qed.
Lemma refers_str C d s : ~ refers C d (JStr s).
Proof. now apply refers_plain. Qed.

Ltac eff_one E :=
  first [ refine (effect_put_reference _ _ _ _ _ E _ _); [discriminate|reflexivity]
        | refine (effect_put_allowed _ _ _ _ _ E _ _); [discriminate|reflexivity]
        | refine (effect_put_plain _ _ _ _ E _ _ _); [discriminate|reflexivity|intros; first [apply refers_num|apply refers_str|apply refers_class|now apply refers_plain]] ].
Ltac eff := first
  [ match goal with E : put _ _ ?j = Ok ?k |- effect _ _ ?t ?k => first [constr_eq t j; eff_one E | eapply effect_trans; [|eff_one E]; clear E; eff] end
  | apply effect_refl | eassumption ].

Ltac back := match goal with
  | E : put ?p ?v ?j = Ok ?j' |- context [get ?q ?j'] =>
      first [ unify p q; change (get q j') with (get p j'); rewrite (get_put_same p v j j' E) | rewrite (get_put_diverge p v j j' q E eq_refl) ]
  end.

(* ---------- data sets announced *)

Definition describe (d : json) : option string * json :=
  (text_at [K "name"] d, match get [K "subsets"; First; K "layout"; K "patterns"] d with Ok p => p | Err _ => JNull end).
Definition announces (j : json) (l : list (option string * json)) : Prop :=
  exists ds, get [K "newdatasets"] j = Ok (JList ds) /\ map describe ds = l.
Definition pattern (dataset fmt kind : string) : json := match return_output_patterns dataset fmt kind with Ok p => p | Err _ => JNull end.

Lemma announces_patterns j l : announces j l -> declared_patterns j = l.
Proof. intros (ds & E & <-). unfold declared_patterns. now rewrite E. Qed.
Lemma announces_declared j l : announces j l -> declared j = flat_map (fun e => match fst e with Some s => [s] | None => [] end) l.
Proof. intros (ds & E & <-). unfold declared. rewrite E. clear E. induction ds as [|d ds IH]; [reflexivity|]. cbn [flat_map map]. now rewrite IH. Qed.
Lemma announces_effect P L t j l : effect P L t j -> forallb (fun p => diverge p [K "newdatasets"]) P = true -> announces t l -> announces j l.
Proof. intros [G _] D (ds & E & M). exists ds. now rewrite (G _ D). Qed.

Lemma pattern_plain dataset fmt kind p C d : return_output_patterns dataset fmt kind = Ok p -> ~ refers C d p.
Proof.
  unfold return_output_patterns. repeat match goal with |- context [if ?b then _ else _] => destruct b end; intros [= <-] R;
    inversion R as [| |l v I R']; subst; destruct I as [<-|[<-|[]]]; inversion R'.
Qed.

Lemma name_dataset_effect dataset fmt kind d d' : name_dataset dataset fmt kind d = Ok d' ->
  describe d' = (Some dataset, pattern dataset fmt kind) /\ (forall C x, refers C x d' -> refers C x d).
Proof.
  unfold name_dataset. intros H. open_binds. split.
  - unfold describe, text_at, pattern. rewrite E0. back. back. back. reflexivity.
  - intros C x R. destruct (refers_put _ _ _ _ _ _ H ltac:(discriminate) eq_refl R) as [R'|R']; [|now apply (pattern_plain _ _ _ _ C x E0) in R'].
    destruct (refers_put _ _ _ _ _ _ E ltac:(discriminate) eq_refl R') as [R''|R'']; [exact R''|inversion R''].
Qed.

Lemma add_dataset_effect dataset fmt kind j j' l : add_dataset dataset fmt kind j = Ok j' ->
  effect [[K "newdatasets"]] [] j j' /\ (announces j l -> announces j' (l ++ [(Some dataset, pattern dataset fmt kind)])).
Proof.
  unfold add_dataset, append_to. intros H. open_binds. destruct (name_dataset_effect _ _ _ _ _ E0) as [D R]. destruct j2 as [| | |ds|]; try discriminate.
  split; [split|].
  - intros q Q. cbn [forallb] in Q. rewrite andb_true_r in Q. now rewrite (get_put_diverge _ _ _ _ _ H Q).
  - intros C d Rf. left. destruct (refers_put _ _ _ _ _ _ H ltac:(discriminate) eq_refl Rf) as [X|X]; [exact X|].
    inversion X as [| |l' v I X']; subst. apply in_app_iff in I. destruct I as [I|[<-|[]]].
    + apply (refers_get C d [K "newdatasets"] j _ E1). now apply (refers_list _ _ _ v).
    + apply (refers_get C d [K "newdatasets"; First] j _ E). now apply R.
  - intros (ds' & G & M). rewrite E1 in G. injection G as <-. exists (ds ++ [j1]). rewrite (get_put_same _ _ _ _ H). split; [reflexivity|]. now rewrite map_app, M, <- D.
Qed.

Lemma named_in_spec dataset j l b : announces j l -> named_in dataset j = Ok b -> b = existsb (fun e => match fst e with Some s => String.eqb s dataset | None => false end) l.
Proof.
  intros (ds & G & <-). unfold named_in. rewrite G. cbn [bind]. clear G.
  enough (K : forall b0, foldM (fun found d => do n <- get [K "name"] d; Ok (found || match n with JStr s => String.eqb s dataset | _ => false end)) b0 ds = Ok b ->
      b = b0 || existsb (fun e => match fst e with Some s => String.eqb s dataset | None => false end) (map describe ds)) by (intros H; apply K in H; exact H).
  induction ds as [|d ds IH]; intros b0 H; cbn [foldM] in H; [injection H as <-; now rewrite orb_false_r|].
  apply bind_ok in H. destruct H as (x & E & H). apply IH in H. apply bind_ok in E. destruct E as (y & E & E'). injection E' as <-. rewrite H. cbn [map existsb]. rewrite <- orb_assoc. f_equal. f_equal.
  unfold describe, text_at. rewrite E. cbn [fst]. now destruct y.
Qed.

(* ---------- the parts common to the operations *)

Definition PRIMARY : list (list step) :=
  [[K "name"]; [K "runmodule"; K "insitu_biases"]; [K "runmodule"; K "global_biases"]; [K "runmodule"; K "compute_uncertainties"];
   [K "runmodule"; K "method"]; [K "runmodule"; K "compute_sample"]; [K "runmodule"; K "sample_size"]; [K "runmodule"; K "compute_prior_sample"];
   [K "step"; K "start"]; [K "step"; K "end"]; [K "newdatasets"]].

Definition settled (f : filler) : Prop := plain (f_land_biases f) /\ plain (f_global_biases f).

Lemma put_first_effect d j j' : put [K "newdatasets"; First] d j = Ok j' ->
  (forall C x, refers C x d -> refers C x j) -> effect [[K "newdatasets"]] [] j j'.
Proof.
  intros E V. split.
  - intros q D. apply (get_put_diverge _ _ _ _ _ E). cbn [forallb] in D. rewrite andb_true_r in D. destruct q as [|a q]; [discriminate|]. cbn [diverge] in D |- *.
    destruct (step_eqb (K "newdatasets") a); [discriminate|exact D].
  - intros C x R. left. destruct (refers_put _ _ _ _ _ _ E ltac:(discriminate) eq_refl R); auto.
Qed.

Lemma primary_effect f command dataset fmt kind t j : settled f -> fill_primary_keys f command dataset fmt kind t = Ok j ->
  effect PRIMARY [] t j /\ (forall d0, get [K "newdatasets"] t = Ok (JList [d0]) -> announces j [(Some dataset, pattern dataset fmt kind)]).
Proof.
  intros [SL SG] H. unfold fill_primary_keys in H. open_binds.
  assert (V : effect (removelast PRIMARY) [] t j9).
  { clear H E9 E10. eapply effect_weaken; [eff| |apply incl_refl]. apply incl_refl. }
  destruct (name_dataset_effect _ _ _ _ _ E10) as [D R].
  assert (W : effect [[K "newdatasets"]] [] j9 j).
  { apply (put_first_effect _ _ _ H). intros C x X. apply (refers_get C x _ _ _ E9). now apply R. }
  split; [exact (effect_trans _ _ _ _ _ _ _ V W)|].
  intros d0 G. destruct V as [V _]. rewrite <- (V [K "newdatasets"] eq_refl) in G.
  exists [j11]. split; [|cbn [map]; now rewrite D].
  change [K "newdatasets"; First] with ([K "newdatasets"] ++ [First]) in H. rewrite (get_put_prefix [K "newdatasets"] [First] _ _ _ ltac:(discriminate) H). rewrite G. reflexivity.
Qed.

Definition solution_name (f : filler) (k : Z) : string :=
  if k =? 0 then f_solution_climatology f else if k =? 1 then f_solution_large_scale f else f_solution_local_scale f.
(* the state of component k when component c is confronted with observations in iteration i *)
Definition src (f : filler) (c i k : Z) : option string :=
  if k <? c then Some (numbered (solution_name f k) i) else if 0 <? i then Some (numbered (solution_name f k) (i - 1)) else None.
Definition read_class (k : Z) : string := if k =? 2 then BATCH_DAYS else INPUT_FILE.
Definition refs_of (f : filler) (c i : Z) (cls : Z -> string) (ks : list Z) : list (string * string) :=
  flat_map (fun k => match src f c i k with Some d => [(cls k, d)] | None => [] end) ks.
Definition others (c : Z) : list Z := filter (fun k => negb (k =? c)) [0; 1; 2].

Definition component (c : Z) : Prop := c = 0 \/ c = 1 \/ c = 2.

Lemma foldM_two {A B} (g : A -> B -> result A) a x y : foldM g a [x; y] = (do a1 <- g a x; do a2 <- g a1 y; Ok a2).
Proof. reflexivity. Qed.
Lemma foldM_three {A B} (g : A -> B -> result A) a x y z : foldM g a [x; y; z] = (do a1 <- g a x; do a2 <- g a1 y; do a3 <- g a2 z; Ok a3).
Proof. reflexivity. Qed.

Lemma secondary_step_first f i c j s k : 0 <= i -> component k -> c - s = k -> secondary_step f i c j s = put [K "runmodule"; K (storage_of k); K "statefilename_read"] (reference INPUT_FILE (numbered (solution_name f k) i)) j.
Proof.
  intros Hi Hk E. unfold secondary_step. rewrite E. replace (0 <=? i) with true by lia. destruct Hk as [-> | [-> | ->]]; reflexivity.
Qed.
Lemma secondary_step_before f i c j s k : component k -> c - s = k - 3 -> 0 <= i -> secondary_step f i c j s =
  if 0 <? i then put [K "runmodule"; K (storage_of k); K "statefilename_read"] (reference INPUT_FILE (numbered (solution_name f k) (i - 1))) j else Ok j.
Proof.
  intros Hk E Hi. unfold secondary_step. rewrite E. destruct Hk as [-> | [-> | ->]]; destruct (0 <? i); reflexivity.
Qed.

Definition state_key (k : Z) : list step := [K "runmodule"; K (storage_of k); K "statefilename_read"].
Definition SECONDARY (c : Z) : list (list step) :=
  [[K "runmodule"; K "component_index"]; [K "runmodule"; K "storage_local"; K "time_index"]] ++ map state_key (others c).

Lemma secondary_effect f i c j j' : 0 <= i -> component c -> fill_secondary_keys f i c j = Ok j' ->
  effect (SECONDARY c) (refs_of f c i (fun _ => INPUT_FILE) (others c)) j j' /\
  get [K "runmodule"; K "component_index"] j' = Ok (JNum c) /\
  (forall k, component k -> k <> c -> get (state_key k) j' = match src f c i k with Some d => Ok (reference INPUT_FILE d) | None => get (state_key k) j end).
Proof.
  intros Hi Hc H. unfold fill_secondary_keys in H. change (zrange 1 3) with [1; 2] in H. open_binds. rewrite foldM_two in H.
  destruct Hc as [-> | [-> | ->]].
  - rewrite (secondary_step_before f i 0 _ 1 2) in H by (solve [exact Hi | reflexivity | right; right; reflexivity]). open_binds.
    rewrite (secondary_step_before f i 0 _ 2 1) in E2 by (solve [exact Hi | reflexivity | right; left; reflexivity]).
    change (0 =? 2) with false in E0. cbv iota in E0. unfold refs_of, others, src. change (filter _ [0; 1; 2]) with [1; 2]. cbn [flat_map].
    change (1 <? 0) with false. change (2 <? 0) with false.
    destruct (0 <? i) eqn:P; open_binds; (split; [|split; [|intros k [-> | [-> | ->]] N; try congruence; unfold state_key]]); try (repeat back; reflexivity).
    + eapply effect_weaken; [eff| |]; [intros x; cbn [SECONDARY others filter map negb app In]; cbn; tauto|]. intros x. cbn. tauto.
    + eapply effect_weaken; [eff| |]; [intros x; cbn [SECONDARY others filter map negb app In]; cbn; tauto|]. intros x. cbn. tauto.
  - rewrite (secondary_step_first f i 1 _ 1 0) in H by (solve [exact Hi | reflexivity | left; reflexivity]). open_binds.
    rewrite (secondary_step_before f i 1 _ 2 2) in E2 by (solve [exact Hi | reflexivity | right; right; reflexivity]).
    change (1 =? 2) with false in E0. cbv iota in E0. unfold refs_of, others, src. change (filter _ [0; 1; 2]) with [0; 2]. cbn [flat_map].
    change (0 <? 1) with true. change (2 <? 1) with false.
    destruct (0 <? i) eqn:P; open_binds; (split; [|split; [|intros k [-> | [-> | ->]] N; try congruence; unfold state_key]]); try (repeat back; reflexivity).
    + eapply effect_weaken; [eff| |]; [intros x; cbn [SECONDARY others filter map negb app In]; cbn; tauto|]. intros x. cbn. tauto.
    + eapply effect_weaken; [eff| |]; [intros x; cbn [SECONDARY others filter map negb app In]; cbn; tauto|]. intros x. cbn. tauto.
  - rewrite (secondary_step_first f i 2 _ 1 1) in H by (solve [exact Hi | reflexivity | right; left; reflexivity]). open_binds.
    rewrite (secondary_step_first f i 2 _ 2 0) in E2 by (solve [exact Hi | reflexivity | left; reflexivity]).
    change (2 =? 2) with true in E0. cbv iota in E0. unfold refs_of, others, src. change (filter _ [0; 1; 2]) with [0; 1]. cbn [flat_map].
    change (0 <? 2) with true. change (1 <? 2) with true. open_binds. (split; [|split; [|intros k [-> | [-> | ->]] N; try congruence; unfold state_key]]); try (repeat back; reflexivity).
    eapply effect_weaken; [eff| |]; [intros x; cbn [SECONDARY others filter map negb app In]; cbn; tauto|]. intros x. cbn. tauto.
Qed.

Definition batch_key (k : Z) : list step := [K "runmodule"; K (storage_of k); K (if k =? 2 then "statefilelist_read" else "statefilename_read")].
Definition SECONDARY_BATCH : list (list step) :=
  [[K "runmodule"; K "component_index"]; [K "runmodule"; K "storage_local"; K "time_list"]; batch_key 0; batch_key 1; batch_key 2].

Lemma batch_read_effect f k i j j' : component k -> secondary_batch_read f k i j = Ok j' ->
  effect [batch_key k; [K "runmodule"; K "storage_local"; K "time_list"]] [(read_class k, numbered (solution_name f k) i)] j j' /\
  get (batch_key k) j' = Ok (reference (read_class k) (numbered (solution_name f k) i)).
Proof.
  intros Hk H. unfold secondary_batch_read in H.
  destruct Hk as [-> | [-> | ->]]; cbn [py_index STORAGE_LIST solution_names] in H; open_binds;
    match goal with A : py_index STORAGE_LIST _ = Ok _, B : py_index (solution_names _) _ = Ok _ |- _ =>
      injection A as <-; injection B as <- end; cbn [Z.eqb Pos.eqb] in H.
  - split; [eapply effect_weaken; [eff| |]; [intros x; cbn; tauto|apply incl_refl]|unfold batch_key; repeat back; reflexivity].
  - split; [eapply effect_weaken; [eff| |]; [intros x; cbn; tauto|apply incl_refl]|unfold batch_key; repeat back; reflexivity].
  - open_binds. split; [eapply effect_weaken; [eff| |]; [intros x; cbn; tauto|apply incl_refl]|unfold batch_key; change (2 =? 2) with true; cbv iota; repeat back; reflexivity].
Qed.

Lemma batch_step_effect f i c k j j' : 0 <= i -> component c -> component k -> secondary_batch_step f i c j k = Ok j' ->
  effect [batch_key k; [K "runmodule"; K "storage_local"; K "time_list"]] (match src f c i k with Some d => [(read_class k, d)] | None => [] end) j j' /\
  get (batch_key k) j' = match src f c i k with Some d => Ok (reference (read_class k) d) | None => get (batch_key k) j end.
Proof.
  intros Hi Hc Hk H. unfold secondary_batch_step in H. unfold src. replace (0 <=? i) with true in H by lia. rewrite andb_true_r in H.
  destruct (k <? c) eqn:E1; [now apply batch_read_effect|]. replace (c <=? k) with true in H by lia. cbn [andb] in H. destruct (0 <? i) eqn:E2; [now apply batch_read_effect|].
  injection H as <-. split; [|reflexivity]. apply (effect_weaken _ _ _ _ _ _ (effect_refl j)); intros x [].
Qed.

Lemma secondary_batch_effect f i c j j' : 0 <= i -> component c -> fill_secondary_keys_batch f i c j = Ok j' ->
  effect SECONDARY_BATCH (refs_of f c i read_class [0; 1; 2]) j j' /\
  get [K "runmodule"; K "component_index"] j' = Ok (JNum c) /\
  (forall k, component k -> get (batch_key k) j' = match src f c i k with Some d => Ok (reference (read_class k) d) | None => get (batch_key k) j end).
Proof.
  intros Hi Hc H. unfold fill_secondary_keys_batch in H. change (zrange 0 3) with [0; 1; 2] in H. open_binds. rewrite foldM_three in H. open_binds.
  destruct (batch_step_effect f i c 0 _ _ Hi Hc (or_introl eq_refl) E0) as [A0 B0].
  destruct (batch_step_effect f i c 1 _ _ Hi Hc (or_intror (or_introl eq_refl)) E1) as [A1 B1].
  destruct (batch_step_effect f i c 2 _ _ Hi Hc (or_intror (or_intror eq_refl)) E2) as [A2 B2].
  assert (A : effect [[K "runmodule"; K "component_index"]] [] j j0) by eff.
  split; [|split].
  - pose proof (effect_trans _ _ _ _ _ _ _ (effect_trans _ _ _ _ _ _ _ (effect_trans _ _ _ _ _ _ _ A A0) A1) A2) as T.
    eapply effect_weaken; [exact T| |].
    + intros x. cbn. tauto.
    + unfold refs_of. cbn [flat_map]. rewrite app_nil_r. intros x. rewrite !in_app_iff. cbn [In]. tauto.
  - rewrite (proj1 A2), (proj1 A1), (proj1 A0) by reflexivity. now back.
  - intros k [-> | [-> | ->]].
    + rewrite (proj1 A2), (proj1 A1) by reflexivity. rewrite B0. destruct (src f c i 0); [reflexivity|]. now rewrite (proj1 A) by reflexivity.
    + rewrite (proj1 A2) by reflexivity. rewrite B1. destruct (src f c i 1); [reflexivity|]. now rewrite (proj1 A0), (proj1 A) by reflexivity.
    + rewrite B2. destruct (src f c i 2); [reflexivity|]. now rewrite (proj1 A1), (proj1 A0), (proj1 A) by reflexivity.
Qed.

(* samples *)
Definition write_key (c : Z) (key : string) : list step := [K "runmodule"; K (storage_of c); K key].
Definition SAMPLE (c : Z) (key setting : string) : list (list step) :=
  [write_key c key; [K "runmodule"; K setting]; [K "runmodule"; K "sample_size"]; [K "newdatasets"]].

Lemma storage_index c : component c -> py_index STORAGE_LIST c = Ok (storage_of c).
Proof. intros [-> | [-> | ->]]; reflexivity. Qed.

Lemma sample_effect f c dataset fmt kind j j' l : component c -> add_sample_information f c dataset fmt kind j = Ok j' -> announces j l ->
  effect (SAMPLE c "sample_filename_write" "compute_sample") [(OUTPUT_FILE, dataset)] j j' /\
  announces j' (l ++ [(Some dataset, pattern dataset fmt kind)]) /\
  get (write_key c "sample_filename_write") j' = Ok (reference OUTPUT_FILE dataset).
Proof.
  intros Hc H A. unfold add_sample_information in H. rewrite (storage_index c Hc) in H. cbn [bind] in H. open_binds.
  destruct (add_dataset_effect _ _ _ _ _ l H) as [F G].
  assert (V : effect [write_key c "sample_filename_write"; [K "runmodule"; K "compute_sample"]; [K "runmodule"; K "sample_size"]] [(OUTPUT_FILE, dataset)] j j2).
  { clear F G H. destruct Hc as [-> | [-> | ->]]; (eapply effect_weaken; [eff| |]); intros x; cbn; tauto. }
  split; [|split].
  - apply (effect_weaken _ _ _ _ _ _ (effect_trans _ _ _ _ _ _ _ V F)); intros x; cbn; tauto.
  - apply G. apply (announces_effect _ _ _ _ _ V); [destruct Hc as [-> | [-> | ->]]; reflexivity|exact A].
  - rewrite (proj1 F) by reflexivity. destruct Hc as [-> | [-> | ->]]; unfold write_key; repeat back; reflexivity.
Qed.

Lemma prior_sample_effect f c dataset fmt kind j j' l : component c -> add_prior_sample_information f c dataset fmt kind j = Ok j' -> announces j l ->
  effect (SAMPLE c "prior_sample_filename_write" "compute_prior_sample") [(OUTPUT_FILE, dataset)] j j' /\
  announces j' (if existsb (fun e => match fst e with Some s => String.eqb s dataset | None => false end) l then l else l ++ [(Some dataset, pattern dataset fmt kind)]) /\
  get (write_key c "prior_sample_filename_write") j' = Ok (reference OUTPUT_FILE dataset).
Proof.
  intros Hc H A. unfold add_prior_sample_information in H. rewrite (storage_index c Hc) in H. cbn [bind] in H. open_binds.
  assert (V : effect [write_key c "prior_sample_filename_write"; [K "runmodule"; K "compute_prior_sample"]; [K "runmodule"; K "sample_size"]] [(OUTPUT_FILE, dataset)] j j2).
  { clear H E2. destruct Hc as [-> | [-> | ->]]; (eapply effect_weaken; [eff| |]); intros x; cbn; tauto. }
  assert (A2 : announces j2 l) by (apply (announces_effect _ _ _ _ _ V); [destruct Hc as [-> | [-> | ->]]; reflexivity|exact A]).
  rewrite <- (named_in_spec dataset j2 l j3 A2 E2). destruct j3.
  - injection H as <-. split; [|split].
    + apply (effect_weaken _ _ _ _ _ _ V); intros x; cbn; tauto.
    + exact A2.
    + destruct Hc as [-> | [-> | ->]]; unfold write_key; repeat back; reflexivity.
  - destruct (add_dataset_effect _ _ _ _ _ l H) as [F G]. split; [|split].
    + apply (effect_weaken _ _ _ _ _ _ (effect_trans _ _ _ _ _ _ _ V F)); intros x; cbn; tauto.
    + now apply G.
    + rewrite (proj1 F) by reflexivity. destruct Hc as [-> | [-> | ->]]; unfold write_key; repeat back; reflexivity.
Qed.

Lemma ddel_list_get keys d q : ~ In q keys -> dget q (fold_left (fun d k => ddel k d) keys d) = dget q d.
Proof.
  revert d. induction keys as [|k keys IH]; intros d N; cbn [fold_left]; [reflexivity|]. rewrite IH by (intros I; apply N; now right). apply dget_ddel. intros ->. apply N. now left.
Qed.
Lemma ddel_list_In keys d e : In e (fold_left (fun d k => ddel k d) keys d) -> In e d.
Proof. revert d. induction keys as [|k keys IH]; intros d I; cbn [fold_left] in I; [exact I|]. apply IH in I. now apply ddel_In in I. Qed.

Lemma remove_effect keys j j' : ~ In "python_class" keys -> ~ In "datasetname" keys -> remove_keys keys j = Ok j' ->
  effect (map (fun k => [K "runmodule"; K k]) keys) [] j j'.
Proof.
  intros N1 N2 H. unfold remove_keys in H. open_binds. destruct j0 as [| | | |d]; try discriminate. split.
  - intros q D. destruct keys as [|k0 keys0] eqn:EK.
    + cbn [fold_left] in H. cbn [put put1] in H. destruct j as [| | | |m]; try discriminate. injection H as <-. cbn in E.
      destruct (dget "runmodule" m) as [z|] eqn:Z; [|discriminate]. injection E as ->.
      destruct q as [|[k|] q]; cbn [get get1 bind]; [|destruct (String.eqb_spec "runmodule" k) as [<-|NE]; [now rewrite dget_dset_same, Z|now rewrite dget_dset_other]|reflexivity].
      f_equal. f_equal. clear - Z. induction m as [|[k v] m IH]; cbn [dget] in Z; [discriminate|]. cbn [dset]. destruct (String.eqb_spec k "runmodule") as [->|]; [congruence|f_equal; auto].
    + assert (Q : exists k q', q = K k :: q' /\ (k = "runmodule" -> exists k' q'', q' = K k' :: q'' /\ ~ In k' (k0 :: keys0))).
      { clear - D. rewrite forallb_forall in D.
        assert (D0 : diverge [K "runmodule"; K k0] q = true) by (apply D; now left). destruct q as [|[k|] q]; cbn [diverge step_eqb] in D0; try discriminate.
        exists k, q. split; [reflexivity|]. intros ->. change (String.eqb "runmodule" "runmodule") with true in D0. cbv iota in D0.
        destruct q as [|[k'|] q]; cbn [diverge step_eqb] in D0; try discriminate. exists k', q. split; [reflexivity|]. intros I.
        assert (D1 : diverge [K "runmodule"; K k'] (K "runmodule" :: K k' :: q) = true) by (apply D; apply in_map_iff; eauto).
        cbn [diverge step_eqb] in D1. rewrite !String.eqb_refl in D1. cbn in D1. discriminate. }
      destruct Q as (k & q' & -> & Q). destruct (String.eqb_spec "runmodule" k) as [<-|NE].
      * destruct (Q eq_refl) as (k' & q'' & -> & I). change (K "runmodule" :: K k' :: q'') with ([K "runmodule"] ++ (K k' :: q'')).
        rewrite (get_put_in _ _ _ _ _ H), get_app, E. cbn [bind get get1]. now rewrite ddel_list_get.
      * apply (get_put_diverge _ _ _ _ _ H). cbn [diverge step_eqb]. destruct (String.eqb_spec "runmodule" k); [congruence|reflexivity].
  - intros C x R. left. destruct (refers_put _ _ _ _ _ _ H ltac:(discriminate) eq_refl R) as [R'|R']; [exact R'|].
    apply (refers_get C x [K "runmodule"] j _ E). inversion R' as [m c E1 E2 E3|m k v I R''|]; subst.
    + rewrite ddel_list_get in E1, E3 by assumption. now apply (refers_here _ _ _ c).
    + apply ddel_list_In in I. now apply (refers_dict _ _ _ k v).
Qed.
Lemma remove_gone keys k j j' : In k keys -> remove_keys keys j = Ok j' -> get [K "runmodule"; K k] j' = Err KeyError.
Proof.
  intros I H. unfold remove_keys in H. open_binds. destruct j0 as [| | | |d]; try discriminate. change [K "runmodule"; K k] with ([K "runmodule"] ++ [K k]).
  rewrite (get_put_in _ _ _ _ _ H). cbn [get get1]. replace (dget k _) with (@None json); [reflexivity|]. symmetry. clear - I. revert d.
  induction keys as [|a keys IH]; intros d; [destruct I|]. cbn [fold_left]. destruct (in_dec string_dec k keys) as [J|J]; [now apply IH|]. destruct I as [->|I]; [|contradiction].
  rewrite ddel_list_get by exact J. apply dget_ddel_same.
Qed.

(* ---------- operations *)

Record outlines (t op : json) (fn : string) (c : option Z) (R W : list string) (D : list (option string * json)) (src tgt : Z -> kind -> option string) : Prop := {
  o_function : text_at [K "runmodule"; K "python_function"] op = Some fn;
  o_component : forall c', c = Some c' -> get [K "runmodule"; K "component_index"] op = Ok (JNum c');
  o_kept : c = None -> get [K "runmodule"; K "component_index"] op = get [K "runmodule"; K "component_index"] t;
  o_reads : forall d, reads op d -> reads t d \/ In d R;
  o_needs : forall d, In d R -> reads op d;
  o_writes : forall d, writes op d <-> In d W;
  o_announces : announces op D;
  o_source : forall k w, component k -> source k w op = src k w;
  o_target : forall k w, component k -> target k w op = tgt k w }.

Lemma text_at_same p j j' : get p j' = get p j -> text_at p j' = text_at p j.
Proof. unfold text_at. now intros ->. Qed.
Lemma text_of_get p j c d : get p j = Ok (reference c d) -> text_at (p ++ [K "datasetname"]) j = Some d.
Proof. intros E. unfold text_at. now rewrite get_app, E. Qed.
Lemma text_of_same p q j j' : get p j' = get p j -> text_at (p ++ q) j' = text_at (p ++ q) j.
Proof. intros E. unfold text_at. now rewrite !get_app, E. Qed.

Lemma blank_source c t : blank t ->
  text_at [K "runmodule"; K (storage_of c); K "statefilename_read"; K "datasetname"] t = None /\
  text_at [K "runmodule"; K (storage_of c); K "statefilelist_read"; K "datasetname"] t = None.
Proof. intros (B & _). destruct (B c State) as [S _]. unfold source, either, entry in S. destruct (text_at _ t) eqn:E; [discriminate|auto]. Qed.

Definition read_keys (w : kind) : list string :=
  match w with
  | State => ["statefilename_read"; "statefilelist_read"] | Sample => ["sample_filename_read"; "sample_filelist_read"]
  | PriorSample => ["prior_sample_filename_read"; "prior_sample_filelist_read"] | Measurement => ["measurementfilelist_read"]
  end.
Definition written_key (w : kind) : string :=
  match w with State => "statefilename_write" | Sample => "sample_filename_write" | PriorSample => "prior_sample_filename_write" | Measurement => "measurementfilename_write" end.
Lemma entry_same P L t j k key : effect P L t j -> forallb (fun p => diverge p [K "runmodule"; K (storage_of k); K key]) P = true -> entry k key j = entry k key t.
Proof. intros [G _] D. apply (text_of_same [K "runmodule"; K (storage_of k); K key] [K "datasetname"]). now apply G. Qed.
Lemma source_same P L t j k w : effect P L t j -> forallb (fun key => forallb (fun p => diverge p [K "runmodule"; K (storage_of k); K key]) P) (read_keys w) = true -> source k w j = source k w t.
Proof.
  intros F D. unfold source, either. destruct w; cbn [read_keys forallb] in D; rewrite ?andb_true_iff in D; repeat match type of D with _ /\ _ => let D1 := fresh in destruct D as [D1 D]; rewrite (entry_same _ _ _ _ _ _ F D1) end; reflexivity.
Qed.
Lemma target_same P L t j k w : effect P L t j -> forallb (fun p => diverge p [K "runmodule"; K (storage_of k); K (written_key w)]) P = true -> target k w j = target k w t.
Proof. intros F D. unfold target. destruct w; exact (entry_same _ _ _ _ _ _ F D). Qed.
Lemma target_entry k w op : target k w op = entry k (written_key w) op.
Proof. now destruct w. Qed.
Lemma entry_get k key op c d : get [K "runmodule"; K (storage_of k); K key] op = Ok (reference c d) -> entry k key op = Some d.
Proof. apply (text_of_get [K "runmodule"; K (storage_of k); K key]). Qed.

Lemma writes_effect P L t op : effect P L t op -> (forall d, ~ writes t d) -> forall d, writes op d -> exists c, In (c, d) L /\ In c OUTPUTS.
Proof. intros [_ R] B d W. destruct (R _ _ W) as [H|H]; [now destruct (B d)|exact H]. Qed.
Lemma reads_effect P L t op : effect P L t op -> forall d, reads op d -> reads t d \/ exists c, In (c, d) L /\ In c INPUTS.
Proof. intros [_ R] d W. exact (R _ _ W). Qed.

Lemma refs_of_In f c i cls ks x d : In (x, d) (refs_of f c i cls ks) <-> exists k, In k ks /\ src f c i k = Some d /\ x = cls k.
Proof.
  unfold refs_of. rewrite in_flat_map. split.
  - intros (k & I & H). destruct (src f c i k) eqn:E; [|destruct H]. destruct H as [[= <- <-]|[]]. eauto.
  - intros (k & I & E & ->). exists k. rewrite E. split; [exact I|now left].
Qed.

Definition sources_of (f : filler) (c i : Z) (ks : list Z) : list string := flat_map (fun k => match src f c i k with Some d => [d] | None => [] end) ks.
Lemma sources_of_In f c i ks d : In d (sources_of f c i ks) <-> exists k, In k ks /\ src f c i k = Some d.
Proof.
  unfold sources_of. rewrite in_flat_map. split.
  - intros (k & I & H). destruct (src f c i k) eqn:E; [|destruct H]. destruct H as [<-|[]]. eauto.
  - intros (k & I & E). exists k. rewrite E. split; [exact I|now left].
Qed.

Lemma input_file_in : In INPUT_FILE INPUTS. Proof. now left. Qed.
Lemma input_list_in : In INPUT_FILE_LIST INPUTS. Proof. right; now left. Qed.
Lemma batch_days_in : In BATCH_DAYS INPUTS. Proof. right; right; now left. Qed.
Lemma read_class_in k : In (read_class k) INPUTS.
Proof. unfold read_class. destruct (k =? 2); [apply batch_days_in|apply input_file_in]. Qed.
Lemma read_class_out k : ~ In (read_class k) OUTPUTS.
Proof. unfold read_class. destruct (k =? 2); intros [H|[H|[]]]; discriminate. Qed.
Lemma input_file_out : ~ In INPUT_FILE OUTPUTS. Proof. intros [H|[H|[]]]; discriminate. Qed.
Lemma input_list_out : ~ In INPUT_FILE_LIST OUTPUTS. Proof. intros [H|[H|[]]]; discriminate. Qed.
Lemma output_file_out : In OUTPUT_FILE OUTPUTS. Proof. now left. Qed.
Lemma output_file_in : ~ In OUTPUT_FILE INPUTS. Proof. intros [H|[H|[H|[]]]]; discriminate. Qed.
Lemma batch_output_out : In BATCH_DAYS_OUTPUT OUTPUTS. Proof. right; now left. Qed.
Lemma batch_output_in : ~ In BATCH_DAYS_OUTPUT INPUTS. Proof. intros [H|[H|[H|[]]]]; discriminate. Qed.

Lemma others_In c k : In k (others c) <-> component k /\ k <> c.
Proof. unfold others, component. rewrite filter_In. cbn [In]. destruct (k =? c) eqn:E; cbn [negb]; split; intros H; intuition (try discriminate; try lia). Qed.
Lemma all_In k : In k [0; 1; 2] <-> component k.
Proof. unfold component. cbn [In]. intuition lia. Qed.

Definition only (w0 : kind) (g : Z -> option string) (k : Z) (w : kind) : option string :=
  match w0, w with State, State | Sample, Sample | PriorSample, PriorSample | Measurement, Measurement => g k | _, _ => None end.
Definition nowhere (k : Z) (w : kind) : option string := None.
Definition when (b : bool) (d : string) : option string := if b then Some d else None.

Lemma measurement_outline f t i c command dataset op : settled f -> blank t -> 0 <= i -> component c ->
  fill_single_measurement f t i c command dataset = Ok op ->
  outlines t op PROCESS_INPUTS (Some c) (sources_of f c i (others c)) [numbered dataset i]
    [(Some (numbered dataset i), pattern (numbered dataset i) "pickle" "measurement")]
    (only State (fun k => if k =? c then None else src f c i k)) (only Measurement (fun k => when (k =? c) (numbered dataset i))).
Proof.
  intros S B Hi Hc H. unfold fill_single_measurement in H. rewrite (storage_index c Hc) in H. apply bind_ok in H. destruct H as (j0 & H0 & H). apply bind_ok in H. destruct H as (j1 & H1 & H).
  cbn [bind] in H. apply bind_ok in H. destruct H as (j2 & H2 & H). cbn [bind] in H. apply bind_ok in H. destruct H as (j3 & H3 & H).
  pose proof B as (BS & (d0 & BD) & BW).
  destruct (primary_effect _ _ _ _ _ _ _ S H0) as [F0 A0]. specialize (A0 d0 BD).
  destruct (secondary_effect _ _ _ _ _ Hi Hc H1) as (F1 & C1 & S1).
  assert (F2 : effect [[K "runmodule"; K "python_function"]; write_key c "measurement_time_index_write"; write_key c "measurementfilename_write"] [(OUTPUT_FILE, numbered dataset i)] j1 op).
  { destruct Hc as [-> | [-> | ->]]; (eapply effect_weaken; [eff| |]); intros x; cbn; tauto. }
  pose proof (effect_trans _ _ _ _ _ _ _ (effect_trans _ _ _ _ _ _ _ F0 F1) F2) as F.
  constructor.
  - unfold text_at. destruct Hc as [-> | [-> | ->]]; repeat back; reflexivity.
  - intros c' [= <-]. rewrite (proj1 F2) by (destruct Hc as [-> | [-> | ->]]; reflexivity). exact C1.
  - intros X; discriminate X.
  - intros d R. destruct (reads_effect _ _ _ _ F d R) as [R'|(x & I & J)]; [now left|right]. apply sources_of_In. apply in_app_iff in I. destruct I as [I|[[= <- <-]|[]]]; [|now apply output_file_in in J].
    cbn [app] in I. apply refs_of_In in I. destruct I as (k & I & E & ->). eauto.
  - intros d I. apply sources_of_In in I. destruct I as (k & I & E). apply others_In in I. destruct I as [Ck N].
    specialize (S1 k Ck N). rewrite E in S1. apply (refers_get _ _ (state_key k) op (reference INPUT_FILE d)); [|apply refers_this, input_file_in].
    rewrite (proj1 F2); [exact S1|]. destruct Hc as [-> | [-> | ->]], Ck as [-> | [-> | ->]]; reflexivity.
  - intros d. split.
    + intros W. destruct (writes_effect _ _ _ _ F BW d W) as (x & I & J). apply in_app_iff in I. destruct I as [I|[[= <- <-]|[]]]; [|now left].
      cbn [app] in I. apply refs_of_In in I. destruct I as (k & I & E & ->). now apply input_file_out in J.
    + intros [<-|[]]. apply (refers_get _ _ (write_key c "measurementfilename_write") op (reference OUTPUT_FILE (numbered dataset i))); [|apply refers_this, output_file_out].
      unfold write_key. now back.
  - apply (announces_effect _ _ _ _ _ F2); [destruct Hc as [-> | [-> | ->]]; reflexivity|]. apply (announces_effect _ _ _ _ _ F1); [destruct Hc as [-> | [-> | ->]]; reflexivity|]. exact A0.
  - intros k w Ck. destruct w; cbn [only]; try (refine (eq_trans (source_same _ _ _ _ _ _ F _) (proj1 (BS k _))); destruct Hc as [-> | [-> | ->]], Ck as [-> | [-> | ->]]; reflexivity).
    destruct (blank_source k t B) as [B1 B2].
    assert (G2 : text_at [K "runmodule"; K (storage_of k); K "statefilelist_read"; K "datasetname"] op = None).
    { rewrite <- B2. apply text_at_same, (proj1 F). destruct Hc as [-> | [-> | ->]], Ck as [-> | [-> | ->]]; reflexivity. }
    unfold source, either, entry. rewrite G2.
    assert (G1 : text_at [K "runmodule"; K (storage_of k); K "statefilename_read"; K "datasetname"] op = (if k =? c then None else src f c i k)).
    { destruct (k =? c) eqn:E.
      - assert (k = c) as -> by lia. rewrite <- B1. apply text_at_same, (proj1 F). destruct Ck as [-> | [-> | ->]]; reflexivity.
      - assert (N : k <> c) by lia. specialize (S1 k Ck N). assert (G : get (state_key k) op = get (state_key k) j1) by (apply (proj1 F2); destruct Hc as [-> | [-> | ->]], Ck as [-> | [-> | ->]]; reflexivity).
        destruct (src f c i k) as [d|].
        + exact (text_of_get (state_key k) op INPUT_FILE d (eq_trans G S1)).
        + rewrite <- B1. apply (text_of_same (state_key k) [K "datasetname"]). rewrite G, S1. apply (proj1 F0). destruct Ck as [-> | [-> | ->]]; reflexivity. }
    rewrite G1. destruct (k =? c); [reflexivity|]. now destruct (src f c i k).
  - intros k w Ck. destruct w; cbn [only]; try (refine (eq_trans (target_same _ _ _ _ _ _ F _) (proj2 (BS k _))); destruct Hc as [-> | [-> | ->]], Ck as [-> | [-> | ->]]; reflexivity).
    destruct (k =? c) eqn:E; cbn [when].
    + assert (k = c) as -> by lia. apply (entry_get c "measurementfilename_write" op OUTPUT_FILE). now back.
    + rewrite <- (proj2 (BS k Measurement)). apply (target_same _ _ _ _ _ _ F). destruct Hc as [-> | [-> | ->]], Ck as [-> | [-> | ->]]; first [discriminate|reflexivity].
Qed.

(* ---------- names *)

Lemma py_str_nonneg i : 0 <= i -> py_str i = decimals (decimal_width (S (Z.to_nat i)) 1 i) i.
Proof. intros H. unfold py_str. now replace (i <? 0) with false by lia. Qed.
Lemma int_of_py_str i : 0 <= i -> Name_Model.int_of 0 (py_str i) = i.
Proof.
  intros H. rewrite py_str_nonneg by exact H. rewrite int_of_decimals by exact H. apply Z.mod_small. split; [exact H|]. apply decimal_width_enough; [exact H|].
  eapply Z.lt_le_trans; [apply (Z.pow_gt_lin_r 10 i); lia|]. apply Z.pow_le_mono_r; lia.
Qed.
Lemma numbered_inj a b i j : 0 <= i -> 0 <= j -> numbered a i = numbered b j -> a = b /\ i = j.
Proof.
  intros Hi Hj E. unfold numbered in E. apply last_underscore in E; [|rewrite py_str_nonneg by assumption; now apply decimals_no_underscore|rewrite py_str_nonneg by assumption; now apply decimals_no_underscore].
  destruct E as [-> E]. split; [reflexivity|]. rewrite <- (int_of_py_str i), <- (int_of_py_str j) by assumption. congruence.
Qed.
Lemma sapp_cancel a b c : (a ++ b)%string = (a ++ c)%string -> b = c.
Proof. induction a as [|x a IH]; cbn; [auto|]. intros [= E]. auto. Qed.
Lemma sample_not_prior a : sample_of a <> prior_sample_of a.
Proof. intros E. apply sapp_cancel in E. discriminate. Qed.
Lemma sapp_nil_r a : (a ++ "")%string = a.
Proof. induction a as [|x a IH]; cbn; congruence. Qed.
Lemma self_not_prior a : a <> prior_sample_of a.
Proof. intros E. rewrite <- (sapp_nil_r a) in E at 1. apply sapp_cancel in E. discriminate. Qed.

Lemma eqb_numbered a b i : 0 <= i -> a <> b -> String.eqb (numbered a i) (numbered b i) = false.
Proof. intros Hi N. destruct (String.eqb_spec (numbered a i) (numbered b i)) as [E|]; [|reflexivity]. apply numbered_inj in E; tauto. Qed.

(* the data sets of a solution, with its samples *)
Definition with_samples (sampled : bool) (name : string) (i : Z) : list string :=
  numbered name i :: (if sampled then [numbered (sample_of name) i; numbered (prior_sample_of name) i] else []).
Definition announced (kind0 kind1 : string) (sampled : bool) (name : string) (i : Z) : list (option string * json) :=
  (Some (numbered name i), pattern (numbered name i) "pickle" kind0) ::
  (if sampled then [(Some (numbered (sample_of name) i), pattern (numbered (sample_of name) i) "pickle" kind1);
                    (Some (numbered (prior_sample_of name) i), pattern (numbered (prior_sample_of name) i) "pickle" kind1)] else []).

Definition SAMPLES (c : Z) : list (list step) :=
  [write_key c "sample_filename_write"; [K "runmodule"; K "compute_sample"]; [K "runmodule"; K "sample_size"]; [K "newdatasets"];
   write_key c "prior_sample_filename_write"; [K "runmodule"; K "compute_prior_sample"]].

Definition samples (f : filler) (c : Z) (sampled : bool) (name : string) (i : Z) (kind : string) (j : json) : result json :=
  if sampled then do j <- add_sample_information f c (numbered (sample_of name) i) "pickle" kind j;
                  add_prior_sample_information f c (numbered (prior_sample_of name) i) "pickle" kind j
  else Ok j.
Lemma samples_effect f c (sampled : bool) name i kind0 kind j j' : component c -> 0 <= i -> samples f c sampled name i kind j = Ok j' ->
  announces j [(Some (numbered name i), pattern (numbered name i) "pickle" kind0)] ->
  effect (SAMPLES c) (map (fun d => (OUTPUT_FILE, d)) (tl (with_samples sampled name i))) j j' /\
  announces j' (announced kind0 kind sampled name i) /\
  (sampled = true -> get (write_key c "sample_filename_write") j' = Ok (reference OUTPUT_FILE (numbered (sample_of name) i)) /\
                     get (write_key c "prior_sample_filename_write") j' = Ok (reference OUTPUT_FILE (numbered (prior_sample_of name) i))).
Proof.
  intros Hc Hi H A. unfold samples in H. destruct sampled.
  - apply bind_ok in H. destruct H as (j0 & H0 & H). destruct (sample_effect _ _ _ _ _ _ _ _ Hc H0 A) as (F0 & A0 & G0).
    destruct (prior_sample_effect _ _ _ _ _ _ _ _ Hc H A0) as (F1 & A1 & G1). cbn [app existsb fst] in A1. rewrite !eqb_numbered in A1 by (solve [exact Hi | apply self_not_prior | apply sample_not_prior]). cbn [orb] in A1.
    split; [|split; [exact A1|]].
    + apply (effect_weaken _ _ _ _ _ _ (effect_trans _ _ _ _ _ _ _ F0 F1)); intros x; cbn; tauto.
    + intros _. split; [|exact G1]. rewrite (proj1 F1); [exact G0|]. destruct Hc as [-> | [-> | ->]]; reflexivity.
  - injection H as <-. split; [|split; [exact A|discriminate]]. apply (effect_weaken _ _ _ _ _ _ (effect_refl j)); intros x [].
Qed.

Definition stored (sampled : bool) (c : Z) (name : string) (i : Z) (k : Z) (w : kind) : option string :=
  match w with
  | State => when (k =? c) (numbered name i) | Sample => when ((k =? c) && sampled) (numbered (sample_of name) i)
  | PriorSample => when ((k =? c) && sampled) (numbered (prior_sample_of name) i) | Measurement => None
  end.
Definition samples_at (sampled : bool) (c : Z) (name : string) (i : Z) (k : Z) (w : kind) : option string :=
  match w with State => None | _ => stored sampled c name i k w end.
Lemma samples_target f c (sampled : bool) name i kind0 kind j j' k w : component c -> 0 <= i -> samples f c sampled name i kind j = Ok j' ->
  announces j [(Some (numbered name i), pattern (numbered name i) "pickle" kind0)] -> component k -> target k w j = None ->
  target k w j' = samples_at sampled c name i k w.
Proof.
  intros Hc Hi H A Ck B. destruct (samples_effect _ _ _ _ _ _ _ _ _ Hc Hi H A) as (F & _ & G). rewrite target_entry.
  assert (U : k <> c \/ w = State \/ w = Measurement \/ sampled = false -> target k w j' = None).
  { intros X. destruct sampled.
    - rewrite (target_same _ _ _ _ _ _ F); [exact B|]. destruct X as [X|[X|[X|X]]]; try discriminate; subst; destruct Hc as [-> | [-> | ->]], Ck as [-> | [-> | ->]]; try destruct w; first [contradiction|reflexivity].
    - injection H as <-. exact B. }
  rewrite target_entry in U. unfold samples_at, stored, when.
  destruct w; try (apply U; tauto); (destruct (k =? c) eqn:E; [|apply U; left; lia]); (destruct sampled; [|apply U; tauto]); assert (k = c) as -> by lia; cbn [andb]; destruct (G eq_refl) as [G0 G1].
  - apply (entry_get c _ _ OUTPUT_FILE), G0.
  - apply (entry_get c _ _ OUTPUT_FILE), G1.
Qed.

Lemma local_outline f t (sampled : bool) i op : settled f -> blank t -> 0 <= i ->
  fill_single_operation_space f t sampled i 2 = Ok op ->
  outlines t op PROCESS_INPUTS (Some 2) (sources_of f 2 i (others 2)) (with_samples sampled (f_solution_local_scale f) i)
    (announced "space_solution" "space_sample" sampled (f_solution_local_scale f) i)
    (only State (fun k => if k =? 2 then None else src f 2 i k)) (stored sampled 2 (f_solution_local_scale f) i).
Proof.
  intros S B Hi H. assert (Hc : component 2) by (right; now right). unfold fill_single_operation_space in H. apply bind_ok in H. destruct H as (j0 & H0 & H). apply bind_ok in H. destruct H as (j1 & H1 & H).
  apply bind_ok in H. destruct H as (j2 & H2 & H). rewrite (storage_index 2 Hc) in H. cbn [bind] in H. apply bind_ok in H. destruct H as (j3 & H3 & H). cbn [bind] in H. apply bind_ok in H. destruct H as (j4 & H4 & H).
  pose proof B as (BS & (d0 & BD) & BW).
  destruct (primary_effect _ _ _ _ _ _ _ S H0) as [F0 A0]. specialize (A0 d0 BD).
  destruct (secondary_effect _ _ _ _ _ Hi Hc H1) as (F1 & C1 & S1).
  assert (A1 : announces j1 [(Some (numbered (f_solution_local_scale f) i), pattern (numbered (f_solution_local_scale f) i) "pickle" "space_solution")]) by (apply (announces_effect _ _ _ _ _ F1); [reflexivity|exact A0]).
  destruct (samples_effect _ _ _ _ _ _ _ _ _ Hc Hi H2 A1) as (F2 & A2 & G2).
  set (name := numbered (f_solution_local_scale f) i) in *.
  assert (F3 : effect [[K "runmodule"; K "python_function"]; write_key 2 "time_index"; write_key 2 "statefilename_write"] [(OUTPUT_FILE, name)] j2 op).
  { eapply effect_weaken; [eff| |]; intros x; cbn; tauto. }
  pose proof (effect_trans _ _ _ _ _ _ _ (effect_trans _ _ _ _ _ _ _ (effect_trans _ _ _ _ _ _ _ F0 F1) F2) F3) as F.
  assert (M : forall x d, In (x, d) (map (fun d => (OUTPUT_FILE, d)) (tl (with_samples sampled (f_solution_local_scale f) i)) ++ [(OUTPUT_FILE, name)]) -> x = OUTPUT_FILE /\ In d (with_samples sampled (f_solution_local_scale f) i)).
  { intros x d I. apply in_app_iff in I. destruct I as [I|[[= <- <-]|[]]]; [|split; [reflexivity|now left]]. apply in_map_iff in I. destruct I as (y & [= <- <-] & I). split; [reflexivity|now right]. }
  constructor.
  - unfold text_at. repeat back. reflexivity.
  - intros c' [= <-]. rewrite (proj1 F3), (proj1 F2) by reflexivity. exact C1.
  - intros X; discriminate X.
  - intros d R. destruct (reads_effect _ _ _ _ F d R) as [R'|(x & I & J)]; [now left|right]. apply sources_of_In. rewrite <- app_assoc in I. apply in_app_iff in I. destruct I as [I|I]; [|apply M in I; destruct I as [-> _]; now apply output_file_in in J].
    cbn [app] in I. apply refs_of_In in I. destruct I as (k & I & E & ->). eauto.
  - intros d I. apply sources_of_In in I. destruct I as (k & I & E). apply others_In in I. destruct I as [Ck N].
    specialize (S1 k Ck N). rewrite E in S1. apply (refers_get _ _ (state_key k) op (reference INPUT_FILE d)); [|apply refers_this, input_file_in].
    rewrite (proj1 F3), (proj1 F2); [exact S1| |]; destruct Ck as [-> | [-> | ->]]; reflexivity.
  - intros d. split.
    + intros W. destruct (writes_effect _ _ _ _ F BW d W) as (x & I & J). rewrite <- app_assoc in I. apply in_app_iff in I. destruct I as [I|I]; [|now apply M in I].
      cbn [app] in I. apply refs_of_In in I. destruct I as (k & I & E & ->). now apply input_file_out in J.
    + unfold with_samples. intros [<-|I]; [apply (refers_get _ _ (write_key 2 "statefilename_write") op (reference OUTPUT_FILE name)); [unfold write_key; now back|apply refers_this, output_file_out]|].
      destruct sampled; [|destruct I]. destruct (G2 eq_refl) as [Ga Gb]. destruct I as [<-|[<-|[]]].
      * apply (refers_get _ _ _ op _ (eq_trans (proj1 F3 (write_key 2 "sample_filename_write") eq_refl) Ga)). apply refers_this, output_file_out.
      * apply (refers_get _ _ _ op _ (eq_trans (proj1 F3 (write_key 2 "prior_sample_filename_write") eq_refl) Gb)). apply refers_this, output_file_out.
  - apply (announces_effect _ _ _ _ _ F3); [reflexivity|exact A2].
  - intros k w Ck. destruct w; cbn [only]; try (refine (eq_trans (source_same _ _ _ _ _ _ F _) (proj1 (BS k _))); destruct Ck as [-> | [-> | ->]]; reflexivity).
    destruct (blank_source k t B) as [B1 B2].
    assert (G3 : text_at [K "runmodule"; K (storage_of k); K "statefilelist_read"; K "datasetname"] op = None).
    { rewrite <- B2. apply text_at_same, (proj1 F). destruct Ck as [-> | [-> | ->]]; reflexivity. }
    unfold source, either, entry. rewrite G3.
    assert (G1 : text_at [K "runmodule"; K (storage_of k); K "statefilename_read"; K "datasetname"] op = (if k =? 2 then None else src f 2 i k)).
    { destruct (k =? 2) eqn:E.
      - assert (k = 2) as -> by lia. rewrite <- B1. apply text_at_same, (proj1 F). reflexivity.
      - assert (N : k <> 2) by lia. specialize (S1 k Ck N). assert (G : get (state_key k) op = get (state_key k) j1) by (rewrite (proj1 F3), (proj1 F2); [reflexivity| |]; destruct Ck as [-> | [-> | ->]]; reflexivity).
        destruct (src f 2 i k) as [d|].
        + exact (text_of_get (state_key k) op INPUT_FILE d (eq_trans G S1)).
        + rewrite <- B1. apply (text_of_same (state_key k) [K "datasetname"]). rewrite G, S1. apply (proj1 F0). destruct Ck as [-> | [-> | ->]]; reflexivity. }
    rewrite G1. destruct (k =? 2); [reflexivity|]. now destruct (src f 2 i k).
  - intros k w Ck. assert (B1 : target k w j1 = None).
    { rewrite <- (proj2 (BS k w)). apply (target_same _ _ _ _ _ _ (effect_trans _ _ _ _ _ _ _ F0 F1)). destruct w, Ck as [-> | [-> | ->]]; reflexivity. }
    pose proof (samples_target _ _ _ _ _ _ _ _ _ k w Hc Hi H2 A1 Ck B1) as T.
    destruct w; try (cbn [samples_at] in T; rewrite <- T; apply (target_same _ _ _ _ _ _ F3); destruct Ck as [-> | [-> | ->]]; reflexivity).
    cbn [stored]. destruct (k =? 2) eqn:E; cbn [when].
    + assert (k = 2) as -> by lia. apply (entry_get 2 "statefilename_write" op OUTPUT_FILE). now back.
    + cbn [samples_at] in T. rewrite <- T. apply (target_same _ _ _ _ _ _ F3). destruct Ck as [-> | [-> | ->]]; first [discriminate|reflexivity].
Qed.

Lemma batch_measurement_outline f t i c command dataset op : settled f -> blank t -> 0 <= i -> component c ->
  fill_batch_measurement f t i c command dataset = Ok op ->
  outlines t op PROCESS_INPUTS_BATCH (Some c) (sources_of f c i [0; 1; 2]) [numbered dataset i]
    [(Some (numbered dataset i), pattern (numbered dataset i) "pickle" "monthly_measurement")]
    (only State (src f c i)) (only Measurement (fun k => when (k =? c) (numbered dataset i))).
Proof.
  intros S B Hi Hc H. unfold fill_batch_measurement in H. rewrite (storage_index c Hc) in H. apply bind_ok in H. destruct H as (j0 & H0 & H). apply bind_ok in H. destruct H as (j1 & H1 & H).
  cbn [bind] in H. apply bind_ok in H. destruct H as (j2 & H2 & H). cbn [bind] in H.
  pose proof B as (BS & (d0 & BD) & BW).
  destruct (primary_effect _ _ _ _ _ _ _ S H0) as [F0 A0]. specialize (A0 d0 BD).
  destruct (secondary_batch_effect _ _ _ _ _ Hi Hc H1) as (F1 & C1 & S1).
  assert (F2 : effect [[K "runmodule"; K "python_function"]; write_key c "measurementfilename_write"] [(OUTPUT_FILE, numbered dataset i)] j1 op).
  { destruct Hc as [-> | [-> | ->]]; (eapply effect_weaken; [eff| |]); intros x; cbn; tauto. }
  pose proof (effect_trans _ _ _ _ _ _ _ (effect_trans _ _ _ _ _ _ _ F0 F1) F2) as F.
  constructor.
  - unfold text_at. destruct Hc as [-> | [-> | ->]]; repeat back; reflexivity.
  - intros c' [= <-]. rewrite (proj1 F2) by (destruct Hc as [-> | [-> | ->]]; reflexivity). exact C1.
  - intros X; discriminate X.
  - intros d R. destruct (reads_effect _ _ _ _ F d R) as [R'|(x & I & J)]; [now left|right]. apply sources_of_In. apply in_app_iff in I. destruct I as [I|[[= <- <-]|[]]]; [|now apply output_file_in in J].
    cbn [app] in I. apply refs_of_In in I. destruct I as (k & I & E & ->). eauto.
  - intros d I. apply sources_of_In in I. destruct I as (k & I & E). apply all_In in I.
    specialize (S1 k I). rewrite E in S1. apply (refers_get _ _ (batch_key k) op (reference (read_class k) d)); [|apply refers_this, read_class_in].
    rewrite (proj1 F2); [exact S1|]. destruct Hc as [-> | [-> | ->]], I as [-> | [-> | ->]]; reflexivity.
  - intros d. split.
    + intros W. destruct (writes_effect _ _ _ _ F BW d W) as (x & I & J). apply in_app_iff in I. destruct I as [I|[[= <- <-]|[]]]; [|now left].
      cbn [app] in I. apply refs_of_In in I. destruct I as (k & I & E & ->). now apply read_class_out in J.
    + intros [<-|[]]. apply (refers_get _ _ (write_key c "measurementfilename_write") op (reference OUTPUT_FILE (numbered dataset i))); [|apply refers_this, output_file_out].
      unfold write_key. now back.
  - apply (announces_effect _ _ _ _ _ F2); [destruct Hc as [-> | [-> | ->]]; reflexivity|]. apply (announces_effect _ _ _ _ _ F1); [destruct Hc as [-> | [-> | ->]]; reflexivity|]. exact A0.
  - intros k w Ck. destruct w; cbn [only]; try (refine (eq_trans (source_same _ _ _ _ _ _ F _) (proj1 (BS k _))); destruct Hc as [-> | [-> | ->]], Ck as [-> | [-> | ->]]; reflexivity).
    destruct (blank_source k t B) as [B1 B2]. specialize (S1 k Ck).
    assert (G : get (batch_key k) op = get (batch_key k) j1) by (apply (proj1 F2); destruct Hc as [-> | [-> | ->]], Ck as [-> | [-> | ->]]; reflexivity).
    assert (G0 : get (batch_key k) j0 = get (batch_key k) t) by (apply (proj1 F0); destruct Ck as [-> | [-> | ->]]; reflexivity).
    assert (V : text_at (batch_key k ++ [K "datasetname"]) op = src f c i k).
    { destruct (src f c i k) as [d|].
      - exact (text_of_get (batch_key k) op (read_class k) d (eq_trans G S1)).
      - transitivity (text_at (batch_key k ++ [K "datasetname"]) t); [apply text_of_same; now rewrite G, S1, G0|]. unfold batch_key. cbn [app]. destruct (k =? 2); assumption. }
    unfold source, either, entry. unfold batch_key in V. cbn [app] in V. destruct (k =? 2) eqn:E.
    + replace (text_at [K "runmodule"; K (storage_of k); K "statefilename_read"; K "datasetname"] op) with (@None string); [exact V|].
      symmetry. rewrite <- B1. apply text_at_same, (proj1 F). destruct Hc as [-> | [-> | ->]], Ck as [-> | [-> | ->]]; first [discriminate|reflexivity].
    + rewrite V. destruct (src f c i k); [reflexivity|]. rewrite <- B2. apply text_at_same, (proj1 F). destruct Hc as [-> | [-> | ->]], Ck as [-> | [-> | ->]]; first [discriminate|reflexivity].
  - intros k w Ck. destruct w; cbn [only]; try (refine (eq_trans (target_same _ _ _ _ _ _ F _) (proj2 (BS k _))); destruct Hc as [-> | [-> | ->]], Ck as [-> | [-> | ->]]; reflexivity).
    destruct (k =? c) eqn:E; cbn [when].
    + assert (k = c) as -> by lia. apply (entry_get c "measurementfilename_write" op OUTPUT_FILE). now back.
    + rewrite <- (proj2 (BS k Measurement)). apply (target_same _ _ _ _ _ _ F). destruct Hc as [-> | [-> | ->]], Ck as [-> | [-> | ->]]; first [discriminate|reflexivity].
Qed.

Definition SOLVED : list (list step) := [[K "runmodule"; K "component_index"]; [K "step"]; [K "runmodule"; K "python_function"]].
Definition GONE : list (list step) := map (fun k => [K "runmodule"; K k]) NOT_SOLVED.

Lemma solve_once_effect c j j' : solve_once c j = Ok j' ->
  effect SOLVED [] j j' /\ get [K "runmodule"; K "component_index"] j' = Ok (JNum c) /\ get [K "runmodule"; K "python_function"] j' = Ok (JStr SOLVE).
Proof.
  unfold solve_once. intros H. open_binds. split; [eapply effect_weaken; [eff| |]; intros x; cbn; tauto|]. split; repeat back; reflexivity.
Qed.
Lemma solve_files_effect c m name j j' : component c -> solve_files c m name j = Ok j' ->
  effect [write_key c "measurementfilelist_read"; write_key c "statefilename_write"] [(INPUT_FILE_LIST, m); (OUTPUT_FILE, name)] j j' /\
  get (write_key c "measurementfilelist_read") j' = Ok (reference INPUT_FILE_LIST m) /\ get (write_key c "statefilename_write") j' = Ok (reference OUTPUT_FILE name).
Proof.
  unfold solve_files. intros Hc H. rewrite (storage_index c Hc) in H. cbn [bind] in H. open_binds.
  destruct Hc as [-> | [-> | ->]]; unfold write_key; (split; [eapply effect_weaken; [eff| |]; intros x; cbn; tauto|]); split; repeat back; reflexivity.
Qed.
Lemma not_solved_effect j j' : remove_keys NOT_SOLVED j = Ok j' -> effect GONE [] j j'.
Proof. apply remove_effect; intros [H|[H|[H|[]]]]; discriminate. Qed.

(* after the primary keys and the samples ([P], [L]) *)
Lemma solution_outline_from t j j1 j2 op c P L m name D T : blank t -> component c ->
  effect P (map (fun d => (OUTPUT_FILE, d)) L) t j -> announces j D ->
  (forall d, In d L -> exists key, get (write_key c key) j = Ok (reference OUTPUT_FILE d) /\ key <> "measurementfilelist_read" /\ key <> "statefilename_write") ->
  (forall k w, component k -> source k w j = None /\ target k w j = T k w) ->
  solve_once c j = Ok j1 -> solve_files c m name j1 = Ok j2 -> remove_keys NOT_SOLVED j2 = Ok op ->
  outlines t op SOLVE (Some c) [m] (name :: L) D (only Measurement (fun k => when (k =? c) m)) (fun k w => match w with State => if k =? c then Some name else T k State | _ => T k w end).
Proof.
  intros B Hc F A W0 O H1 H2 H3. pose proof B as (BS & (d0 & BD) & BW).
  destruct (solve_once_effect _ _ _ H1) as (F1 & C1 & P1). destruct (solve_files_effect _ _ _ _ _ Hc H2) as (F2 & M2 & N2). pose proof (not_solved_effect _ _ H3) as F3.
  pose proof (effect_trans _ _ _ _ _ _ _ (effect_trans _ _ _ _ _ _ _ (effect_trans _ _ _ _ _ _ _ F F1) F2) F3) as FF.
  constructor.
  - unfold text_at. rewrite (proj1 F3) by reflexivity. rewrite (proj1 F2) by (destruct Hc as [-> | [-> | ->]]; reflexivity). now rewrite P1.
  - intros c' [= <-]. rewrite (proj1 F3) by reflexivity. rewrite (proj1 F2) by (destruct Hc as [-> | [-> | ->]]; reflexivity). exact C1.
  - intros X; discriminate X.
  - intros d R. destruct (reads_effect _ _ _ _ FF d R) as [R'|(x & I & J)]; [now left|right]. rewrite !in_app_iff in I. destruct I as [[[I|[]]|I]|[]].
    + apply in_map_iff in I. destruct I as (y & [= <- <-] & I). now apply output_file_in in J.
    + destruct I as [[= <- <-]|[[= <- <-]|[]]]; [now left|now apply output_file_in in J].
  - intros d [<-|[]]. apply (refers_get _ _ (write_key c "measurementfilelist_read") op (reference INPUT_FILE_LIST m)); [|apply refers_this, input_list_in].
    rewrite (proj1 F3) by (destruct Hc as [-> | [-> | ->]]; reflexivity). exact M2.
  - intros d. split.
    + intros W. destruct (writes_effect _ _ _ _ FF BW d W) as (x & I & J). rewrite !in_app_iff in I. destruct I as [[[I|[]]|I]|[]].
      * apply in_map_iff in I. destruct I as (y & [= <- <-] & I). now right.
      * destruct I as [[= <- <-]|[[= <- <-]|[]]]; [now apply input_list_out in J|now left].
    + intros [<-|I].
      * apply (refers_get _ _ (write_key c "statefilename_write") op (reference OUTPUT_FILE name)); [|apply refers_this, output_file_out].
        rewrite (proj1 F3) by (destruct Hc as [-> | [-> | ->]]; reflexivity). exact N2.
      * destruct (W0 d I) as (key & G & K1 & K2). apply (refers_get _ _ (write_key c key) op (reference OUTPUT_FILE d)); [|apply refers_this, output_file_out].
        rewrite (proj1 F3) by (destruct Hc as [-> | [-> | ->]]; reflexivity). rewrite (proj1 F2), (proj1 F1), G; [reflexivity| |]; unfold write_key.
        -- destruct Hc as [-> | [-> | ->]]; reflexivity.
        -- assert (Q1 : step_eqb (K "measurementfilelist_read") (K key) = false) by (destruct (step_eqb_spec (K "measurementfilelist_read") (K key)); [congruence|reflexivity]).
           assert (Q2 : step_eqb (K "statefilename_write") (K key) = false) by (destruct (step_eqb_spec (K "statefilename_write") (K key)); [congruence|reflexivity]).
           destruct Hc as [-> | [-> | ->]]; cbn [forallb]; (change (step_eqb (K "runmodule") (K "runmodule")) with true || idtac);
           cbn [diverge]; rewrite Q1, Q2; reflexivity.
  - apply (announces_effect _ _ _ _ _ F3); [reflexivity|]. apply (announces_effect _ _ _ _ _ F2); [destruct Hc as [-> | [-> | ->]]; reflexivity|]. apply (announces_effect _ _ _ _ _ F1); [reflexivity|]. exact A.
  - intros k w Ck. destruct (O k w Ck) as [O1 _]. pose proof (effect_trans _ _ _ _ _ _ _ F1 (effect_trans _ _ _ _ _ _ _ F2 F3)) as FS.
    destruct w; cbn [only]; try (refine (eq_trans (source_same _ _ _ _ _ _ FS _) O1); destruct Hc as [-> | [-> | ->]], Ck as [-> | [-> | ->]]; reflexivity).
    destruct (k =? c) eqn:E; cbn [when].
    + assert (k = c) as -> by lia. apply (entry_get c "measurementfilelist_read" op INPUT_FILE_LIST). change (get (write_key c "measurementfilelist_read") op = Ok (reference INPUT_FILE_LIST m)). rewrite (proj1 F3) by (destruct Hc as [-> | [-> | ->]]; reflexivity). exact M2.
    + rewrite <- O1. apply (source_same _ _ _ _ _ _ FS). destruct Hc as [-> | [-> | ->]], Ck as [-> | [-> | ->]]; first [discriminate|reflexivity].
  - intros k w Ck. destruct (O k w Ck) as [_ O2]. pose proof (effect_trans _ _ _ _ _ _ _ F1 (effect_trans _ _ _ _ _ _ _ F2 F3)) as FS.
    destruct w; try (refine (eq_trans (target_same _ _ _ _ _ _ FS _) O2); destruct Hc as [-> | [-> | ->]], Ck as [-> | [-> | ->]]; reflexivity).
    destruct (k =? c) eqn:E.
    + assert (k = c) as -> by lia. apply (entry_get c "statefilename_write" op OUTPUT_FILE). change (get (write_key c "statefilename_write") op = Ok (reference OUTPUT_FILE name)). rewrite (proj1 F3) by (destruct Hc as [-> | [-> | ->]]; reflexivity). exact N2.
    + rewrite <- O2. apply (target_same _ _ _ _ _ _ FS). destruct Hc as [-> | [-> | ->]], Ck as [-> | [-> | ->]]; first [discriminate|reflexivity].
Qed.

Lemma outlines_ext t op fn c R W D S T T' : (forall k w, component k -> T k w = T' k w) -> outlines t op fn c R W D S T -> outlines t op fn c R W D S T'.
Proof. intros E []. constructor; auto. intros k w Ck. rewrite <- E by exact Ck. auto. Qed.

Lemma solution_outline f t (sampled : bool) i c command solution measurement op : settled f -> blank t -> 0 <= i -> component c ->
  fill_single_solution f t sampled i c command solution measurement = Ok op ->
  outlines t op SOLVE (Some c) [numbered measurement i] (with_samples sampled solution i)
    (announced "spacetime_solution" "spacetime_sample" sampled solution i) (only Measurement (fun k => when (k =? c) (numbered measurement i))) (stored sampled c solution i).
Proof.
  intros S B Hi Hc H. unfold fill_single_solution in H. apply bind_ok in H. destruct H as (j0 & H0 & H). apply bind_ok in H. destruct H as (j1 & H1 & H).
  apply bind_ok in H. destruct H as (j2 & H2 & H). apply bind_ok in H. destruct H as (j3 & H3 & H). pose proof B as (BS & (d0 & BD) & BW).
  destruct (primary_effect _ _ _ _ _ _ _ S H0) as [F0 A0]. specialize (A0 d0 BD).
  destruct (samples_effect _ _ _ _ _ _ _ _ _ Hc Hi H1 A0) as (F1 & A1 & G1).
  apply (outlines_ext _ _ _ _ _ _ _ _ (fun k w => match w with State => if k =? c then Some (numbered solution i) else samples_at sampled c solution i k State | _ => samples_at sampled c solution i k w end)); [intros k w _; destruct w; reflexivity|].
  eapply (solution_outline_from t j1 j2 j3 op c _ (tl (with_samples sampled solution i)) _ _ _ _ B Hc (effect_trans _ _ _ _ _ _ _ F0 F1) A1); try eassumption.
  - intros d I. cbn [with_samples tl] in I. destruct sampled; [|destruct I]. destruct (G1 eq_refl) as [Ga Gb]. destruct I as [<-|[<-|[]]]; eexists; (split; [eassumption|split; discriminate]).
  - intros k w Ck. split.
    + rewrite <- (proj1 (BS k w)). apply (source_same _ _ _ _ _ _ (effect_trans _ _ _ _ _ _ _ F0 F1)). destruct w, Hc as [-> | [-> | ->]], Ck as [-> | [-> | ->]]; reflexivity.
    + apply (samples_target _ _ _ _ _ _ _ _ _ k w Hc Hi H1 A0 Ck). rewrite <- (proj2 (BS k w)). apply (target_same _ _ _ _ _ _ F0). destruct w, Ck as [-> | [-> | ->]]; reflexivity.
Qed.

Definition with_sample (sampled : bool) (name : string) (i : Z) : list string := numbered name i :: (if sampled then [numbered (sample_of name) i] else []).
Definition announced_sample (kind0 kind1 : string) (sampled : bool) (name : string) (i : Z) : list (option string * json) :=
  (Some (numbered name i), pattern (numbered name i) "pickle" kind0) ::
  (if sampled then [(Some (numbered (sample_of name) i), pattern (numbered (sample_of name) i) "pickle" kind1)] else []).

Lemma posterior_outline f t (sampled : bool) i c command solution measurement op : settled f -> blank t -> 0 <= i -> component c ->
  fill_posterior_solution f t sampled i c command solution measurement = Ok op ->
  outlines t op SOLVE (Some c) [numbered measurement i] (with_sample sampled solution i)
    (announced_sample "spacetime_solution" "spacetime_sample" sampled solution i) (only Measurement (fun k => when (k =? c) (numbered measurement i)))
    (fun k w => match w with PriorSample => None | _ => stored sampled c solution i k w end).
Proof.
  intros S B Hi Hc H. unfold fill_posterior_solution in H. apply bind_ok in H. destruct H as (j0 & H0 & H). apply bind_ok in H. destruct H as (j1 & H1 & H).
  apply bind_ok in H. destruct H as (j2 & H2 & H). apply bind_ok in H. destruct H as (j3 & H3 & H). pose proof B as (BS & (d0 & BD) & BW).
  destruct (primary_effect _ _ _ _ _ _ _ S H0) as [F0 A0]. specialize (A0 d0 BD).
  destruct sampled.
  - destruct (sample_effect _ _ _ _ _ _ _ _ Hc H1 A0) as (F1 & A1 & G1).
    apply (outlines_ext _ _ _ _ _ _ _ _ (fun k w => match w with State => if k =? c then Some (numbered solution i) else None | _ => only Sample (fun k => when (k =? c) (numbered (sample_of solution) i)) k w end)); [intros k w _; destruct w; cbn [only stored]; rewrite ?andb_true_r; reflexivity|].
    eapply (solution_outline_from t j1 j2 j3 op c _ (tl (with_sample true solution i)) _ _ _ (only Sample (fun k => when (k =? c) (numbered (sample_of solution) i))) B Hc (effect_trans _ _ _ _ _ _ _ F0 F1) A1); try eassumption.
    + intros d [<-|[]]. eexists; (split; [eassumption|split; discriminate]).
    + intros k w Ck. split.
      * rewrite <- (proj1 (BS k w)). apply (source_same _ _ _ _ _ _ (effect_trans _ _ _ _ _ _ _ F0 F1)). destruct w, Hc as [-> | [-> | ->]], Ck as [-> | [-> | ->]]; reflexivity.
      * destruct w; cbn [only]; try (refine (eq_trans (target_same _ _ _ _ _ _ (effect_trans _ _ _ _ _ _ _ F0 F1) _) (proj2 (BS k _))); destruct Hc as [-> | [-> | ->]], Ck as [-> | [-> | ->]]; reflexivity).
        destruct (k =? c) eqn:E; cbn [when]; [assert (k = c) as -> by lia; apply (entry_get c _ _ OUTPUT_FILE), G1|].
        rewrite <- (proj2 (BS k Sample)). apply (target_same _ _ _ _ _ _ (effect_trans _ _ _ _ _ _ _ F0 F1)). destruct Hc as [-> | [-> | ->]], Ck as [-> | [-> | ->]]; first [discriminate|reflexivity].
  - injection H1 as <-.
    apply (outlines_ext _ _ _ _ _ _ _ _ (fun k w => match w with State => if k =? c then Some (numbered solution i) else None | _ => nowhere k w end)); [intros k w _; destruct w; cbn [nowhere stored]; rewrite ?andb_false_r; reflexivity|].
    eapply (solution_outline_from t j0 j2 j3 op c _ [] _ _ _ nowhere B Hc F0 A0); try eassumption; [intros d []|].
    intros k w Ck. split.
    + rewrite <- (proj1 (BS k w)). apply (source_same _ _ _ _ _ _ F0). destruct w, Ck as [-> | [-> | ->]]; reflexivity.
    + unfold nowhere. rewrite <- (proj2 (BS k w)). apply (target_same _ _ _ _ _ _ F0). destruct w, Ck as [-> | [-> | ->]]; reflexivity.
Qed.

Lemma prior_outline f t i c command solution op : settled f -> blank t -> 0 <= i -> component c ->
  fill_prior_solution f t true i c command solution = Ok op ->
  outlines t op SOLVE (Some c) [] [numbered (prior_sample_of solution) i]
    [(Some (numbered (prior_sample_of solution) i), pattern (numbered (prior_sample_of solution) i) "pickle" "spacetime_solution")] nowhere (only PriorSample (fun k => when (k =? c) (numbered (prior_sample_of solution) i))).
Proof.
  intros S B Hi Hc H. unfold fill_prior_solution in H. apply bind_ok in H. destruct H as (j0 & H0 & H). apply bind_ok in H. destruct H as (j1 & H1 & H).
  apply bind_ok in H. destruct H as (j2 & H2 & H). pose proof B as (BS & (d0 & BD) & BW).
  destruct (primary_effect _ _ _ _ _ _ _ S H0) as [F0 A0]. specialize (A0 d0 BD).
  destruct (prior_sample_effect _ _ _ _ _ _ _ _ Hc H1 A0) as (F1 & A1 & G1). cbn [existsb fst] in A1. rewrite String.eqb_refl in A1. cbn [orb] in A1.
  destruct (solve_once_effect _ _ _ H2) as (F2 & C2 & P2). pose proof (not_solved_effect _ _ H) as F3.
  pose proof (effect_trans _ _ _ _ _ _ _ (effect_trans _ _ _ _ _ _ _ (effect_trans _ _ _ _ _ _ _ F0 F1) F2) F3) as F.
  constructor.
  - unfold text_at. rewrite (proj1 F3) by reflexivity. now rewrite P2.
  - intros c' [= <-]. rewrite (proj1 F3) by reflexivity. exact C2.
  - intros X; discriminate X.
  - intros d R. destruct (reads_effect _ _ _ _ F d R) as [R'|(x & I & J)]; [now left|]. cbn [app In] in I. destruct I as [[= <- <-]|[]]. now apply output_file_in in J.
  - intros d [].
  - intros d. split.
    + intros W. destruct (writes_effect _ _ _ _ F BW d W) as (x & I & J). cbn [app In] in I. destruct I as [[= <- <-]|[]]. now left.
    + intros [<-|[]]. apply (refers_get _ _ (write_key c "prior_sample_filename_write") op (reference OUTPUT_FILE (numbered (prior_sample_of solution) i))); [|apply refers_this, output_file_out].
      rewrite (proj1 F3), (proj1 F2) by (destruct Hc as [-> | [-> | ->]]; reflexivity). exact G1.
  - apply (announces_effect _ _ _ _ _ F3); [reflexivity|]. apply (announces_effect _ _ _ _ _ F2); [reflexivity|]. exact A1.
  - intros k w Ck. rewrite (source_same _ _ _ _ k w F); [apply (proj1 (BS k w))|]. destruct w, Hc as [-> | [-> | ->]], Ck as [-> | [-> | ->]]; reflexivity.
  - intros k w Ck. destruct w; cbn [only]; try (refine (eq_trans (target_same _ _ _ _ _ _ F _) (proj2 (BS k _))); destruct Hc as [-> | [-> | ->]], Ck as [-> | [-> | ->]]; reflexivity).
    destruct (k =? c) eqn:E; cbn [when].
    + assert (k = c) as -> by lia. apply (entry_get c "prior_sample_filename_write" op OUTPUT_FILE). rewrite (proj1 F3), (proj1 F2) by (destruct Hc as [-> | [-> | ->]]; reflexivity). exact G1.
    + rewrite <- (proj2 (BS k PriorSample)). apply (target_same _ _ _ _ _ _ F). destruct Hc as [-> | [-> | ->]], Ck as [-> | [-> | ->]]; first [discriminate|reflexivity].
Qed.

(* ---------- gridding *)

Lemma effect_put_name p s c j j' : put (p ++ [K "datasetname"]) (JStr s) j = Ok j' -> get (p ++ [K "python_class"]) j = Ok (JStr c) -> forallb key_ok p = true ->
  effect [p ++ [K "datasetname"]] [(c, s)] j j'.
Proof.
  intros E G O. split.
  - intros q D. cbn [forallb] in D. rewrite andb_true_r in D. now apply (get_put_diverge (p ++ [K "datasetname"]) (JStr s)).
  - intros C d R. destruct (refers_put_name C d p s c j j' O E G R) as [H|[I ->]]; [now left|right; exists c; split; [now left|exact I]].
Qed.
Lemma refers_at C p j c d : get (p ++ [K "python_class"]) j = Ok (JStr c) -> get (p ++ [K "datasetname"]) j = Ok (JStr d) -> In c C -> refers C d j.
Proof.
  intros G1 G2 I. rewrite get_app in G1, G2. destruct (get p j) as [v|] eqn:E; [|discriminate]. apply (refers_get C d p j v E). cbn [bind get] in G1, G2.
  destruct v as [| | | |m]; cbn in G1, G2; try discriminate. destruct (dget "python_class" m) eqn:E1; [|discriminate]. destruct (dget "datasetname" m) eqn:E2; [|discriminate].
  apply (refers_here _ _ _ c); cbn in *; congruence.
Qed.

Definition READ_KEYS : list string := ["statefilename_read"; "sample_filename_read"; "prior_sample_filename_read"].
Definition LIST_KEYS : list string := ["statefilelist_read"; "sample_filelist_read"; "prior_sample_filelist_read"].
Definition read_names (name : string) (i : Z) : list string := [numbered name i; numbered (sample_of name) i; numbered (prior_sample_of name) i].
Definition reads_class (t : json) : Prop := forall k key, component k -> In key READ_KEYS ->
  get ([K "runmodule"; K (storage_of k); K key] ++ [K "python_class"]) t = Ok (JStr INPUT_FILE).

Lemma gridding_read_effect f i k j j' : component k -> reads_class j -> gridding_read i j (storage_of k, solution_name f k) = Ok j' ->
  effect (map (fun key => [K "runmodule"; K (storage_of k); K key; K "datasetname"]) READ_KEYS) (map (fun d => (INPUT_FILE, d)) (read_names (solution_name f k) i)) j j' /\
  (forall key d, In (key, d) (combine READ_KEYS (read_names (solution_name f k) i)) -> get [K "runmodule"; K (storage_of k); K key; K "datasetname"] j' = Ok (JStr d)) /\
  reads_class j'.
Proof.
  intros Hk RC H. unfold gridding_read in H. open_binds.
  assert (V : effect (map (fun key => [K "runmodule"; K (storage_of k); K key; K "datasetname"]) READ_KEYS) (map (fun d => (INPUT_FILE, d)) (read_names (solution_name f k) i)) j j').
  { assert (C0 := RC k _ Hk (or_introl eq_refl)). assert (C1 := RC k _ Hk (or_intror (or_introl eq_refl))). assert (C2 := RC k _ Hk (or_intror (or_intror (or_introl eq_refl)))).
    assert (F0 : effect [[K "runmodule"; K (storage_of k); K "statefilename_read"; K "datasetname"]] [(INPUT_FILE, numbered (solution_name f k) i)] j j0).
    { apply (effect_put_name [K "runmodule"; K (storage_of k); K "statefilename_read"] _ _ _ _ E C0). destruct Hk as [-> | [-> | ->]]; reflexivity. }
    assert (F1 : effect [[K "runmodule"; K (storage_of k); K "sample_filename_read"; K "datasetname"]] [(INPUT_FILE, numbered (sample_of (solution_name f k)) i)] j0 j1).
    { apply (effect_put_name [K "runmodule"; K (storage_of k); K "sample_filename_read"] _ _ _ _ E0); [|destruct Hk as [-> | [-> | ->]]; reflexivity].
      rewrite <- C1. apply (proj1 F0). destruct Hk as [-> | [-> | ->]]; reflexivity. }
    assert (F2 : effect [[K "runmodule"; K (storage_of k); K "prior_sample_filename_read"; K "datasetname"]] [(INPUT_FILE, numbered (prior_sample_of (solution_name f k)) i)] j1 j').
    { apply (effect_put_name [K "runmodule"; K (storage_of k); K "prior_sample_filename_read"] _ _ _ _ H); [|destruct Hk as [-> | [-> | ->]]; reflexivity].
      rewrite <- C2. rewrite (proj1 F1), (proj1 F0); [reflexivity| |]; destruct Hk as [-> | [-> | ->]]; reflexivity. }
    exact (effect_trans _ _ _ _ _ _ _ (effect_trans _ _ _ _ _ _ _ F0 F1) F2). }
  split; [exact V|split].
  - intros key d [[= <- <-]|[[= <- <-]|[[= <- <-]|[]]]]; destruct Hk as [-> | [-> | ->]]; repeat back; reflexivity.
  - intros k' key Ck I. rewrite <- (RC k' key Ck I). apply (proj1 V). destruct Hk as [-> | [-> | ->]], Ck as [-> | [-> | ->]], I as [<-|[<-|[<-|[]]]]; reflexivity.
Qed.

Definition all_read_names (f : filler) (i : Z) : list string := flat_map (fun k => read_names (solution_name f k) i) [0; 1; 2].
Definition gridded (f : filler) (i : Z) (k : Z) (w : kind) : option string :=
  match w with
  | State => Some (numbered (solution_name f k) i) | Sample => Some (numbered (sample_of (solution_name f k)) i)
  | PriorSample => Some (numbered (prior_sample_of (solution_name f k)) i) | Measurement => None
  end.
Definition announced_outputs (out : string -> string) (f : filler) : list (option string * json) :=
  map (fun d => (Some (out d), pattern (out d) "nc" "measurement")) (outputs f).

Lemma storages_names f : combine STORAGE_LIST (solution_names f) = map (fun k => (storage_of k, solution_name f k)) [0; 1; 2].
Proof. reflexivity. Qed.

Definition OUT_KEYS : list string := ["outputfile"; "climatologyfile"; "largescalefile"; "localfile"].
Definition BATCH_OUT_KEYS : list string := ["outputfiles"; "climatologyfiles"; "largescalefiles"; "localfiles"].

Lemma gridding_outline f t i op : settled f -> blank t -> grid_inputs t ->
  fill_output_gridding f t i = Ok op ->
  outlines t op OUTPUT_GRID None (all_read_names f i) (outputs f) (announced_outputs (fun s => s) f)
    (gridded f i) nowhere.
Proof.
  intros S B GI H. unfold fill_output_gridding in H. rewrite storages_names in H. cbn [map] in H.
  apply bind_ok in H. destruct H as (j0 & H0 & H). pose proof B as (BS & (d0 & BD) & BW).
  destruct (primary_effect _ _ _ _ _ _ _ S H0) as [F0 A0]. specialize (A0 d0 BD).
  apply bind_ok in H. destruct H as (j1 & H1 & H). apply bind_ok in H. destruct H as (j2 & H2 & H). apply bind_ok in H. destruct H as (j3 & H3 & H).
  apply bind_ok in H. destruct H as (j4 & H4 & H). apply bind_ok in H. destruct H as (j5 & H5 & H). apply bind_ok in H. destruct H as (j6 & H6 & H).
  apply bind_ok in H. destruct H as (j9 & H9 & H). rewrite foldM_three in H9.
  apply bind_ok in H9. destruct H9 as (j7 & H7 & H9). apply bind_ok in H9. destruct H9 as (j8 & H8 & H9). apply bind_ok in H9. destruct H9 as (j9' & H9 & E). injection E as ->.
  apply bind_ok in H. destruct H as (j10 & H10 & H). apply bind_ok in H. destruct H as (j11 & H11 & H).
  assert (F1 : effect ([[K "runmodule"; K "sample_size"]; [K "runmodule"; K "python_function"]] ++ map (fun k => [K "runmodule"; K k]) OUT_KEYS) (map (fun d => (OUTPUT_FILE, d)) (outputs f)) j0 j6).
  { clear - H1 H2 H3 H4 H5 H6. eapply effect_weaken; [eff| |]; intros x; cbn; tauto. }
  assert (G1 : forall key d, In (key, d) (combine OUT_KEYS (outputs f)) -> get [K "runmodule"; K key] j6 = Ok (reference OUTPUT_FILE d)).
  { clear - H1 H2 H3 H4 H5 H6. intros key d [[= <- <-]|[[= <- <-]|[[= <- <-]|[[= <- <-]|[]]]]]; repeat back; reflexivity. }
  assert (P1 : get [K "runmodule"; K "python_function"] j6 = Ok (JStr OUTPUT_GRID)) by (repeat back; reflexivity).
  assert (RC : reads_class j6).
  { intros k key Ck I. rewrite (proj1 F1), (proj1 F0) by (destruct Ck as [-> | [-> | ->]], I as [<-|[<-|[<-|[]]]]; reflexivity).
    specialize (GI k key I). unfold text_at in GI. cbn [app]. destruct (get _ t) as [[| s | | |]|]; try discriminate. injection GI as ->. reflexivity. }
  clear H1 H2 H3 H4 H5 H6.
  destruct (gridding_read_effect f i 0 _ _ (or_introl eq_refl) RC H7) as (F2 & G2 & RC2).
  destruct (gridding_read_effect f i 1 _ _ (or_intror (or_introl eq_refl)) RC2 H8) as (F3 & G3 & RC3).
  destruct (gridding_read_effect f i 2 _ _ (or_intror (or_intror eq_refl)) RC3 H9) as (F4 & G4 & RC4).
  destruct (add_dataset_effect _ _ _ _ _ [(Some (f_output_grid_name f), pattern (f_output_grid_name f) "nc" "measurement")] H10) as [F5 A5].
  destruct (add_dataset_effect _ _ _ _ _ ([(Some (f_output_grid_name f), pattern (f_output_grid_name f) "nc" "measurement")] ++ [(Some (f_output_climatology f), pattern (f_output_climatology f) "nc" "measurement")]) H11) as [F6 A6].
  destruct (add_dataset_effect _ _ _ _ _ (([(Some (f_output_grid_name f), pattern (f_output_grid_name f) "nc" "measurement")] ++ [(Some (f_output_climatology f), pattern (f_output_climatology f) "nc" "measurement")]) ++ [(Some (f_output_large_scale f), pattern (f_output_large_scale f) "nc" "measurement")]) H) as [F7 A7].
  pose proof (effect_trans _ _ _ _ _ _ _ (effect_trans _ _ _ _ _ _ _ F0 F1) (effect_trans _ _ _ _ _ _ _ (effect_trans _ _ _ _ _ _ _ F2 F3) F4)) as FA.
  pose proof (effect_trans _ _ _ _ _ _ _ FA (effect_trans _ _ _ _ _ _ _ (effect_trans _ _ _ _ _ _ _ F5 F6) F7)) as F.
  assert (RR : forall key d k, component k -> In (key, d) (combine READ_KEYS (read_names (solution_name f k) i)) -> get [K "runmodule"; K (storage_of k); K key; K "datasetname"] op = Ok (JStr d)).
  { intros key d k Ck I. assert (Ik : In key READ_KEYS) by (now apply in_combine_l in I).
    rewrite (proj1 F7), (proj1 F6), (proj1 F5) by reflexivity.
    destruct Ck as [-> | [-> | ->]].
    - rewrite (proj1 F4), (proj1 F3), (G2 _ _ I); [reflexivity| |]; destruct Ik as [<-|[<-|[<-|[]]]]; reflexivity.
    - rewrite (proj1 F4), (G3 _ _ I); [reflexivity|]; destruct Ik as [<-|[<-|[<-|[]]]]; reflexivity.
    - exact (G4 _ _ I). }
  constructor.
  - unfold text_at. rewrite (proj1 F7), (proj1 F6), (proj1 F5), (proj1 F4), (proj1 F3), (proj1 F2) by reflexivity. now rewrite P1.
  - intros c' [=].
  - intros _. now rewrite (proj1 F) by reflexivity.
  - intros d R. destruct (reads_effect _ _ _ _ F d R) as [R'|(x & I & J)]; [now left|right].
    cbn [app map] in I. unfold all_read_names. cbn [flat_map app].
    repeat (destruct I as [[= <- <-]|I]; [try (now apply output_file_in in J); cbn; tauto|]). destruct I.
  - intros d I. unfold all_read_names in I. apply in_flat_map in I. destruct I as (k & Ik & I). apply all_In in Ik.
    assert (X : exists key, In (key, d) (combine READ_KEYS (read_names (solution_name f k) i))) by (destruct I as [<-|[<-|[<-|[]]]]; eexists; [now left|right; now left|right; right; now left]).
    destruct X as (key & X). assert (Kk : In key READ_KEYS) by (now apply in_combine_l in X).
    apply (refers_at INPUTS [K "runmodule"; K (storage_of k); K key] op INPUT_FILE d).
    + rewrite <- (RC4 k key Ik Kk). cbn [app]. now rewrite (proj1 F7), (proj1 F6), (proj1 F5) by reflexivity.
    + cbn [app]. now apply RR.
    + apply input_file_in.
  - intros d. split.
    + intros W. destruct (writes_effect _ _ _ _ F BW d W) as (x & I & J). cbn [app map] in I.
      repeat (destruct I as [[= <- <-]|I]; [try (now apply input_file_out in J); cbn; tauto|]). destruct I.
    + intros I. assert (X : exists key, In (key, d) (combine OUT_KEYS (outputs f))) by (destruct I as [<-|[<-|[<-|[<-|[]]]]]; eexists; [now left|right; now left|right; right; now left|right; right; right; now left]).
      destruct X as (key & X). assert (Kk : In key OUT_KEYS) by (now apply in_combine_l in X).
      apply (refers_get _ _ [K "runmodule"; K key] op (reference OUTPUT_FILE d)); [|apply refers_this, output_file_out].
      rewrite <- (G1 _ _ X). rewrite (proj1 F7), (proj1 F6), (proj1 F5) by reflexivity.
      rewrite (proj1 F4), (proj1 F3), (proj1 F2); [reflexivity| | |]; destruct Kk as [<-|[<-|[<-|[<-|[]]]]]; reflexivity.
  - apply A7, A6, A5. apply (announces_effect _ _ _ _ _ F4); [reflexivity|]. apply (announces_effect _ _ _ _ _ F3); [reflexivity|]. apply (announces_effect _ _ _ _ _ F2); [reflexivity|].
    apply (announces_effect _ _ _ _ _ F1); [reflexivity|]. exact A0.
  - intros k w Ck. destruct w; cbn [gridded].
    + unfold source, either, entry, text_at. now rewrite (RR "statefilename_read" (numbered (solution_name f k) i) k Ck (or_introl eq_refl)).
    + unfold source, either, entry, text_at. now rewrite (RR "sample_filename_read" (numbered (sample_of (solution_name f k)) i) k Ck (or_intror (or_introl eq_refl))).
    + unfold source, either, entry, text_at. now rewrite (RR "prior_sample_filename_read" (numbered (prior_sample_of (solution_name f k)) i) k Ck (or_intror (or_intror (or_introl eq_refl)))).
    + rewrite <- (proj1 (BS k Measurement)). unfold source, entry. apply text_at_same, (proj1 F). destruct Ck as [-> | [-> | ->]]; reflexivity.
  - intros k w Ck. unfold nowhere. rewrite <- (proj2 (BS k w)). rewrite !target_entry. unfold entry. apply text_at_same, (proj1 F). destruct w, Ck as [-> | [-> | ->]]; reflexivity.
Qed.

Definition batch_keys (k : Z) : list string := if k =? 2 then LIST_KEYS else READ_KEYS.
Lemma batch_gridding_read_effect f i k j j' : component k -> f_solution_climatology f <> f_solution_local_scale f -> f_solution_large_scale f <> f_solution_local_scale f ->
  batch_gridding_read f i j (storage_of k, solution_name f k) = Ok j' ->
  effect ([K "runmodule"; K "storage_local"; K "time_list"] :: map (fun key => [K "runmodule"; K (storage_of k); K key]) (batch_keys k)) (map (fun d => (read_class k, d)) (read_names (solution_name f k) i)) j j' /\
  (forall key d, In (key, d) (combine (batch_keys k) (read_names (solution_name f k) i)) ->
     exists v, get [K "runmodule"; K (storage_of k); K key] j' = Ok v /\ (v = reference (read_class k) d \/ v = reference_allowed (read_class k) d)).
Proof.
  intros Hk N0 N1 H. unfold batch_gridding_read in H. destruct Hk as [-> | [-> | ->]].
  - change (solution_name f 0) with (f_solution_climatology f) in H |- *. destruct (String.eqb_spec (f_solution_climatology f) (f_solution_local_scale f)); [contradiction|]. open_binds. split.
    + eapply effect_weaken; [eff| |]; intros x; cbn; tauto.
    + intros key d [[= <- <-]|[[= <- <-]|[[= <- <-]|[]]]]; eexists; (split; [repeat back; reflexivity|now left]).
  - change (solution_name f 1) with (f_solution_large_scale f) in H |- *. destruct (String.eqb_spec (f_solution_large_scale f) (f_solution_local_scale f)); [contradiction|]. open_binds. split.
    + eapply effect_weaken; [eff| |]; intros x; cbn; tauto.
    + intros key d [[= <- <-]|[[= <- <-]|[[= <- <-]|[]]]]; eexists; (split; [repeat back; reflexivity|now left]).
  - change (solution_name f 2) with (f_solution_local_scale f) in H |- *. rewrite String.eqb_refl in H. open_binds. split.
    + eapply effect_weaken; [eff| |]; intros x; cbn; tauto.
    + intros key d [[= <- <-]|[[= <- <-]|[[= <- <-]|[]]]]; eexists; (split; [repeat back; reflexivity|now right]).
Qed.

Lemma batch_gridding_outline f t i out op : settled f -> blank t -> f_solution_climatology f <> f_solution_local_scale f -> f_solution_large_scale f <> f_solution_local_scale f ->
  fill_batch_output_gridding f t i out = Ok op ->
  outlines t op OUTPUT_GRID_BATCH None (all_read_names f i) (map out (outputs f)) (announced_outputs out f)
    (gridded f i) nowhere.
Proof.
  intros S B N0 N1 H. unfold fill_batch_output_gridding in H. rewrite storages_names in H. cbn [map] in H.
  apply bind_ok in H. destruct H as (j0 & H0 & H). pose proof B as (BS & (d0 & BD) & BW).
  destruct (primary_effect _ _ _ _ _ _ _ S H0) as [F0 A0]. specialize (A0 d0 BD).
  apply bind_ok in H. destruct H as (j1 & H1 & H). apply bind_ok in H. destruct H as (j2 & H2 & H). apply bind_ok in H. destruct H as (j3 & H3 & H).
  apply bind_ok in H. destruct H as (j4 & H4 & H). apply bind_ok in H. destruct H as (j5 & H5 & H). apply bind_ok in H. destruct H as (j6 & H6 & H).
  apply bind_ok in H. destruct H as (j9 & H9 & H). rewrite foldM_three in H9.
  apply bind_ok in H9. destruct H9 as (j7 & H7 & H9). apply bind_ok in H9. destruct H9 as (j8 & H8 & H9). apply bind_ok in H9. destruct H9 as (j9' & H9 & E). injection E as ->.
  apply bind_ok in H. destruct H as (j10 & H10 & H). apply bind_ok in H. destruct H as (j11 & H11 & H). apply bind_ok in H. destruct H as (j12 & H12 & H). apply bind_ok in H. destruct H as (j13 & H13 & H).
  assert (F1 : effect ([[K "runmodule"; K "sample_size"]; [K "runmodule"; K "python_function"]] ++ map (fun k => [K "runmodule"; K k]) BATCH_OUT_KEYS) (map (fun d => (BATCH_DAYS_OUTPUT, out d)) (outputs f)) j0 j6).
  { clear - H1 H2 H3 H4 H5 H6. eapply effect_weaken; [eff| |]; intros x; cbn; tauto. }
  assert (G1 : forall key d, In (key, d) (combine BATCH_OUT_KEYS (map out (outputs f))) -> get [K "runmodule"; K key] j6 = Ok (reference BATCH_DAYS_OUTPUT d)).
  { clear - H1 H2 H3 H4 H5 H6. intros key d [[= <- <-]|[[= <- <-]|[[= <- <-]|[[= <- <-]|[]]]]]; repeat back; reflexivity. }
  assert (P1 : get [K "runmodule"; K "python_function"] j6 = Ok (JStr OUTPUT_GRID_BATCH)) by (repeat back; reflexivity).
  clear H1 H2 H3 H4 H5 H6.
  destruct (batch_gridding_read_effect f i 0 _ _ (or_introl eq_refl) N0 N1 H7) as (F2 & G2).
  destruct (batch_gridding_read_effect f i 1 _ _ (or_intror (or_introl eq_refl)) N0 N1 H8) as (F3 & G3).
  destruct (batch_gridding_read_effect f i 2 _ _ (or_intror (or_intror eq_refl)) N0 N1 H9) as (F4 & G4).
  destruct (add_dataset_effect _ _ _ _ _ [(Some (out (f_output_grid_name f)), pattern (out (f_output_grid_name f)) "nc" "measurement")] H10) as [F5 A5].
  destruct (add_dataset_effect _ _ _ _ _ ([(Some (out (f_output_grid_name f)), pattern (out (f_output_grid_name f)) "nc" "measurement")] ++ [(Some (out (f_output_climatology f)), pattern (out (f_output_climatology f)) "nc" "measurement")]) H11) as [F6 A6].
  destruct (add_dataset_effect _ _ _ _ _ (([(Some (out (f_output_grid_name f)), pattern (out (f_output_grid_name f)) "nc" "measurement")] ++ [(Some (out (f_output_climatology f)), pattern (out (f_output_climatology f)) "nc" "measurement")]) ++ [(Some (out (f_output_large_scale f)), pattern (out (f_output_large_scale f)) "nc" "measurement")]) H12) as [F7 A7].
  assert (F8 : effect (map (fun k => [K "runmodule"; K k]) ["inputsources"; "time_index"]) [] j12 j13) by (revert H13; apply remove_effect; intros [X|[X|[]]]; discriminate).
  assert (F9 : effect [[K "runmodule"; K "time_indices"]] [] j13 op) by eff.
  pose proof (effect_trans _ _ _ _ _ _ _ (effect_trans _ _ _ _ _ _ _ F0 F1) (effect_trans _ _ _ _ _ _ _ (effect_trans _ _ _ _ _ _ _ F2 F3) F4)) as FA.
  pose proof (effect_trans _ _ _ _ _ _ _ FA (effect_trans _ _ _ _ _ _ _ (effect_trans _ _ _ _ _ _ _ (effect_trans _ _ _ _ _ _ _ F5 F6) F7) (effect_trans _ _ _ _ _ _ _ F8 F9))) as F.
  assert (RR : forall key d k, component k -> In (key, d) (combine (batch_keys k) (read_names (solution_name f k) i)) ->
      exists v, get [K "runmodule"; K (storage_of k); K key] op = Ok v /\ (v = reference (read_class k) d \/ v = reference_allowed (read_class k) d)).
  { intros key d k Ck I. assert (Ik : In key (batch_keys k)) by (now apply in_combine_l in I).
    assert (Y : get [K "runmodule"; K (storage_of k); K key] op = get [K "runmodule"; K (storage_of k); K key] j9).
    { rewrite (proj1 F9), (proj1 F8), (proj1 F7), (proj1 F6), (proj1 F5) by (destruct Ck as [-> | [-> | ->]]; reflexivity). reflexivity. }
    rewrite Y.
    destruct Ck as [-> | [-> | ->]].
    - rewrite (proj1 F4), (proj1 F3); [exact (G2 _ _ I)| |]; destruct Ik as [<-|[<-|[<-|[]]]]; reflexivity.
    - rewrite (proj1 F4); [exact (G3 _ _ I)|]; destruct Ik as [<-|[<-|[<-|[]]]]; reflexivity.
    - exact (G4 _ _ I). }
  constructor.
  - unfold text_at. rewrite (proj1 F9), (proj1 F8), (proj1 F7), (proj1 F6), (proj1 F5), (proj1 F4), (proj1 F3), (proj1 F2) by reflexivity. now rewrite P1.
  - intros c' [=].
  - intros _. now rewrite (proj1 F) by reflexivity.
  - intros d R. destruct (reads_effect _ _ _ _ F d R) as [R'|(x & I & J)]; [now left|right].
    cbn [app map] in I. unfold all_read_names. cbn [flat_map app].
    repeat (destruct I as [[= <- <-]|I]; [try (now apply batch_output_in in J); cbn; tauto|]). destruct I.
  - intros d I. unfold all_read_names in I. apply in_flat_map in I. destruct I as (k & Ik & I). apply all_In in Ik.
    assert (X : exists key, In (key, d) (combine (batch_keys k) (read_names (solution_name f k) i))).
    { unfold batch_keys. destruct (k =? 2); destruct I as [<-|[<-|[<-|[]]]]; eexists; first [now left|right; now left|right; right; now left]. }
    destruct X as (key & X). destruct (RR key d k Ik X) as (v & G & [-> | ->]).
    + apply (refers_get _ _ _ _ _ G). apply refers_this, read_class_in.
    + apply (refers_get _ _ _ _ _ G). apply refers_this_allowed, read_class_in.
  - intros d. split.
    + intros W. destruct (writes_effect _ _ _ _ F BW d W) as (x & I & J). cbn [app map] in I.
      repeat (destruct I as [[= <- <-]|I]; [try (now apply read_class_out in J); cbn; tauto|]). destruct I.
    + intros I. assert (X : exists key, In (key, d) (combine BATCH_OUT_KEYS (map out (outputs f)))) by (destruct I as [<-|[<-|[<-|[<-|[]]]]]; eexists; [now left|right; now left|right; right; now left|right; right; right; now left]).
      destruct X as (key & X). assert (Kk : In key BATCH_OUT_KEYS) by (now apply in_combine_l in X).
      apply (refers_get _ _ [K "runmodule"; K key] op (reference BATCH_DAYS_OUTPUT d)); [|apply refers_this, batch_output_out].
      rewrite <- (G1 _ _ X). rewrite (proj1 F9), (proj1 F8), (proj1 F7), (proj1 F6), (proj1 F5), (proj1 F4), (proj1 F3), (proj1 F2); [reflexivity| | | | | | | |]; destruct Kk as [<-|[<-|[<-|[<-|[]]]]]; reflexivity.
  - apply (announces_effect _ _ _ _ _ F9); [reflexivity|]. apply (announces_effect _ _ _ _ _ F8); [reflexivity|].
    apply A7, A6, A5. apply (announces_effect _ _ _ _ _ F4); [reflexivity|]. apply (announces_effect _ _ _ _ _ F3); [reflexivity|]. apply (announces_effect _ _ _ _ _ F2); [reflexivity|].
    apply (announces_effect _ _ _ _ _ F1); [reflexivity|]. exact A0.
  - assert (X : forall k key d, component k -> In (key, d) (combine (batch_keys k) (read_names (solution_name f k) i)) -> entry k key op = Some d).
    { intros k key d Ck I. destruct (RR key d k Ck I) as (v & G & V). unfold entry, text_at.
      change [K "runmodule"; K (storage_of k); K key; K "datasetname"] with ([K "runmodule"; K (storage_of k); K key] ++ [K "datasetname"]). rewrite get_app, G. destruct V as [-> | ->]; reflexivity. }
    assert (Y : forall key, In key READ_KEYS -> entry 2 key op = entry 2 key t) by (intros key I; unfold entry; apply text_at_same, (proj1 F); destruct I as [<-|[<-|[<-|[]]]]; reflexivity).
    assert (Z : forall w, w <> Measurement -> entry 2 (hd "" (read_keys w)) t = None).
    { intros w N. destruct (BS 2 w) as [Q _]. unfold source, either in Q. destruct w; [| | |contradiction]; cbn [hd read_keys]; (destruct (entry 2 _ t); [discriminate|reflexivity]). }
    intros k w Ck. destruct w; cbn [gridded].
    + unfold source, either. destruct Ck as [-> | [-> | ->]]; [now rewrite (X 0 _ (numbered (solution_name f 0) i) (or_introl eq_refl) (or_introl eq_refl))|now rewrite (X 1 _ (numbered (solution_name f 1) i) (or_intror (or_introl eq_refl)) (or_introl eq_refl))|].
      rewrite (Y "statefilename_read"), (Z State ltac:(discriminate) : entry 2 "statefilename_read" t = None) by (solve [discriminate|now left]). apply X; [right; now right|now left].
    + unfold source, either. destruct Ck as [-> | [-> | ->]]; [now rewrite (X 0 _ (numbered (sample_of (solution_name f 0)) i) (or_introl eq_refl) (or_intror (or_introl eq_refl)))|now rewrite (X 1 _ (numbered (sample_of (solution_name f 1)) i) (or_intror (or_introl eq_refl)) (or_intror (or_introl eq_refl)))|].
      rewrite (Y "sample_filename_read"), (Z Sample ltac:(discriminate) : entry 2 "sample_filename_read" t = None) by (solve [discriminate|right; now left]). apply X; [right; now right|right; now left].
    + unfold source, either. destruct Ck as [-> | [-> | ->]]; [now rewrite (X 0 _ (numbered (prior_sample_of (solution_name f 0)) i) (or_introl eq_refl) (or_intror (or_intror (or_introl eq_refl))))|now rewrite (X 1 _ (numbered (prior_sample_of (solution_name f 1)) i) (or_intror (or_introl eq_refl)) (or_intror (or_intror (or_introl eq_refl))))|].
      rewrite (Y "prior_sample_filename_read"), (Z PriorSample ltac:(discriminate) : entry 2 "prior_sample_filename_read" t = None) by (solve [discriminate|right; right; now left]). apply X; [right; now right|right; right; now left].
    + rewrite <- (proj1 (BS k Measurement)). unfold source, entry. apply text_at_same, (proj1 F). destruct Ck as [-> | [-> | ->]]; reflexivity.
  - intros k w Ck. unfold nowhere. rewrite <- (proj2 (BS k w)). rewrite !target_entry. unfold entry. apply text_at_same, (proj1 F). destruct w, Ck as [-> | [-> | ->]]; reflexivity.
Qed.
