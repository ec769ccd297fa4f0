(* Lemmas about builders and verification of output files. *)
From Coq Require Import QArith String Ascii.
From Verif Require Import Base Time_Model Out_Model Out_Spec.
Local Open Scope string_scope.
Local Open Scope list_scope.
Local Open Scope Z_scope.

(* ---- dictionaries *)

Lemma has_spec {V} (l : list (string * V)) k : has l k = true <-> lookup l k <> None.
Proof. unfold has. destruct (lookup l k); split; intros H; try discriminate; try congruence; reflexivity. Qed.
Lemma has_false {V} (l : list (string * V)) k : has l k = false <-> lookup l k = None.
Proof. unfold has. destruct (lookup l k); split; intros H; try discriminate; reflexivity. Qed.
Lemma lookup_app {V} (l m : list (string * V)) k : lookup (l ++ m) k = match lookup l k with Some v => Some v | None => lookup m k end.
Proof. induction l as [|[k' v] l IH]; [reflexivity|]. cbn. destruct (String.eqb k' k); [reflexivity|exact IH]. Qed.
Lemma lookup_store {V} (l : list (string * V)) k v k' : lookup (store l k v) k' = if String.eqb k k' then Some v else lookup l k'.
Proof.
  induction l as [|[a b] l IH]; [reflexivity|]. cbn [store]. destruct (String.eqb_spec a k) as [->|Hne]; cbn [lookup].
  - destruct (String.eqb k k'); reflexivity.
  - rewrite IH. destruct (String.eqb_spec a k') as [->|H']; [|reflexivity]. destruct (String.eqb_spec k k'); [congruence|reflexivity].
Qed.
Lemma lookup_drop {V} (l : list (string * V)) k k' : lookup (drop l k) k' = if String.eqb k k' then None else lookup l k'.
Proof.
  unfold drop. induction l as [|[a b] l IH]; [destruct (String.eqb k k'); reflexivity|]. cbn [filter fst]. destruct (String.eqb_spec a k) as [->|Hne]; cbn [negb].
  - rewrite IH. cbn [lookup]. destruct (String.eqb_spec k k'); reflexivity.
  - cbn [lookup]. rewrite IH. destruct (String.eqb_spec a k') as [->|H']; [|reflexivity]. destruct (String.eqb_spec k k'); [congruence|reflexivity].
Qed.
Lemma lookup_In {V} (l : list (string * V)) k v : lookup l k = Some v -> In (k, v) l.
Proof. induction l as [|[a b] l IH]; [discriminate|]. cbn. destruct (String.eqb_spec a k) as [->|]; intros H; [left; congruence|right; auto]. Qed.
Lemma lookup_None {V} (l : list (string * V)) k : lookup l k = None <-> ~ In k (map fst l).
Proof.
  induction l as [|[a b] l IH]; [split; [intros _ []|reflexivity]|]. cbn. destruct (String.eqb_spec a k) as [->|H].
  - split; [discriminate|]. intros H. destruct H. left. reflexivity.
  - rewrite IH. split; [intros Hn [Ha|Ha]; [congruence|auto]|auto].
Qed.
Lemma lookup_nodup {V} (l : list (string * V)) k v : NoDup (map fst l) -> In (k, v) l -> lookup l k = Some v.
Proof.
  induction l as [|[a b] l IH]; [intros _ []|]. cbn. intros Hn [H|H]; inversion Hn; subst.
  - injection H as -> ->. rewrite String.eqb_refl. reflexivity.
  - destruct (String.eqb_spec a k) as [->|]; [|auto]. destruct H2. apply in_map_iff. exists (k, v). split; [reflexivity|exact H].
Qed.
Lemma lookup_attributes atts : forall l k, NoDup (map fst atts) ->
  lookup (fold_left set_attribute atts l) k = match lookup atts k with Some v => Some (as_read v) | None => lookup l k end.
Proof.
  induction atts as [|[a b] atts IH]; intros l k Hn; [reflexivity|]. cbn [fold_left]. cbn in Hn. inversion Hn; subst.
  rewrite IH by assumption. unfold set_attribute. cbn [fst snd lookup]. rewrite lookup_store.
  destruct (String.eqb_spec a k) as [->|]; [|reflexivity].
  rewrite (proj2 (lookup_None atts k)) by assumption. reflexivity.
Qed.

(* ---- verification *)

Lemma dtype_eqb_eq a b : dtype_eqb a b = true <-> a = b.
Proof. destruct a, b; cbn; split; intros H; try discriminate; reflexivity. Qed.

Lemma mapM_err {A B} (f : A -> result B) l e : mapM f l = Err e -> exists x, In x l /\ f x = Err e.
Proof.
  induction l as [|x l IH]; cbn [mapM]; [discriminate|]. destruct (f x) as [y|e'] eqn:E; cbn [bind].
  - destruct (mapM f l) as [ys|e'']; cbn [bind]; [discriminate|]. intros H. injection H as ->.
    destruct (IH eq_refl) as (z & Hz & Hf). exists z. split; [right; exact Hz|exact Hf].
  - intros H. injection H as ->. exists x. split; [left; reflexivity|exact E].
Qed.
Lemma mapM_in {A B} (f : A -> result B) l r : mapM f l = Ok r ->
  (forall x, In x l -> exists y, f x = Ok y /\ In y r) /\ (forall y, In y r -> exists x, In x l /\ f x = Ok y).
Proof.
  revert r. induction l as [|x l IH]; intros r H; cbn [mapM] in H.
  - injection H as <-. split; [intros x []|intros y []].
  - destruct (f x) as [y|] eqn:E; [|discriminate]. destruct (mapM f l) as [ys|]; [|discriminate]. cbn [bind] in H.
    injection H as <-. destruct (IH ys eq_refl) as [H1 H2]. split.
    + intros z [<-|Hz]; [exists y; split; [exact E|left; reflexivity]|]. destruct (H1 z Hz) as (w & Hw & Hi). exists w. split; [exact Hw|right; exact Hi].
    + intros z [<-|Hz]; [exists x; split; [left; reflexivity|exact E]|]. destruct (H2 z Hz) as (w & Hw & Hi). exists w. split; [right; exact Hw|exact Hi].
Qed.

Lemma combine_same (l a : list Z) : length a = length l -> forallb (fun xy => fst xy =? snd xy) (combine l a) = true <-> a = l.
Proof.
  revert a. induction l as [|x l IH]; intros [|y a] Hl; try discriminate; [split; reflexivity|]. cbn [combine forallb fst snd].
  injection Hl as Hl. rewrite andb_true_iff, Z.eqb_eq, (IH a Hl). split; [intros [-> ->]; reflexivity|intros E; injection E as -> ->; split; reflexivity].
Qed.
(* for lists with two different numbers *)
Lemma numbers_equal_true l v : (exists x y, In x l /\ In y l /\ x <> y) -> numbers_equal l v = Ok true <-> v = VArr l.
Proof.
  intros (x & y & Hx & Hy & Hne). destruct v as [s|q|a]; cbn [numbers_equal].
  - split; discriminate.
  - split; [|discriminate]. intros H. assert (Hall : forallb (fun x => Qeq_bool (inject_Z x) q) l = true) by congruence.
    rewrite forallb_forall in Hall. pose proof (Hall x Hx) as H1. pose proof (Hall y Hy) as H2. apply Qeq_bool_iff in H1, H2.
    assert (Hxy : inject_Z x == inject_Z y) by (rewrite H1, H2; reflexivity). unfold Qeq in Hxy. cbn in Hxy. exfalso. lia.
  - destruct (Nat.eqb_spec (length a) (length l)) as [Hl|Hl].
    + split; intros H.
      * f_equal. apply combine_same; [exact Hl|congruence].
      * injection H as ->. f_equal. apply combine_same; reflexivity.
    + split; [|intros H; injection H as ->; congruence]. destruct l as [|z [|w l]]; [destruct Hx| |discriminate].
      destruct Hx as [<-|[]], Hy as [<-|[]]. congruence.
Qed.

Lemma forallb_concat {A} (f : A -> bool) l : forallb f (concat l) = true <-> forall x, In x l -> forallb f x = true.
Proof.
  rewrite forallb_forall. split.
  - intros H x Hx. apply forallb_forall. intros y Hy. apply H. apply in_concat. exists x. split; assumption.
  - intros H y Hy. apply in_concat in Hy. destruct Hy as (x & Hx & Hy). specialize (H x Hx). rewrite forallb_forall in H. apply H, Hy.
Qed.

Lemma check_attribute_passed ds k w : forallb snd (check_attribute ds (k, w)) = true <-> attribute_met ds k w.
Proof.
  destruct w as [| |s]; cbn [check_attribute attribute_met forallb snd].
  - rewrite andb_true_r. apply has_spec.
  - split; auto.
  - unfold has. destruct (lookup (d_atts ds) k) as [[s'|q|a]|]; cbn [forallb snd andb]; split; intros H; try discriminate.
    + rewrite andb_true_r in H. apply String.eqb_eq in H. congruence.
    + injection H as ->. rewrite String.eqb_refl. reflexivity.
Qed.

Definition proper_meta (m : meta) : Prop := match m with Numbers l => exists x y, In x l /\ In y l /\ x <> y | _ => True end.
Lemma check_metadata_passed name var k m : proper_meta m ->
  (exists os, check_metadata name var (k, m) = Ok os /\ forallb snd os = true) <-> metadata_met (v_atts var) k m.
Proof.
  intros Hp. unfold check_metadata, metadata_met. destruct m as [|s|l].
  - cbn [bind]. destruct (lookup (v_atts var) k); split.
    + intros _. discriminate.
    + intros _. eexists. split; reflexivity.
    + intros (os & H & Hb). injection H as <-. discriminate Hb.
    + intros H. congruence.
  - destruct (lookup (v_atts var) k) as [v|]; cbn [bind]; split.
    + intros (os & H & Hb). injection H as <-. cbn [forallb snd andb] in Hb. rewrite andb_true_r in Hb.
      destruct v as [s'| |]; try discriminate. apply String.eqb_eq in Hb. congruence.
    + intros H. injection H as ->. eexists. split; [reflexivity|]. cbn. rewrite String.eqb_refl. reflexivity.
    + intros (os & H & Hb). injection H as <-. discriminate Hb.
    + discriminate.
  - destruct (lookup (v_atts var) k) as [v|]; cbn [bind]; split.
    + intros (os & H & Hb). f_equal. apply (numbers_equal_true l v Hp). destruct (numbers_equal l v) as [b|]; [|discriminate].
      cbn [bind] in H. injection H as <-. cbn in Hb. rewrite andb_true_r in Hb. congruence.
    + intros H. injection H as ->. rewrite (proj2 (numbers_equal_true l (VArr l) Hp) eq_refl). cbn [bind]. eexists. split; reflexivity.
    + intros (os & H & Hb). injection H as <-. discriminate Hb.
    + discriminate.
Qed.

Lemma mapM_passed {A} (f : A -> result (list outcome)) (P : A -> Prop) l :
  (forall x, In x l -> (exists os, f x = Ok os /\ forallb snd os = true) <-> P x) ->
  (exists r, mapM f l = Ok r /\ forallb snd (concat r) = true) <-> forall x, In x l -> P x.
Proof.
  induction l as [|x l IH]; intros H.
  - split; [intros _ y []|]. intros _. exists []. split; reflexivity.
  - cbn [mapM]. split.
    + intros (r & Hr & Hb). destruct (f x) as [y|] eqn:E; [|discriminate]. destruct (mapM f l) as [ys|] eqn:E'; [|discriminate]. cbn [bind] in Hr.
      injection Hr as <-. cbn [concat] in Hb. rewrite forallb_app, andb_true_iff in Hb. destruct Hb as [Hb1 Hb2].
      intros z [<-|Hz].
      * apply (H x (or_introl eq_refl)). exists y. split; assumption.
      * revert z Hz. apply IH; [intros z Hz; apply H; right; exact Hz|]. exists ys. split; [reflexivity|exact Hb2].
    + intros HP. destruct (proj2 (H x (or_introl eq_refl)) (HP x (or_introl eq_refl))) as (y & E & Hb). rewrite E. cbn [bind].
      destruct (proj2 (IH (fun z Hz => H z (or_intror Hz))) (fun z Hz => HP z (or_intror Hz))) as (ys & E' & Hb'). rewrite E'. cbn [bind].
      exists (y :: ys). split; [reflexivity|]. cbn [concat]. rewrite forallb_app. apply andb_true_iff. split; assumption.
Qed.

Lemma check_variable_passed ds v : (forall k l, In (k, Numbers l) (vs_meta v) -> exists x y, In x l /\ In y l /\ x <> y) ->
  (exists os, check_variable ds v = Ok os /\ forallb snd os = true) <->
  (forall var, lookup (d_vars ds) (vs_name v) = Some var -> variable_met var v).
Proof.
  intros Hp. unfold check_variable. destruct (lookup (d_vars ds) (vs_name v)) as [var|].
  - assert (Hm := mapM_passed (check_metadata (vs_name v) var) (fun km => metadata_met (v_atts var) (fst km) (snd km)) (vs_meta v)).
    assert (Hpre : forall x, In x (vs_meta v) -> (exists os, check_metadata (vs_name v) var x = Ok os /\ forallb snd os = true) <-> metadata_met (v_atts var) (fst x) (snd x)).
    { intros [k m] Hin. apply check_metadata_passed. destruct m as [| |l]; try exact I. apply (Hp k l Hin). }
    specialize (Hm Hpre). clear Hpre.
    assert (Hty : forallb snd (match vs_type v with Some ty => [(VariableType (vs_name v) ty, dtype_eqb (v_type var) ty)] | None => [] end) = true
                  <-> (forall ty, vs_type v = Some ty -> v_type var = ty)).
    { destruct (vs_type v) as [ty|]; cbn [forallb snd]; [rewrite andb_true_r, dtype_eqb_eq|].
      - split; [intros H ty0 E; congruence|intros H; apply H; reflexivity].
      - split; [intros _ ty E; discriminate|reflexivity]. }
    split.
    + intros (os & Hos & Hb) var' E. injection E as <-. destruct (mapM (check_metadata (vs_name v) var) (vs_meta v)) as [ms|] eqn:Em; [|discriminate].
      cbn [bind] in Hos. injection Hos as <-. rewrite forallb_app, andb_true_iff in Hb. destruct Hb as [Hb1 Hb2]. split.
      * apply Hty, Hb1.
      * intros k m Hin. apply (proj1 Hm (ex_intro _ ms (conj eq_refl Hb2)) (k, m) Hin).
    + intros H. destruct (H var eq_refl) as [H1 H2].
      destruct (proj2 Hm) as (ms & Em & Hb); [intros [k m] Hin; apply H2, Hin|]. rewrite Em. cbn [bind]. eexists. split; [reflexivity|].
      rewrite forallb_app, (proj2 Hty H1). exact Hb.
  - split; [discriminate|]. intros _. exists []. split; reflexivity.
Qed.

Lemma check_dimension_passed ds k size : snd (check_dimension ds (k, size)) = true <-> lookup (d_dims ds) k = Some size.
Proof.
  cbn. destruct size as [n|], (lookup (d_dims ds) k) as [[m|]|]; split; intros H; try discriminate; try reflexivity.
  - apply Z.eqb_eq in H. congruence.
  - injection H as ->. apply Z.eqb_refl.
Qed.

Lemma check_file_passed fs p sp ds : proper sp -> fs p = Some ds ->
  exit_status (check_file fs (Some p) sp) = 0 <-> conforms sp ds.
Proof.
  intros Hp Hf. unfold check_file. rewrite Hf. unfold check_variables.
  assert (Hm := mapM_passed (check_variable ds) (fun v => forall var, lookup (d_vars ds) (vs_name v) = Some var -> variable_met var v) (fs_vars sp)
    (fun v Hv => check_variable_passed ds v (fun k l => Hp v k l Hv))).
  assert (Hatt : forallb snd (flat_map (check_attribute ds) (fs_atts sp)) = true <-> forall k w, In (k, w) (fs_atts sp) -> attribute_met ds k w).
  { rewrite flat_map_concat_map, forallb_concat. split.
    - intros H k w Hin. apply check_attribute_passed, H. apply in_map_iff. exists (k, w). split; [reflexivity|exact Hin].
    - intros H x Hx. apply in_map_iff in Hx. destruct Hx as ([k w] & <- & Hin). apply check_attribute_passed, H, Hin. }
  assert (Hdim : forallb snd (map (check_dimension ds) (fs_dims sp)) = true <-> forall k size, In (k, size) (fs_dims sp) -> lookup (d_dims ds) k = Some size).
  { rewrite forallb_forall. split.
    - intros H k size Hin. apply check_dimension_passed, H. apply in_map_iff. exists (k, size). split; [reflexivity|exact Hin].
    - intros H x Hx. apply in_map_iff in Hx. destruct Hx as ([k size] & <- & Hin). apply check_dimension_passed, H, Hin. }
  assert (Hany : existsb (fun v => has (d_vars ds) (vs_name v)) (fs_vars sp) = true <-> exists v, In v (fs_vars sp) /\ lookup (d_vars ds) (vs_name v) <> None).
  { rewrite existsb_exists. split; intros (v & Hv & H); exists v; (split; [exact Hv|apply has_spec, H]). }
  split.
  - destruct (mapM (check_variable ds) (fs_vars sp)) as [l|] eqn:E; [|discriminate]. cbn [bind exit_status has_passed].
    match goal with |- context [if ?b then _ else _] => destruct b eqn:Eb end; [intros _|discriminate].
    unfold has_passed in Eb. cbn [forallb snd] in Eb. rewrite !forallb_app in Eb. cbn [forallb snd andb] in Eb.
    rewrite !andb_true_iff in Eb. destruct Eb as (H1 & (H2 & H3) & H4).
    split; [apply Hatt, H1|split; [apply Hany, H2|split; [|apply Hdim, H4]]].
    intros v var Hv. apply (proj1 Hm (ex_intro _ l (conj eq_refl H3)) v Hv).
  - intros (H1 & H2 & H3 & H4). destruct (proj2 Hm) as (l & El & Hl); [intros v Hv var; apply H3, Hv|]. rewrite El. cbn [bind exit_status].
    match goal with |- (if ?b then _ else _) = _ => assert (Hb : b = true) end.
    { unfold has_passed. cbn [forallb snd andb]. rewrite !forallb_app. cbn [forallb snd]. rewrite !andb_true_iff.
      split; [apply Hatt, H1|split; [split; [apply Hany, H2|exact Hl]|apply Hdim, H4]]. }
    rewrite Hb. reflexivity.
Qed.

Lemma exit_zero_iff fs p sp : proper sp ->
  exit_status (check_file fs p sp) = 0 <-> exists q ds, p = Some q /\ fs q = Some ds /\ conforms sp ds.
Proof.
  intros Hp. destruct p as [q|].
  - destruct (fs q) as [ds|] eqn:E.
    + rewrite (check_file_passed fs q sp ds Hp E). split.
      * intros H. exists q, ds. repeat (split; [reflexivity || exact E|]). exact H.
      * intros (q' & ds' & Hq & Hd & H). injection Hq as <-. rewrite E in Hd. injection Hd as <-. exact H.
    + split; [|intros (q' & ds' & Hq & Hd & _); injection Hq as <-; congruence]. unfold check_file. rewrite E. discriminate.
  - split; [discriminate|intros (q & ds & H & _); discriminate].
Qed.
Lemma exit_zero_app a b : exit_status (do x <- a; do y <- b; Ok (x ++ y)) = 0 <-> exit_status a = 0 /\ exit_status b = 0.
Proof.
  destruct a as [x|]; cbn [bind]; [|split; [discriminate|intros [H _]; exact H]].
  destruct b as [y|]; cbn [bind exit_status]; [|split; [discriminate|intros [_ H]; exact H]].
  assert (E : has_passed (x ++ y) = has_passed x && has_passed y) by apply forallb_app.
  rewrite E. destruct (has_passed x), (has_passed y); cbn; (split; [intros H; try discriminate H; split; reflexivity|intros [H1 H2]; try discriminate H1; try discriminate H2; reflexivity]).
Qed.

(* soundness of each outcome *)
Lemma check_attribute_sound ds kw c b : In (c, b) (check_attribute ds kw) -> (b = true <-> holds ds c).
Proof.
  destruct kw as [k [| |s]]; cbn [check_attribute In].
  - intros [H|[]]. injection H as <- <-. apply has_spec.
  - intros [].
  - intros [H|H]; [injection H as <- <-; apply has_spec|]. destruct (lookup (d_atts ds) k) as [v|] eqn:E; [|destruct H].
    destruct H as [H|[]]. injection H as <- <-. cbn [holds]. rewrite E. destruct v as [s'| |]; split; intros H; try discriminate.
    + apply String.eqb_eq in H. congruence.
    + injection H as ->. apply String.eqb_refl.
Qed.
Lemma check_metadata_sound ds name var k m os c b : proper_meta m -> lookup (d_vars ds) name = Some var ->
  check_metadata name var (k, m) = Ok os -> In (c, b) os -> (b = true <-> holds ds c).
Proof.
  intros Hp Hv H Hin. unfold check_metadata in H.
  match type of H with (do _ <- ?X; _) = _ => destruct X as [vals|] eqn:E end; [|discriminate]. cbn [bind] in H. injection H as <-.
  destruct Hin as [Hin|Hin].
  - injection Hin as <- <-. cbn [holds]. destruct (lookup (v_atts var) k) as [v|] eqn:Ek; split; intros H.
    + exists var. split; [exact Hv|congruence].
    + reflexivity.
    + discriminate.
    + destruct H as (var' & Hv' & H). rewrite Hv in Hv'. injection Hv' as <-. congruence.
  - assert (Hc : c = MetadataValue name k m).
    { destruct m; destruct (lookup (v_atts var) k); cbn in E; try (injection E as <-); try destruct Hin as [Hin|[]]; try (injection Hin as <- _; reflexivity); try destruct Hin.
      destruct (numbers_equal l v); [|discriminate]. cbn in E. injection E as <-. destruct Hin as [Hin|[]]. injection Hin as <- _. reflexivity. }
    subst c. cbn [holds].
    assert (Hq : (exists var0, lookup (d_vars ds) name = Some var0 /\ metadata_met (v_atts var0) k m) <-> metadata_met (v_atts var) k m).
    { split; [intros (var' & Hv' & H); rewrite Hv in Hv'; injection Hv' as <-; exact H|intros H; exists var; split; [exact Hv|exact H]]. }
    rewrite Hq. clear Hq. unfold metadata_met. destruct m as [|s|l].
    + injection E as <-. destruct Hin.
    + destruct (lookup (v_atts var) k) as [v|]; injection E as <-; destruct Hin as [Hin|[]]; injection Hin as <-.
      * destruct v as [s'| |]; split; intros H; try discriminate; [apply String.eqb_eq in H; congruence|injection H as ->; apply String.eqb_refl].
      * split; discriminate.
    + destruct (lookup (v_atts var) k) as [v|].
      * destruct (numbers_equal l v) as [b'|] eqn:En; [|discriminate]. cbn in E. injection E as <-. destruct Hin as [Hin|[]]. injection Hin as <-.
        pose proof (numbers_equal_true l v Hp) as Hn. rewrite En in Hn. split; intros H; [f_equal; apply Hn; congruence|].
        assert (Ev : v = VArr l) by congruence. apply Hn in Ev. congruence.
      * injection E as <-. destruct Hin as [Hin|[]]. injection Hin as <-. split; discriminate.
Qed.
Lemma check_file_sound fs p sp ds os c b : proper sp -> fs p = Some ds -> check_file fs (Some p) sp = Ok os -> In (c, b) os ->
  (b = true <-> holds ds c).
Proof.
  intros Hp Hf H Hin. unfold check_file in H. rewrite Hf in H. unfold check_variables in H.
  destruct (mapM (check_variable ds) (fs_vars sp)) as [l|] eqn:E; [|discriminate]. cbn [bind] in H. injection H as <-.
  destruct Hin as [Hin|Hin]; [injection Hin as <- <-; split; [intros _; exact I|reflexivity]|].
  apply in_app_iff in Hin. destruct Hin as [Hin|[Hin|Hin]]; [| |apply in_app_iff in Hin; destruct Hin as [Hin|Hin]].
  - apply in_flat_map in Hin. destruct Hin as (kw & _ & Hin). apply (check_attribute_sound ds kw c b Hin).
  - injection Hin as <- <-. cbn [holds]. rewrite existsb_exists. split.
    + intros (v & Hv & Hh). exists (vs_name v). split; [apply in_map, Hv|apply has_spec, Hh].
    + intros (n & Hn & Hl). apply in_map_iff in Hn. destruct Hn as (v & <- & Hv). exists v. split; [exact Hv|apply has_spec, Hl].
  - apply in_concat in Hin. destruct Hin as (x & Hx & Hin). destruct (mapM_in _ _ _ E) as [_ H2]. destruct (H2 x Hx) as (v & Hv & Hcv).
    unfold check_variable in Hcv. destruct (lookup (d_vars ds) (vs_name v)) as [var|] eqn:Ev; [|injection Hcv as <-; destruct Hin].
    destruct (mapM (check_metadata (vs_name v) var) (vs_meta v)) as [ms|] eqn:Em; [|discriminate]. cbn [bind] in Hcv. injection Hcv as <-.
    apply in_app_iff in Hin. destruct Hin as [Hin|Hin].
    + destruct (vs_type v) as [ty|]; [|destruct Hin]. destruct Hin as [Hin|[]]. injection Hin as <- <-. cbn [holds]. rewrite dtype_eqb_eq. split.
      * intros H. exists var. split; [exact Ev|exact H].
      * intros (var' & Hv' & H). rewrite Ev in Hv'. injection Hv' as <-. exact H.
    + apply in_concat in Hin. destruct Hin as (y & Hy & Hin). destruct (mapM_in _ _ _ Em) as [_ H3]. destruct (H3 y Hy) as ([k m] & Hkm & Hc).
      apply (check_metadata_sound ds (vs_name v) var k m y c b); try assumption. destruct m as [| |ln]; try exact I. apply (Hp v k ln Hv Hkm).
  - apply in_map_iff in Hin. destruct Hin as ([k size] & Hin & _). pose proof (check_dimension_passed ds k size) as Hd. rewrite Hin in Hd. cbn in Hd.
    assert (Hc : c = Dimension k size) by (cbn in Hin; congruence). subst c. exact Hd.
Qed.

(* when the verification breaks off *)
Lemma check_file_error fs p sp e : check_file fs (Some p) sp = Err e ->
  e = TypeError /\ exists ds v var k l x, fs p = Some ds /\ In v (fs_vars sp) /\ lookup (d_vars ds) (vs_name v) = Some var /\
    In (k, Numbers l) (vs_meta v) /\ lookup (v_atts var) k = Some x /\ match x with VStr _ => True | VNum _ => False | VArr a => length a <> length l end.
Proof.
  intros H. unfold check_file in H. destruct (fs p) as [ds|]; [|discriminate]. unfold check_variables in H.
  destruct (mapM (check_variable ds) (fs_vars sp)) as [l|e'] eqn:E; [discriminate|]. cbn [bind] in H. injection H as ->.
  destruct (mapM_err _ _ _ E) as (v & Hv & Hc). unfold check_variable in Hc.
  destruct (lookup (d_vars ds) (vs_name v)) as [var|] eqn:Ev; [|discriminate].
  destruct (mapM (check_metadata (vs_name v) var) (vs_meta v)) as [ms|e''] eqn:Em; [discriminate|]. cbn [bind] in Hc. injection Hc as ->.
  destruct (mapM_err _ _ _ Em) as ([k m] & Hkm & Hc). unfold check_metadata in Hc.
  destruct m as [|s|l]; destruct (lookup (v_atts var) k) as [x|] eqn:Ek; cbn in Hc; try discriminate.
  destruct (numbers_equal l x) as [bb|e2] eqn:En; [discriminate|]. cbn in Hc. injection Hc as ->.
  assert (Hx : e = TypeError /\ match x with VStr _ => True | VNum _ => False | VArr a => length a <> length l end).
  { destruct x as [s|q|a]; cbn in En; [split; [congruence|exact I]|discriminate|].
    destruct (Nat.eqb_spec (length a) (length l)) as [Hl|Hl]; [discriminate|]. split; [|exact Hl]. destruct l as [|z [|w l]]; congruence. }
  destruct Hx as [He Hx]. split; [exact He|]. exists ds, v, var, k, l, x. repeat (split; [assumption || reflexivity|]). exact Hx.
Qed.

(* ---- building *)

Definition vars_ok (sp : filespec) (ds : dataset) : Prop :=
  forall v var, In v (fs_vars sp) -> lookup (d_vars ds) (vs_name v) = Some var -> variable_met var v.
Definition written (v : variable) (dims : list string) (values : list Q) : ncvar :=
  {| v_type := o_type v; v_dims := dims;
     v_atts := fold_left set_attribute (get_metadata v) (match o_fill v with Some f => [("_FillValue", f)] | None => [] end); v_data := values |}.
Lemma written_attribute v dims values k : tidy v -> k <> "_FillValue" ->
  lookup (v_atts (written v dims values)) k = option_map as_read (lookup (get_metadata v) k).
Proof.
  intros [Hn _] Hk. unfold written. cbn [v_atts]. rewrite lookup_attributes by exact Hn. destruct (lookup (get_metadata v) k); [reflexivity|].
  destruct (o_fill v); [|reflexivity]. cbn [lookup option_map]. destruct (String.eqb_spec "_FillValue" k); [congruence|reflexivity].
Qed.
Lemma written_met sp vs v dims values : proper sp -> In vs (fs_vars sp) -> vs_name vs = o_name v -> agrees sp v -> tidy v ->
  variable_met (written v dims values) vs.
Proof.
  intros Hp Hin Hname Ha Ht. destruct (Ha vs Hin Hname) as [H1 H2]. split; [exact H1|].
  intros k m Hkm. specialize (H2 k m Hkm). destruct Ht as [Hn Hf]. unfold metadata_met.
  assert (Hk : k <> "_FillValue").
  { intros ->. apply Hf. apply in_map_iff. destruct m as [|s|l]; [destruct H2 as [x H2]|..]; eexists; (split; [|exact H2]; reflexivity). }
  rewrite (written_attribute v dims values k (conj Hn Hf) Hk). destruct m as [|s|l].
  - destruct H2 as [x H2]. rewrite (lookup_nodup _ _ _ Hn H2). discriminate.
  - rewrite (lookup_nodup _ _ _ Hn H2). reflexivity.
  - rewrite (lookup_nodup _ _ _ Hn H2). cbn [option_map]. f_equal. destruct (Hp vs k l Hin Hkm) as (x & y & Hx & Hy & Hne).
    destruct l as [|a [|b l]]; try reflexivity. destruct Hx as [<-|[]], Hy as [<-|[]]. congruence.
Qed.

Lemma add_variable_inv ds v dims values ds' : add_variable ds v dims values = Ok ds' ->
  lookup (d_vars ds) (o_name v) = None /\ (forall n, In n dims -> lookup (d_dims ds) n <> None) /\
  ds' = {| d_atts := d_atts ds; d_dims := d_dims ds; d_vars := d_vars ds ++ [(o_name v, written v dims values)] |}.
Proof.
  unfold add_variable. destruct (forallb (has (d_dims ds)) dims) eqn:E; [|discriminate]. destruct (has (d_vars ds) (o_name v)) eqn:E'; [discriminate|].
  intros H. injection H as <-. split; [apply has_false, E'|split; [|reflexivity]]. rewrite forallb_forall in E. intros n Hn. apply has_spec, E, Hn.
Qed.
Lemma add_variable_ok ds v dims values : lookup (d_vars ds) (o_name v) = None -> (forall n, In n dims -> lookup (d_dims ds) n <> None) ->
  add_variable ds v dims values = Ok {| d_atts := d_atts ds; d_dims := d_dims ds; d_vars := d_vars ds ++ [(o_name v, written v dims values)] |}.
Proof.
  intros H1 H2. unfold add_variable. replace (forallb (has (d_dims ds)) dims) with true.
  - rewrite (proj2 (has_false _ _) H1). reflexivity.
  - symmetry. apply forallb_forall. intros n Hn. apply has_spec, H2, Hn.
Qed.
Lemma add_dimension_inv ds n size ds' : add_dimension ds n size = Ok ds' ->
  lookup (d_dims ds) n = None /\ ds' = {| d_atts := d_atts ds; d_dims := d_dims ds ++ [(n, size)]; d_vars := d_vars ds |}.
Proof. unfold add_dimension. destruct (has (d_dims ds) n) eqn:E; [discriminate|]. intros H. injection H as <-. split; [apply has_false, E|reflexivity]. Qed.

Lemma add_variable_vars sp ds v dims values ds' : proper sp -> agrees sp v -> tidy v -> vars_ok sp ds -> add_variable ds v dims values = Ok ds' -> vars_ok sp ds'.
Proof.
  intros Hp Ha Ht Hok H. apply add_variable_inv in H. destruct H as (Hnew & _ & ->). intros vs var Hvs Hl. cbn [d_vars] in Hl. rewrite lookup_app in Hl.
  destruct (lookup (d_vars ds) (vs_name vs)) as [var0|] eqn:E; [injection Hl as <-; apply (Hok vs var0 Hvs E)|]. cbn [lookup] in Hl.
  destruct (String.eqb_spec (o_name v) (vs_name vs)) as [Hn|]; [|discriminate]. injection Hl as <-.
  apply (written_met sp vs v dims values Hp Hvs (eq_sym Hn) Ha Ht).
Qed.

(* files only grow *)
Definition grows (a b : dataset) : Prop :=
  d_atts b = d_atts a /\ (forall n x, lookup (d_dims a) n = Some x -> lookup (d_dims b) n = Some x) /\
  (forall n x, lookup (d_vars a) n = Some x -> lookup (d_vars b) n = Some x).
Lemma grows_refl a : grows a a.
Proof. repeat split; auto. Qed.
Lemma grows_trans a b c : grows a b -> grows b c -> grows a c.
Proof. intros (H1 & H2 & H3) (K1 & K2 & K3). split; [congruence|split; auto]. Qed.
Lemma grows_variable ds v dims values ds' : add_variable ds v dims values = Ok ds' -> grows ds ds' /\ lookup (d_vars ds') (o_name v) = Some (written v dims values).
Proof.
  intros H. apply add_variable_inv in H. destruct H as (Hnew & _ & ->). split.
  - split; [reflexivity|split; [auto|]]. intros n x Hx. cbn [d_vars]. rewrite lookup_app, Hx. reflexivity.
  - cbn [d_vars]. rewrite lookup_app, Hnew. cbn. rewrite String.eqb_refl. reflexivity.
Qed.
Lemma grows_dimension ds n size ds' : add_dimension ds n size = Ok ds' -> grows ds ds' /\ lookup (d_dims ds') n = Some size /\ d_vars ds' = d_vars ds.
Proof.
  intros H. apply add_dimension_inv in H. destruct H as (Hnew & ->). split.
  - split; [reflexivity|split; [|auto]]. intros k x Hx. cbn [d_dims]. rewrite lookup_app, Hx. reflexivity.
  - cbn [d_dims d_vars]. rewrite lookup_app, Hnew. cbn. rewrite String.eqb_refl. split; reflexivity.
Qed.

(* tidy and agreeing variables, decided *)
Fixpoint distinct (l : list string) : bool := match l with [] => true | x :: l => negb (existsb (String.eqb x) l) && distinct l end.
Lemma existsb_eqb x l : existsb (String.eqb x) l = true <-> In x l.
Proof. rewrite existsb_exists. split; [intros (y & Hy & E); apply String.eqb_eq in E; congruence|intros H; exists x; split; [exact H|apply String.eqb_refl]]. Qed.
Lemma distinct_nodup l : distinct l = true -> NoDup l.
Proof.
  induction l as [|x l IH]; [constructor|]. cbn [distinct]. rewrite andb_true_iff, negb_true_iff. intros [H1 H2]. constructor; [|auto].
  intros Hin. apply existsb_eqb in Hin. congruence.
Qed.
Lemma tidy_decide v : distinct ("_FillValue" :: map fst (get_metadata v)) = true -> tidy v.
Proof. intros H. apply distinct_nodup in H. inversion H; subst. split; assumption. Qed.
Definition matches (m : meta) (found : option value) : bool :=
  match m, found with
  | AnyValue, Some _ => true
  | Is s, Some (VStr s') => String.eqb s s'
  | Numbers l, Some (VArr l') => if list_eq_dec Z.eq_dec l l' then true else false
  | _, _ => false
  end.
Definition agrees_here (v : variable) (vs : varspec) : bool :=
  if String.eqb (vs_name vs) (o_name v)
  then match vs_type vs with Some ty => dtype_eqb (o_type v) ty | None => true end
       && forallb (fun km => matches (snd km) (lookup (get_metadata v) (fst km))) (vs_meta vs)
  else true.
Lemma agrees_decide sp v : forallb (agrees_here v) (fs_vars sp) = true -> agrees sp v.
Proof.
  rewrite forallb_forall. intros H vs Hvs Hn. specialize (H vs Hvs). unfold agrees_here in H. rewrite Hn, String.eqb_refl in H.
  apply andb_true_iff in H. destruct H as [H1 H2]. split.
  - intros ty E. rewrite E in H1. apply dtype_eqb_eq, H1.
  - intros k m Hkm. rewrite forallb_forall in H2. specialize (H2 (k, m) Hkm). cbn [fst snd] in H2.
    destruct m as [|s|l]; destruct (lookup (get_metadata v) k) as [[s'|q|a]|] eqn:E; cbn in H2; try discriminate; apply lookup_In in E; try (eexists; exact E).
    + apply String.eqb_eq in H2. congruence.
    + destruct (list_eq_dec Z.eq_dec l a); [congruence|discriminate].
Qed.
Lemma agrees_other sp v : (forall vs, In vs (fs_vars sp) -> vs_name vs <> o_name v) -> agrees sp v.
Proof. intros H vs Hvs Hn. destruct (H vs Hvs Hn). Qed.

Lemma proper_global : proper SpecificationGlobalField.
Proof.
  intros v k l Hv Hk. exfalso. cbn in Hv. repeat (destruct Hv as [<-|Hv]; [cbn in Hk; repeat (destruct Hk as [Hk|Hk]; [discriminate|]); exact Hk|]). exact Hv.
Qed.
Lemma proper_temperature : proper SpecificationStationTemperature.
Proof.
  intros v k l Hv Hk. exfalso. cbn in Hv. repeat (destruct Hv as [<-|Hv]; [cbn in Hk; repeat (destruct Hk as [Hk|Hk]; [discriminate|]); exact Hk|]). exact Hv.
Qed.
Lemma proper_status : proper SpecificationStationStatus.
Proof.
  intros v k l Hv Hk. exists 0, 2. cbn in Hv.
  repeat (destruct Hv as [<-|Hv]; [cbn in Hk; repeat (destruct Hk as [Hk|Hk]; [first [discriminate Hk|inversion Hk; subst; split; [cbn; auto|split; [cbn; auto|discriminate]]]|]); destruct Hk|]).
  destruct Hv.
Qed.

(* ---- the global field builder *)

Lemma zlen_linspace a b n : 0 <= n -> zlen (linspace a b n) = n.
Proof. intros H. unfold linspace. rewrite zlen_map, zlen_zrange by lia. lia. Qed.
Definition base_names : list string := ["time"; "timebounds"; "latitude"; "longitude"; "timeoffset"].
Definition base_file (day : Q) (ds_name institution comment history source : string) : dataset :=
  {| d_atts := d_atts (create (TITLE_PREFIX ++ ds_name)%string institution comment history source);
     d_dims := [("time", None); ("bounds", Some 2); ("latitude", Some 720); ("longitude", Some 1440)];
     d_vars := [("time", written TIME ["time"] [day]); ("timebounds", written TIME_BOUNDS ["time"; "bounds"] [day; (day + 1)%Q]);
                ("latitude", written LATITUDE ["latitude"] file_latitudes); ("longitude", written LONGITUDE ["longitude"] file_longitudes);
                ("timeoffset", written TIME_OFFSET ["longitude"] (map (fun x => (x / 360)%Q) file_longitudes))] |}.
Lemma global_field_eq day n i c h s : global_field day n i c h s = Ok (base_file day n i c h s).
Proof.
  unfold global_field, add_dimension_and_variable.
  assert (E1 : zlen file_latitudes = 720) by (apply zlen_linspace; lia).
  assert (E2 : zlen file_longitudes = 1440) by (apply zlen_linspace; lia).
  rewrite E1, E2. unfold base_file. generalize file_latitudes file_longitudes. intros la lo. reflexivity.
Qed.
Lemma add_fields_ok l : forall ds, (forall n, In n ["time"; "latitude"; "longitude"] -> lookup (d_dims ds) n <> None) ->
  (NoDup (map (fun f => o_name (fst f)) l) /\ forall f, In f l -> lookup (d_vars ds) (o_name (fst f)) = None) <->
  exists ds', add_global_fields ds l = Ok ds'.
Proof.
  induction l as [|[v values] l IH]; intros ds Hd.
  - split; [intros _; exists ds; reflexivity|]. intros _. split; [constructor|intros f []].
  - cbn [add_global_fields map fst]. unfold add_global_field. destruct (add_variable ds v ["time"; "latitude"; "longitude"] values) as [ds1|e] eqn:E; cbn [bind].
    + apply add_variable_inv in E. destruct E as (Hnew & _ & ->). rewrite <- IH by exact Hd. cbn [d_vars].
      split.
      * intros [Hn Hf]. inversion Hn; subst. split; [assumption|]. intros f Hin. rewrite lookup_app, (Hf f (or_intror Hin)). cbn.
        destruct (String.eqb_spec (o_name v) (o_name (fst f))) as [En|]; [|reflexivity]. destruct H1. rewrite En. apply (in_map (fun f => o_name (fst f))), Hin.
      * intros [Hn Hf]. split.
        -- constructor; [|exact Hn]. intros Hin. apply in_map_iff in Hin. destruct Hin as (f & En & Hin). specialize (Hf f Hin). rewrite lookup_app, En, Hnew in Hf.
           cbn in Hf. rewrite String.eqb_refl in Hf. discriminate.
        -- intros f [<-|Hin]; [exact Hnew|]. specialize (Hf f Hin). rewrite lookup_app in Hf. destruct (lookup (d_vars ds) (o_name (fst f))); [discriminate|reflexivity].
    + split; [|intros (ds' & H); discriminate]. intros [_ Hf]. rewrite add_variable_ok in E; [discriminate|apply (Hf (v, values) (or_introl eq_refl))|exact Hd].
Qed.
Lemma add_fields_inv sp l : proper sp -> forall ds ds', (forall f, In f l -> agrees sp (fst f) /\ tidy (fst f)) -> vars_ok sp ds -> add_global_fields ds l = Ok ds' ->
  vars_ok sp ds' /\ grows ds ds' /\ forall v values, In (v, values) l -> lookup (d_vars ds') (o_name v) = Some (written v ["time"; "latitude"; "longitude"] values).
Proof.
  intros Hp. induction l as [|[v values] l IH]; intros ds ds' Hf Hok H; cbn [add_global_fields] in H.
  - injection H as <-. split; [exact Hok|split; [apply grows_refl|intros v values []]].
  - unfold add_global_field in H. destruct (add_variable ds v _ values) as [ds1|] eqn:E; [|discriminate]. cbn [bind] in H.
    destruct (Hf (v, values) (or_introl eq_refl)) as [Ha Ht]. cbn [fst] in Ha, Ht.
    pose proof (add_variable_vars sp ds v _ values ds1 Hp Ha Ht Hok E) as Hok1. destruct (grows_variable ds v _ values ds1 E) as [Hg Hl].
    destruct (IH ds1 ds' (fun f Hin => Hf f (or_intror Hin)) Hok1 H) as (K1 & K2 & K3). split; [exact K1|split; [apply (grows_trans _ ds1); assumption|]].
    intros v' values' [Hin|Hin]; [injection Hin as <- <-; apply K2, Hl|apply K3, Hin].
Qed.
Lemma grows_conforms sp a b : (forall k w, In (k, w) (fs_atts sp) -> attribute_met a k w) ->
  (exists v, In v (fs_vars sp) /\ lookup (d_vars a) (vs_name v) <> None) ->
  (forall k size, In (k, size) (fs_dims sp) -> lookup (d_dims a) k = Some size) -> grows a b -> vars_ok sp b -> conforms sp b.
Proof.
  intros H1 (v & Hv & Hl) H3 (G1 & G2 & G3) Hok. split; [|split; [|split]].
  - intros k w Hin. specialize (H1 k w Hin). unfold attribute_met in *. rewrite G1. exact H1.
  - exists v. split; [exact Hv|]. destruct (lookup (d_vars a) (vs_name v)) as [x|] eqn:E; [|congruence]. rewrite (G3 _ _ E). discriminate.
  - exact Hok.
  - intros k size Hin. apply G2, H3, Hin.
Qed.
Lemma create_attributes sp t i c h s : fs_atts sp = common_attributes ->
  forall ds, d_atts ds = d_atts (create t i c h s) -> forall k w, In (k, w) (fs_atts sp) -> attribute_met ds k w.
Proof.
  intros -> ds Hd k w Hin. unfold attribute_met. rewrite Hd. cbn in Hin.
  repeat (destruct Hin as [Hin|Hin]; [injection Hin as <- <-; cbn; try discriminate; reflexivity|]). destruct Hin.
Qed.
Lemma base_vars day n i c h s : vars_ok SpecificationGlobalField (base_file day n i c h s).
Proof.
  intros vs var Hvs Hl. cbn [base_file d_vars] in Hl. cbn in Hvs.
  assert (Hgo : forall v dims values, agrees SpecificationGlobalField v -> tidy v -> vs_name vs = o_name v -> variable_met (written v dims values) vs).
  { intros v dims values Ha Ht Hn. apply (written_met SpecificationGlobalField vs v dims values proper_global Hvs Hn Ha Ht). }
  apply lookup_In in Hl. cbn [In] in Hl. repeat (destruct Hl as [Hl|Hl]; [pose proof (f_equal fst Hl) as Hn; pose proof (f_equal snd Hl) as Hw; cbn [fst snd] in Hn, Hw; rewrite <- Hw; apply Hgo;
    [apply agrees_decide; vm_compute; reflexivity|apply tidy_decide; vm_compute; reflexivity|symmetry; exact Hn]|]). destruct Hl.
Qed.

(* ---- station files *)

Definition status_dims (cs : list call) : list (string * option Z) :=
  flat_map (fun c => match c with AddStatusDimension n size => [(n, size)] | _ => [] end) cs.
Definition status_vars (cs : list call) : list (string * ncvar) :=
  flat_map (fun c => match c with
                     | AddStatusVariable dim v values bounds => [(o_name v, written v (dim :: if bounds then ["bounds"] else []) values)]
                     | _ => []
                     end) cs.
Lemma perform_status cs : forall b b', perform_all b cs = Ok b' ->
  d_atts (b_status b') = d_atts (b_status b) /\ d_dims (b_status b') = d_dims (b_status b) ++ status_dims cs /\
  d_vars (b_status b') = d_vars (b_status b) ++ status_vars cs.
Proof.
  induction cs as [|c cs IH]; intros b b' H; cbn [perform_all] in H.
  - injection H as <-. cbn. rewrite !app_nil_r. repeat split.
  - destruct (perform b c) as [b1|] eqn:E; [|discriminate]. cbn [bind] in H. destruct (IH b1 b' H) as (I1 & I2 & I3).
    destruct c as [names times|v values|n size|dim v values bounds]; cbn [perform] in E.
    + unfold set_temperature_dimensions in E.
      repeat match type of E with (do _ <- ?X; _) = _ => destruct X as [?t|]; cbn [bind] in E; [|discriminate] end.
      injection E as <-. cbn [b_status] in *. repeat split; assumption.
    + unfold add_temperature_variable in E. destruct (add_variable _ _ _ _); [|discriminate]. injection E as <-. cbn [b_status] in *. repeat split; assumption.
    + unfold add_status_dimension in E. destruct (add_dimension (b_status b) n size) as [s|] eqn:Ed; [|discriminate]. injection E as <-. cbn [b_status] in *.
      apply add_dimension_inv in Ed. destruct Ed as [_ ->]. cbn [d_atts d_dims d_vars] in *. rewrite I1, I2, I3, <- app_assoc. repeat split.
    + unfold add_status_variable in E. destruct (add_variable (b_status b) v _ values) as [s|] eqn:Ed; [|discriminate]. injection E as <-. cbn [b_status] in *.
      apply add_variable_inv in Ed. destruct Ed as (_ & _ & ->). cbn [d_atts d_dims d_vars] in *. rewrite I1, I2, I3, <- app_assoc. repeat split.
Qed.
(* the variables a call writes into each file *)
Definition temperature_variable (c : call) (v : variable) : Prop := match c with AddTemperatureVariable v' _ => v' = v | _ => False end.
Definition status_variable (c : call) (v : variable) : Prop := match c with AddStatusVariable _ v' _ _ => v' = v | _ => False end.
Lemma perform_status_vars cs b b' : (forall c v, In c cs -> status_variable c v -> agrees SpecificationStationStatus v /\ tidy v) ->
  vars_ok SpecificationStationStatus (b_status b) -> perform_all b cs = Ok b' -> vars_ok SpecificationStationStatus (b_status b').
Proof.
  revert b. induction cs as [|c cs IH]; intros b Hc Hok H; cbn [perform_all] in H; [injection H as <-; exact Hok|].
  destruct (perform b c) as [b1|] eqn:E; [|discriminate]. cbn [bind] in H. apply (IH b1); [intros c' v Hin; apply Hc; right; exact Hin| |exact H].
  destruct c as [names times|v values|n size|dim v values bounds]; cbn [perform] in E.
  - unfold set_temperature_dimensions in E.
    repeat match type of E with (do _ <- ?X; _) = _ => destruct X as [?t|]; cbn [bind] in E; [|discriminate] end. injection E as <-. exact Hok.
  - unfold add_temperature_variable in E. destruct (add_variable _ _ _ _); [|discriminate]. injection E as <-. exact Hok.
  - unfold add_status_dimension in E. destruct (add_dimension (b_status b) n size) as [s|] eqn:Ed; [|discriminate]. injection E as <-. cbn [b_status] in *.
    apply add_dimension_inv in Ed. destruct Ed as [_ ->]. exact Hok.
  - unfold add_status_variable in E. destruct (add_variable (b_status b) v _ values) as [s|] eqn:Ed; [|discriminate]. injection E as <-. cbn [b_status] in *.
    destruct (Hc (AddStatusVariable dim v values bounds) v (or_introl eq_refl) eq_refl) as [Ha Ht].
    exact (add_variable_vars _ _ _ _ _ _ proper_status Ha Ht Hok Ed).
Qed.

Lemma set_dimensions_effect b names times b' : vars_ok SpecificationStationTemperature (b_temperature b) -> set_temperature_dimensions b names times = Ok b' ->
  vars_ok SpecificationStationTemperature (b_temperature b') /\ grows (b_temperature b) (b_temperature b') /\
  lookup (d_dims (b_temperature b')) "time" = Some None /\ lookup (d_dims (b_temperature b')) "station" = Some (Some (zlen names)) /\
  lookup (d_vars (b_temperature b')) "time" = Some (written TIME ["time"] times) /\
  lookup (d_vars (b_temperature b')) "timebounds" = Some (written TIME_BOUNDS ["time"; "bounds"] (flat_map (fun x => [x; (x + 1)%Q]) times)) /\
  lookup (d_vars (b_temperature b')) "station_name" = Some (written STATION_NAME ["station"; "name_strlen"] (map inject_Z (flat_map name_characters names))).
Proof.
  intros Hok H. unfold set_temperature_dimensions, add_dimension_and_variable in H.
  destruct (add_dimension (b_temperature b) "station" (Some (zlen names))) as [t1|] eqn:E1; [|discriminate]; cbn [bind] in H.
  destruct (add_dimension t1 "name_strlen" (Some 32)) as [t2|] eqn:E2; [|discriminate]; cbn [bind] in H.
  destruct (add_variable t2 STATION_NAME _ _) as [t3|] eqn:E3; [|discriminate]; cbn [bind] in H.
  destruct (add_dimension t3 "time" None) as [t4|] eqn:E4; [|discriminate]; cbn [bind] in H.
  destruct (add_variable t4 TIME _ _) as [t5|] eqn:E5; [|discriminate]; cbn [bind] in H.
  destruct (add_dimension t5 "bounds" (Some 2)) as [t6|] eqn:E6; [|discriminate]; cbn [bind] in H.
  destruct (add_variable t6 TIME_BOUNDS _ _) as [t7|] eqn:E7; [|discriminate]; cbn [bind] in H. injection H as <-. cbn [b_temperature].
  assert (Hv1 : vars_ok SpecificationStationTemperature t2).
  { destruct (grows_dimension _ _ _ _ E1) as (_ & _ & W1). destruct (grows_dimension _ _ _ _ E2) as (_ & _ & W2).
    unfold vars_ok. rewrite W2, W1. exact Hok. }
  assert (Hv3 : vars_ok SpecificationStationTemperature t3).
  { apply (fun a t o => add_variable_vars _ _ _ _ _ _ proper_temperature a t o E3); [apply agrees_decide; vm_compute; reflexivity|apply tidy_decide; vm_compute; reflexivity|exact Hv1]. }
  assert (Hv4 : vars_ok SpecificationStationTemperature t4).
  { destruct (grows_dimension _ _ _ _ E4) as (_ & _ & W1). unfold vars_ok. rewrite W1. exact Hv3. }
  assert (Hv5 : vars_ok SpecificationStationTemperature t5).
  { apply (fun a t o => add_variable_vars _ _ _ _ _ _ proper_temperature a t o E5); [apply agrees_decide; vm_compute; reflexivity|apply tidy_decide; vm_compute; reflexivity|exact Hv4]. }
  assert (Hv6 : vars_ok SpecificationStationTemperature t6).
  { destruct (grows_dimension _ _ _ _ E6) as (_ & _ & W1). unfold vars_ok. rewrite W1. exact Hv5. }
  assert (Hv7 : vars_ok SpecificationStationTemperature t7).
  { apply (fun a t o => add_variable_vars _ _ _ _ _ _ proper_temperature a t o E7); [apply agrees_decide; vm_compute; reflexivity|apply tidy_decide; vm_compute; reflexivity|exact Hv6]. }
  split; [exact Hv7|].
  destruct (grows_dimension _ _ _ _ E1) as (G1 & L1 & _). destruct (grows_dimension _ _ _ _ E2) as (G2 & _ & _).
  destruct (grows_variable _ _ _ _ _ E3) as (G3 & L3). destruct (grows_dimension _ _ _ _ E4) as (G4 & L4 & _).
  destruct (grows_variable _ _ _ _ _ E5) as (G5 & L5). destruct (grows_dimension _ _ _ _ E6) as (G6 & _ & _).
  destruct (grows_variable _ _ _ _ _ E7) as (G7 & L7).
  assert (G57 : grows t5 t7) by (apply (grows_trans _ t6); assumption).
  assert (G47 : grows t4 t7) by (apply (grows_trans _ t5); assumption).
  assert (G37 : grows t3 t7) by (apply (grows_trans _ t4); assumption).
  assert (G17 : grows t1 t7) by (apply (grows_trans _ t2); [assumption|apply (grows_trans _ t3); assumption]).
  split; [apply (grows_trans _ t1); assumption|]. split; [apply G47, L4|split; [apply G17, L1|split; [apply G57, L5|split; [exact L7|apply G37, L3]]]].
Qed.
Lemma perform_temperature cs : forall b b', (forall c v, In c cs -> temperature_variable c v -> agrees SpecificationStationTemperature v /\ tidy v) ->
  vars_ok SpecificationStationTemperature (b_temperature b) -> perform_all b cs = Ok b' ->
  vars_ok SpecificationStationTemperature (b_temperature b') /\ grows (b_temperature b) (b_temperature b') /\
  (forall names times, In (SetTemperatureDimensions names times) cs -> lookup (d_dims (b_temperature b')) "time" = Some None /\
     lookup (d_vars (b_temperature b')) "time" = Some (written TIME ["time"] times) /\
     lookup (d_vars (b_temperature b')) "timebounds" = Some (written TIME_BOUNDS ["time"; "bounds"] (flat_map (fun x => [x; (x + 1)%Q]) times)) /\
     lookup (d_vars (b_temperature b')) "station_name" = Some (written STATION_NAME ["station"; "name_strlen"] (map inject_Z (flat_map name_characters names)))) /\
  (forall v values, In (AddTemperatureVariable v values) cs -> lookup (d_vars (b_temperature b')) (o_name v) = Some (written v ["time"; "station"] values)) /\
  ((forall names times, ~ In (SetTemperatureDimensions names times) cs) -> d_dims (b_temperature b') = d_dims (b_temperature b)).
Proof.
  induction cs as [|c cs IH]; intros b b' Hc Hok H; cbn [perform_all] in H.
  - injection H as <-. split; [exact Hok|split; [apply grows_refl|split; [intros ? ? []|split; [intros ? ? []|reflexivity]]]].
  - destruct (perform b c) as [b1|] eqn:E; [|discriminate]. cbn [bind] in H.
    assert (Hstep : vars_ok SpecificationStationTemperature (b_temperature b1) /\ grows (b_temperature b) (b_temperature b1) /\
      match c with
      | SetTemperatureDimensions names times =>
          lookup (d_dims (b_temperature b1)) "time" = Some None /\ lookup (d_vars (b_temperature b1)) "time" = Some (written TIME ["time"] times) /\
          lookup (d_vars (b_temperature b1)) "timebounds" = Some (written TIME_BOUNDS ["time"; "bounds"] (flat_map (fun x => [x; (x + 1)%Q]) times)) /\
          lookup (d_vars (b_temperature b1)) "station_name" = Some (written STATION_NAME ["station"; "name_strlen"] (map inject_Z (flat_map name_characters names)))
      | AddTemperatureVariable v values => lookup (d_vars (b_temperature b1)) (o_name v) = Some (written v ["time"; "station"] values) /\
          d_dims (b_temperature b1) = d_dims (b_temperature b)
      | _ => d_dims (b_temperature b1) = d_dims (b_temperature b)
      end).
    { destruct c as [names times|v values|n size|dim v values bounds]; cbn [perform] in E.
      - destruct (set_dimensions_effect b names times b1 Hok E) as (K1 & K2 & K3 & _ & K4). split; [exact K1|split; [exact K2|split; [exact K3|exact K4]]].
      - unfold add_temperature_variable in E. destruct (add_variable (b_temperature b) v ["time"; "station"] values) as [t|] eqn:Ed; [|discriminate].
        injection E as <-. cbn [b_temperature]. destruct (Hc _ v (or_introl eq_refl) eq_refl) as [Ha Ht].
        destruct (grows_variable _ _ _ _ _ Ed) as [K1 K2].
        split; [exact (add_variable_vars _ _ _ _ _ _ proper_temperature Ha Ht Hok Ed)|split; [exact K1|split; [exact K2|]]].
        apply add_variable_inv in Ed. destruct Ed as (_ & _ & ->). reflexivity.
      - unfold add_status_dimension in E. destruct (add_dimension _ _ _); [|discriminate]. injection E as <-. split; [exact Hok|split; [apply grows_refl|reflexivity]].
      - unfold add_status_variable in E. destruct (add_variable _ _ _ _); [|discriminate]. injection E as <-. split; [exact Hok|split; [apply grows_refl|reflexivity]]. }
    destruct Hstep as (S1 & S2 & S3).
    destruct (IH b1 b' (fun c' v Hin => Hc c' v (or_intror Hin)) S1 H) as (I1 & I2 & I3 & I4 & I5).
    split; [exact I1|split; [apply (grows_trans _ (b_temperature b1)); assumption|split; [|split]]].
    + intros names times [->|Hin]; [|apply (I3 _ _ Hin)]. destruct S3 as (T1 & T2 & T3 & T4). destruct I2 as (_ & G1 & G2). repeat split; auto.
    + intros v values [->|Hin]; [|apply (I4 _ _ Hin)]. destruct S3 as [T1 _]. destruct I2 as (_ & _ & G2). apply G2, T1.
    + intros Hno. rewrite I5 by (intros names times Hin; apply (Hno names times); right; exact Hin).
      destruct c as [names times|v values|n size|dim v values bounds]; [destruct (Hno names times (or_introl eq_refl))|destruct S3 as [_ S3]|..]; exact S3.
Qed.

(* names of station files *)
Lemma sapp_assoc (a b c : string) : (a ++ (b ++ c) = (a ++ b) ++ c)%string.
Proof. induction a as [|x a IH]; [reflexivity|]. cbn. rewrite IH. reflexivity. Qed.
Lemma station_pathname_eq directory region version kind :
  station_pathname directory region version kind = (join_one directory ("eustace_stations_" ++ lower region ++ "_" ++ version) ++ "_" ++ kind ++ ".nc")%string.
Proof.
  unfold station_pathname, join_one.
  assert (Hs : forall x, starts_with_slash ("eustace_stations_" ++ x) = false) by (intros x; reflexivity).
  rewrite !Hs. destruct ((directory =? "")%string || ends_with_slash directory); rewrite <- ?sapp_assoc; reflexivity.
Qed.
Lemma join_nonempty directory region version : join_one directory ("eustace_stations_" ++ lower region ++ "_" ++ version) <> "".
Proof.
  unfold join_one. cbn [starts_with_slash String.append]. destruct ((directory =? "")%string || ends_with_slash directory); destruct directory; discriminate.
Qed.

(* the characters of a name *)
Lemma name_characters_length n : length (name_characters n) = 32%nat.
Proof. unfold name_characters. rewrite app_length, firstn_length, repeat_length, map_length. lia. Qed.
Lemma written_stores ds v dims values : lookup (d_vars ds) (o_name v) = Some (written v dims values) -> stores ds v dims values.
Proof.
  intros H. exists (written v dims values). split; [exact H|split; [reflexivity|split; [reflexivity|split; [reflexivity|]]]].
  intros Ht k x Hk Hin. rewrite written_attribute by assumption. rewrite (lookup_nodup _ _ _ (proj1 Ht) Hin). reflexivity.
Qed.
Lemma shown_app cs : forall rest, (forall c, In c cs -> c <> "000"%char) ->
  shown (map (fun c => Z.of_nat (nat_of_ascii c)) cs ++ rest) = (string_of_list_ascii cs ++ shown rest)%string.
Proof.
  induction cs as [|c cs IH]; intros rest H; [reflexivity|]. cbn [map app shown string_of_list_ascii String.append].
  destruct (Z.eqb_spec (Z.of_nat (nat_of_ascii c)) 0) as [E|].
  - exfalso. apply (H c (or_introl eq_refl)). rewrite <- (ascii_nat_embedding c). replace (nat_of_ascii c) with 0%nat by lia. reflexivity.
  - rewrite Nat2Z.id, ascii_nat_embedding, IH by (intros; apply H; right; assumption). reflexivity.
Qed.
Lemma shown_zeros n : shown (repeat 0 n) = "".
Proof. destruct n; reflexivity. Qed.
Lemma sapp_nil s : (s ++ "" = s)%string.
Proof. induction s as [|c s IH]; [reflexivity|]. cbn. rewrite IH. reflexivity. Qed.
Lemma name_shown n : (String.length n <= 32)%nat -> ~ In "000"%char (list_ascii_of_string n) -> shown (name_characters n) = n.
Proof.
  intros Hl Hz. unfold name_characters.
  assert (Hlen : length (list_ascii_of_string n) = String.length n) by (clear; induction n as [|c n IH]; [reflexivity|cbn; rewrite IH; reflexivity]).
  rewrite firstn_all2 by (rewrite map_length, Hlen; lia). rewrite shown_app by (intros c Hc E; subst c; contradiction).
  rewrite shown_zeros, sapp_nil, string_of_list_ascii_of_string. reflexivity.
Qed.
Lemma blocks {A B} (f : A -> list B) k l : (forall x, In x l -> length (f x) = k) -> forall i x, nth_error l i = Some x ->
  firstn k (skipn (k * i) (flat_map f l)) = f x.
Proof.
  induction l as [|y l IH]; intros Hk [|i] x H; try discriminate; cbn [flat_map].
  - injection H as ->. rewrite Nat.mul_0_r, skipn_O. rewrite firstn_app, (Hk x (or_introl eq_refl)), Nat.sub_diag. cbn [firstn]. rewrite app_nil_r.
    rewrite <- (Hk x (or_introl eq_refl)). apply firstn_all.
  - cbn [nth_error] in H. rewrite skipn_app, (Hk y (or_introl eq_refl)). rewrite skipn_all2 by (rewrite (Hk y (or_introl eq_refl)); nia).
    replace (k * S i - k)%nat with (k * i)%nat by nia. cbn [app]. apply IH; [intros z Hz; apply Hk; right; exact Hz|exact H].
Qed.

(* ---- templates *)

Lemma format_ok l kwargs s : format l kwargs = Ok s <-> exists g, (forall k, In k (fields l) -> lookup kwargs k = Some (Some (VStr (g k)))) /\ s = filled l g.
Proof.
  revert s. induction l as [|p l IH]; intros s.
  - cbn. split; [intros H; injection H as <-; exists (fun _ => ""); split; [intros k []|reflexivity]|intros (g & _ & ->); reflexivity].
  - destruct p as [t|k].
    + cbn [format filled]. unfold fields. cbn [flat_map app]. fold (fields l). destruct (format l kwargs) as [r|e] eqn:E; cbn [bind].
      * split.
        -- intros H. injection H as <-. destruct (proj1 (IH r) eq_refl) as (g & Hg & ->). exists g. split; [exact Hg|reflexivity].
        -- intros (g & Hg & ->). destruct (IH (filled l g)) as [_ K]. specialize (K (ex_intro _ g (conj Hg eq_refl))). injection K as ->. reflexivity.
      * split; [discriminate|]. intros (g & Hg & ->). destruct (IH (filled l g)) as [_ K]. specialize (K (ex_intro _ g (conj Hg eq_refl))). discriminate.
    + cbn [format filled]. unfold fields. cbn [flat_map app]. fold (fields l). split.
      * destruct (lookup kwargs k) as [[[t|q|a]|]|] eqn:Ek; try discriminate. destruct (format l kwargs) as [r|e] eqn:E; cbn [bind]; [|discriminate].
        intros H. injection H as <-. destruct (proj1 (IH r) eq_refl) as (g & Hg & ->).
        exists (fun k' => match lookup kwargs k' with Some (Some (VStr t)) => t | _ => "" end).
        assert (Hsame : forall m, (forall k', In k' (fields m) -> lookup kwargs k' = Some (Some (VStr (g k')))) ->
                  filled m (fun k' => match lookup kwargs k' with Some (Some (VStr t)) => t | _ => "" end) = filled m g).
        { induction m as [|[u|u] m IHm]; intros Hm; [reflexivity|cbn [filled]; rewrite IHm; [reflexivity|exact Hm]|].
          cbn [filled]. rewrite (Hm u (or_introl eq_refl)), IHm; [reflexivity|]. intros k' Hk'. apply Hm. right. exact Hk'. }
        split.
        -- intros k' [<-|Hk']; [rewrite Ek; reflexivity|rewrite (Hg k' Hk'); reflexivity].
        -- rewrite Ek, Hsame by exact Hg. reflexivity.
      * intros (g & Hg & ->). rewrite (Hg k (or_introl eq_refl)).
        destruct (IH (filled l g)) as [_ K]. rewrite (K (ex_intro _ g (conj (fun k' Hk' => Hg k' (or_intror Hk')) eq_refl))). reflexivity.
Qed.
Lemma format_missing l kwargs k : In k (fields l) -> lookup kwargs k = None -> exists e, format l kwargs = Err e.
Proof.
  intros Hk Hl. destruct (format l kwargs) as [s|e] eqn:E; [|exists e; reflexivity]. apply (proj1 (format_ok l kwargs s)) in E. destruct E as (g & Hg & _).
  rewrite (Hg k Hk) in Hl. discriminate.
Qed.
Lemma format_key l kwargs k : (forall k x, lookup kwargs k = Some x -> exists s, x = Some (VStr s)) -> In k (fields l) -> lookup kwargs k = None -> format l kwargs = Err KeyError.
Proof.
  intros Hs Hk Hl. induction l as [|[t|k0] l IH]; [destruct Hk|cbn [format]; rewrite IH by exact Hk; reflexivity|].
  cbn [format]. destruct (lookup kwargs k0) as [x|] eqn:E; [|reflexivity]. destruct (Hs k0 x E) as (s & ->).
  destruct Hk as [<-|Hk]; [congruence|]. rewrite IH by exact Hk. reflexivity.
Qed.
Lemma override_lookup kwargs : forall m k, NoDup (map fst kwargs) ->
  lookup (override m kwargs) k = match lookup kwargs k with Some x => x | None => lookup m k end.
Proof.
  induction kwargs as [|[k0 x] l IH]; intros m k Hn; [reflexivity|]. inversion Hn as [|? ? Hni Hnl]; subst.
  change (override m ((k0, x) :: l)) with (override (match x with Some v => store m k0 v | None => drop m k0 end) l). rewrite IH by exact Hnl. cbn [lookup].
  destruct (String.eqb_spec k0 k) as [<-|Hne].
  - assert (Hno : lookup l k0 = None) by (apply lookup_None; exact Hni). rewrite Hno.
    destruct x as [v|]; [rewrite lookup_store|rewrite lookup_drop]; rewrite String.eqb_refl; reflexivity.
  - destruct (lookup l k); [reflexivity|]. destruct x as [v|]; [rewrite lookup_store|rewrite lookup_drop]; destruct (String.eqb_spec k0 k); congruence.
Qed.
Lemma lookup_filter {V} (f : string -> bool) (l : list (string * V)) k : lookup (filter (fun kv => f (fst kv)) l) k = if f k then lookup l k else None.
Proof.
  induction l as [|[k0 x] l IH]; cbn [filter lookup fst]; [destruct (f k); reflexivity|]. destruct (f k0) eqn:E0; cbn [lookup]; rewrite IH.
  - destruct (String.eqb_spec k0 k) as [<-|]; [rewrite E0; reflexivity|reflexivity].
  - destruct (String.eqb_spec k0 k) as [<-|]; [rewrite E0; reflexivity|reflexivity].
Qed.
Lemma nodup_filter_fst {V} (f : string * V -> bool) (l : list (string * V)) : NoDup (map fst l) -> NoDup (map fst (filter f l)).
Proof.
  induction l as [|x l IH]; intros H; [constructor|]. inversion H as [|? ? Hni Hnl]; subst. cbn [filter]. destruct (f x); [|apply IH, Hnl].
  cbn [map]. constructor; [|apply IH, Hnl]. intros Hin. apply Hni. apply in_map_iff in Hin. destruct Hin as (y & Ey & Hy). apply filter_In in Hy.
  rewrite <- Ey. apply in_map, Hy.
Qed.
Lemma checked_ok kwargs : checked kwargs = Ok tt <-> forall k x, In (k, x) kwargs -> is_keyword k = true.
Proof.
  unfold checked. destruct (forallb _ kwargs) eqn:E.
  - split; [intros _ k x Hin|reflexivity]. rewrite forallb_forall in E. apply (E (k, x) Hin).
  - split; [discriminate|]. intros H. assert (Ht : forallb (fun kv => is_keyword (fst kv)) kwargs = true) by (apply forallb_forall; intros [k x] Hin; apply (H k x Hin)). congruence.
Qed.
Lemma checked_err kwargs : checked kwargs = Ok tt \/ checked kwargs = Err TypeError.
Proof. unfold checked. destruct (forallb _ kwargs); auto. Qed.
Lemma add_fields_grow l : forall ds ds', add_global_fields ds l = Ok ds' ->
  grows ds ds' /\ forall v values, In (v, values) l -> lookup (d_vars ds') (o_name v) = Some (written v ["time"; "latitude"; "longitude"] values).
Proof.
  induction l as [|[v values] l IH]; intros ds ds' H; cbn [add_global_fields] in H.
  - injection H as <-. split; [apply grows_refl|intros v values []].
  - unfold add_global_field in H. destruct (add_variable ds v _ values) as [ds1|] eqn:E; [|discriminate]. cbn [bind] in H.
    destruct (grows_variable ds v _ values ds1 E) as [Hg Hl]. destruct (IH ds1 ds' H) as (K2 & K3). split; [apply (grows_trans _ ds1); assumption|].
    intros v' values' [Hin|Hin]; [injection Hin as <- <-; apply K2, Hl|apply K3, Hin].
Qed.
Lemma zrange_nth n i : 0 <= i < n -> nth (Z.to_nat i) (zrange 0 n) 0 = i.
Proof.
  intros H. unfold zrange. set (g := fun k : nat => 0 + Z.of_nat k). rewrite (nth_indep _ 0 (g 0%nat)) by (rewrite map_length, seq_length; lia).
  rewrite map_nth, seq_nth by lia. unfold g. lia.
Qed.
Lemma linspace_nth a b n i : 0 <= i < n -> nth (Z.to_nat i) (linspace a b n) 0%Q = (a + inject_Z i * ((b - a) / inject_Z (n - 1)))%Q.
Proof.
  intros H. unfold linspace. set (f := fun i => (a + inject_Z i * ((b - a) / inject_Z (n - 1)))%Q).
  assert (Hl : (Z.to_nat i < length (zrange 0 n))%nat) by (pose proof (zlen_zrange 0 n); unfold zlen in *; lia).
  rewrite (nth_indep _ 0%Q (f 0)) by (rewrite map_length; exact Hl). rewrite map_nth. apply (f_equal f).
  apply zrange_nth, H.
Qed.
Lemma perform_status_grows b c b' : perform b c = Ok b' -> grows (b_status b) (b_status b').
Proof.
  intros E. destruct c as [names times|v values|n size|dim v values bounds]; cbn [perform] in E.
  - unfold set_temperature_dimensions in E.
    repeat match type of E with (do _ <- ?X; _) = _ => destruct X as [?t|]; cbn [bind] in E; [|discriminate] end. injection E as <-. apply grows_refl.
  - unfold add_temperature_variable in E. destruct (add_variable _ _ _ _); [|discriminate]. injection E as <-. apply grows_refl.
  - unfold add_status_dimension in E. destruct (add_dimension (b_status b) n size) as [s|] eqn:Ed; [|discriminate]. injection E as <-. cbn [b_status].
    apply (grows_dimension _ _ _ _ Ed).
  - unfold add_status_variable in E. destruct (add_variable (b_status b) v _ values) as [s|] eqn:Ed; [|discriminate]. injection E as <-. cbn [b_status].
    apply (grows_variable _ _ _ _ _ Ed).
Qed.
Lemma perform_status_lookup cs : forall b b', perform_all b cs = Ok b' ->
  grows (b_status b) (b_status b') /\
  (forall n size, In (AddStatusDimension n size) cs -> lookup (d_dims (b_status b')) n = Some size) /\
  (forall dim v values bounds, In (AddStatusVariable dim v values bounds) cs ->
     lookup (d_vars (b_status b')) (o_name v) = Some (written v (dim :: if bounds then ["bounds"] else []) values)).
Proof.
  induction cs as [|c cs IH]; intros b b' H; cbn [perform_all] in H.
  - injection H as <-. split; [apply grows_refl|split; [intros ? ? []|intros ? ? ? ? []]].
  - destruct (perform b c) as [b1|] eqn:E; [|discriminate]. cbn [bind] in H. destruct (IH b1 b' H) as (I1 & I2 & I3).
    split; [apply (grows_trans _ (b_status b1)); [apply (perform_status_grows b c b1 E)|exact I1]|split].
    + intros n size [->|Hin]; [|apply (I2 n size Hin)]. cbn [perform] in E. unfold add_status_dimension in E.
      destruct (add_dimension (b_status b) n size) as [s|] eqn:Ed; [|discriminate]. injection E as <-. cbn [b_status] in *.
      destruct (grows_dimension _ _ _ _ Ed) as (_ & K & _). apply I1, K.
    + intros dim v values bounds [->|Hin]; [|apply (I3 _ _ _ _ Hin)]. cbn [perform] in E. unfold add_status_variable in E.
      destruct (add_variable (b_status b) v _ values) as [s|] eqn:Ed; [|discriminate]. injection E as <-. cbn [b_status] in *.
      destruct (grows_variable _ _ _ _ _ Ed) as (_ & K). apply I1, K.
Qed.
(* a variable needs its dimensions first *)
Lemma variable_needs ds v dims values n : In n dims -> lookup (d_dims ds) n = None -> add_variable ds v dims values = Err KeyError.
Proof.
  intros Hin Hl. unfold add_variable. destruct (forallb (has (d_dims ds)) dims) eqn:E; [|reflexivity]. rewrite forallb_forall in E. specialize (E n Hin).
  apply has_spec in E. congruence.
Qed.
Lemma set_dimensions_grow b names times b' : set_temperature_dimensions b names times = Ok b' ->
  grows (b_temperature b) (b_temperature b') /\
  lookup (d_vars (b_temperature b')) "time" = Some (written TIME ["time"] times) /\
  lookup (d_vars (b_temperature b')) "timebounds" = Some (written TIME_BOUNDS ["time"; "bounds"] (flat_map (fun x => [x; (x + 1)%Q]) times)) /\
  lookup (d_vars (b_temperature b')) "station_name" = Some (written STATION_NAME ["station"; "name_strlen"] (map inject_Z (flat_map name_characters names))).
Proof.
  intros H. unfold set_temperature_dimensions, add_dimension_and_variable in H.
  destruct (add_dimension (b_temperature b) "station" (Some (zlen names))) as [t1|] eqn:E1; [|discriminate]; cbn [bind] in H.
  destruct (add_dimension t1 "name_strlen" (Some 32)) as [t2|] eqn:E2; [|discriminate]; cbn [bind] in H.
  destruct (add_variable t2 STATION_NAME _ _) as [t3|] eqn:E3; [|discriminate]; cbn [bind] in H.
  destruct (add_dimension t3 "time" None) as [t4|] eqn:E4; [|discriminate]; cbn [bind] in H.
  destruct (add_variable t4 TIME _ _) as [t5|] eqn:E5; [|discriminate]; cbn [bind] in H.
  destruct (add_dimension t5 "bounds" (Some 2)) as [t6|] eqn:E6; [|discriminate]; cbn [bind] in H.
  destruct (add_variable t6 TIME_BOUNDS _ _) as [t7|] eqn:E7; [|discriminate]; cbn [bind] in H. injection H as <-. cbn [b_temperature].
  destruct (grows_dimension _ _ _ _ E1) as (G1 & L1 & _). destruct (grows_dimension _ _ _ _ E2) as (G2 & _ & _).
  destruct (grows_variable _ _ _ _ _ E3) as (G3 & L3). destruct (grows_dimension _ _ _ _ E4) as (G4 & L4 & _).
  destruct (grows_variable _ _ _ _ _ E5) as (G5 & L5). destruct (grows_dimension _ _ _ _ E6) as (G6 & _ & _).
  destruct (grows_variable _ _ _ _ _ E7) as (G7 & L7).
  assert (G57 : grows t5 t7) by (apply (grows_trans _ t6); assumption).
  assert (G47 : grows t4 t7) by (apply (grows_trans _ t5); assumption).
  assert (G37 : grows t3 t7) by (apply (grows_trans _ t4); assumption).
  assert (G17 : grows t1 t7) by (apply (grows_trans _ t2); [assumption|apply (grows_trans _ t3); assumption]).
  split; [apply (grows_trans _ t1); assumption|]. split; [apply G57, L5|split; [exact L7|apply G37, L3]].
Qed.
Lemma perform_temperature_grow cs : forall b b', perform_all b cs = Ok b' ->
  ((forall names times, ~ In (SetTemperatureDimensions names times) cs) -> d_dims (b_temperature b') = d_dims (b_temperature b)) /\
  (forall names times, In (SetTemperatureDimensions names times) cs ->
     lookup (d_vars (b_temperature b')) "time" = Some (written TIME ["time"] times) /\
     lookup (d_vars (b_temperature b')) "timebounds" = Some (written TIME_BOUNDS ["time"; "bounds"] (flat_map (fun x => [x; (x + 1)%Q]) times)) /\
     lookup (d_vars (b_temperature b')) "station_name" = Some (written STATION_NAME ["station"; "name_strlen"] (map inject_Z (flat_map name_characters names)))) /\
  (forall v values, In (AddTemperatureVariable v values) cs -> lookup (d_vars (b_temperature b')) (o_name v) = Some (written v ["time"; "station"] values))
  /\ grows (b_temperature b) (b_temperature b').
Proof.
  induction cs as [|c cs IH]; intros b b' H; cbn [perform_all] in H.
  - injection H as <-. split; [reflexivity|split; [intros ? ? []|split; [intros ? ? []|apply grows_refl]]].
  - destruct (perform b c) as [b1|] eqn:E; [|discriminate]. cbn [bind] in H. destruct (IH b1 b' H) as (I1 & I2 & I3 & I4).
    assert (Hg : grows (b_temperature b) (b_temperature b1) /\
                 ((forall names times, c <> SetTemperatureDimensions names times) -> d_dims (b_temperature b1) = d_dims (b_temperature b))).
    { destruct c as [names times|v values|n size|dim v values bounds]; cbn [perform] in E.
      - split; [apply (set_dimensions_grow _ _ _ _ E)|intros K; destruct (K names times eq_refl)].
      - unfold add_temperature_variable in E. destruct (add_variable (b_temperature b) v _ values) as [t|] eqn:Ed; [|discriminate].
        injection E as <-. cbn [b_temperature]. split; [apply (grows_variable _ _ _ _ _ Ed)|]. apply add_variable_inv in Ed. destruct Ed as (_ & _ & ->). reflexivity.
      - unfold add_status_dimension in E. destruct (add_dimension _ _ _); [|discriminate]. injection E as <-. split; [apply grows_refl|reflexivity].
      - unfold add_status_variable in E. destruct (add_variable _ _ _ _); [|discriminate]. injection E as <-. split; [apply grows_refl|reflexivity]. }
    destruct Hg as [Hg Hd]. split; [|split; [|split; [|apply (grows_trans _ (b_temperature b1)); assumption]]].
    + intros Hno. rewrite I1 by (intros names times Hin; apply (Hno names times); right; exact Hin). apply Hd. intros names times ->. apply (Hno names times). left. reflexivity.
    + intros names times [->|Hin]; [|apply (I2 names times Hin)]. cbn [perform] in E. destruct (set_dimensions_grow _ _ _ _ E) as (_ & K1 & K2 & K3).
      destruct I4 as (_ & _ & G). split; [apply G, K1|split; [apply G, K2|apply G, K3]].
    + intros v values [->|Hin]; [|apply (I3 v values Hin)]. cbn [perform] in E. unfold add_temperature_variable in E.
      destruct (add_variable (b_temperature b) v _ values) as [t|] eqn:Ed; [|discriminate]. injection E as <-. cbn [b_temperature] in *.
      destruct (grows_variable _ _ _ _ _ Ed) as [_ K]. destruct I4 as (_ & _ & G). apply G, K.
Qed.
