(* Proofs for name patterns. *)
From Coq Require Import String Ascii.
From Verif Require Import Base Work_Model Work_Proofs Cat_Model Cat_Proofs Time_Model Time_Spec Time_Proofs Name_Model Name_Spec.
Local Open Scope Z_scope.
Local Open Scope list_scope.

Lemma dot_not_newline : "."%char <> NEWLINE.
Proof. discriminate. Qed.
#[local] Opaque NEWLINE.

Lemma field_eqb_spec f g : reflect (f = g) (field_eqb f g).
Proof. destruct f, g; cbn; constructor; congruence. Qed.

Lemma lookup_cons f v d g : lookup ((f, v) :: d) g = if field_eqb f g then Some v else lookup d g.
Proof. unfold lookup. cbn. destruct (field_eqb f g); reflexivity. Qed.

Lemma lookup_In d f v : lookup d f = Some v -> In (f, v) d.
Proof.
  induction d as [|[g w] d IH]; [discriminate|]. rewrite lookup_cons. destruct (field_eqb_spec g f) as [->|]; intros H.
  - injection H as ->. now left.
  - right. auto.
Qed.

Lemma lookup_None d f : lookup d f = None <-> ~ In f (map fst d).
Proof.
  induction d as [|[g w] d IH]; [cbn; tauto|]. rewrite lookup_cons. cbn. destruct (field_eqb_spec g f) as [->|N].
  - split; [discriminate|tauto].
  - rewrite IH. tauto.
Qed.

Lemma lookup_NoDup d f v : NoDup (map fst d) -> In (f, v) d -> lookup d f = Some v.
Proof.
  induction d as [|[g w] d IH]; [intros _ []|]. cbn [map fst]. intros ND [E|I]; rewrite lookup_cons.
  - injection E as -> ->. destruct (field_eqb_spec f f); congruence.
  - inversion ND as [|? ? N ND']; subst. destruct (field_eqb_spec g f) as [->|]; [|auto].
    exfalso. apply N. apply in_map_iff. exists (f, v). auto.
Qed.

Lemma lookup_app d d' f : lookup (d ++ d') f = match lookup d f with Some v => Some v | None => lookup d' f end.
Proof. induction d as [|[g w] d IH]; [reflexivity|]. cbn [app]. rewrite !lookup_cons. destruct (field_eqb g f); auto. Qed.

(* ------------------------------------------------------------------ what expressions match *)

Inductive rxspell : list rx -> fields -> string -> Prop :=
| rs_nil : rxspell [] [] ""
| rs_lit c e d s : rxspell e d s -> rxspell (RLit c :: e) d (String c s)
| rs_any c e d s : c <> NEWLINE -> rxspell e d s -> rxspell (RAny :: e) d (String c s)
| rs_num f n v e d s : numerals n v -> rxspell e d s -> rxspell (RNum f n :: e) ((f, v) :: d) (v ++ s)
| rs_star f v e d s : (forall a b, v <> (a ++ String NEWLINE b)%string) -> rxspell e d s -> rxspell (RStar f :: e) ((f, v) :: d) (v ++ s).

Lemma digit_value_numeral c : (exists x, digit_value c = Some x) <-> numeral c.
Proof.
  unfold digit_value, numeral. cbv zeta. destruct (_ && _) eqn:E.
  - split; [intros _; lia|eauto].
  - split; [intros [x X]; discriminate|lia].
Qed.

Lemma take_numerals_spec n s a b : take_numerals n s = Some (a, b) <-> s = (a ++ b)%string /\ numerals n a.
Proof.
  revert s a b. induction n as [|n IH]; intros s a b; cbn [take_numerals].
  - split; [intros E; injection E as <- <-; now split|]. intros [-> N]. destruct a; [reflexivity|destruct N].
  - destruct s as [|c s]; [split; [discriminate|]; intros [E N]; destruct a; [destruct N|discriminate]|].
    destruct (digit_value c) as [x|] eqn:Ec.
    + destruct (take_numerals n s) as [[a' b']|] eqn:Et.
      * apply IH in Et as [-> N]. split.
        -- intros E. injection E as <- <-. split; [reflexivity|]. cbn. split; [apply digit_value_numeral; eauto|assumption].
        -- intros [E N']. destruct a as [|c' a]; [destruct N'|]. cbn in E. injection E as <- E. destruct N' as [_ N'].
           assert (Some (a', b') = Some (a, b)) as X; [|congruence]. rewrite <- (proj2 (IH (a ++ b)%string a b)) by auto.
           rewrite <- E. symmetry. apply IH. auto.
      * split; [discriminate|]. intros [E N']. destruct a as [|c' a]; [destruct N'|]. cbn in E. injection E as <- E. destruct N' as [_ N'].
        rewrite (proj2 (IH s a b)) in Et; [discriminate|auto].
    + split; [discriminate|]. intros [E N']. destruct a as [|c' a]; [destruct N'|]. cbn in E. injection E as <- E. destruct N' as [N' _].
      apply digit_value_numeral in N' as [x X]. congruence.
Qed.

Lemma splits_spec s a b : In (a, b) (splits s) <-> s = (a ++ b)%string /\ (forall x y, a <> (x ++ String NEWLINE y)%string).
Proof.
  revert a b. induction s as [|c s IH]; intros a b; cbn [splits].
  - cbn [In]. split.
    + intros [E|[]]. injection E as <- <-. split; [reflexivity|]. intros [|] y; discriminate.
    + intros [E _]. left. destruct a; [|discriminate]. cbn in E. now subst.
  - rewrite in_app_iff. destruct (Ascii.eqb_spec c NEWLINE) as [->|N].
    + cbn [In]. split.
      * intros [[]|[E|[]]]. injection E as <- <-. split; [reflexivity|]. intros [|] y; discriminate.
      * intros [E H]. right. left. destruct a as [|c' a]; [cbn in E; now subst|]. cbn in E. injection E as <- E. destruct (H EmptyString a eq_refl).
    + rewrite in_map_iff. split.
      * intros [([a' b'] & E & I)|[E|[]]].
        -- cbn in E. injection E as <- <-. apply IH in I as [-> H]. split; [reflexivity|]. intros [|x0 x] y E; cbn in E; [congruence|].
           injection E as _ E. destruct (H x y E).
        -- injection E as <- <-. split; [reflexivity|]. intros [|] y; discriminate.
      * intros [E H]. destruct a as [|c' a].
        -- right. left. cbn in E. now subst.
        -- left. cbn in E. injection E as <- E. exists (a, b). split; [reflexivity|]. apply IH. split; [assumption|].
           intros x y X. apply (H (String c x) y). cbn. now rewrite X.
Qed.

Lemma matches_spec e s d r : In (d, r) (matches e s) <-> exists a, s = (a ++ r)%string /\ rxspell e d a.
Proof.
  revert s d r. induction e as [|x e IH]; intros s d r.
  - cbn. split.
    + intros [E|[]]. injection E as <- <-. exists EmptyString. split; [reflexivity|constructor].
    + intros (a & -> & R). left. inversion R; subst. reflexivity.
  - destruct x as [c| |f n|f]; cbn [matches].
    + split.
      * destruct s as [|c' s]; [intros []|]. destruct (Ascii.eqb_spec c c') as [<-|]; [|intros []]. intros I. apply IH in I as (a & -> & R).
        exists (String c a). split; [reflexivity|now constructor].
      * intros (a & -> & R). inversion R; subst. cbn. rewrite Ascii.eqb_refl. apply IH. eauto.
    + split.
      * destruct s as [|c' s]; [intros []|]. destruct (Ascii.eqb_spec c' NEWLINE) as [|N]; [intros []|]. intros I. apply IH in I as (a & -> & R).
        exists (String c' a). split; [reflexivity|now constructor].
      * intros (a & -> & R). inversion R as [| |c' ? ? ? N R'| |]; subst. cbn. destruct (Ascii.eqb_spec c' NEWLINE); [congruence|]. apply IH. eauto.
    + split.
      * destruct (take_numerals n s) as [[a b]|] eqn:E; [|intros []]. apply take_numerals_spec in E as [-> N]. rewrite in_map_iff.
        intros ([d' r'] & E & I). cbn in E. injection E as <- <-. apply IH in I as (a' & -> & R). exists (a ++ a')%string.
        rewrite string_app_assoc. split; [reflexivity|]. now constructor.
      * intros (a & -> & R). inversion R as [| | |? ? v ? d' a' N R'|]; subst. rewrite string_app_assoc.
        rewrite (proj2 (take_numerals_spec n (v ++ a' ++ r)%string v (a' ++ r)%string)) by auto. apply in_map_iff. exists (d', r).
        split; [reflexivity|]. apply IH. eauto.
    + rewrite in_flat_map. split.
      * intros ([a b] & I1 & I2). cbn in I2. apply in_map_iff in I2 as ([d' r'] & E & I2). cbn in E. injection E as <- <-.
        apply splits_spec in I1 as [-> N]. apply IH in I2 as (a' & -> & R). exists (a ++ a')%string. rewrite string_app_assoc.
        split; [reflexivity|]. now constructor.
      * intros (a & -> & R). inversion R as [| | | |? v ? d' a' N R']; subst. exists (v, (a' ++ r)%string). split.
        -- apply splits_spec. now rewrite string_app_assoc.
        -- cbn. apply in_map_iff. exists (d', r). split; [reflexivity|]. apply IH. eauto.
Qed.

Lemma rxspell_app e e' d s : rxspell (e ++ e') d s <-> exists d1 d2 s1 s2, d = d1 ++ d2 /\ s = (s1 ++ s2)%string /\ rxspell e d1 s1 /\ rxspell e' d2 s2.
Proof.
  revert d s. induction e as [|x e IH]; intros d s; cbn [app].
  - split.
    + intros R. exists [], d, EmptyString, s. repeat split; auto. constructor.
    + intros (d1 & d2 & s1 & s2 & -> & -> & R & R'). inversion R; subst. exact R'.
  - split.
    + intros R. inversion R; subst;
        match goal with H : rxspell (e ++ e') _ _ |- _ => apply IH in H as (d1 & d2 & s1 & s2 & -> & -> & R1 & R2) end.
      * exists d1, d2, (String c s1), s2. repeat split; auto. now constructor.
      * exists d1, d2, (String c s1), s2. repeat split; auto. now constructor.
      * exists ((f, v) :: d1), d2, (v ++ s1)%string, s2. rewrite string_app_assoc. repeat split; auto. now constructor.
      * exists ((f, v) :: d1), d2, (v ++ s1)%string, s2. rewrite string_app_assoc. repeat split; auto. now constructor.
    + intros (d1 & d2 & s1 & s2 & -> & -> & R & R'). inversion R; subst; cbn; rewrite ?string_app_assoc; constructor; auto; apply IH; eauto 10.
Qed.

Lemma value_rx_self v : rxspell (value_rx v) [] v.
Proof.
  induction v as [|c v IH]; cbn; [constructor|]. destruct (Ascii.eqb_spec c "."); [|now constructor].
  subst. constructor; [exact dot_not_newline|assumption].
Qed.

Lemma value_rx_only v d s : no_dot v -> rxspell (value_rx v) d s -> d = [] /\ s = v.
Proof.
  revert d s. induction v as [|c v IH]; intros d s N R; cbn in R.
  - inversion R; subst. auto.
  - assert (no_dot v) as N' by (intros a b E; apply (N (String c a) b); cbn; now rewrite E).
    destruct (Ascii.eqb_spec c "."); [subst; destruct (N EmptyString v eq_refl)|]. inversion R; subst.
    match goal with H : rxspell (value_rx v) _ _ |- _ => destruct (IH _ _ N' H) as [-> ->] end. auto.
Qed.

Lemma lower_no_dot v : no_dot v -> no_dot (lower v).
Proof.
  intros N. induction v as [|c v IH]; cbn; [exact N|]. intros [|x a] b E.
  - cbn in E. injection E as E _. unfold lower_char in E. cbv zeta in E. destruct (_ && _) eqn:C.
    + assert (nat_of_ascii (ascii_of_nat (nat_of_ascii c + 32)) = nat_of_ascii ".") as X by (now rewrite E).
      rewrite nat_ascii_embedding in X by lia. change (nat_of_ascii ".") with 46%nat in X. lia.
    + subst c. apply (N EmptyString v). reflexivity.
  - cbn in E. injection E as _ E. apply (IH (fun a0 b0 E0 => N (String c a0) b0 (f_equal (String c) E0)) a b E).
Qed.

Lemma string_ind2 (P : string -> Prop) :
  P EmptyString -> (forall c p, P p -> (forall x q, p = String x q -> P q) -> P (String c p)) -> forall p, P p.
Proof.
  intros H0 H1. assert (forall p, P p /\ forall x q, p = String x q -> P q) as H.
  { induction p as [|c p [IH1 IH2]]; [split; [assumption|discriminate]|]. split; [now apply H1|]. intros x q E. injection E as _ <-. assumption. }
  intros p. apply H.
Qed.

Definition plain_values (known : fields) : Prop := forall f v, lookup known f = Some v -> no_dot v.

Lemma directive_not_lower x f g : directive x = Some f -> lower_directive x = Some g -> False.
Proof.
  unfold directive, lower_directive. intros H.
  repeat match goal with |- context [Ascii.eqb x ?c] => destruct (Ascii.eqb_spec x c) as [->|]; [try discriminate|] end; discriminate.
Qed.

Lemma spelled_rx known p d s : spelled known p d s -> rxspell (make_search_expression p known) d s.
Proof.
  intros R. induction R; cbn [make_search_expression].
  - constructor.
  - cbn. now constructor.
  - destruct (Ascii.eqb_spec c ".") as [->|]; [now constructor|]. destruct (Ascii.eqb_spec c "?"); [congruence|].
    destruct (Ascii.eqb_spec c "%") as [->|]; [|now constructor]. destruct p as [|x q]; [inversion R; subst; repeat constructor|].
    destruct (directive x) eqn:D; [destruct (H0 x q f eq_refl eq_refl D)|]. destruct (lower_directive x) eqn:L; [|now constructor].
    destruct (lookup known f) eqn:K; [destruct (H1 x q f s0 eq_refl eq_refl L K)|]. now constructor.
  - cbn. rewrite H. unfold field_rx. rewrite H0. apply rxspell_app. exists [], d, v, s. repeat split; auto. apply value_rx_self.
  - cbn. destruct (directive x) eqn:D; [destruct (directive_not_lower _ _ _ D H)|]. rewrite H, H0. apply rxspell_app.
    exists [], d, (lower v), s. repeat split; auto. apply value_rx_self.
  - cbn. rewrite H. unfold field_rx. rewrite H0, H1. cbn. now constructor.
  - cbn. rewrite H. unfold field_rx. rewrite H0, H1. cbn. now constructor.
Qed.

Lemma rx_spelled known p d s : plain_values known -> rxspell (make_search_expression p known) d s -> spelled known p d s.
Proof.
  intros PV. revert d s. induction p as [|c p IH IH2] using string_ind2; intros d s R; cbn [make_search_expression] in R.
  - inversion R; subst. constructor.
  - destruct (Ascii.eqb_spec c ".") as [->|N1].
    { inversion R; subst. apply sp_same; auto; try discriminate. }
    destruct (Ascii.eqb_spec c "?") as [->|N2].
    { inversion R; subst. apply sp_any; auto. }
    destruct (Ascii.eqb_spec c "%") as [->|N3].
    2:{ inversion R; subst. apply sp_same; auto; try (intros; congruence). }
    destruct p as [|x q].
    { inversion R as [|? ? ? ? R'| | |]; subst. inversion R'; subst. apply sp_same; try discriminate. constructor. }
    specialize (IH2 x q eq_refl). destruct (directive x) as [f|] eqn:D.
    + apply rxspell_app in R as (d1 & d2 & s1 & s2 & -> & -> & R1 & R2). unfold field_rx in R1. destruct (lookup known f) as [v|] eqn:K.
      * destruct (value_rx_only v d1 s1 (PV _ _ K) R1) as [-> ->]. eapply sp_known; eauto.
      * destruct (width f) as [n|] eqn:W; inversion R1 as [| | |? ? v ? d' s' N R1'|? v ? d' s' N R1']; subst; inversion R1'; subst;
          rewrite string_app_nil_r; cbn.
        -- eapply sp_numerals; eauto.
        -- eapply sp_text; eauto.
    + assert (rxspell (RLit "%" :: make_search_expression (String x q) known) d s ->
              (forall f v, lower_directive x = Some f -> lookup known f <> Some v) -> spelled known (String "%" (String x q)) d s) as Lit.
      { intros R' NL. inversion R'; subst. apply sp_same; [discriminate| | |now apply IH].
        - intros x' q' f _ E. injection E as <- <-. congruence.
        - intros x' q' f v _ E. injection E as <- <-. apply NL. }
      destruct (lower_directive x) as [f|] eqn:L; [|apply Lit; [exact R|discriminate]].
      destruct (lookup known f) as [v|] eqn:K.
      * apply rxspell_app in R as (d1 & d2 & s1 & s2 & -> & -> & R1 & R2).
        destruct (value_rx_only _ d1 s1 (lower_no_dot _ (PV _ _ K)) R1) as [-> ->]. eapply sp_lower; eauto.
      * apply Lit; [exact R|]. intros g v E. injection E as <-. congruence.
Qed.

Lemma plain_nil : plain_values [].
Proof. intros f v. discriminate. Qed.

Lemma spelled_iff p d s : spelled [] p d s <-> rxspell (make_search_expression p []) d s.
Proof. split; [apply spelled_rx|apply rx_spelled, plain_nil]. Qed.

(* ------------------------------------------------------------------ expressions without text fields match in one way *)

Lemma rxspell_keys e d s : rxspell e d s -> map fst d = groups e.
Proof. induction 1; cbn; try assumption; [reflexivity| |]; now f_equal. Qed.

Definition fixed (e : list rx) : Prop := forall f, ~ In (RStar f) e.

Lemma matches_fixed e s : fixed e -> (length (matches e s) <= 1)%nat.
Proof.
  revert s. induction e as [|x e IH]; intros s F; [cbn; lia|]. assert (fixed e) as F' by (intros f I; apply (F f); now right).
  destruct x as [c| |f n|f]; cbn [matches].
  - destruct s; [cbn; lia|]. destruct (Ascii.eqb c a); [auto|cbn; lia].
  - destruct s; [cbn; lia|]. destruct (Ascii.eqb a NEWLINE); [cbn; lia|auto].
  - destruct (take_numerals n s) as [[a b]|]; [|cbn; lia]. rewrite map_length. auto.
  - destruct (F f). now left.
Qed.

Lemma re_match_In e s m : re_match e s = Some m -> In m (matches e s).
Proof. unfold re_match. destruct (matches e s); [discriminate|]. intros E. injection E as ->. now left. Qed.

Lemma re_match_fixed e d a r : fixed e -> rxspell e d a -> re_match e (a ++ r) = Some (d, r).
Proof.
  intros F R. pose proof (matches_fixed e (a ++ r) F) as L. assert (In (d, r) (matches e (a ++ r))) as I by (apply matches_spec; eauto).
  unfold re_match. destruct (matches e (a ++ r)) as [|m [|m' l]]; [destruct I| |cbn in L; lia]. destruct I as [->|[]]. reflexivity.
Qed.

Lemma re_match_exists e s : (exists d a r, s = (a ++ r)%string /\ rxspell e d a) -> exists m, re_match e s = Some m.
Proof.
  intros (d & a & r & -> & R). assert (In (d, r) (matches e (a ++ r))) as I by (apply matches_spec; eauto).
  unfold re_match. destruct (matches e (a ++ r)); [destruct I|]. cbn. eauto.
Qed.

(* ------------------------------------------------------------------ mentions *)

Lemma occurs_cons c d s y : occurs (String c (String d EmptyString)) (String y s) <-> (exists q, y = c /\ s = String d q) \/ occurs (String c (String d EmptyString)) s.
Proof.
  split.
  - intros (a & b & E). destruct a as [|x a]; cbn in E.
    + left. injection E as -> ->. eauto.
    + right. injection E as _ ->. exists a, b. reflexivity.
  - intros [(q & -> & ->)|(a & b & ->)]; [exists EmptyString, q; reflexivity|exists (String y a), b; reflexivity].
Qed.

Lemma directive_not_percent x f : directive x = Some f -> x <> "%"%char.
Proof. intros H ->. discriminate. Qed.
Lemma lower_not_percent x f : lower_directive x = Some f -> x <> "%"%char.
Proof. intros H ->. discriminate. Qed.

Lemma mentions_nil f : ~ mentions "" f.
Proof. intros (x & _ & a & b & E). destruct a; discriminate. Qed.

Lemma mentions_cons c p f : mentions (String c p) f <-> (exists x q, c = "%"%char /\ p = String x q /\ directive x = Some f) \/ mentions p f.
Proof.
  split.
  - intros (x & D & O). apply occurs_cons in O as [(q & -> & ->)|O]; [left; eauto|right; exists x; auto].
  - intros [(x & q & -> & -> & D)|(x & D & O)]; exists x; (split; [assumption|]); apply occurs_cons; eauto.
Qed.

Lemma value_rx_groups v : groups (value_rx v) = [].
Proof. induction v as [|c v IH]; [reflexivity|]. cbn. destruct (Ascii.eqb c "."); exact IH. Qed.

Lemma groups_app e e' : groups (e ++ e') = groups e ++ groups e'.
Proof. apply flat_map_app. Qed.

Lemma groups_mentions known p f : In f (groups (make_search_expression p known)) <-> mentions p f /\ lookup known f = None.
Proof.
  induction p as [|c p IH IH2] using string_ind2; cbn [make_search_expression].
  - cbn. split; [tauto|]. intros [M _]. destruct (mentions_nil f M).
  - rewrite mentions_cons.
    assert (c <> "%"%char -> ~ (exists x q, c = "%"%char /\ p = String x q /\ directive x = Some f)) as N0 by (intros N (x & q & E & _); congruence).
    destruct (Ascii.eqb_spec c ".") as [->|N1]. { cbn [groups flat_map app]. fold (groups (make_search_expression p known)). rewrite IH. assert ("."%char <> "%"%char) by discriminate. tauto. }
    destruct (Ascii.eqb_spec c "?") as [->|N2]. { cbn [groups flat_map app]. fold (groups (make_search_expression p known)). rewrite IH. assert ("?"%char <> "%"%char) by discriminate. tauto. }
    destruct (Ascii.eqb_spec c "%") as [->|N3]; [|cbn [groups flat_map app]; fold (groups (make_search_expression p known)); rewrite IH; tauto].
    destruct p as [|x q].
    { cbn. split; [tauto|]. intros [[(x & q & _ & E & _)|M] _]; [discriminate|destruct (mentions_nil f M)]. }
    specialize (IH2 x q eq_refl).
    assert (x <> "%"%char -> (mentions (String x q) f <-> mentions q f)) as Mq.
    { intros N. rewrite mentions_cons. split; [intros [(? & ? & E & _)|M]; [congruence|assumption]|auto]. }
    destruct (directive x) as [g|] eqn:D.
    + rewrite groups_app, in_app_iff, IH2. apply directive_not_percent in D as N. rewrite (Mq N). unfold field_rx. destruct (lookup known g) as [v|] eqn:K.
      * rewrite value_rx_groups. cbn. split; [tauto|]. intros [[(x' & q' & _ & E & D')|M] L]; [|tauto]. injection E as <- <-. congruence.
      * split.
        -- intros [I|I]; [|tauto]. assert (g = f) as -> by (destruct (width g); cbn in I; tauto). split; [left; eauto 6|assumption].
        -- intros [[(x' & q' & _ & E & D')|M] L]; [|tauto]. injection E as <- <-. left. assert (g = f) as -> by congruence. destruct (width f); cbn; auto.
    + assert (~ (exists x0 q0, "%"%char = "%"%char /\ String x q = String x0 q0 /\ directive x0 = Some f)) as N4.
      { intros (x' & q' & _ & E & D'). injection E as <- <-. congruence. }
      assert (In f (groups (RLit "%" :: make_search_expression (String x q) known)) <-> (exists x0 q0, "%"%char = "%"%char /\ String x q = String x0 q0 /\ directive x0 = Some f) \/ mentions (String x q) f /\ lookup known f = None) as Lit.
      { cbn [groups flat_map app]. fold (groups (make_search_expression (String x q) known)). rewrite IH. tauto. }
      destruct (lower_directive x) as [g|] eqn:L; [|rewrite Lit; tauto].
      destruct (lookup known g) as [v|]; [|rewrite Lit; tauto].
      rewrite groups_app, value_rx_groups. cbn [app]. rewrite IH2. apply lower_not_percent in L. rewrite (Mq L). tauto.
Qed.

Lemma star_group e f : In (RStar f) e -> In f (groups e).
Proof. intros I. apply in_flat_map. exists (RStar f). split; [assumption|now left]. Qed.

Lemma star_width known p f : In (RStar f) (make_search_expression p known) -> width f = None.
Proof.
  assert (forall v g, ~ In (RStar g) (value_rx v)) as NV.
  { induction v as [|c v IHv]; intros g; [intros []|]. cbn. destruct (Ascii.eqb c "."); intros [E|I]; try discriminate; now apply (IHv g). }
  induction p as [|c p IH IH2] using string_ind2; cbn [make_search_expression]; [intros []|].
  destruct (Ascii.eqb_spec c ".") as [->|N1]; [intros [E|I]; [discriminate|auto]|].
  destruct (Ascii.eqb_spec c "?") as [->|N2]; [intros [E|I]; [discriminate|auto]|].
  destruct (Ascii.eqb_spec c "%") as [->|N3]; [|intros [E|I]; [discriminate|auto]].
  destruct p as [|x q]; [intros [E|[]]; discriminate|]. specialize (IH2 x q eq_refl). destruct (directive x) as [g|].
  - rewrite in_app_iff. intros [I|I]; [|auto]. unfold field_rx in I. destruct (lookup known g); [now apply NV in I|].
    destruct (width g) eqn:W; destruct I as [E|[]]; [discriminate|]. injection E as ->. assumption.
  - destruct (lower_directive x) as [g|]; [|intros [E|I]; [discriminate|auto]]. destruct (lookup known g); [|intros [E|I]; [discriminate|auto]].
    rewrite in_app_iff. intros [I|I]; [now apply NV in I|auto].
Qed.

Lemma has_duplicate_NoDup l : has_duplicate l = false <-> NoDup l.
Proof.
  induction l as [|f l IH]; cbn; [split; [constructor|reflexivity]|]. rewrite orb_false_iff, IH. split.
  - intros [E N]. constructor; [|assumption]. intros I. assert (existsb (field_eqb f) l = true) as X; [|congruence].
    apply existsb_exists. exists f. split; [assumption|]. destruct (field_eqb_spec f f); congruence.
  - intros N. inversion N as [|? ? N1 N2]; subst. split; [|assumption]. apply not_true_is_false. intros X. apply existsb_exists in X as (g & I & E).
    destruct (field_eqb_spec f g); [subst; contradiction|discriminate].
Qed.

Lemma compile_ok e e' : compile e = Ok e' -> e' = e /\ NoDup (groups e).
Proof. unfold compile. destruct (has_duplicate _) eqn:H; [discriminate|]. intros E. injection E as <-. now apply has_duplicate_NoDup in H. Qed.

(* ------------------------------------------------------------------ keys of groups *)

Lemma str_length_app a b : String.length (a ++ b) = (String.length a + String.length b)%nat.
Proof. induction a as [|c a IH]; cbn; [reflexivity|]. now rewrite IH. Qed.

Lemma concat_cons s l : String.concat "" (s :: l) = (s ++ String.concat "" l)%string.
Proof. destruct l; cbn; [now rewrite string_app_nil_r|reflexivity]. Qed.

Definition total (v : field -> string) (fs : list field) : nat := fold_right (fun f n => (String.length (v f) + n)%nat) 0%nat fs.

Lemma concat_length v fs : String.length (String.concat "" (map v fs)) = total v fs.
Proof. induction fs as [|f fs IH]; [reflexivity|]. cbn [map]. rewrite concat_cons, str_length_app, IH. reflexivity. Qed.

Lemma total_lengths v v' fs : NoDup fs ->
  (forall f g, In f fs -> In g fs -> width f = None -> width g = None -> f = g) ->
  (forall f, In f fs -> width f <> None -> String.length (v f) = String.length (v' f)) ->
  total v fs = total v' fs -> forall f, In f fs -> String.length (v f) = String.length (v' f).
Proof.
  induction fs as [|f fs IH]; [intros _ _ _ _ f []|]. intros ND One Fx T. inversion ND as [|? ? NI ND']; subst. cbn in T.
  assert (forall g, In g fs -> String.length (v g) = String.length (v' g)) as Tail.
  { destruct (width f) eqn:W.
    - apply IH; auto; [intros a b Ha Hb; apply One; now right|intros a Ha; apply Fx; now right|].
      assert (String.length (v f) = String.length (v' f)) by (apply Fx; [now left|congruence]). unfold total. lia.
    - intros g Hg. apply Fx; [now right|]. intros Wg. assert (f = g) as <- by (apply One; auto; [now left|now right]). contradiction. }
  assert (total v fs = total v' fs) as Tt.
  { clear -Tail. induction fs as [|g fs IH]; [reflexivity|]. unfold total in *. cbn. rewrite (Tail g), IH; auto; [intros; apply Tail; now right|now left]. }
  unfold total in Tt. intros g [<-|I]; [lia|auto].
Qed.

Lemma concat_inj (v v' : field -> string) fs : (forall f, In f fs -> String.length (v f) = String.length (v' f)) ->
  String.concat "" (map v fs) = String.concat "" (map v' fs) -> forall f, In f fs -> v f = v' f.
Proof.
  induction fs as [|f fs IH]; [intros _ _ f []|]. cbn [map]. intros L. rewrite !concat_cons. intros E.
  apply string_app_split in E as [E1 E2]; [|apply L; now left]. intros g [<-|I]; [assumption|]. apply IH; auto. intros; apply L; now right.
Qed.

Lemma numerals_length n v : numerals n v -> String.length v = n.
Proof. revert v. induction n; intros [|c v]; cbn; try tauto; [intros [_ H]; f_equal; auto]. Qed.

Lemma rxspell_width known p d s f v n : rxspell (make_search_expression p known) d s -> In (f, v) d -> width f = Some n -> String.length v = n.
Proof.
  assert (forall e, (forall g k, In (RNum g k) e -> width g = Some k) -> (forall g, In (RStar g) e -> width g = None) ->
          forall d s, rxspell e d s -> In (f, v) d -> width f = Some n -> String.length v = n) as G.
  { intros e HN HS d' s' R. induction R; intros I W.
    - destruct I.
    - apply IHR; auto; intros; [apply HN|apply HS]; now right.
    - apply IHR; auto; intros; [apply HN|apply HS]; now right.
    - destruct I as [E|I].
      + injection E as -> ->. rewrite (HN f n0) in W by now left. injection W as ->. now apply numerals_length.
      + apply IHR; auto; intros; [apply HN|apply HS]; now right.
    - destruct I as [E|I].
      + injection E as -> ->. rewrite (HS f) in W by now left. discriminate.
      + apply IHR; auto; intros; [apply HN|apply HS]; now right. }
  intros R. apply (G (make_search_expression p known)) with (s := s); auto; [|apply star_width].
  clear. assert (forall w g k, ~ In (RNum g k) (value_rx w)) as NV.
  { induction w as [|c w IHw]; intros g k; [intros []|]. cbn. destruct (Ascii.eqb c "."); intros [E|I]; try discriminate; now apply (IHw g k). }
  intros g k. induction p as [|c p IH IH2] using string_ind2; cbn [make_search_expression]; [intros []|].
  destruct (Ascii.eqb_spec c ".") as [->|N1]; [intros [E|I]; [discriminate|auto]|].
  destruct (Ascii.eqb_spec c "?") as [->|N2]; [intros [E|I]; [discriminate|auto]|].
  destruct (Ascii.eqb_spec c "%") as [->|N3]; [|intros [E|I]; [discriminate|auto]].
  destruct p as [|x q]; [intros [E|[]]; discriminate|]. specialize (IH2 x q eq_refl). destruct (directive x) as [h|].
  - rewrite in_app_iff. intros [I|I]; [|auto]. unfold field_rx in I. destruct (lookup known h); [now apply NV in I|].
    destruct (width h) eqn:W; destruct I as [E|[]]; [|discriminate]. injection E as -> ->. assumption.
  - destruct (lower_directive x) as [h|]; [|intros [E|I]; [discriminate|auto]]. destruct (lookup known h); [|intros [E|I]; [discriminate|auto]].
    rewrite in_app_iff. intros [I|I]; [now apply NV in I|auto].
Qed.

Lemma fields_ext (d d' : fields) : NoDup (map fst d) -> map fst d = map fst d' -> (forall f, In f (map fst d) -> lookup d f = lookup d' f) -> d = d'.
Proof.
  revert d'. induction d as [|[f v] d IH]; intros [|[g w] d'] ND E H; try discriminate; [reflexivity|]. cbn in E. injection E as <- E.
  cbn [map fst] in ND. inversion ND as [|? ? N ND']; subst.
  assert (v = w) as ->. { specialize (H f (or_introl eq_refl)). rewrite !lookup_cons in H. destruct (field_eqb_spec f f); congruence. }
  f_equal. apply IH; auto. intros g I. specialize (H g (or_intror I)). rewrite !lookup_cons in H. destruct (field_eqb_spec f g) as [->|]; [contradiction|assumption].
Qed.

Section Order.
  Variable dict_order : list field -> list field.
  Hypothesis dict_order_perm : forall l, Permutation (dict_order l) l.

  Lemma hash_injective p d d' s s' :
    NoDup (groups (make_search_expression p [])) ->
    (forall f g, mentions p f -> mentions p g -> width f = None -> width g = None -> f = g) ->
    rxspell (make_search_expression p []) d s -> rxspell (make_search_expression p []) d' s' ->
    hash_string_dictionary dict_order d = hash_string_dictionary dict_order d' -> d = d'.
  Proof.
    intros ND One R R' H. pose proof (rxspell_keys _ _ _ R) as K. pose proof (rxspell_keys _ _ _ R') as K'.
    apply fields_ext; [congruence|congruence|]. unfold hash_string_dictionary, hash_string_list in H. rewrite K, K' in H.
    set (fs := dict_order (groups (make_search_expression p []))) in *. set (v := fun f => match lookup d f with Some v => v | None => EmptyString end) in *.
    set (v' := fun f => match lookup d' f with Some v => v | None => EmptyString end) in *.
    assert (forall f, In f fs <-> In f (groups (make_search_expression p []))) as Ifs.
    { intros f. split; apply Permutation_in; [apply dict_order_perm|symmetry; apply dict_order_perm]. }
    assert (forall d0 s0 f, rxspell (make_search_expression p []) d0 s0 -> In f fs -> exists w, lookup d0 f = Some w) as Has.
    { intros d0 s0 f R0 If. destruct (lookup d0 f) eqn:E; [eauto|]. apply lookup_None in E. exfalso. apply E. rewrite (rxspell_keys _ _ _ R0). now apply Ifs. }
    assert (forall f, In f fs -> v f = v' f) as V.
    { apply concat_inj; [|exact H]. apply total_lengths.
      - eapply Permutation_NoDup; [symmetry; apply dict_order_perm|assumption].
      - intros f g If Ig. apply One; apply groups_mentions with (known := []); now apply Ifs.
      - intros f If W. destruct (width f) as [n|] eqn:Wf; [|congruence]. unfold v, v'.
        destruct (Has d s f R If) as [w Ew]. destruct (Has d' s' f R' If) as [w' Ew']. rewrite Ew, Ew'.
        rewrite (rxspell_width [] p d s f w n R (lookup_In _ _ _ Ew) Wf). now rewrite (rxspell_width [] p d' s' f w' n R' (lookup_In _ _ _ Ew') Wf).
      - rewrite <- !concat_length. now rewrite H. }
    intros f If. rewrite K in If. apply Ifs in If. specialize (V f If). unfold v, v' in V.
    destruct (Has d s f R If) as [w Ew]. destruct (Has d' s' f R' If) as [w' Ew']. rewrite Ew, Ew' in *. congruence.
  Qed.

  Local Notation group := (string * (fields * list (string * string)))%type.

  (* Every member of a group matched, with the group's key; and the group's values are those of one of its members. *)
  Definition group_ok (e : list rx) (g : group) : Prop :=
    (exists n r, re_match e n = Some (fst (snd g), r) /\ hash_string_dictionary dict_order (fst (snd g)) = fst g) /\
    forall n r, In (n, r) (snd (snd g)) -> exists v, re_match e n = Some (v, r) /\ hash_string_dictionary dict_order v = fst g.

  Lemma insert_group_ok e n v r gs : re_match e n = Some (v, r) -> Forall (group_ok e) gs ->
    Forall (group_ok e) (insert_group (hash_string_dictionary dict_order v) v (n, r) gs).
  Proof.
    intros M F. induction gs as [|[k [w es]] gs IH]; cbn [insert_group].
    - constructor; [|constructor]. split; cbn; [eauto|]. intros n' r' [E|[]]. injection E as <- <-. eauto.
    - inversion F as [|? ? G F']; subst. destruct (String.eqb_spec k (hash_string_dictionary dict_order v)) as [->|].
      + constructor; [|assumption]. destruct G as [G1 G2]. split; [exact G1|]. cbn in *. intros n' r' I. apply in_app_iff in I as [I|[E|[]]]; [eauto|].
        injection E as <- <-. eauto.
      + constructor; [exact G|auto].
  Qed.

  Lemma parent_groups_ok e names : Forall (group_ok e) (parent_groups dict_order e names).
  Proof.
    unfold parent_groups. assert (Forall (group_ok e) []) as H by constructor. revert H. generalize (@nil group). induction names as [|n names IH]; intros gs F; [assumption|].
    cbn [fold_left]. apply IH. destruct (re_match e n) as [[v r]|] eqn:M; [|assumption]. now apply insert_group_ok.
  Qed.

  Definition members (gs : list group) : list (string * string) := flat_map (fun g => snd (snd g)) gs.

  Lemma insert_members k v n gs : Permutation (members (insert_group k v n gs)) (members gs ++ [n]).
  Proof.
    induction gs as [|[k' [w es]] gs IH]; cbn [insert_group]; [reflexivity|]. unfold members in *. destruct (String.eqb k' k).
    - cbn [flat_map snd]. rewrite <- !app_assoc. apply Permutation_app_head. apply Permutation_app_comm.
    - cbn [flat_map snd]. rewrite IH. now rewrite app_assoc.
  Qed.

  Lemma parent_members e names :
    Permutation (members (parent_groups dict_order e names))
                (flat_map (fun n => match re_match e n with Some (_, r) => [(n, r)] | None => [] end) names).
  Proof.
    unfold parent_groups. change (flat_map _ names) with (members [] ++ flat_map (fun n => match re_match e n with Some (_, r) => [(n, r)] | None => [] end) names).
    generalize (@nil group). induction names as [|n names IH]; intros gs; cbn [fold_left flat_map]; [now rewrite app_nil_r|].
    rewrite IH. destruct (re_match e n) as [[v r]|]; [|reflexivity]. rewrite insert_members. now rewrite <- app_assoc.
  Qed.
End Order.

(* ------------------------------------------------------------------ the search *)

Lemma mapM_In {A B} (f : A -> result B) l ys y : mapM f l = Ok ys -> In y ys -> exists x, In x l /\ f x = Ok y.
Proof.
  intros E I. apply mapM_ok_Forall2 in E. apply In_nth_error in I as [n I]. destruct (Forall2_nth_r _ _ _ _ _ E I) as (x & Hx & Ex).
  exists x. split; [eapply nth_error_In; eassumption|assumption].
Qed.

Lemma mapM_In_l {A B} (f : A -> result B) l ys x : mapM f l = Ok ys -> In x l -> exists y, In y ys /\ f x = Ok y.
Proof.
  intros E I. apply mapM_ok_Forall2 in E. apply In_nth_error in I as [n I]. destruct (Forall2_nth_l _ _ _ _ _ E I) as (y & Hy & Ey).
  exists y. split; [eapply nth_error_In; eassumption|assumption].
Qed.

Lemma child_In child g found name d : child_matches child g = Ok found -> In (name, d) found ->
  exists rem v r, In (name, rem) (snd g) /\ re_match (make_search_expression child (fst g)) rem = Some (v, r) /\ d = v ++ fst g.
Proof.
  unfold child_matches. destruct (compile _) as [e|] eqn:C; [|discriminate]. apply compile_ok in C as [-> _]. cbn [bind]. intros E. injection E as <-.
  intros I. apply in_flat_map in I as ([n rem] & I1 & I2). cbn [fst snd] in I2. destruct (re_match _ rem) as [[v r]|] eqn:M; [|destruct I2].
  destruct I2 as [E|[]]. injection E as <- <-. eauto 8.
Qed.

Lemma child_In_intro child g found name rem v r : child_matches child g = Ok found -> In (name, rem) (snd g) ->
  re_match (make_search_expression child (fst g)) rem = Some (v, r) -> In (name, v ++ fst g) found.
Proof.
  unfold child_matches. destruct (compile _) as [e|] eqn:C; [|discriminate]. apply compile_ok in C as [-> _]. cbn [bind]. intros E. injection E as <-.
  intros I M. apply in_flat_map. exists (name, rem). split; [assumption|]. cbn [fst snd]. rewrite M. now left.
Qed.

Lemma single_In dict_order traversal child names found name d :
  nested_search_patterns dict_order traversal [child] names = Ok found -> In (name, d) found ->
  In name names /\ exists r, re_match (make_search_expression child []) name = Some (d, r).
Proof.
  cbn [nested_search_patterns]. intros E I. destruct (child_In _ _ _ _ _ E I) as (rem & v & r & I1 & M & ->). cbn [fst snd] in *.
  apply in_map_iff in I1 as (n & E1 & I1). injection E1 as <- <-. rewrite app_nil_r. eauto.
Qed.

Section Search.
  Variable dict_order : list field -> list field.
  Variable traversal : list (string * (fields * list (string * string))) -> list (string * (fields * list (string * string))).
  Hypothesis dict_order_perm : forall l, Permutation (dict_order l) l.
  Hypothesis traversal_perm : forall l, Permutation (traversal l) l.

  Lemma two_inv parent child names found : nested_search_patterns dict_order traversal [parent; child] names = Ok found ->
    NoDup (groups (make_search_expression parent [])) /\
    exists fs, mapM (fun kg => child_matches child (snd kg)) (traversal (parent_groups dict_order (make_search_expression parent []) names)) = Ok fs /\ found = concat fs.
  Proof.
    cbn [nested_search_patterns]. destruct (compile _) as [e|] eqn:C; [|discriminate]. apply compile_ok in C as [-> ND]. cbn [bind].
    destruct (mapM _ _) as [fs|] eqn:M; [|discriminate]. cbn [bind]. intros E. injection E as <-. eauto.
  Qed.

  (* The group's values come from the match of the name itself if keys are injective. *)
  Lemma two_In parent child names found name d :
    nested_search_patterns dict_order traversal [parent; child] names = Ok found ->
    (forall f g, mentions parent f -> mentions parent g -> width f = None -> width g = None -> f = g) ->
    In (name, d) found ->
    In name names /\ exists va vb rem r, re_match (make_search_expression parent []) name = Some (va, rem) /\
      re_match (make_search_expression child va) rem = Some (vb, r) /\ d = vb ++ va.
  Proof.
    intros E One I. apply two_inv in E as (ND & fs & M & ->). apply in_concat in I as (f & If & I).
    destruct (mapM_In _ _ _ _ M If) as ([k g] & Ig & Eg). cbn [snd] in Eg. apply (Permutation_in _ (traversal_perm _)) in Ig.
    destruct (child_In _ _ _ _ _ Eg I) as (rem & v & r & I1 & M1 & ->).
    pose proof (parent_groups_ok dict_order (make_search_expression parent []) names) as G. rewrite Forall_forall in G. specialize (G _ Ig).
    destruct G as [(n0 & r0 & M0 & H0) G]. cbn [fst snd] in *. destruct (G _ _ I1) as (va & Ma & Ha).
    assert (va = fst g) as ->.
    { apply re_match_In, matches_spec in Ma as (a & _ & Ra). apply re_match_In, matches_spec in M0 as (a0 & _ & R0).
      eapply hash_injective; eauto. congruence. }
    split; [|eauto 8].
    assert (In (name, rem) (members (parent_groups dict_order (make_search_expression parent []) names))) as I2.
    { apply in_flat_map. exists (k, g). split; assumption. }
    apply (Permutation_in _ (parent_members dict_order _ names)) in I2. apply in_flat_map in I2 as (n & In1 & In2).
    destruct (re_match _ n) as [[? ?]|]; [|destruct In2]. destruct In2 as [X|[]]. congruence.
  Qed.

  Lemma two_In_intro parent child names found name va rem vb r :
    nested_search_patterns dict_order traversal [parent; child] names = Ok found ->
    (forall f g, mentions parent f -> mentions parent g -> width f = None -> width g = None -> f = g) ->
    In name names -> re_match (make_search_expression parent []) name = Some (va, rem) ->
    re_match (make_search_expression child va) rem = Some (vb, r) -> In (name, vb ++ va) found.
  Proof.
    intros E One I Ma Mb. apply two_inv in E as (ND & fs & M & ->).
    assert (In (name, rem) (members (parent_groups dict_order (make_search_expression parent []) names))) as I2.
    { apply (Permutation_in _ (Permutation_sym (parent_members dict_order _ names))). apply in_flat_map. exists name. split; [assumption|]. rewrite Ma. now left. }
    apply in_flat_map in I2 as ([k g] & Ig & I2). cbn [snd] in I2.
    pose proof (parent_groups_ok dict_order (make_search_expression parent []) names) as G. rewrite Forall_forall in G. specialize (G _ Ig).
    destruct G as [(n0 & r0 & M0 & H0) G]. cbn [fst snd] in *. destruct (G _ _ I2) as (va' & Ma' & Ha').
    assert (va' = va) as -> by congruence.
    assert (va = fst g) as ->.
    { apply re_match_In, matches_spec in Ma as (a & _ & Ra). apply re_match_In, matches_spec in M0 as (a0 & _ & R0).
      eapply hash_injective; eauto. congruence. }
    apply (Permutation_in _ (Permutation_sym (traversal_perm _))) in Ig. destruct (mapM_In_l _ _ _ _ M Ig) as (f & If & Ef). cbn [snd] in Ef.
    apply in_concat. exists f. split; [assumption|]. eapply child_In_intro; eauto.
  Qed.
End Search.

Lemma tagless_fixed known p : (forall f, mentions p f -> width f <> None) -> fixed (make_search_expression p known).
Proof. intros T f I. pose proof (star_width _ _ _ I) as W. apply star_group, groups_mentions in I as [M _]. exact (T f M W). Qed.

Lemma numerals_no_dot n v : numerals n v -> no_dot v.
Proof.
  revert v. induction n as [|n IH]; intros [|c v]; cbn; try tauto.
  - intros _ [|] b; discriminate.
  - intros [N Ns] [|x a] b E; cbn in E; injection E as E1 E2.
    + subst c. unfold numeral in N. cbn in N. lia.
    + exact (IH v Ns a b E2).
Qed.

Lemma tagless_plain known p d s : (forall f, mentions p f -> width f <> None) -> spelled known p d s -> plain_values d.
Proof.
  intros T R. apply spelled_rx in R. pose proof (tagless_fixed known p T) as F. revert F R. generalize (make_search_expression p known) as e.
  intros e F R. induction R; intros g w L.
  - discriminate.
  - apply IHR with g; auto. intros h I; apply (F h); now right.
  - apply IHR with g; auto. intros h I; apply (F h); now right.
  - rewrite lookup_cons in L. destruct (field_eqb f g); [injection L as <-; eapply numerals_no_dot; eauto|]. apply IHR with g; auto. intros h I; apply (F h); now right.
  - destruct (F f). now left.
Qed.

(* ------------------------------------------------------------------ names made by steps *)

Definition kind (k : fieldname) : field :=
  match k with FY => Year | Fm => Month | Fd => Day | FH => Hour | FM => Minute | FS => Second end.

Lemma directive_letter k : directive (letter k) = Some (kind k).
Proof. destruct k; reflexivity. Qed.

Lemma directive_inv x f : directive x = Some f -> (exists k, x = letter k /\ f = kind k) \/ width f = None.
Proof.
  unfold directive. intros H.
  repeat match type of H with context [Ascii.eqb x ?c] => destruct (Ascii.eqb_spec x c) as [->|];
    [injection H as <-; solve [right; reflexivity | left; solve [exists FY; auto | exists Fm; auto | exists Fd; auto | exists FH; auto | exists FM; auto | exists FS; auto]]|] end.
  discriminate.
Qed.

Definition letter_first (is : list item) : Prop := exists k r, is = C (letter k) :: r.

Lemma subst_letter_first k is : letter_first (subst_field k is) -> letter_first is.
Proof.
  intros (k' & r & E). destruct is as [|[a|k1] is]; [discriminate| |discriminate]. destruct is as [|[b|k1] is].
  - rewrite subst_field_C1 in E. injection E as ->. exists k', []. reflexivity.
  - rewrite subst_field_CC in E. destruct (_ && _); [discriminate|]. injection E as -> _. exists k', (C b :: is). reflexivity.
  - rewrite subst_field_CD in E. injection E as -> _. exists k', (D k1 :: is). reflexivity.
Qed.

Lemma subst_char k a is : ~ (a = "%"%char /\ letter_first is) -> subst_field k (C a :: is) = C a :: subst_field k is.
Proof.
  intros N. destruct is as [|[b|k1] is]; [reflexivity| |reflexivity]. rewrite subst_field_CC.
  destruct (Ascii.eqb_spec a "%") as [->|]; [|reflexivity]. destruct (Ascii.eqb_spec b (letter k)) as [->|]; [|reflexivity].
  destruct N. split; [reflexivity|]. exists k, is. reflexivity.
Qed.

Lemma subst_other k k' is : k <> k' -> subst_field k' (C "%" :: C (letter k) :: is) = C "%" :: C (letter k) :: subst_field k' is.
Proof.
  intros N. rewrite subst_field_CC, Ascii.eqb_refl. cbn [andb]. destruct (Ascii.eqb_spec (letter k) (letter k')) as [E|_]; [apply letter_inj in E; congruence|].
  rewrite subst_char; [reflexivity|]. intros [E _]. destruct (letter_not_percent _ E).
Qed.

Lemma subst_this k is : subst_field k (C "%" :: C (letter k) :: is) = D k :: subst_field k is.
Proof. rewrite subst_field_CC, !Ascii.eqb_refl. reflexivity. Qed.

Lemma items_char c p : ~ (c = "%"%char /\ exists k q, p = String (letter k) q) -> items (String c p) = C c :: items p.
Proof.
  intros N. unfold items. cbn [chars].
  assert (~ (c = "%"%char /\ letter_first (chars p))) as N0.
  { intros [E (k & r & E')]. apply N. split; [assumption|]. destruct p as [|x q]; [discriminate|]. cbn in E'. injection E' as -> _. eauto. }
  rewrite subst_char by assumption.
  do 5 (rewrite subst_char; [|intros [E L]; apply N0; split; [assumption|]; repeat apply subst_letter_first in L; assumption]). reflexivity.
Qed.

Lemma items_field_at k p : items (String "%" (String (letter k) p)) = D k :: items p.
Proof.
  unfold items. cbn [chars].
  destruct k;
  repeat first [ rewrite (subst_other FY) by discriminate | rewrite (subst_other Fm) by discriminate | rewrite (subst_other Fd) by discriminate
               | rewrite (subst_other FH) by discriminate | rewrite (subst_other FM) by discriminate | rewrite (subst_other FS) by discriminate
               | rewrite subst_this | rewrite subst_field_D ];
  reflexivity.
Qed.

Lemma build_pattern_nil t : build_from_pattern "" t = EmptyString.
Proof. now rewrite build_from_pattern_render. Qed.

Lemma build_pattern_char c p t : ~ (c = "%"%char /\ exists k q, p = String (letter k) q) ->
  build_from_pattern (String c p) t = String c (build_from_pattern p t).
Proof. intros N. rewrite !build_from_pattern_render, items_char by assumption. reflexivity. Qed.

Lemma build_pattern_field k p t : build_from_pattern (String "%" (String (letter k) p)) t = (shown k t ++ build_from_pattern p t)%string.
Proof. rewrite !build_from_pattern_render, items_field_at. reflexivity. Qed.

Lemma is_letter x : (exists k, x = letter k) \/ (forall k, x <> letter k).
Proof.
  destruct (Ascii.eqb_spec x "Y"); [left; now exists FY|]. destruct (Ascii.eqb_spec x "m"); [left; now exists Fm|].
  destruct (Ascii.eqb_spec x "d"); [left; now exists Fd|]. destruct (Ascii.eqb_spec x "H"); [left; now exists FH|].
  destruct (Ascii.eqb_spec x "M"); [left; now exists FM|]. destruct (Ascii.eqb_spec x "S"); [left; now exists FS|].
  right. intros [| | | | |]; assumption.
Qed.

Lemma build_pattern_slash p t : build_from_pattern (p ++ "/") t = (build_from_pattern p t ++ "/")%string.
Proof.
  induction p as [|c p IH IH2] using string_ind2.
  - cbn [append]. rewrite build_pattern_nil, build_pattern_char, build_pattern_nil; [reflexivity|]. intros [E _]. discriminate.
  - cbn [append]. destruct (Ascii.eqb_spec c "%") as [->|N].
    + destruct p as [|x q].
      * cbn [append] in *. rewrite !build_pattern_char; [cbn [append]; rewrite !build_pattern_nil; reflexivity| | |]; intros [E (k & q & E')]; try discriminate.
        injection E' as E' _. destruct k; discriminate.
      * cbn [append]. destruct (is_letter x) as [[k ->]|NL].
        -- rewrite !build_pattern_field, (IH2 _ _ eq_refl), string_app_assoc. reflexivity.
        -- rewrite !(build_pattern_char "%"); [cbn [append] in IH |- *; now rewrite IH| |];
             intros [_ (k & q' & E)]; injection E as E _; exact (NL k E).
    + rewrite !build_pattern_char by (intros [E _]; congruence). cbn [append]. now rewrite IH.
Qed.

Lemma shown_numerals k t : exists n, width (kind k) = Some n /\ numerals n (shown k t).
Proof.
  assert (forall m, numerals 2 (pad2 m)) as P2 by (intros m; cbn; repeat split; apply digit_numeral; lia).
  destruct k; cbn [kind width shown]; eexists; (split; [reflexivity|]); try apply P2.
  unfold pad4. cbn. repeat split; apply digit_numeral; lia.
Qed.

Lemma build_spelled known p t :
  (forall f, mentions p f -> width f <> None) ->
  (forall k v, lookup known (kind k) = Some v -> v = shown k t) -> (forall f, width f = None -> lookup known f = None) ->
  exists d, spelled known p d (build_from_pattern p t) /\ (forall f v, In (f, v) d -> exists k, f = kind k /\ v = shown k t) /\
            (forall f, mentions p f -> In f (map fst d) \/ lookup known f <> None).
Proof.
  intros T K1 K2. induction p as [|c p IH IH2] using string_ind2.
  - exists []. rewrite build_pattern_nil. split; [constructor|]. split; [intros f v []|]. intros f M. destruct (mentions_nil f M).
  - assert (forall f, mentions p f -> width f <> None) as Tp by (intros f M; apply T, mentions_cons; auto).
    specialize (IH Tp). destruct IH as (d & R & V & M).
    assert (~ (c = "%"%char /\ exists k q, p = String (letter k) q) ->
            exists d, spelled known (String c p) d (build_from_pattern (String c p) t) /\ (forall f v, In (f, v) d -> exists k, f = kind k /\ v = shown k t) /\
            (forall f, mentions (String c p) f -> In f (map fst d) \/ lookup known f <> None)) as Char.
    { intros N. exists d. rewrite build_pattern_char by assumption. split.
      - destruct (Ascii.eqb_spec c "?") as [->|N2]; [apply sp_any; [discriminate|assumption]|]. apply sp_same; auto.
        + intros x q f -> -> D. destruct (directive_inv _ _ D) as [(k & -> & _)|W]; [apply N; eauto|].
          apply (T f); [|assumption]. apply mentions_cons. left. eauto.
        + intros x q f v -> -> L E. rewrite K2 in E; [discriminate|]. unfold lower_directive in L.
          repeat match type of L with context [Ascii.eqb x ?y] => destruct (Ascii.eqb x y); [injection L as <-; reflexivity|] end. discriminate.
      - split; [assumption|]. intros f Mf. apply mentions_cons in Mf as [(x & q & -> & -> & D)|Mf]; [|auto].
        destruct (directive_inv _ _ D) as [(k & -> & _)|W]; [destruct N; eauto|]. exfalso. apply (T f); [|assumption]. apply mentions_cons. left. eauto. }
    destruct (Ascii.eqb_spec c "%") as [->|N]; [|apply Char; tauto].
    destruct p as [|x q]; [apply Char; intros [_ (k & q & E)]; discriminate|].
    destruct (is_letter x) as [[k ->]|NL]; [|apply Char; intros [_ (k & q' & E)]; injection E as E _; exact (NL k E)].
    assert (forall f, mentions q f -> width f <> None) as Tq by (intros f Mf; apply Tp, mentions_cons; auto).
    destruct (IH2 _ _ eq_refl Tq) as (d' & R' & V' & M'). rewrite build_pattern_field.
    destruct (shown_numerals k t) as (n & W & Nn). destruct (lookup known (kind k)) as [v|] eqn:L.
    + exists d'. split; [|split; [assumption|]].
      * rewrite <- (K1 k v L). eapply sp_known; [apply directive_letter|exact L|exact R'].
      * intros f Mf. apply mentions_cons in Mf as [(x & q' & _ & E & D)|Mf].
        -- injection E as <- <-. rewrite directive_letter in D. injection D as <-. right. congruence.
        -- apply mentions_cons in Mf as [(x & q' & E & _)|Mf]; [destruct (letter_not_percent _ E)|auto].
    + exists ((kind k, shown k t) :: d'). split; [|split].
      * eapply sp_numerals; eauto. apply directive_letter.
      * intros f v [E|I]; [injection E as <- <-; eauto|auto].
      * intros f Mf. apply mentions_cons in Mf as [(x & q' & _ & E & D)|Mf].
        -- injection E as <- <-. rewrite directive_letter in D. injection D as <-. left. now left.
        -- apply mentions_cons in Mf as [(x & q' & E & _)|Mf]; [destruct (letter_not_percent _ E)|]. destruct (M' f Mf) as [I|I]; [left; now right|auto].
Qed.

Lemma digit_value_digit d : 0 <= d <= 9 -> digit_value (digit d) = Some d.
Proof. intros H. unfold digit_value. rewrite nat_of_digit by assumption. cbv zeta. destruct (_ && _) eqn:E; [f_equal; lia|lia]. Qed.

Lemma int_of_pad2 n : 0 <= n <= 99 -> int_of 0 (pad2 n) = n.
Proof. intros H. unfold pad2. cbn [int_of]. rewrite !digit_value_digit by lia. lia. Qed.
Lemma int_of_pad4 n : 0 <= n <= 9999 -> int_of 0 (pad4 n) = n.
Proof. intros H. unfold pad4, pad2. cbn [append int_of]. rewrite !digit_value_digit by lia. lia. Qed.

Lemma parse_shown d t : valid_datetime t = true ->
  (forall f v, In (f, v) d -> exists k, f = kind k /\ v = shown k t) ->
  In Year (map fst d) -> In Month (map fst d) -> In Day (map fst d) ->
  exists u, parse_fields d = Ok (Some u) /\ date_of u = date_of t /\ valid_datetime u = true /\ tags_of d = [] /\
            dt_hour u = (if lookup d Hour then dt_hour t else 0) /\ dt_minute u = (if lookup d Minute then dt_minute t else 0) /\
            dt_second u = (if lookup d Second then dt_second t else 0) /\ u mod SECOND = 0.
Proof.
  intros Vt V IY Im Id. apply valid_year in Vt as Y. pose proof (fields_range t) as F.
  assert (forall k, lookup d (kind k) = None \/ lookup d (kind k) = Some (shown k t)) as L.
  { intros k. destruct (lookup d (kind k)) as [v|] eqn:E; [|auto]. right. apply lookup_In in E. destruct (V _ _ E) as (k' & Ek & ->). destruct k, k'; try discriminate; reflexivity. }
  assert (forall f, In f (map fst d) -> lookup d f <> None) as P by (intros f I E; apply lookup_None in E; contradiction).
  assert (forall f, width f = None -> lookup d f = None) as Tg.
  { intros f W. destruct (lookup d f) eqn:E; [|reflexivity]. apply lookup_In in E. destruct (V _ _ E) as (k & -> & _). destruct k; discriminate. }
  pose proof (L FY) as LY. pose proof (L Fm) as Lm. pose proof (L Fd) as Ld. pose proof (L FH) as LH. pose proof (L FM) as LM. pose proof (L FS) as LS. cbn [kind shown] in *.
  destruct LY as [LY|LY]; [destruct (P _ IY LY)|]. destruct Lm as [Lm|Lm]; [destruct (P _ Im Lm)|]. destruct Ld as [Ld|Ld]; [destruct (P _ Id Ld)|].
  set (hh := if lookup d Hour then dt_hour t else 0). set (mm := if lookup d Minute then dt_minute t else 0). set (ss := if lookup d Second then dt_second t else 0).
  assert (parse_fields d = do u <- mk_datetime (dt_year t) (dt_month t) (dt_day t) hh mm ss; Ok (Some u)) as E.
  { unfold parse_fields. rewrite LY, Lm, Ld. cbn [option_map]. rewrite int_of_pad4, !int_of_pad2 by lia. subst hh mm ss.
    destruct LH as [-> | ->], LM as [-> | ->], LS as [-> | ->]; cbn [option_map]; rewrite ?int_of_pad2 by lia; reflexivity. }
  assert (exists u, mk_datetime (dt_year t) (dt_month t) (dt_day t) hh mm ss = Ok u) as [u Eu].
  { unfold mk_datetime. destruct (_ && _) eqn:B; [eauto|]. exfalso.
    assert (0 <= hh <= 23 /\ 0 <= mm <= 59 /\ 0 <= ss <= 59) by (subst hh mm ss; destruct (lookup d Hour), (lookup d Minute), (lookup d Second); lia).
    destruct (date_fields t) as (D1 & D2 & _). lia. }
  exists u. rewrite E, Eu. split; [reflexivity|]. apply mk_datetime_ok in Eu as (Vu & Du & Hu & Mu & Su & Zu & Xu).
  split; [exact Du|]. split; [exact Vu|]. split; [unfold tags_of; now rewrite (Tg TagA)|]. repeat split; auto.
Qed.
