(* Lemmas about saving to and loading from NetCDF. *)
From Coq Require Import String Ascii.
From Verif Require Import Base Work_Model Cat_Model Cat_Proofs Time_Model Time_Spec Time_Proofs Time_Props Name_Model Name_Proofs NcObj_Model NcObj_Spec.
Local Open Scope Z_scope.
Local Open Scope list_scope.

#[local] Opaque EPOCH.

(* ---------- dictionaries *)

Lemma get_cons {A} k (a : A) d k' : get ((k, a) :: d) k' = if String.eqb k k' then Some a else get d k'.
Proof. unfold get. cbn [find fst]. now destruct (String.eqb k k'). Qed.

Lemma get_In {A} (d : list (string * A)) k a : get d k = Some a -> In (k, a) d.
Proof.
  induction d as [|[k' a'] d IH]; [discriminate|]. rewrite get_cons. destruct (String.eqb_spec k' k) as [->|].
  - intros E. injection E as ->. now left.
  - right. auto.
Qed.

Lemma get_None {A} (d : list (string * A)) k : get d k = None <-> ~ In k (map fst d).
Proof.
  induction d as [|[k' a'] d IH]; [split; [intros _ []|reflexivity]|]. rewrite get_cons. cbn [map fst In].
  destruct (String.eqb_spec k' k) as [->|N]; [split; [discriminate|tauto]|]. rewrite IH. tauto.
Qed.

Lemma get_NoDup {A} (d : list (string * A)) k a : NoDup (map fst d) -> In (k, a) d -> get d k = Some a.
Proof.
  induction d as [|[k' a'] d IH]; [intros _ []|]. cbn [map fst]. intros N [E|I]; rewrite get_cons.
  - injection E as -> ->. now rewrite String.eqb_refl.
  - inversion N as [|? ? N1 N2]; subst. destruct (String.eqb_spec k' k) as [->|]; [|auto].
    destruct N1. now apply (in_map fst) in I.
Qed.

Lemma get_map {A B} (f : A -> B) (d : list (string * A)) k : get (map (fun p => (fst p, f (snd p))) d) k = option_map f (get d k).
Proof. induction d as [|[k' a'] d IH]; [reflexivity|]. cbn [map fst snd]. rewrite !get_cons. destruct (String.eqb k' k); auto. Qed.

Lemma get_app {A} (d e : list (string * A)) k : get (d ++ e) k = match get d k with Some a => Some a | None => get e k end.
Proof. induction d as [|[k' a'] d IH]; [reflexivity|]. cbn [app]. rewrite !get_cons. destruct (String.eqb k' k); auto. Qed.

Lemma get_put {A} k (a : A) d k' : get (put k a d) k' = if String.eqb k k' then Some a else get d k'.
Proof.
  induction d as [|[k0 a0] d IH]; cbn [put]; [apply get_cons|]. destruct (String.eqb_spec k0 k) as [->|N]; rewrite !get_cons.
  - now destruct (String.eqb k k').
  - rewrite IH. destruct (String.eqb_spec k0 k') as [->|]; [|reflexivity]. destruct (String.eqb_spec k k'); congruence.
Qed.

Lemma get_puts {A} (l d : list (string * A)) k : NoDup (map fst l) ->
  get (fold_left (fun d p => put (fst p) (snd p) d) l d) k = match get l k with Some a => Some a | None => get d k end.
Proof.
  revert d. induction l as [|[k' a'] l IH]; intros d N; [reflexivity|]. cbn [fold_left fst snd]. cbn [map fst] in N. inversion N as [|? ? N1 N2]; subst.
  rewrite IH by assumption. rewrite get_cons, get_put. destruct (String.eqb_spec k' k) as [->|]; [|reflexivity].
  destruct (get l k) eqn:E; [|reflexivity]. apply get_In in E. apply (in_map fst) in E. now destruct N1.
Qed.

Lemma get_remove k d k' : get (remove_key k d) k' = if String.eqb k k' then None else get d k'.
Proof.
  unfold remove_key. induction d as [|[k0 a0] d IH]; [now destruct (String.eqb k k')|]. cbn [filter fst]. rewrite get_cons. destruct (String.eqb_spec k0 k) as [->|N]; cbn [negb].
  - rewrite IH. now destruct (String.eqb k k').
  - rewrite get_cons, IH. destruct (String.eqb_spec k0 k') as [->|]; [|reflexivity]. destruct (String.eqb_spec k k'); congruence.
Qed.

Lemma has_dup_NoDup l : has_dup l = false <-> NoDup l.
Proof.
  induction l as [|s l IH]; cbn [has_dup]; [split; [constructor|reflexivity]|]. rewrite orb_false_iff, IH, NoDup_cons_iff.
  assert (existsb (String.eqb s) l = false <-> ~ In s l) as ->; [|reflexivity].
  rewrite <- not_true_iff_false, existsb_exists. split; intros H I; apply H.
  - exists s. split; [exact I|apply String.eqb_refl].
  - destruct I as (x & I & E). apply String.eqb_eq in E. now subst.
Qed.

(* ---------- numbered names *)

Lemma int_of_snoc acc s d : 0 <= d <= 9 -> int_of acc (s ++ String (digit d) "") = 10 * int_of acc s + d.
Proof. intros H. revert acc. induction s as [|c s IH]; intros acc; cbn [append int_of]; [now rewrite digit_value_digit|apply IH]. Qed.

Lemma int_of_decimals w n : 0 <= n -> int_of 0 (decimals w n) = n mod 10 ^ Z.of_nat w.
Proof.
  revert n. induction w as [|w IH]; intros n H; cbn [decimals]; [now rewrite Z.mod_1_r|]. rewrite int_of_snoc by lia. rewrite IH by lia.
  replace (10 ^ Z.of_nat (S w)) with (10 * 10 ^ Z.of_nat w) by (rewrite Nat2Z.inj_succ, Z.pow_succ_r by lia; reflexivity).
  rewrite Z.rem_mul_r by lia. lia.
Qed.

Lemma decimal_width_enough f w n : 0 <= n -> n < 10 ^ (Z.of_nat w + Z.of_nat f) -> n < 10 ^ Z.of_nat (decimal_width f w n).
Proof.
  revert w. induction f as [|f IH]; intros w H0 H; cbn [decimal_width]; [now rewrite Z.add_0_r in H|].
  destruct (n <? 10 ^ Z.of_nat w) eqn:E; [lia|]. apply IH; [exact H0|]. now replace (Z.of_nat (S w) + Z.of_nat f) with (Z.of_nat w + Z.of_nat (S f)) by lia.
Qed.

Lemma int_of_format08 n : 0 <= n -> int_of 0 (format08 n) = n.
Proof.
  intros H. unfold format08. rewrite int_of_decimals by assumption. apply Z.mod_small. split; [assumption|]. apply decimal_width_enough; [assumption|].
  eapply Z.lt_le_trans; [apply (Z.pow_gt_lin_r 10 n); lia|]. apply Z.pow_le_mono_r; lia.
Qed.

Definition no_underscore (s : string) : Prop := forall a b, s <> (a ++ String "_" b)%string.

Lemma no_underscore_app s t : no_underscore s -> no_underscore t -> no_underscore (s ++ t).
Proof.
  intros Hs Ht a. revert s Hs. induction a as [|c a IH]; intros s Hs b E.
  - destruct s as [|x s]; cbn in E; [now apply (Ht "" b)%string|]. injection E as -> E. now apply (Hs "" s)%string.
  - destruct s as [|x s]; cbn in E; [now apply (Ht (String c a) b)|]. injection E as -> E. apply (IH s) in E; [exact E|].
    intros a' b' E'. apply (Hs (String c a') b'). cbn. now rewrite E'.
Qed.

Lemma one_no_underscore c : c <> "_"%char -> no_underscore (String c "").
Proof. intros N [|x [|? ?]] b; cbn; intros E; congruence. Qed.

Lemma digit_no_underscore d : 0 <= d <= 9 -> digit d <> "_"%char.
Proof.
  intros R. unfold digit. assert (Z.to_nat d < 10)%nat as K by lia. revert K. generalize (Z.to_nat d). clear. intros k K.
  do 10 (destruct k as [|k]; [discriminate|]). lia.
Qed.

Lemma decimals_no_underscore w n : 0 <= n -> no_underscore (decimals w n).
Proof.
  revert n. induction w as [|w IH]; intros n H; cbn [decimals].
  - intros [|? ?] b; discriminate.
  - apply no_underscore_app; [apply IH; lia|]. apply one_no_underscore, digit_no_underscore. lia.
Qed.

Lemma last_underscore a b d e : no_underscore d -> no_underscore e -> (a ++ "_" ++ d)%string = (b ++ "_" ++ e)%string -> a = b /\ d = e.
Proof.
  intros Hd He. revert b. induction a as [|c a IH]; intros [|c' b] E; cbn in E.
  - injection E as ->. auto.
  - injection E as <- ->. now destruct (Hd b e).
  - injection E as -> E. destruct (He a d). now symmetry.
  - injection E as -> E. destruct (IH b E) as [-> ->]. auto.
Qed.

Lemma item_name_inj a b i j : 0 <= i -> 0 <= j -> item_name a i = item_name b j -> a = b /\ i = j.
Proof.
  intros Hi Hj E. apply last_underscore in E; [|now apply decimals_no_underscore|now apply decimals_no_underscore].
  destruct E as [-> E]. split; [reflexivity|]. rewrite <- (int_of_format08 i), <- (int_of_format08 j) by assumption. congruence.
Qed.

(* ---------- strings *)

Lemma strip_pad_nil n : str_strip (str_pad n "") = ""%string.
Proof. induction n as [|n IH]; [reflexivity|]. cbn [str_pad str_strip]. now rewrite IH. Qed.

Lemma no_nul_tail c s : no_nul (String c s) -> c <> NUL /\ no_nul s.
Proof.
  intros H. split.
  - intros ->. now apply (H "" s)%string.
  - intros a b ->. now apply (H (String c a) b).
Qed.

Lemma strip_pad n s : no_nul s -> (String.length s <= n)%nat -> str_strip (str_pad n s) = s.
Proof.
  revert s. induction n as [|n IH]; intros [|c s] H L; cbn [String.length] in L; try lia; [reflexivity|apply strip_pad_nil|].
  apply no_nul_tail in H as [H1 H2]. cbn [str_pad str_strip]. rewrite IH by (assumption || lia).
  destruct s; [|reflexivity]. destruct (Ascii.eqb_spec c NUL); congruence.
Qed.

Lemma max_of_In l n : In n l -> (n <= max_of l)%nat.
Proof. induction l as [|m l IH]; [intros []|]. cbn [max_of fold_right In]. intros [->|I]; [lia|]. specialize (IH I). unfold max_of in IH. lia. Qed.

(* ---------- cells *)

Lemma unmasked_all fill l : (forall z, In z l -> z <> fill) -> unmasked fill l = l.
Proof.
  induction l as [|z l IH]; intros H; [reflexivity|]. unfold unmasked in *. cbn [filter]. destruct (Z.eqb_spec z fill) as [->|N].
  - destruct (H fill); [now left|reflexivity].
  - cbn [negb]. f_equal. apply IH. intros x I. apply H. now right.
Qed.

Lemma unmasked_fill_row fill n l : (length l <= n)%nat -> (forall z, In z l -> z <> fill) -> unmasked fill (fill_row n fill l) = l.
Proof.
  revert l. induction n as [|n IH]; intros [|z l] L H; cbn [length] in L; try lia; [reflexivity| |].
  - unfold unmasked in *. cbn [fill_row filter]. rewrite Z.eqb_refl. cbn [negb]. apply (IH []); [cbn; lia|intros z []].
  - unfold unmasked in *. cbn [fill_row filter]. destruct (Z.eqb_spec z fill) as [->|N]; [destruct (H fill); [now left|reflexivity]|].
    cbn [negb]. f_equal. apply IH; [lia|]. intros x I. apply H. now right.
Qed.

Lemma int_cell_ok v z : has_type TInt v = true -> int_cell v = Ok z -> v = VInt z.
Proof. destruct v; try discriminate. cbn. intros _. destruct (_ && _); [|discriminate]. congruence. Qed.

Lemma int_cells_ok l zs : Forall (fun v => has_type TInt v = true /\ plain v) l -> mapM int_cell l = Ok zs ->
  l = map VInt zs /\ forall z, In z zs -> z <> FILL_INT.
Proof.
  intros F. revert zs. induction F as [|v l [T P] F IH]; intros zs E; cbn [mapM] in E.
  - injection E as <-. split; [reflexivity|intros z []].
  - destruct (int_cell v) as [z|] eqn:Ev; [|discriminate]. cbn [bind] in E. destruct (mapM int_cell l) as [zs'|]; [|discriminate]. cbn [bind] in E.
    injection E as <-. destruct (IH zs' eq_refl) as [-> H]. apply int_cell_ok in Ev; [|assumption]. subst v. split; [reflexivity|].
    intros z' [<-|I]; auto.
Qed.

Lemma float_cells_ok l : Forall (fun v => has_type TFloat v = true /\ plain v) l ->
  l = map VFloat (map float_cell l) /\ forall z, In z (map float_cell l) -> z <> FILL_FLOAT.
Proof.
  intros F. induction F as [|v l [T P] F [IH1 IH2]]; [split; [reflexivity|intros z []]|]. destruct v; try discriminate. cbn [map float_cell]. split; [now rewrite <- IH1|].
  intros z [<-|I]; [exact P|auto].
Qed.

#[local] Transparent EPOCH.
Lemma epoch_whole : EPOCH mod SECOND = 0.
Proof. vm_compute. reflexivity. Qed.
Lemma epoch_valid : valid_datetime EPOCH = true.
Proof. vm_compute. reflexivity. Qed.
Lemma time_cell_not_fill t : valid_datetime t = true -> seconds_datetime_to_number EPOCH t <> FILL_INT.
Proof.
  intros V. rewrite seconds_number_value. unfold valid_datetime in V. unfold FILL_INT, SECOND.
  assert (0 <= EPOCH <= 10 ^ 20) by (vm_compute; split; discriminate).
  assert (-10 ^ 17 <= t) by (clear -V; assert (- 10 ^ 17 <= min_datetime) by (vm_compute; discriminate); lia). lia.
Qed.
#[local] Opaque EPOCH.

Lemma time_round t : valid_datetime t = true ->
  seconds_number_to_datetime EPOCH (seconds_datetime_to_number EPOCH t) = Ok (to_the_second t).
Proof. intros V. apply Time_Props.C19_round_trip_to_the_second; auto using epoch_valid, epoch_whole. Qed.

(* ---------- lists of simple values *)

Lemma forallb_none l : forallb is_none l = true <-> (forall v, In v l -> v = VNone).
Proof. rewrite forallb_forall. split; intros H v I; specialize (H v I); destruct v; try discriminate; auto. Qed.

Lemma list_of_one t l : is_list_of (VList l) [t] = forallb (fun e => is_none e || has_type t e) l.
Proof. cbn. now rewrite orb_false_r. Qed.

Lemma typed_list_of t l : l <> [] -> Forall (fun v => has_type t v = true /\ plain v) l ->
  forallb is_none l = false /\ forall t', is_list_of (VList l) [t'] = true <-> t' = t.
Proof.
  intros N F. assert (exists v r, l = v :: r) as (v & r & ->) by (destruct l; [congruence|eauto]). clear N. inversion F as [|? ? [T P] F']; subst.
  split.
  - cbn. destruct v; try discriminate; destruct t; discriminate || reflexivity.
  - intros t'. rewrite list_of_one. split.
    + cbn [forallb]. rewrite andb_true_iff. intros [E _]. destruct v, t, t'; try discriminate; reflexivity.
    + intros ->. apply forallb_forall. intros x I. rewrite Forall_forall in F. destruct (F x I) as [-> _]. apply orb_true_r.
Qed.

Lemma typed_list_cases t l : l <> [] -> Forall (fun v => has_type t v = true /\ plain v) l ->
  forallb is_none l = false /\ is_list_of (VList l) [TStr] = match t with TStr => true | _ => false end /\
  is_list_of (VList l) [TInt] = match t with TInt => true | _ => false end /\
  is_list_of (VList l) [TFloat] = match t with TFloat => true | _ => false end /\
  is_list_of (VList l) [TTime] = match t with TTime => true | _ => false end.
Proof.
  intros N F. destruct (typed_list_of t l N F) as [A B]. split; [exact A|].
  assert (forall t', is_list_of (VList l) [t'] = match t, t' with TStr, TStr | TInt, TInt | TFloat, TFloat | TTime, TTime => true | _, _ => false end) as H.
  { intros t'. destruct (is_list_of (VList l) [t']) eqn:E.
    - apply B in E as ->. destruct t; reflexivity.
    - destruct t, t'; try reflexivity; assert (false = true) as X by (rewrite <- E; apply B; reflexivity); discriminate. }
  rewrite !H. destruct t; repeat split; reflexivity.
Qed.

(* A column of lists. *)
Lemma rows_not_scalars (rows : list (list value)) : rows <> [] -> forallb is_none (map VList rows) = false /\
  forall t, is_list_of (VList (map VList rows)) [t] = false.
Proof.
  intros N. destruct rows as [|r rows]; [congruence|]. split; [reflexivity|]. intros t. rewrite list_of_one. cbn. destruct t; reflexivity.
Qed.

Lemma list2d_of_rows t rows : is_list2d_of (VList (map VList rows)) [t] = true <-> forall row v, In row rows -> In v row -> v = VNone \/ has_type t v = true.
Proof.
  unfold is_list2d_of. rewrite forallb_forall. split.
  - intros H row v Ir Iv. specialize (H (VList row) (in_map VList _ _ Ir)). cbn [is_none orb] in H. rewrite list_of_one, forallb_forall in H.
    specialize (H v Iv). apply orb_true_iff in H as [H|H]; [left; now destruct v|now right].
  - intros H e I. apply in_map_iff in I as (row & <- & I). cbn [is_none orb]. rewrite list_of_one, forallb_forall. intros v Iv.
    destruct (H row v I Iv) as [->| ->]; [reflexivity|apply orb_true_r].
Qed.

Lemma same_typed t v : has_type t v = true -> t <> TTime -> same v v.
Proof. destruct t, v; try discriminate; intros _ N; try constructor. now destruct N. Qed.

Lemma Forall2_same_refl t l : t <> TTime -> Forall (fun v => has_type t v = true /\ plain v) l -> Forall2 same l l.
Proof. intros N F. induction F as [|v l [T _] F IH]; constructor; [eapply same_typed; eauto|assumption]. Qed.

Definition own_dims (dimension : option string) (key : string) (l : list value) : list (string * Z) :=
  match dimension with None => [(key, zlen l)] | Some _ => [] end.

(* What is kept of a flat list. *)
Lemma flat_round key l dimension p : flat l -> save_list_of_simple_values key l dimension = Ok p ->
  p_attrs p = [] /\ p_subs p = [] /\
  (exists x l', p_vars p = [(key, x)] /\ read_variable x = Ok (VList l') /\ Forall2 same l l') /\
  (exists more, p_dims p = own_dims dimension key l ++ more /\
     (forall d, In d (map fst more) -> d = key \/ d = ("strlen_" ++ key)%string \/ d = (match dimension with None => key | Some d => d end ++ "2")%string)).
Proof.
  intros [t l' N F|t rows T F NE|n rows F NE]; unfold save_list_of_simple_values; cbv zeta.
  - destruct (typed_list_cases t l' N F) as (-> & -> & -> & -> & ->). destruct t.
    + intros E. assert (forall A (a b : A), Ok a = Ok b -> a = b) as SI by congruence. apply SI in E. subst p. cbn [join p_attrs p_subs p_vars p_dims save_string_list app].
      split; [reflexivity|]. split; [reflexivity|]. split.
      * do 2 eexists. split; [reflexivity|]. cbn [read_variable]. split; [reflexivity|]. rewrite map_map.
        assert (forall v, In v l' -> same v (VStr (str_strip (str_pad (S (max_of (map (fun v => String.length (text v)) l'))) (text v))))) as Q.
        { intros v I. rewrite Forall_forall in F. destruct (F v I) as [Tv Pv]. destruct v; try discriminate. cbn [text]. rewrite strip_pad; [constructor|exact Pv|].
          apply le_S, max_of_In, in_map_iff. exists (VStr s). auto. }
        revert Q. generalize (S (max_of (map (fun v => String.length (text v)) l'))). intros m Q. clear -Q.
        induction l' as [|v l' IH]; cbn [map]; constructor; [apply Q; now left|apply IH; intros; apply Q; now right].
      * eexists. split; [reflexivity|]. intros d [<-|[]]. auto.
    + destruct (mapM int_cell l') as [zs|] eqn:M; [|discriminate]. cbn [bind]. intros E. assert (forall A (a b : A), Ok a = Ok b -> a = b) as SI by congruence. apply SI in E. subst p. cbn [join p_attrs p_subs p_vars p_dims app].
      split; [reflexivity|]. split; [reflexivity|]. split.
      * do 2 eexists. split; [reflexivity|]. cbn [read_variable]. split; [reflexivity|]. destruct (int_cells_ok _ _ F M) as [Ez H]. rewrite unmasked_all by assumption.
        rewrite <- Ez. eapply Forall2_same_refl; [|exact F]; discriminate.
      * exists []. split; [reflexivity|intros d []].
    + intros E. assert (forall A (a b : A), Ok a = Ok b -> a = b) as SI by congruence. apply SI in E. subst p. cbn [join p_attrs p_subs p_vars p_dims app].
      split; [reflexivity|]. split; [reflexivity|]. split.
      * do 2 eexists. split; [reflexivity|]. cbn [read_variable]. split; [reflexivity|]. destruct (float_cells_ok _ F) as [Ez H]. rewrite unmasked_all by assumption.
        rewrite <- Ez. eapply Forall2_same_refl; [|exact F]; discriminate.
      * exists []. split; [reflexivity|intros d []].
    + intros E. assert (forall A (a b : A), Ok a = Ok b -> a = b) as SI by congruence. apply SI in E. subst p. cbn [join p_attrs p_subs p_vars p_dims app].
      split; [reflexivity|]. split; [reflexivity|]. split; [|exists []; split; [reflexivity|intros d []]].
      assert (exists ts, mapM (seconds_number_to_datetime EPOCH) (unmasked FILL_INT (map time_cell l')) = Ok ts /\ Forall2 same l' (map VTime ts)) as (ts & M & S2).
      { clear N. rewrite unmasked_all.
        - induction F as [|v l' [Tv Pv] F IH]; [exists []; split; [reflexivity|constructor]|]. destruct IH as (ts & M & S2). destruct v; try discriminate.
          exists (to_the_second t :: ts). split; [|constructor; [constructor|exact S2]]. cbn [map time_cell mapM]. rewrite time_round by exact Pv. cbn [bind]. now rewrite M.
        - intros z I. apply in_map_iff in I as (v & <- & I). rewrite Forall_forall in F. destruct (F v I) as [Tv Pv]. destruct v; try discriminate.
          cbn [time_cell]. now apply time_cell_not_fill. }
      do 2 eexists. split; [reflexivity|]. cbn [read_variable]. rewrite M. cbn [bind]. split; [reflexivity|exact S2].
  - assert (rows <> []) as NR by (destruct NE as (row & I & _); intros ->; destruct I).
    destruct (rows_not_scalars rows NR) as [-> H]. rewrite !H. clear H.
    assert (is_list2d_of (VList (map VList rows)) [TStr] = false) as ->.
    { apply not_true_is_false. rewrite list2d_of_rows. intros H. destruct NE as (row & I & NE). destruct row as [|v row]; [congruence|].
      rewrite Forall_forall in F. specialize (F _ I). inversion F as [|? ? [Tv _] _]; subst. destruct (H _ v I (or_introl eq_refl)) as [->|X]; destruct T as [-> | ->]; try discriminate; destruct v; discriminate. }
    destruct T as [-> | ->].
    + assert (is_list2d_of (VList (map VList rows)) [TInt] = true) as ->.
      { apply list2d_of_rows. intros row v Ir Iv. right. rewrite Forall_forall in F. specialize (F _ Ir). rewrite Forall_forall in F. now apply F. }
      unfold save_numeric_list2d. cbv zeta. destruct (mapM _ (map VList rows)) as [zrows|] eqn:M; [|discriminate]. cbn [bind]. intros E.
      assert (forall A (a b : A), Ok a = Ok b -> a = b) as SI by congruence. apply SI in E. subst p. cbn [join p_attrs p_subs p_vars p_dims app].
      split; [reflexivity|]. split; [reflexivity|]. split; [|eexists; split; [reflexivity|intros d [<-|[]]; auto]].
      do 2 eexists. split; [reflexivity|]. cbn [read_variable]. split; [reflexivity|]. rewrite map_map.
      assert (forall row, In row rows -> (length row <= max_of (map (fun v => length (elements v)) (map VList rows)))%nat) as L.
      { intros row I. apply max_of_In. rewrite map_map. apply in_map_iff. exists row. auto. }
      revert L. generalize (max_of (map (fun v => length (elements v)) (map VList rows))). intros m L. clear NE NR SI. revert zrows M.
      induction F as [|row rows Fr F IH]; intros zrows M; cbn [map mapM] in M.
      * assert (zrows = []) as -> by congruence. constructor.
      * cbn [elements] in M. destruct (mapM int_cell row) as [zs|] eqn:Mr; [|discriminate]. cbn [bind] in M. destruct (mapM _ (map VList rows)) as [zr|]; [|discriminate].
        cbn [bind] in M. assert (zrows = zs :: zr) as -> by congruence. cbn [map]. destruct (int_cells_ok _ _ Fr Mr) as [Ez Hz]. constructor; [|apply IH; [intros; apply L; now right|reflexivity]].
        constructor. rewrite unmasked_fill_row; [|rewrite <- (map_length VInt zs), <- Ez; apply L; now left|assumption]. rewrite <- Ez. eapply Forall2_same_refl; [|exact Fr]; discriminate.
    + assert (is_list2d_of (VList (map VList rows)) [TInt] = false) as ->.
      { apply not_true_is_false. rewrite list2d_of_rows. intros H. destruct NE as (row & I & NE). destruct row as [|v row]; [congruence|].
        rewrite Forall_forall in F. specialize (F _ I). inversion F as [|? ? [Tv _] _]; subst. destruct (H _ v I (or_introl eq_refl)) as [->|X]; try discriminate; destruct v; discriminate. }
      assert (is_list2d_of (VList (map VList rows)) [TFloat] = true) as ->.
      { apply list2d_of_rows. intros row v Ir Iv. right. rewrite Forall_forall in F. specialize (F _ Ir). rewrite Forall_forall in F. now apply F. }
      unfold save_numeric_list2d. cbv zeta. rewrite mapM_pure. cbn [bind]. intros E.
      assert (forall A (a b : A), Ok a = Ok b -> a = b) as SI by congruence. apply SI in E. subst p. cbn [join p_attrs p_subs p_vars p_dims app].
      split; [reflexivity|]. split; [reflexivity|]. split; [|eexists; split; [reflexivity|intros d [<-|[]]; auto]].
      do 2 eexists. split; [reflexivity|]. cbn [read_variable]. split; [reflexivity|]. rewrite !map_map. cbn [elements].
      assert (forall row, In row rows -> (length row <= max_of (map (fun x => length x) rows))%nat) as L.
      { intros row I. apply max_of_In. apply in_map_iff. exists row. auto. }
      revert L. generalize (max_of (map (fun x : list value => length x) rows)). intros m L. clear NE NR SI.
      induction F as [|row rows Fr F IH]; cbn [map]; constructor.
      * constructor. destruct (float_cells_ok _ Fr) as [Ez Hz]. rewrite unmasked_fill_row; [|rewrite map_length; apply L; now left|assumption]. rewrite <- Ez.
        eapply Forall2_same_refl; [|exact Fr]; discriminate.
      * apply IH. intros; apply L; now right.
  - assert (rows <> []) as NR by (destruct NE as (row & s & I & _); intros ->; destruct I).
    rewrite <- map_map with (f := map VStr) (g := VList).
    destruct (rows_not_scalars (map (map VStr) rows)) as [-> H]; [destruct rows; [congruence|discriminate]|]. rewrite !H. clear H.
    assert (is_list2d_of (VList (map VList (map (map VStr) rows))) [TStr] = true) as ->.
    { apply list2d_of_rows. intros row v Ir Iv. right. apply in_map_iff in Ir as (r & <- & Ir). apply in_map_iff in Iv as (s & <- & Iv). reflexivity. }
    intros E. assert (forall A (a b : A), Ok a = Ok b -> a = b) as SI by congruence. apply SI in E. unfold save_string_list2d in E. cbv zeta in E.
    match type of E with context [match flat_map ?f ?x with _ => _ end] => remember (flat_map f x) as lengths eqn:EL in E end.
    assert (forall row s, In row rows -> In s row -> s <> ""%string -> In (String.length s) lengths) as HL.
    { intros row s Ir Is Ns. rewrite EL. apply in_flat_map. exists (VList (map VStr row)). split; [apply in_map, in_map, Ir|]. cbn [elements].
      apply in_flat_map. exists (VStr s). split; [now apply in_map|]. destruct s; [congruence|]. now left. }
    clear EL. destruct lengths as [|l0 ls]; [destruct NE as (row & s & Ir & Is & Ns); destruct (HL row s Ir Is Ns)|].
    subst p. cbn [join p_attrs p_subs p_vars p_dims app]. split; [reflexivity|]. split; [reflexivity|].
    split; [|eexists; split; [reflexivity|intros d [<-|[<-|[]]]; auto]].
    do 2 eexists. split; [reflexivity|]. cbn [read_variable]. split; [reflexivity|]. rewrite !map_map. cbn [elements].
    assert (max_of (map (fun x => length (map VStr x)) rows) = n) as ->.
    { clear -F NR. destruct rows as [|r rows]; [congruence|]. clear NR. inversion F as [|? ? [Lr _] Fr]; subst. cbn [map max_of fold_right]. rewrite map_length.
      assert (fold_right Nat.max 0%nat (map (fun x => length (map VStr x)) rows) <= length r)%nat; [|lia].
      clear F. induction Fr as [|x rows [Lx _] Fr IH]; [cbn; lia|]. cbn [map fold_right]. rewrite map_length, Lx. lia. }
    assert (forall row s, In row rows -> In s row -> (String.length s <= S (max_of (l0 :: ls)))%nat) as HM.
    { intros row s Ir Is. destruct s as [|c s]; [cbn; lia|]. apply le_S, max_of_In. apply (HL row); auto. discriminate. }
    revert HM. generalize (S (max_of (l0 :: ls))). intros m HM. clear NE NR HL SI.
    induction F as [|row rows [Lr Fr] F IH]; cbn [map]; constructor; [|apply IH; intros; eapply HM; [right|]; eauto].
    constructor. assert (fill_row n ""%string (map text (map VStr row)) = row) as ->.
    { clear -Lr. revert row Lr. induction n as [|n IH]; intros [|s row] L; try discriminate; [reflexivity|]. cbn [map fill_row text]. f_equal. apply IH. now injection L. }
    assert (forall s, In s row -> String.length s <= m)%nat as HR by (intros s I; eapply HM; [now left|exact I]). clear -Fr HR.
    induction Fr as [|s row Ns Fr IH]; cbn [map]; constructor; [|apply IH; intros; apply HR; now right].
    rewrite strip_pad; [constructor|exact Ns|]. apply HR. now left.
Qed.

(* A column or list in which nothing is present leaves no trace. *)
Lemma absent_round key l dimension p : (forall x, In x l -> absent (Some x)) -> save_list_of_simple_values key l dimension = Ok p ->
  p_attrs p = [] /\ p_subs p = [] /\ p_vars p = [] /\ p_dims p = own_dims dimension key l.
Proof.
  intros H. unfold save_list_of_simple_values. cbv zeta. assert (forall A (a b : A), Ok a = Ok b -> a = b) as SI by congruence.
  destruct (forallb is_none l) eqn:N.
  - intros E. apply SI in E. subst p. cbn [join p_attrs p_subs p_vars p_dims nothing app]. rewrite app_nil_r. auto.
  - assert (exists x, In x l /\ x = VList []) as (x & Ix & Ex).
    { clear -H N. induction l as [|v l IH]; [discriminate|]. destruct (H v (or_introl eq_refl)) as [X|[X|X]]; [discriminate| |].
      - injection X as ->. cbn in N. destruct IH as (x & Ix & Ex); [intros; apply H; now right|exact N|]. exists x. split; [now right|exact Ex].
      - injection X as ->. exists (VList []). split; [now left|reflexivity]. }
    assert (forall t, is_list_of (VList l) [t] = false) as L1.
    { intros t. rewrite list_of_one. apply not_true_is_false. rewrite forallb_forall. intros F. specialize (F x Ix). subst x. destruct t; discriminate. }
    rewrite !L1. assert (is_list2d_of (VList l) [TStr] = true) as ->.
    { unfold is_list2d_of. apply forallb_forall. intros v I. destruct (H v I) as [X|[X|X]]; [discriminate| |]; injection X as ->; reflexivity. }
    intros E. apply SI in E. subst p. unfold save_string_list2d. cbv zeta.
    match goal with |- context [match flat_map ?f ?y with _ => _ end] => assert (flat_map f y = []) as -> end.
    { clear -H. induction l as [|v l IH]; [reflexivity|]. cbn [flat_map]. rewrite IH by (intros; apply H; now right).
      destruct (H v (or_introl eq_refl)) as [X|[X|X]]; [discriminate| |]; injection X as ->; reflexivity. }
    cbn [join p_attrs p_subs p_vars p_dims nothing app]. rewrite app_nil_r. auto.
Qed.

(* ---------- joining *)

Lemma join_all ps : fold_right join nothing ps =
  {| p_attrs := flat_map p_attrs ps; p_dims := flat_map p_dims ps; p_vars := flat_map p_vars ps; p_subs := flat_map p_subs ps |}.
Proof. induction ps as [|p ps IH]; [reflexivity|]. cbn [fold_right flat_map]. rewrite IH. reflexivity. Qed.

Lemma make_group_ok ps g : make_group ps = Ok g ->
  g = Group (flat_map p_attrs ps) (flat_map p_dims ps) (flat_map p_vars ps) (flat_map p_subs ps) /\
  NoDup (map fst (flat_map p_dims ps)) /\ NoDup (map fst (flat_map p_vars ps) ++ map fst (flat_map p_subs ps)).
Proof.
  unfold make_group. cbv zeta. rewrite join_all. cbn [p_attrs p_dims p_vars p_subs].
  destruct (has_dup (map fst (flat_map p_dims ps))) eqn:D1; [discriminate|]. destruct (has_dup (map fst (flat_map p_vars ps) ++ _)) eqn:D2; [discriminate|].
  cbn [orb]. intros E. injection E as <-. split; [reflexivity|]. split; now apply has_dup_NoDup.
Qed.

Definition numbered (key : string) (i : Z) (gs : list group) : list (string * group) :=
  map (fun ig => (item_name key (i + Z.of_nat (fst ig)), snd ig)) (combine (seq 0 (length gs)) gs).

Lemma item_pieces_subs key i gs : flat_map p_subs (item_pieces key i gs) = numbered key i gs.
Proof.
  revert i. induction gs as [|g gs IH]; intros i; [reflexivity|]. cbn [item_pieces flat_map sub_piece p_subs app]. rewrite IH. unfold numbered. cbn [length seq combine map fst snd].
  f_equal; [now rewrite Z.add_0_r|]. rewrite (seq_as_map 1). clear IH. generalize (seq 0 (length gs)) as ns. revert gs. induction gs as [|h gs IH]; intros [|n ns]; try reflexivity.
  cbn [map combine fst snd]. f_equal; [f_equal; f_equal; lia|apply IH].
Qed.
Lemma item_pieces_rest key i gs : flat_map p_attrs (item_pieces key i gs) = [] /\ flat_map p_dims (item_pieces key i gs) = [] /\ flat_map p_vars (item_pieces key i gs) = [].
Proof. revert i. induction gs as [|g gs IH]; intros i; [auto|]. cbn [item_pieces flat_map sub_piece p_attrs p_dims p_vars app]. apply IH. Qed.

Lemma numbered_In key i gs n g : In (n, g) (numbered key i gs) <-> exists j, nth_error gs j = Some g /\ n = item_name key (i + Z.of_nat j).
Proof.
  unfold numbered. rewrite in_map_iff. split.
  - intros ([j h] & E & I). cbn [fst snd] in E. assert (n = item_name key (i + Z.of_nat j) /\ g = h) as [-> ->] by (split; congruence). exists j. split; [|reflexivity].
    apply In_nth_error in I as [m I]. assert (nth_error (seq 0 (length gs)) m = Some j /\ nth_error gs m = Some h) as [I1 I2].
    { clear E. revert I. generalize (seq 0 (length gs)). revert m. induction gs as [|x gs IH]; intros m [|y l]; try (destruct m; discriminate).
      destruct m as [|m]; cbn; [intros X; injection X as -> ->; auto|apply IH]. }
    assert (m < length gs)%nat by (apply nth_error_Some; congruence).
    rewrite (nth_error_nth' _ 0%nat) in I1 by (now rewrite seq_length). rewrite seq_nth in I1 by assumption. injection I1 as <-. exact I2.
  - intros (j & I & ->). exists (j, g). split; [reflexivity|]. assert (j < length gs)%nat by (apply nth_error_Some; congruence).
    apply (nth_error_In _ j). assert (nth_error (seq 0 (length gs)) j = Some j) as I1.
    { rewrite (nth_error_nth' _ 0%nat) by (now rewrite seq_length). now rewrite seq_nth. }
    assert (forall (A B : Type) (a : list A) (b : list B) k x y, nth_error a k = Some x -> nth_error b k = Some y -> nth_error (combine a b) k = Some (x, y)) as Q.
    { clear. intros A B a b k x y. revert a b. induction k as [|k IH]; intros [|? a] [|? b]; cbn; try discriminate; [intros; congruence|apply IH]. }
    now apply Q.
Qed.

(* ---------- loading *)

Definition puts (l d : list (string * value)) : list (string * value) := fold_left (fun d p => put (fst p) (snd p) d) l d.

Lemma puts_app a b d : puts (a ++ b) d = puts b (puts a d).
Proof. unfold puts. apply fold_left_app. Qed.

Lemma puts_other l d k : (forall w, ~ In (k, w) l) -> get (puts l d) k = get d k.
Proof.
  revert d. induction l as [|[k' w'] l IH]; intros d H; [reflexivity|]. cbn [puts fold_left fst snd]. fold (puts l (put k' w' d)).
  rewrite IH by (intros w I; apply (H w); now right). rewrite get_put. destruct (String.eqb_spec k' k) as [->|]; [|reflexivity]. destruct (H w'). now left.
Qed.

Lemma puts_in l d k w : In (k, w) l -> (forall w', In (k, w') l -> w' = w) -> get (puts l d) k = Some w.
Proof.
  revert d. induction l as [|[k' w'] l IH]; intros d I H; [destruct I|]. cbn [puts fold_left fst snd]. fold (puts l (put k' w' d)).
  destruct (in_dec string_dec k (map fst l)) as [J|J].
  - apply IH; [|intros; apply H; now right]. apply in_map_iff in J as ([k2 w2] & E & J). cbn in E. subst k2. rewrite <- (H w2) by now right. exact J.
  - destruct I as [E|I]; [|destruct J; now apply (in_map fst) in I]. injection E as -> ->.
    rewrite puts_other; [|intros w2 I2; apply J; now apply (in_map fst) in I2]. rewrite get_put. now rewrite String.eqb_refl.
Qed.

Lemma puts_found l d k w : get (puts l d) k = Some w -> In (k, w) l \/ get d k = Some w.
Proof.
  revert d. induction l as [|[k' w'] l IH]; intros d; [auto|]. cbn [puts fold_left fst snd]. fold (puts l (put k' w' d)).
  intros G. apply IH in G as [G|G]; [left; now right|]. rewrite get_put in G. destruct (String.eqb_spec k' k) as [->|]; [|auto]. left. left. congruence.
Qed.

Lemma set_variables_puts vars : (forall k x, In (k, x) vars -> exists v, read_variable x = Ok v) ->
  exists vals, (forall ps, set_variables vars ps = Ok (puts vals ps)) /\
    forall k w, In (k, w) vals <-> exists x, In (k, x) vars /\ read_variable x = Ok w.
Proof.
  induction vars as [|[k x] vars IH]; intros H.
  - exists []. split; [reflexivity|]. intros k w. split; [intros []|intros (x & [] & _)].
  - destruct IH as (vals & E & V); [intros k' x' I; apply (H k'); now right|]. destruct (H k x (or_introl eq_refl)) as [v R].
    exists ((k, v) :: vals). split.
    + intros ps. cbn [set_variables]. rewrite R. cbn [bind]. rewrite E. reflexivity.
    + intros k' w. cbn [In]. rewrite V. split.
      * intros [X|(y & I & Y)]; [injection X as <- <-; exists x; auto|exists y; auto].
      * intros (y & [X|I] & Y); [injection X as <- <-; left; congruence|right; exists y; auto].
Qed.

Lemma set_lists_puts dims loaded : 
  (forall d, In d dims -> get loaded (item_name (fst d) 0) = None \/ exists vs, load_items d loaded = Ok vs) ->
  exists lists used', (forall ps used, set_lists dims loaded ps used = Ok (puts lists ps, used ++ used')) /\
    (forall k w, In (k, w) lists <-> exists n vs, In (k, n) dims /\ get loaded (item_name k 0) <> None /\ load_items (k, n) loaded = Ok vs /\ w = VList vs) /\
    (forall u, In u used' <-> exists k n i, In (k, n) dims /\ get loaded (item_name k 0) <> None /\ 0 <= i < n /\ u = item_name k i).
Proof.
  induction dims as [|[k n] dims IH]; intros H.
  - exists [], []. split; [intros; now rewrite app_nil_r|]. split.
    + intros k w. split; [intros []|intros (n & vs & [] & _)].
    + intros u. split; [intros []|intros (k & n & i & [] & _)].
  - destruct IH as (lists & used' & E & L & U); [intros d I; apply H; now right|]. specialize (H (k, n) (or_introl eq_refl)). cbn [fst snd] in H.
    destruct (get loaded (item_name k 0)) as [r|] eqn:G.
    + destruct H as [?|[vs R]]; [discriminate|]. exists ((k, VList vs) :: lists), (map (item_name k) (zrange 0 n) ++ used'). split; [|split].
      * intros ps used. cbn [set_lists fst snd]. rewrite G, R. cbn [bind]. rewrite E. cbn [puts fold_left fst snd]. now rewrite app_assoc.
      * intros k' w. cbn [In]. rewrite L. split.
        -- intros [X|(n' & vs' & I & G' & R' & ->)]; [injection X as <- <-; exists n, vs|exists n', vs']; repeat split; auto. congruence.
        -- intros (n' & vs' & [X|I] & G' & R' & ->); [injection X as <- <-; left; congruence|right; exists n', vs'; auto].
      * intros u. rewrite in_app_iff, in_map_iff, U. split.
        -- intros [(i & <- & I)|(k' & n' & i & I & G' & R' & ->)]; [exists k, n, i|exists k', n', i]; repeat split; auto; try (now left); try (now right); try congruence; try lia; apply zrange_In in I; lia.
        -- intros (k' & n' & i & [X|I] & G' & R' & ->); [injection X as <- <-; left; exists i; split; [reflexivity|apply zrange_In; lia]|right; exists k', n', i; auto].
    + exists lists, used'. split; [|split].
      * intros ps used. cbn [set_lists fst snd]. now rewrite G.
      * intros k' w. rewrite L. split; [intros (n' & vs' & I & R); exists n', vs'; split; [now right|exact R]|].
        intros (n' & vs' & [X|I] & G' & R); [injection X as <- <-; congruence|exists n', vs'; auto].
      * intros u. rewrite U. split; [intros (k' & n' & i & I & R); exists k', n', i; split; [now right|exact R]|].
        intros (k' & n' & i & [X|I] & G' & R); [injection X as <- <-; congruence|exists k', n', i; auto].
Qed.

Lemma set_objects_puts loaded used : (forall k r, In (k, r) loaded -> ~ In k used -> exists v, r = Ok v) ->
  exists objs, (forall ps, set_objects loaded used ps = Ok (puts objs ps)) /\
    forall k w, In (k, w) objs <-> In (k, Ok w) loaded /\ ~ In k used.
Proof.
  induction loaded as [|[k r] loaded IH]; intros H.
  - exists []. split; [reflexivity|]. intros k w. split; [intros []|intros [[] _]].
  - destruct IH as (objs & E & O); [intros k' r' I; apply (H k'); now right|].
    assert (existsb (String.eqb k) used = true <-> In k used) as X.
    { rewrite existsb_exists. split; [intros (y & I & Y); apply String.eqb_eq in Y; now subst y|intros I; exists k; split; [exact I|apply String.eqb_refl]]. }
    destruct (existsb (String.eqb k) used) eqn:B.
    + exists objs. split; [intros ps; cbn [set_objects]; now rewrite B|]. intros k' w. rewrite O. cbn [In]. split; [tauto|].
      intros [[Y|Y] N]; [|auto]. injection Y as <- ->. destruct N. tauto.
    + assert (~ In k used) as NU by (rewrite <- X; discriminate). destruct (H k r (or_introl eq_refl) NU) as [v ->].
      exists ((k, v) :: objs). split; [intros ps; cbn [set_objects]; rewrite B; cbn [bind]; rewrite E; reflexivity|].
      intros k' w. cbn [In]. rewrite O. split.
      * intros [Y|[I N]]; [injection Y as <- <-; auto|auto].
      * intros [[Y|I] N]; [left; congruence|auto].
Qed.

Lemma load_group attrs dims vars subs : get dims LIST_COUNT = None ->
  let loaded := map (fun s => match s with (k, sg) => (k, load_object sg) end) subs in
  (forall k x, In (k, x) vars -> exists v, read_variable x = Ok v) ->
  (forall d, In d dims -> get loaded (item_name (fst d) 0) = None \/ exists vs, load_items d loaded = Ok vs) ->
  (forall k g, In (k, g) subs -> (exists d n i, In (d, n) dims /\ get loaded (item_name d 0) <> None /\ 0 <= i < n /\ k = item_name d i) \/ exists v, load_object g = Ok v) ->
  exists found, load_object (Group attrs dims vars subs) = makeobject (puts found []) /\
    forall k w, In (k, w) found <-> In (k, w) attrs \/ (exists x, In (k, x) vars /\ read_variable x = Ok w) \/
      (exists n vs, In (k, n) dims /\ get loaded (item_name k 0) <> None /\ load_items (k, n) loaded = Ok vs /\ w = VList vs) \/
      (exists g, In (k, g) subs /\ load_object g = Ok w /\ forall d n i, In (d, n) dims -> get loaded (item_name d 0) <> None -> 0 <= i < n -> k <> item_name d i).
Proof.
  intros LC loaded HV HD HS.
  destruct (set_variables_puts vars HV) as (vals & EV & V). destruct (set_lists_puts dims loaded HD) as (lists & used & EL & L & U).
  destruct (set_objects_puts loaded used) as (objs & EO & O).
  { intros k r I NU. unfold loaded in I. apply in_map_iff in I as ([k' g] & X & I). assert (k' = k /\ r = load_object g) as [-> ->] by (split; congruence).
    destruct (HS k g I) as [Q|Q]; [|exact Q]. destruct NU. now apply U. }
  exists (attrs ++ vals ++ lists ++ objs). split.
  - cbn [load_object]. rewrite LC. cbv zeta. fold loaded. rewrite EV. cbn [bind]. rewrite EL. cbn [bind fst snd app]. rewrite EO. cbn [bind].
    f_equal. now rewrite !puts_app.
  - intros k w. rewrite !in_app_iff, V, L, O. apply or_iff_compat_l, or_iff_compat_l, or_iff_compat_l. split.
    + intros [I NU]. unfold loaded in I. apply in_map_iff in I as ([k' g] & X & I). assert (k' = k /\ load_object g = Ok w) as [-> Y] by (split; congruence).
      exists g. split; [exact I|]. split; [exact Y|]. intros d n i A B C ->. apply NU, U. exists d, n, i. auto.
    + intros (g & I & Y & N). split; [unfold loaded; apply in_map_iff; exists (k, g); now rewrite Y|]. rewrite U. intros (d & n & i & A & B & C & D). now apply (N d n i).
Qed.

(* ---------- what each member leaves in the group *)

Definition dim_names (k : string) (p : piece) : Prop :=
  forall d, In d (map fst (p_dims p)) -> d = k \/ d = ("strlen_" ++ k)%string \/ d = (k ++ "2")%string.

Inductive role (k : string) (v : value) (p : piece) : option value -> Prop :=
| r_absent : absent (Some v) -> p_attrs p = [] -> p_vars p = [] -> p_subs p = [] -> dim_names k p -> role k v p None
| r_attr w : ~ absent (Some v) -> same v w -> p_attrs p = [(k, w)] -> p_vars p = [] -> p_subs p = [] -> dim_names k p -> role k v p (Some w)
| r_var x w : ~ absent (Some v) -> same v w -> read_variable x = Ok w -> p_attrs p = [] -> p_vars p = [(k, x)] -> p_subs p = [] -> dim_names k p -> role k v p (Some w)
| r_sub g w : ~ absent (Some v) -> same v w -> load_object g = Ok w -> p_attrs p = [] -> p_vars p = [] -> p_subs p = [(k, g)] -> p_dims p = [] -> role k v p (Some w)
| r_list gs ws : ~ absent (Some v) -> same v (VList ws) -> Forall2 (fun g w => load_object g = Ok w) gs ws -> gs <> [] ->
    p_attrs p = [] -> p_vars p = [] -> p_subs p = numbered k 0 gs -> p_dims p = [(k, zlen gs)] -> role k v p (Some (VList ws)).

Lemma not_list_count k : k <> LIST_COUNT -> forall d, d = k \/ d = ("strlen_" ++ k)%string \/ d = (k ++ "2")%string -> d <> LIST_COUNT.
Proof.
  intros N d [->|[->| ->]]; [exact N|discriminate|]. unfold LIST_COUNT. clear.
  do 10 (destruct k as [|? k]; [discriminate|cbn [append]]). destruct k; discriminate.
Qed.

Lemma role_dims k v p o : role k v p o -> dim_names k p.
Proof.
  intros [ | | | ? ? ? ? ? ? ? ? D|? ? ? ? ? ? ? ? ? D]; auto; unfold dim_names; rewrite D; cbn; [tauto|]. intros d [<-|[]]. auto.
Qed.

Definition fits (km : string * value) (po : piece * option value) : Prop := role (fst km) (snd km) (fst po) (snd po).

Lemma Forall2_In_l {A B} (R : A -> B -> Prop) l m x : Forall2 R l m -> In x l -> exists y, In y m /\ R x y.
Proof. intros F. induction F as [|a b l m Rab F IH]; [intros []|]. intros [->|I]; [exists b; split; [now left|exact Rab]|]. destruct IH as (y & J & Y); [exact I|]. exists y. split; [now right|exact Y]. Qed.
Lemma Forall2_In_r {A B} (R : A -> B -> Prop) l m y : Forall2 R l m -> In y m -> exists x, In x l /\ R x y.
Proof. intros F. induction F as [|a b l m Rab F IH]; [intros []|]. intros [->|I]; [exists a; split; [now left|exact Rab]|]. destruct IH as (x & J & Y); [exact I|]. exists x. split; [now right|exact Y]. Qed.

Lemma NoDup_app_l {A} (l m : list A) : NoDup (l ++ m) -> NoDup l.
Proof. induction l as [|x l IH]; [constructor|]. cbn [app]. intros H. inversion H as [|? ? N1 N2]; subst. constructor; [intros I; apply N1; apply in_app_iff; now left|auto]. Qed.
Lemma NoDup_app_r {A} (l m : list A) : NoDup (l ++ m) -> NoDup m.
Proof. induction l as [|x l IH]; [auto|]. cbn [app]. intros H. inversion H; auto. Qed.

Lemma Forall2_combine_l {A B} (R : A -> B -> Prop) l m x : Forall2 R l m -> In x l -> exists y, In (x, y) (combine l m) /\ R x y.
Proof. intros F. induction F as [|a b l m Rab F IH]; [intros []|]. intros [->|I]; [exists b; split; [now left|exact Rab]|]. destruct IH as (y & J & Y); [exact I|]. exists y. split; [now right|exact Y]. Qed.
Lemma Forall2_combine_r {A B} (R : A -> B -> Prop) l m y : Forall2 R l m -> In y m -> exists x, In (x, y) (combine l m) /\ R x y.
Proof. intros F. induction F as [|a b l m Rab F IH]; [intros []|]. intros [->|I]; [exists a; split; [now left|exact Rab]|]. destruct IH as (x & J & Y); [exact I|]. exists x. split; [now right|exact Y]. Qed.

Lemma in_pieces {A} (f : piece -> list A) ms pos x : Forall2 fits ms pos -> In x (flat_map f (map fst pos)) ->
  exists k v p o, In (k, v) ms /\ In ((k, v), (p, o)) (combine ms pos) /\ role k v p o /\ In x (f p).
Proof.
  intros F I. apply in_flat_map in I as (p & I & X). apply in_map_iff in I as ([p' o] & E & I). cbn in E. subst p'.
  destruct (Forall2_combine_r _ _ _ _ F I) as ([k v] & J & R). exists k, v, p, o. split; [now apply in_combine_l in J|auto].
Qed.

Lemma combine_unique (ms : list (string * value)) (pos : list (piece * option value)) k v v' q q' : NoDup (@map (string * value) string fst ms) ->
  In ((k, v), q) (combine ms pos) -> In ((k, v'), q') (combine ms pos) -> q = q'.
Proof.
  intros ND. revert pos. induction ms as [|[k1 v1] ms IH]; intros [|q1 pos]; try (intros []; fail). cbn [combine In map fst] in *. inversion ND as [|? ? N1 N2]; subst.
  intros [E|I] [E'|I']; try congruence; [| |now apply (IH N2 pos)].
  - injection E as -> -> ->. apply in_combine_l, (in_map fst) in I'. contradiction.
  - injection E' as -> -> ->. apply in_combine_l, (in_map fst) in I. contradiction.
Qed.

Lemma mapM_ok_all {A B} (f : A -> result B) l m : Forall2 (fun x y => f x = Ok y) l m -> mapM f l = Ok m.
Proof. intros F. induction F as [|x y l m E F IH]; [reflexivity|]. cbn [mapM]. rewrite E. cbn [bind]. rewrite IH. reflexivity. Qed.

Lemma load_items_from k gs ws loaded a : Forall2 (fun g w => load_object g = Ok w) gs ws ->
  (forall j g, nth_error gs j = Some g -> get loaded (item_name k (Z.of_nat (a + j))) = Some (load_object g)) ->
  Forall2 (fun i w => match get loaded (item_name k i) with Some r => r | None => Err KeyError end = Ok w) (zrange (Z.of_nat a) (Z.of_nat (a + length gs))) ws.
Proof.
  intros F. revert a. induction F as [|g w gs ws E F IH]; intros a H.
  - cbn [length]. rewrite Nat.add_0_r, zrange_empty by lia. constructor.
  - cbn [length]. rewrite zrange_cons by lia. constructor.
    + specialize (H 0%nat g eq_refl). rewrite Nat.add_0_r in H. now rewrite H.
    + replace (Z.of_nat a + 1) with (Z.of_nat (S a)) by lia. replace (a + S (length gs))%nat with (S a + length gs)%nat by lia. apply IH.
      intros j h J. replace (S a + j)%nat with (a + S j)%nat by lia. now apply H.
Qed.

Lemma load_items_ok k gs ws loaded : Forall2 (fun g w => load_object g = Ok w) gs ws ->
  (forall j g, nth_error gs j = Some g -> get loaded (item_name k (Z.of_nat j)) = Some (load_object g)) ->
  load_items (k, zlen gs) loaded = Ok ws.
Proof. intros F H. unfold load_items. cbn [fst snd]. apply mapM_ok_all. exact (load_items_from k gs ws loaded 0 F H). Qed.

Lemma get_loaded subs k g : NoDup (map fst subs) -> In (k, g) subs ->
  get (map (fun s => match s with (k, sg) => (k, load_object sg) end) subs) k = Some (load_object g).
Proof.
  intros N I. apply get_NoDup.
  - rewrite map_map. rewrite (map_ext _ fst); [exact N|now intros []].
  - apply in_map_iff. exists (k, g). auto.
Qed.

Lemma object_loads c pre ms pos g :
  NoDup (map fst ms) -> (forall k, In k (map fst ms) -> good_name k) -> Forall2 fits ms pos ->
  (forall p, In p pre -> p_dims p = [] /\ p_vars p = [] /\ p_subs p = []) ->
  (forall k w, In (k, w) (flat_map p_attrs pre) -> (k = CLASSID /\ exists s, c = Some s /\ w = VStr s) \/ (k = CONVENTIONS /\ c <> None)) ->
  (forall s, c = Some s -> In (CLASSID, VStr s) (flat_map p_attrs pre)) ->
  make_group (pre ++ map fst pos) = Ok g ->
  exists ms', load_object g = Ok (VObj c ms') /\ same (VObj c ms) (VObj c ms').
Proof.
  intros ND GN F HP HC HC' MG. apply make_group_ok in MG as (-> & ND1 & ND2). rewrite !flat_map_app in *.
  assert (forall (A : Type) (f : piece -> list A), (forall p, In p pre -> f p = []) -> flat_map f pre = []) as Z0.
  { intros A f H. clear -H. induction pre as [|p pre IH]; [reflexivity|]. cbn [flat_map]. rewrite (H p) by now left. apply IH. intros; apply H; now right. }
  rewrite (Z0 _ p_dims), (Z0 _ p_vars), (Z0 _ p_subs) in * by (intros; now apply HP). cbn [app] in *. clear Z0.
  set (ps := map fst pos) in *.
  assert (forall km p o, In (km, (p, o)) (combine ms pos) -> In p ps) as IPS.
  { intros km p o I. apply in_combine_r in I. apply in_map_iff. exists (p, o). auto. }
  assert (NoDup (map fst (flat_map p_subs ps))) as NS by (now apply NoDup_app_r in ND2).
  assert (forall k v v', In (k, v) ms -> In (k, v') ms -> v = v') as UN.
  { intros k v v' I I'. apply (get_NoDup ms) in I; [|exact ND]. apply (get_NoDup ms) in I'; [|exact ND]. congruence. }
  assert (forall k v, In (k, v) ms -> good_name k) as GN' by (intros k v I; apply GN; now apply (in_map fst) in I).
  pose (loaded := map (fun s : string * group => match s with (k, sg) => (k, load_object sg) end) (flat_map p_subs ps)).
  (* a dimension whose first item is there is a list of objects *)
  assert (forall d n, In (d, n) (flat_map p_dims ps) -> get loaded (item_name d 0) <> None ->
          exists v p gs ws, In (d, v) ms /\ In ((d, v), (p, Some (VList ws))) (combine ms pos) /\ role d v p (Some (VList ws)) /\ n = zlen gs /\ Forall2 (fun g w => load_object g = Ok w) gs ws /\
            p_subs p = numbered d 0 gs) as DL.
  { intros d n I G. destruct (get loaded (item_name d 0)) as [r|] eqn:E; [|congruence]. apply get_In in E. unfold loaded in E.
    apply in_map_iff in E as ([k' g'] & X & E). assert (k' = item_name d 0) as -> by congruence.
    destruct (in_pieces _ _ _ _ F E) as (k & v & p & o & I1 & I2 & R & I3). inversion R as [? ? ? S0|? ? ? ? ? S0|? ? ? ? ? ? ? S0|? ? ? ? ? ? ? S0|gs ws ? ? FL NE ? ? S0 D0]; subst o; rewrite S0 in I3; try (now destruct I3).
    - destruct I3 as [X3|[]]. injection X3 as X3 _. destruct (GN' k v I1) as (_ & _ & _ & Q). now apply (Q d 0) in X3.
    - apply numbered_In in I3 as (j & J & X3). apply item_name_inj in X3 as [<- X3]; [|lia|lia].
      exists v, p, gs, ws. repeat split; auto. assert (In (d, zlen gs) (flat_map p_dims ps)) as I4 by (apply in_flat_map; exists p; split; [exact (IPS _ _ _ I2)|rewrite D0; now left]).
      apply (get_NoDup _ _ _ ND1) in I. apply (get_NoDup _ _ _ ND1) in I4. congruence. }
  assert (forall k v p gs ws, In (k, v) ms -> In ((k, v), (p, Some (VList ws))) (combine ms pos) -> Forall2 (fun g w => load_object g = Ok w) gs ws -> p_subs p = numbered k 0 gs ->
            load_items (k, zlen gs) loaded = Ok ws) as LI.
  { intros k v p gs ws I I2 FL S0. apply load_items_ok; [exact FL|]. intros j g J. apply get_loaded; [exact NS|]. apply in_flat_map. exists p.
    split; [exact (IPS _ _ _ I2)|]. rewrite S0. apply numbered_In. exists j. auto. }
  destruct (load_group (flat_map p_attrs pre ++ flat_map p_attrs ps) (flat_map p_dims ps) (flat_map p_vars ps) (flat_map p_subs ps)) as (found & EF & FD).
  - apply get_None. intros I. apply in_map_iff in I as ([d n] & X & I). cbn in X. subst d. destruct (in_pieces _ _ _ _ F I) as (k & v & p & o & I1 & I2 & R & I3).
    apply role_dims in R. apply (in_map fst) in I3. apply R in I3. destruct (GN' k v I1) as (_ & _ & Q & _). now apply (not_list_count k Q) in I3.
  - intros k x I. destruct (in_pieces _ _ _ _ F I) as (k' & v & p & o & I1 & I2 & R & I3).
    inversion R as [? ? V0|? ? ? ? V0|? w ? ? RV ? V0|? ? ? ? ? ? V0|? ? ? ? ? ? ? V0]; subst o; rewrite V0 in I3; try (now destruct I3).
    destruct I3 as [X|[]]. injection X as _ <-. exists w. exact RV.
  - fold loaded. intros [d n] I. cbn [fst]. destruct (get loaded (item_name d 0)) as [r|] eqn:E; [right|now left].
    destruct (DL d n I ltac:(congruence)) as (v & p & gs & ws & I1 & I2 & R & -> & FL & S0). exists ws. now apply (LI d v p).
  - fold loaded. intros k g I. destruct (in_pieces _ _ _ _ F I) as (k' & v & p & o & I1 & I2 & R & I3).
    inversion R as [? ? ? S0|? ? ? ? ? S0|? ? ? ? ? ? ? S0|g0 w ? ? LO ? ? S0|gs ws ? ? FL NE ? ? S0 D0]; subst o; rewrite S0 in I3; try (now destruct I3).
    + right. destruct I3 as [X|[]]. injection X as _ <-. exists w. exact LO.
    + left. apply numbered_In in I3 as (j & J & ->). exists k', (zlen gs), (Z.of_nat j). split; [|split; [|split]].
      * apply in_flat_map. exists p. split; [exact (IPS _ _ _ I2)|]. rewrite D0. now left.
      * destruct gs as [|g0 gs]; [congruence|]. unfold loaded. rewrite (get_loaded _ _ g0); [discriminate|exact NS|]. apply in_flat_map. exists p.
        split; [exact (IPS _ _ _ I2)|]. rewrite S0. apply numbered_In. exists 0%nat. auto.
      * unfold zlen. assert (j < length gs)%nat by (apply nth_error_Some; congruence). lia.
      * reflexivity.
  - fold loaded in FD. 
    (* what is found under each name *)
    assert (forall k w, In (k, w) found -> In (k, w) (flat_map p_attrs pre) \/ exists v p, In (k, v) ms /\ In ((k, v), (p, Some w)) (combine ms pos) /\ role k v p (Some w)) as FD1.
    { intros k w I. apply FD in I as [I|[(x & I & RV)|[(n & vs & I & G & L & ->)|(g & I & LO & N)]]].
      - apply in_app_iff in I as [I|I]; [now left|right]. destruct (in_pieces _ _ _ _ F I) as (k' & v & p & o & I1 & I2 & R & I3).
        inversion R as [? A0|w0 ? ? A0|? ? ? ? ? A0|? ? ? ? ? A0|? ? ? ? ? ? A0]; subst o; rewrite A0 in I3; try (now destruct I3).
        destruct I3 as [X|[]]. injection X as -> ->. exists v, p. auto.
      - right. destruct (in_pieces _ _ _ _ F I) as (k' & v & p & o & I1 & I2 & R & I3).
        inversion R as [? ? V0|? ? ? ? V0|x0 w0 ? ? RV0 ? V0|? ? ? ? ? ? V0|? ? ? ? ? ? ? V0]; subst o; rewrite V0 in I3; try (now destruct I3).
        destruct I3 as [X|[]]. injection X as -> ->. assert (w0 = w) as -> by congruence. exists v, p. auto.
      - right. destruct (DL k n I G) as (v & p & gs & ws & I1 & I2 & R & -> & FL & S0). rewrite (LI k v p gs ws I1 I2 FL S0) in L. assert (ws = vs) as -> by congruence. exists v, p. auto.
      - right. destruct (in_pieces _ _ _ _ F I) as (k' & v & p & o & I1 & I2 & R & I3).
        inversion R as [? ? ? S0|? ? ? ? ? S0|? ? ? ? ? ? ? S0|g0 w0 ? ? LO0 ? ? S0|gs ws ? ? FL NE ? ? S0 D0]; subst o; rewrite S0 in I3; try (now destruct I3).
        + destruct I3 as [X|[]]. injection X as -> ->. assert (w0 = w) as -> by congruence. exists v, p. auto.
        + exfalso. apply numbered_In in I3 as (j & J & ->). apply (N k' (zlen gs) (0 + Z.of_nat j)); [| |unfold zlen; assert (j < length gs)%nat by (apply nth_error_Some; congruence); lia|reflexivity].
          * apply in_flat_map. exists p. split; [exact (IPS _ _ _ I2)|]. rewrite D0. now left.
          * destruct gs as [|g0 gs]; [congruence|]. unfold loaded. rewrite (get_loaded _ _ g0); [discriminate|exact NS|]. apply in_flat_map. exists p.
            split; [exact (IPS _ _ _ I2)|]. rewrite S0. apply numbered_In. exists 0%nat. auto. }
    assert (forall k v p w, In (k, v) ms -> In ((k, v), (p, Some w)) (combine ms pos) -> role k v p (Some w) -> In (k, w) found) as FD2.
    { intros k v p w I I2 R. assert (In p ps) as IP by (exact (IPS _ _ _ I2)). apply FD.
      inversion R as [|w0 ? ? A0|x0 w0 ? ? RV ? V0|g0 w0 ? ? LO ? ? S0|gs ws ? ? FL NE ? ? S0 D0]; try subst w0.
      - left. apply in_app_iff. right. apply in_flat_map. exists p. split; [exact IP|]. rewrite A0. now left.
      - right; left. exists x0. split; [|exact RV]. apply in_flat_map. exists p. split; [exact IP|]. rewrite V0. now left.
      - right; right; right. exists g0. split; [apply in_flat_map; exists p; split; [exact IP|]; rewrite S0; now left|]. split; [exact LO|].
        intros d n i I3 G B X. destruct (GN' k v I) as (_ & _ & _ & Q). now apply (Q d i) in X.
      - right; right; left. subst w. exists (zlen gs), ws. split; [apply in_flat_map; exists p; split; [exact IP|]; rewrite D0; now left|].
        split; [|split; [now apply (LI k v p)|reflexivity]].
        destruct gs as [|g0 gs]; [congruence|]. unfold loaded. rewrite (get_loaded _ _ g0); [discriminate|exact NS|]. apply in_flat_map. exists p.
        split; [exact IP|]. rewrite S0. apply numbered_In. exists 0%nat. auto. }
    assert (forall s, c = Some s -> In (CLASSID, VStr s) found) as FD3.
    { intros s X. apply FD. left. apply in_app_iff. left. now apply HC'. }
    clear FD DL LI.
    assert (forall k v, In (k, v) ms -> absent (Some v) -> get (puts found []) k = None) as GA.
    { intros k v I A. rewrite puts_other; [reflexivity|]. intros w J. apply FD1 in J as [J|(v' & p & I' & _ & R)].
      - destruct (GN' k v I) as (Q1 & Q2 & _). apply HC in J as [[J _]|[J _]]; congruence.
      - rewrite (UN k v' v I' I) in R. inversion R; contradiction. }
    assert (forall k, ~ In k (map fst ms) -> k <> CLASSID -> k <> CONVENTIONS -> get (puts found []) k = None) as GO.
    { intros k N N1 N2. rewrite puts_other; [reflexivity|]. intros w J. apply FD1 in J as [J|(v' & p & I' & _)].
      - apply HC in J as [[J _]|[J _]]; congruence.
      - apply N. now apply (in_map fst) in I'. }
    assert (forall k v, In (k, v) ms -> ~ absent (Some v) -> exists w, get (puts found []) k = Some w /\ same v w) as GP.
    { intros k v I A. destruct (Forall2_combine_l _ _ _ _ F I) as ([p o] & J & R). unfold fits in R. cbn [fst snd] in R. destruct o as [w|]; [|inversion R; contradiction].
      exists w. split; [|inversion R; assumption]. apply puts_in; [now apply (FD2 k v p)|]. intros w' J'. apply FD1 in J' as [J'|(v' & p' & I' & J' & R')].
      - destruct (GN' k v I) as (Q1 & Q2 & _). apply HC in J' as [[J' _]|[J' _]]; congruence.
      - pose proof (combine_unique _ _ _ _ _ _ _ ND J J'). congruence. }
    rewrite EF. unfold makeobject. destruct c as [s|].
    + assert (get (puts found []) CLASSID = Some (VStr s)) as ->.
      { apply puts_in.
        - now apply FD3.
        - intros w J. apply FD1 in J as [J|(v' & p & I' & _)]; [|now destruct (GN' _ _ I')]. apply HC in J as [(_ & s' & X & ->)|[J _]]; [congruence|discriminate]. }
      eexists. split; [reflexivity|]. constructor.
      * intros k A. left. rewrite !get_remove. destruct (String.eqb_spec CONVENTIONS k) as [|N1]; [reflexivity|]. destruct (String.eqb_spec CLASSID k) as [|N2]; [reflexivity|].
        destruct (get ms k) as [v|] eqn:G; [apply (GA k v); [now apply get_In|exact A]|]. apply get_None in G. apply GO; congruence.
      * intros k v G A. apply get_In in G. destruct (GP k v G A) as (w & W & SW). exists w. split; [|exact SW]. rewrite !get_remove.
        destruct (GN' k v G) as (Q1 & Q2 & _). destruct (String.eqb_spec CONVENTIONS k) as [|_]; [congruence|]. destruct (String.eqb_spec CLASSID k) as [|_]; [congruence|]. exact W.
    + assert (get (puts found []) CLASSID = None) as ->.
      { rewrite puts_other; [reflexivity|]. intros w J. apply FD1 in J as [J|(v' & p & I' & _)]; [|now destruct (GN' _ _ I')].
        apply HC in J as [(_ & s' & X & _)|[_ J]]; congruence. }
      eexists. split; [reflexivity|]. constructor.
      * intros k A. left. destruct (get ms k) as [v|] eqn:G; [apply (GA k v); [now apply get_In|exact A]|]. apply get_None in G.
        rewrite puts_other; [reflexivity|]. intros w J. apply FD1 in J as [J|(v' & p & I' & _)]; [|apply G; now apply (in_map fst) in I'].
        apply HC in J as [(_ & s' & X & _)|[_ J]]; congruence.
      * intros k v G A. apply get_In in G. now apply GP.
Qed.

(* ---------- tables *)

Lemma Forall2_weaken {A B} (R Q : A -> B -> Prop) l m : (forall x y, R x y -> Q x y) -> Forall2 R l m -> Forall2 Q l m.
Proof. intros H F. induction F; constructor; auto. Qed.

Lemma set_column_ok k vs records : length vs = length records ->
  exists rs, set_column k vs records = Ok rs /\ length rs = length records /\
    forall i r v, nth_error records i = Some r -> nth_error vs i = Some v -> nth_error rs i = Some (put k v r).
Proof.
  revert records. induction vs as [|v vs IH]; intros [|r records] L; try discriminate.
  - exists []. split; [reflexivity|]. split; [reflexivity|]. intros [|i] ? ? ?; discriminate.
  - cbn [length] in L. destruct (IH records ltac:(lia)) as (rs & E & LR & H). exists (put k v r :: rs). cbn [set_column]. rewrite E. cbn [bind]. split; [reflexivity|].
    split; [cbn [length]; now rewrite LR|]. intros [|i] r' v'; cbn [nth_error]; [intros X Y; congruence|apply H].
Qed.

Definition row_of (i : nat) (columns : list (string * list value)) : list (string * value) := map (fun kc => (fst kc, nth i (snd kc) VNone)) columns.

Lemma set_columns_ok n vars : (forall k x, In (k, x) vars -> exists vs, read_variable x = Ok (VList vs) /\ length vs = n) ->
  exists columns, (forall k vs, In (k, vs) columns <-> exists x, In (k, x) vars /\ read_variable x = Ok (VList vs)) /\
  forall records, length records = n -> exists rs, set_columns vars records = Ok rs /\ length rs = n /\
    forall i r, nth_error records i = Some r -> nth_error rs i = Some (puts (row_of i columns) r).
Proof.
  induction vars as [|[k x] vars IH]; intros H.
  - exists []. split; [intros k vs; split; [intros []|intros (x & [] & _)]|]. intros records L. exists records. split; [reflexivity|]. split; [exact L|auto].
  - destruct IH as (columns & C & R); [intros k' x' I; apply (H k'); now right|]. destruct (H k x (or_introl eq_refl)) as (vs & RV & LV).
    exists ((k, vs) :: columns). split.
    + intros k' vs'. cbn [In]. rewrite C. split.
      * intros [X|(y & I & Y)]; [injection X as <- <-; exists x; auto|exists y; auto].
      * intros (y & [X|I] & Y); [injection X as <- <-; left; congruence|right; exists y; auto].
    + intros records L. destruct (set_column_ok k vs records ltac:(lia)) as (rs & E & LR & N). destruct (R rs ltac:(lia)) as (rs' & E' & LR' & N').
      exists rs'. split; [cbn [set_columns]; rewrite RV; cbn [bind]; rewrite E; cbn [bind]; exact E'|]. split; [exact LR'|].
      intros i r I. cbn [row_of map fst snd puts fold_left]. fold (row_of i columns). fold (puts (row_of i columns) (put k (nth i vs VNone) r)). apply N'. apply N; [exact I|].
      apply nth_error_nth'. assert (i < length records)%nat by (apply nth_error_Some; congruence). lia.
Qed.

Lemma row_of_In i columns k w : In (k, w) (row_of i columns) <-> exists vs, In (k, vs) columns /\ w = nth i vs VNone.
Proof.
  unfold row_of. rewrite in_map_iff. split.
  - intros ([k' vs] & E & I). cbn [fst snd] in E. injection E as <- <-. exists vs. auto.
  - intros (vs & I & ->). exists (k, vs). auto.
Qed.

Lemma mapM_Forall2 {A B} (f : A -> result B) l m : mapM f l = Ok m -> Forall2 (fun x y => f x = Ok y) l m.
Proof.
  revert m. induction l as [|x l IH]; intros m E; cbn [mapM] in E; [injection E as <-; constructor|].
  destruct (f x) as [y|] eqn:Y; [|discriminate]. cbn [bind] in E. destruct (mapM f l) as [ys|] eqn:Z; [|discriminate]. cbn [bind] in E. injection E as <-. constructor; auto.
Qed.

Lemma Forall2_nth {A B} (R : A -> B -> Prop) l m i x : Forall2 R l m -> nth_error l i = Some x -> exists y, nth_error m i = Some y /\ R x y.
Proof. intros F. revert i. induction F as [|a b l m H F IH]; intros [|i]; cbn; try discriminate; [intros X; injection X as ->; eauto|apply IH]. Qed.

Lemma flat_not_none l x : flat l -> In x l -> absent (Some x) -> x = VList [].
Proof.
  intros F I [X|[X|X]]; try congruence. assert (x = VNone) as -> by congruence. exfalso. destruct F as [t l' N F|t rows T F NE|n rows F NE].
  - rewrite Forall_forall in F. destruct (F _ I) as [A _]. destruct t; discriminate.
  - apply in_map_iff in I as (r & X' & _). discriminate.
  - apply in_map_iff in I as (r & X' & _). discriminate.
Qed.

Lemma same_absent v w : same v w -> absent (Some v) -> absent (Some w).
Proof.
  intros S [X|[X|X]]; [discriminate| |]; injection X as ->; inversion S; subst. right; right. inversion H0. reflexivity.
Qed.

Lemma records_round key l p : l <> [] -> (forall v, In v l -> exists c ms, v = VObj c ms /\ NoDup (map fst ms) /\ forall k, In k (map fst ms) -> good_name k) -> table l ->
  save_records key l = Ok p -> exists g objs, p = sub_piece key g /\ load_object g = Ok (VList objs) /\ Forall2 same l objs.
Proof.
  intros NE HO (c & keys & HT & HC) E. unfold save_records in E. destruct l as [|v0 l0] eqn:EL; [congruence|]. rewrite <- EL in *.
  destruct (HT v0) as (ms & -> & KK); [subst l; now left|].
  destruct (HO (VObj c ms)) as (c1 & ms1 & X & ND & GN); [subst l; now left|]. injection X as <- <-.
  destruct (mapM _ ms) as [ps|] eqn:EP; [|discriminate]. cbn [bind] in E. destruct (make_group _) as [g|] eqn:MG; [|discriminate]. cbn [bind] in E.
  assert (forall A (a b : A), Ok a = Ok b -> a = b) as SI by congruence. apply SI in E. subst p. exists g.
  apply mapM_Forall2 in EP.
  (* what each column leaves *)
  assert (forall k, In k keys -> exists column, Forall2 (fun v x => member_of k v = Ok x) l column /\ ((forall x, In x column -> absent (Some x)) \/ flat column)) as HC1.
  { intros k I. destruct (HC k I) as (column & F & Q). exists column. split; [|exact Q]. eapply Forall2_weaken; [|exact F]. intros v x (c' & ms' & -> & G). cbn [member_of]. now rewrite G. }
  apply make_group_ok in MG as (-> & ND1 & ND2). cbn [flat_map p_attrs p_dims p_vars p_subs app] in *.
  assert (p_dims (class_piece c) = [] /\ p_vars (class_piece c) = [] /\ p_subs (class_piece c) = []) as (CD & CV & CS) by (now destruct c).
  rewrite CD, CV, CS in *. cbn [app] in *.
  assert (forall p, In p ps -> exists k column, In k keys /\ Forall2 (fun v x => member_of k v = Ok x) l column /\ p_attrs p = [] /\ p_subs p = [] /\
            ((p_vars p = [] /\ forall x, In x column -> absent (Some x)) \/ (flat column /\ exists x l', p_vars p = [(k, x)] /\ read_variable x = Ok (VList l') /\ Forall2 same column l'))) as HPS.
  { intros p I. destruct (Forall2_In_r _ _ _ _ EP I) as ([k v] & J & EQ). cbn [fst] in EQ. assert (In k keys) as IK by (apply KK; now apply (in_map fst) in J).
    destruct (HC1 k IK) as (column & FC & Q). rewrite (mapM_ok_all _ _ _ FC) in EQ. cbn [bind] in EQ. exists k, column. split; [exact IK|]. split; [exact FC|].
    destruct Q as [Q|Q].
    - apply absent_round in EQ as (A1 & A2 & A3 & _); [|exact Q]. auto.
    - destruct (flat_round _ _ _ _ Q EQ) as (A1 & A2 & A3 & _). auto. }
  assert (flat_map p_attrs ps = []) as A0.
  { destruct (flat_map p_attrs ps) as [|a r] eqn:EA; [reflexivity|]. assert (In a (flat_map p_attrs ps)) as I by (rewrite EA; now left).
    apply in_flat_map in I as (p & I & X). destruct (HPS p I) as (k & column & _ & _ & Y & _). rewrite Y in X. destruct X. }
  rewrite A0, app_nil_r.
  cbn [load_object]. assert (get ((LIST_COUNT, zlen l) :: flat_map p_dims ps) LIST_COUNT = Some (zlen l)) as -> by (rewrite get_cons; reflexivity). cbv zeta.
  fold (puts (p_attrs (class_piece c)) []). unfold zlen. rewrite Nat2Z.id.
  destruct (set_columns_ok (length l) (flat_map p_vars ps)) as (columns & C & R).
  { intros k x I. apply in_flat_map in I as (p & I & X). destruct (HPS p I) as (k' & column & _ & FC & _ & _ & [[V0 _]|(_ & x' & l' & V0 & RV & FS)]); rewrite V0 in X; [destruct X|].
    destruct X as [X|[]]. injection X as -> ->. exists l'. split; [exact RV|]. apply Forall2_len in FC. apply Forall2_len in FS. lia. }
  destruct (R (repeat (puts (p_attrs (class_piece c)) []) (length l)) (repeat_length _ _)) as (rs & ER & LR & N).
  rewrite ER. cbn [bind].
  (* each record *)
  assert (forall i v, nth_error l i = Some v -> exists r o, nth_error rs i = Some r /\ makeobject r = Ok o /\ same v o) as RO.
  { intros i v I. assert (i < length l)%nat as IL by (apply nth_error_Some; congruence).
    assert (nth_error (repeat (puts (p_attrs (class_piece c)) []) (length l)) i = Some (puts (p_attrs (class_piece c)) [])) as Ri.
    { rewrite (nth_error_nth' _ (puts (p_attrs (class_piece c)) [])) by (now rewrite repeat_length). now rewrite nth_repeat. }
    specialize (N i _ Ri). exists (puts (row_of i columns) (puts (p_attrs (class_piece c)) [])). rewrite <- puts_app in *. set (found := p_attrs (class_piece c) ++ row_of i columns) in *.
    destruct (HT v) as (msi & -> & KKi); [now apply nth_error_In in I|]. destruct (HO (VObj c msi)) as (c2 & ms2 & X & NDi & GNi); [now apply nth_error_In in I|]. injection X as <- <-.
    assert (forall k w, In (k, w) (row_of i columns) -> In k keys /\ exists x, get msi k = Some x /\ same x w /\ (x = VNone -> False)) as RW.
    { intros k w J. apply row_of_In in J as (vs & J & ->). apply C in J as (x & J & RV). apply in_flat_map in J as (p & J & X).
      destruct (HPS p J) as (k' & column & IK & FC & _ & _ & [[V0 _]|(FL & x' & l' & V0 & RV' & FS)]); rewrite V0 in X; [destruct X|]. destruct X as [X|[]]. injection X as -> ->.
      assert (l' = vs) as -> by congruence. split; [exact IK|]. destruct (Forall2_nth _ _ _ _ _ FC I) as (y & Y & M). cbn [member_of] in M. destruct (get msi k) as [y'|] eqn:G; [|discriminate].
      assert (y' = y) as -> by congruence. exists y. split; [reflexivity|]. destruct (Forall2_nth _ _ _ _ _ FS Y) as (z & Z & S). rewrite (nth_error_nth _ _ _ Z). split; [exact S|].
      intros ->. inversion S. }
    assert (forall k x, get msi k = Some x -> ~ absent (Some x) -> exists w, In (k, w) (row_of i columns) /\ same x w) as RW2.
    { intros k x G A. assert (In k keys) as IK by (apply KKi; apply get_In in G; now apply (in_map fst) in G). assert (exists v, In (k, v) ms) as (v & J).
      { apply KK in IK. apply in_map_iff in IK as ([k' v] & X & J). cbn in X. subst k'. eauto. }
      destruct (Forall2_In_l _ _ _ _ EP J) as (p & JP & EQ). cbn [fst] in EQ. destruct (HC1 k IK) as (column & FC & Q). rewrite (mapM_ok_all _ _ _ FC) in EQ. cbn [bind] in EQ.
      destruct (Forall2_nth _ _ _ _ _ FC I) as (y & Y & M). cbn [member_of] in M. rewrite G in M. assert (x = y) as <- by congruence.
      destruct Q as [Q|Q]; [destruct A; apply Q; now apply nth_error_In in Y|].
      destruct (flat_round _ _ _ _ Q EQ) as (_ & _ & (z & l' & V0 & RV & FS) & _). destruct (Forall2_nth _ _ _ _ _ FS Y) as (w & W & S). exists w. split; [|exact S].
      apply row_of_In. exists l'. split; [|symmetry; now apply nth_error_nth]. apply C. exists z. split; [|exact RV]. apply in_flat_map. exists p. rewrite V0. split; [exact JP|now left]. }
    assert (forall k, In k keys -> good_name k) as GK by (intros k IK; apply GN; now apply KK).
    assert (forall k w, In (k, w) (p_attrs (class_piece c)) -> k = CLASSID /\ exists s, c = Some s /\ w = VStr s) as CA.
    { intros k w J. destruct c as [s|]; [|destruct J]. destruct J as [J|[]]. injection J as <- <-. eauto. }
    assert (forall k x, get msi k = Some x -> ~ absent (Some x) -> exists w, get (puts found []) k = Some w /\ same x w) as GP.
    { intros k x G A. destruct (RW2 k x G A) as (w & J & S). destruct (RW k w J) as (IK & _). assert (forall w', In (k, w') found -> In (k, w') (row_of i columns)) as FK.
      { intros w' J'. apply in_app_iff in J' as [J'|J']; [|exact J']. apply CA in J' as [-> _]. now destruct (GK _ IK). }
      exists w. split; [|exact S]. apply puts_in; [apply in_app_iff; now right|]. intros w' J'. apply FK in J'. apply row_of_In in J as (vs & J & ->). apply row_of_In in J' as (vs' & J' & ->).
      apply C in J as (z & J & RV). apply C in J' as (z' & J' & RV'). pose proof (NoDup_app_l _ _ ND2) as NV. apply (get_NoDup _ _ _ NV) in J. apply (get_NoDup _ _ _ NV) in J'. congruence. }
    assert (forall k, absent (get msi k) -> k <> CLASSID -> absent (get (puts found []) k)) as GA.
    { intros k A NK. destruct (get (puts found []) k) as [w|] eqn:G; [|now left]. apply puts_found in G as [J|J]; [|discriminate].
      apply in_app_iff in J as [J|J]; [now apply CA in J as [-> _]|]. destruct (RW k w J) as (_ & x & G' & S & _). rewrite G' in A. now apply (same_absent x w). }
    unfold makeobject. destruct c as [s|].
    - assert (get (puts found []) CLASSID = Some (VStr s)) as ->.
      { apply puts_in; [apply in_app_iff; left; now left|]. intros w J. apply in_app_iff in J as [J|J]; [apply CA in J as (_ & s' & X & ->); congruence|].
        destruct (RW _ _ J) as (IK & _). now destruct (GK _ IK). }
      eexists. split; [exact N|]. split; [reflexivity|]. constructor.
      + intros k A. rewrite !get_remove. destruct (String.eqb_spec CONVENTIONS k) as [|N1]; [now left|]. destruct (String.eqb_spec CLASSID k) as [|N2]; [now left|]. apply GA; congruence.
      + intros k v G A. destruct (GP k v G A) as (w & W & SW). exists w. split; [|exact SW]. rewrite !get_remove. apply get_In, (in_map fst), GNi in G.
        destruct G as (Q1 & Q2 & _). cbn [fst] in *. destruct (String.eqb_spec CONVENTIONS k) as [|_]; [congruence|]. destruct (String.eqb_spec CLASSID k) as [|_]; [congruence|]. exact W.
    - assert (get (puts found []) CLASSID = None) as ->.
      { rewrite puts_other; [reflexivity|]. intros w J. cbn [class_piece p_attrs nothing app] in found. destruct (RW _ _ J) as (IK & _). now destruct (GK _ IK). }
      eexists. split; [exact N|]. split; [reflexivity|]. constructor; [|exact GP].
      intros k A. destruct (string_dec k CLASSID) as [->|NK]; [|now apply GA]. left. apply get_None. intros J. 
      destruct (get (puts found []) CLASSID) as [w|] eqn:G; [|apply get_None in G; contradiction]. apply puts_found in G as [G|G]; [|discriminate].
      destruct (RW _ _ G) as (IK & _). now destruct (GK _ IK). }
  assert (exists objs, mapM makeobject rs = Ok objs /\ Forall2 same l objs) as (objs & EO & FS).
  { clear -RO LR. revert l LR RO. induction rs as [|r rs IH]; intros [|v l] LR RO; try discriminate; [exists []; split; [reflexivity|constructor]|].
    destruct (RO 0%nat v eq_refl) as (r1 & o & X & M & SM). injection X as <-. destruct (IH l) as (objs & E & F); [cbn in LR; lia|intros i v' I; apply (RO (S i) v' I)|].
    exists (o :: objs). cbn [mapM]. rewrite M. cbn [bind]. rewrite E. split; [reflexivity|constructor; assumption]. }
  exists objs. rewrite EO. cbn [bind]. auto.
Qed.

(* ---------- whole values *)

Section ValueInd.
  Variable P : value -> Prop.
  Hypothesis PNone : P VNone.
  Hypothesis PStr : forall s, P (VStr s).
  Hypothesis PInt : forall z, P (VInt z).
  Hypothesis PFloat : forall b, P (VFloat b).
  Hypothesis PTime : forall t, P (VTime t).
  Hypothesis PList : forall l, (forall v, In v l -> P v) -> P (VList l).
  Hypothesis PObj : forall c ms, (forall k v, In (k, v) ms -> P v) -> P (VObj c ms).
  Fixpoint value_all (v : value) : P v :=
    match v with
    | VNone => PNone | VStr s => PStr s | VInt z => PInt z | VFloat b => PFloat b | VTime t => PTime t
    | VList l => PList l ((fix go (l : list value) : forall v, In v l -> P v :=
                            match l return forall v, In v l -> P v with
                            | [] => fun v I => match I with end
                            | x :: l' => fun v I => match I with
                                                    | or_introl E => eq_ind x P (value_all x) v E
                                                    | or_intror I' => go l' v I'
                                                    end
                            end) l)
    | VObj c ms => PObj c ms ((fix go (l : list (string * value)) : forall k v, In (k, v) l -> P v :=
                            match l return forall k v, In (k, v) l -> P v with
                            | [] => fun k v I => match I with end
                            | (k0, x) :: l' => fun k v I => match I with
                                                    | or_introl E => eq_ind x P (value_all x) v (f_equal snd E)
                                                    | or_intror I' => go l' k v I'
                                                    end
                            end) ms)
    end.
End ValueInd.

Lemma map_result_Forall2 {A B} (f : A -> result B) l m : map_result f l = Ok m -> Forall2 (fun x y => f x = Ok y) l m.
Proof.
  revert m. induction l as [|x l IH]; intros m E; cbn [map_result] in E; [injection E as <-; constructor|].
  destruct (f x) as [y|] eqn:Y; [|discriminate]. cbn [bind] in E. destruct (map_result f l) as [ys|] eqn:Z; [|discriminate]. cbn [bind] in E. injection E as <-. constructor; auto.
Qed.

Lemma flat_is_list l : flat l -> is_list_of (VList l) SIMPLE || is_list2d_of (VList l) [TStr] || is_list2d_of (VList l) [TInt] || is_list2d_of (VList l) [TFloat] = true.
Proof.
  intros [t l' N F|t rows T F NE|n rows F NE].
  - assert (is_list_of (VList l') SIMPLE = true) as ->; [|reflexivity]. cbn [is_list_of]. apply existsb_exists. exists t. split; [destruct t; cbn; tauto|].
    apply forallb_forall. rewrite Forall_forall in F. intros v I. destruct (F v I) as [A _]. rewrite A. apply orb_true_r.
  - assert (is_list2d_of (VList (map VList rows)) [t] = true) as Q.
    { cbn [is_list2d_of]. apply forallb_forall. intros v I. apply in_map_iff in I as (row & <- & I). cbn [is_none orb]. rewrite list_of_one. apply forallb_forall. intros v I'.
      rewrite Forall_forall in F. specialize (F row I). rewrite Forall_forall in F. destruct (F v I') as [A _]. rewrite A. apply orb_true_r. }
    destruct T as [-> | ->]; rewrite Q; now rewrite ?orb_true_r.
  - assert (is_list2d_of (VList (map (fun row => VList (map VStr row)) rows)) [TStr] = true) as ->; [|now rewrite orb_true_r].
    cbn [is_list2d_of]. apply forallb_forall. intros v I. apply in_map_iff in I as (row & <- & I). cbn [is_none orb]. rewrite list_of_one. apply forallb_forall. intros v I'.
    apply in_map_iff in I' as (s & <- & _). reflexivity.
Qed.

Lemma flat_not_nil l : flat l -> l <> [].
Proof. intros [t l' N F|t rows T F (r & I & _)|n rows F (r & s & I & _)]; [exact N| |]; destruct rows; try destruct I; discriminate. Qed.

Lemma objects_not_list l : l <> [] -> (forall v, In v l -> exists c ms, v = VObj c ms) ->
  (forall t, is_list_of (VList l) [t] = false) /\ is_list_of (VList l) SIMPLE = false /\ forall ts, is_list2d_of (VList l) ts = false.
Proof.
  intros N H. destruct l as [|v l]; [congruence|]. destruct (H v (or_introl eq_refl)) as (c & ms & ->). repeat split.
  - intros t. destruct t; reflexivity.
Qed.

Lemma list_role key l p : flat l -> save_list_of_simple_values key l None = Ok p -> exists o, role key (VList l) p o.
Proof.
  intros F E. pose proof (flat_not_nil l F) as N. destruct (flat_round _ _ _ _ F E) as (A & S & (x & l' & V & RV & FS) & more & D & DN).
  exists (Some (VList l')). apply (r_var _ _ _ x); auto.
  - intros [X|[X|X]]; congruence.
  - now constructor.
  - intros d I. rewrite D in I. cbn [own_dims app map fst] in I. destruct I as [<-|I]; [now left|]. now apply DN.
Qed.

Lemma attr_role key v w : ~ absent (Some v) -> same v w -> exists o, role key v (attr key w) o.
Proof. intros A S. exists (Some w). apply r_attr; auto. intros d []. Qed.

Lemma nothing_role key v : absent (Some v) -> exists o, role key v nothing o.
Proof. intros A. exists None. apply r_absent; auto. intros d []. Qed.

Lemma kept_not_none : ~ kept VNone.
Proof. intros K. inversion K as [? P| | |]; destruct P. Qed.
Lemma kept_not_nil : ~ kept (VList []).
Proof. intros K. inversion K as [? P|? F|? N|]; [destruct P|now apply flat_not_nil in F|congruence]. Qed.

Lemma simple_member_role k v p : absent (Some v) \/ kept v -> save_simple_member k v = Ok p -> exists o, role k v p o.
Proof.
  intros H E. assert (forall A (a b : A), Ok a = Ok b -> a = b) as SI by congruence. destruct v as [|s|z|b|t|l|c ms]; cbn [save_simple_member] in E.
  - apply SI in E. subst p. apply nothing_role. now right; left.
  - apply SI in E. subst p. apply attr_role; [intros [X|[X|X]]; discriminate|constructor].
  - apply SI in E. subst p. apply attr_role; [intros [X|[X|X]]; discriminate|constructor].
  - apply SI in E. subst p. apply attr_role; [intros [X|[X|X]]; discriminate|constructor].
  - apply SI in E. subst p. assert (valid_datetime t = true) as V by (destruct H as [[X|[X|X]]|K]; try discriminate; inversion K as [? P| | |]; exact P).
    exists (Some (VTime (to_the_second t))). eapply r_var; try reflexivity; [intros [X|[X|X]]; discriminate|constructor| |intros d []].
    cbn [read_variable]. rewrite time_round by assumption. reflexivity.
  - destruct H as [[X|[X|X]]|K]; try discriminate.
    + injection X as ->. cbn [is_list_of SIMPLE existsb forallb orb] in E. apply absent_round in E as (A1 & A2 & A3 & A4); [|intros ? []].
      exists None. apply r_absent; auto; [now right; right|]. intros d I. rewrite A4 in I. destruct I as [<-|[]]. now left.
    + inversion K as [? P|? F|? N HO|]; subst; [destruct P| |].
      * destruct (_ || _); [|discriminate]. now apply list_role.
      * destruct (objects_not_list l N) as (_ & B & C); [intros v I; now apply HO|]. rewrite B, C in E. discriminate.
  - discriminate.
Qed.

Definition saved (v : value) : Prop :=
  (forall key p, absent (Some v) \/ kept v -> save_object key v = Ok p -> exists o, role key v p o) /\
  (forall c ms ps g, v = VObj c ms -> kept v -> map_result (fun km => match km with (k, m) => save_object k m end) ms = Ok ps ->
     make_group (class_piece c :: ps) = Ok g -> exists ms', load_object g = Ok (VObj c ms') /\ same v (VObj c ms')).

Lemma roles_fit (f : string * value -> result piece) ms ps : Forall2 (fun km p => f km = Ok p) ms ps ->
  (forall k v p, In (k, v) ms -> f (k, v) = Ok p -> exists o, role k v p o) -> exists pos, map fst pos = ps /\ Forall2 fits ms pos.
Proof.
  intros F. induction F as [|[k v] p ms ps E F IH]; intros H; [exists []; split; [reflexivity|constructor]|].
  destruct (H k v p (or_introl eq_refl) E) as [o R]. destruct IH as (pos & <- & FP); [intros k' v' p' I; apply H; now right|].
  exists ((p, o) :: pos). split; [reflexivity|]. constructor; [exact R|exact FP].
Qed.

Lemma class_piece_fits c : (forall p, In p [class_piece c] -> p_dims p = [] /\ p_vars p = [] /\ p_subs p = []) /\
  (forall k w, In (k, w) (flat_map p_attrs [class_piece c]) -> (k = CLASSID /\ exists s, c = Some s /\ w = VStr s) \/ (k = CONVENTIONS /\ c <> None)) /\
  (forall s, c = Some s -> In (CLASSID, VStr s) (flat_map p_attrs [class_piece c])).
Proof.
  destruct c as [s|]; cbn; (split; [|split]).
  - intros p [<-|[]]. auto.
  - intros k w [E|[]]. injection E as <- <-. left. eauto.
  - intros s' E. injection E as ->. now left.
  - intros p [<-|[]]. auto.
  - intros k w [].
  - discriminate.
Qed.

Lemma save_ok v : saved v.
Proof.
  assert (forall A (a b : A), Ok a = Ok b -> a = b) as SI by congruence.
  induction v as [|s|z|b|t|l IH|c ms IH] using value_all; (split; [intros key p H E|intros c' ms' ps g X K E MG; try discriminate]); try (cbn [save_object] in E).
  - apply SI in E. subst p. apply nothing_role. now right; left.
  - apply SI in E. subst p. apply attr_role; [intros [X|[X|X]]; discriminate|constructor].
  - apply SI in E. subst p. apply attr_role; [intros [X|[X|X]]; discriminate|constructor].
  - apply SI in E. subst p. apply attr_role; [intros [X|[X|X]]; discriminate|constructor].
  - discriminate.
  - destruct l as [|v0 l0] eqn:EL.
    + apply SI in E. subst p. apply nothing_role. now right; right.
    + rewrite <- EL in *. assert (kept (VList l)) as K by (destruct H as [[X|[X|X]]|K]; [discriminate|discriminate|congruence|exact K]).
      inversion K as [? P|? F|? N HO HT|]; subst; [destruct P|rewrite (flat_is_list _ F) in E; now apply list_role|].
      set (l := v0 :: l0) in *. assert (forall v, In v l -> exists c ms, v = VObj c ms) as HO2 by (intros; now apply HO).
      destruct (objects_not_list l N HO2) as (_ & B & C). rewrite B, !C in E. cbn [orb] in E.
      assert (~ absent (Some (VList l))) as NA by (intros [X|[X|X]]; discriminate).
      destruct (is_list_of_simple_objects (VList l)) eqn:SO.
      * assert (table l) as T.
        { apply HT, Forall_forall. intros v I. cbn [is_list_of_simple_objects] in SO. rewrite forallb_forall in SO. specialize (SO v I). destruct (HO2 v I) as (c & ms & ->). exact SO. }
        apply records_round in E as (g & objs & -> & LO & FS); [|exact N| |exact T].
        -- exists (Some (VList objs)). apply (r_sub _ _ _ g); auto. now constructor.
        -- intros v I. destruct (HO v I) as [K1 (c & ms & ->)]. inversion K1 as [? P| | |? ? ND GN]; subst; [destruct P|]. exists c, ms. auto.
      * destruct (is_list_of_objects (VList l)); [|discriminate]. destruct (map_result _ l) as [gs|] eqn:EG; [|discriminate]. cbn [bind] in E. apply SI in E.
        apply map_result_Forall2 in EG. assert (exists ws, Forall2 (fun g w => load_object g = Ok w) gs ws /\ Forall2 same l ws) as (ws & F1 & F2).
        { clear -EG IH HO. induction EG as [|v g l gs E EG IHG]; [exists []; split; constructor|].
          destruct IHG as (ws & F1 & F2); [intros v' I; apply IH; now right|intros v' I; apply HO; now right|].
          destruct (HO v (or_introl eq_refl)) as [K (c & ms & ->)]. destruct (IH _ (or_introl eq_refl)) as [_ Q].
          destruct (map_result _ ms) as [ps|] eqn:EP; [|discriminate]. cbn [bind] in E. destruct (Q c ms ps g eq_refl K EP E) as (ms' & LO & S).
          exists (VObj c ms' :: ws). split; constructor; assumption. }
        exists (Some (VList ws)). subst p. apply (r_list _ _ _ gs ws); auto.
        -- now constructor.
        -- intros Z; rewrite Z in EG; apply Forall2_len in EG; discriminate.
        -- rewrite join_all. cbn [flat_map p_attrs app]. apply item_pieces_rest.
        -- rewrite join_all. cbn [flat_map p_vars app]. apply item_pieces_rest.
        -- rewrite join_all. cbn [flat_map p_subs app]. apply item_pieces_subs.
        -- rewrite join_all. cbn [flat_map p_dims app]. destruct (item_pieces_rest key 0 gs) as (_ & -> & _). cbn [app]. unfold zlen. now rewrite (Forall2_len _ _ _ EG).
  - assert (kept (VObj c ms)) as K by (destruct H as [[X|[X|X]]|K]; [discriminate|discriminate|discriminate|exact K]).
    inversion K as [? P| | |? ? ND GN HK]; subst; [destruct P|]. destruct (class_piece_fits c) as (C1 & C2 & C3).
    assert (~ absent (Some (VObj c ms))) as NA by (intros [X|[X|X]]; discriminate).
    destruct (is_simple_object (VObj c ms)) eqn:SO.
    + unfold save_simple_object in E. destruct (mapM _ ms) as [ps|] eqn:EP; [|discriminate]. cbn [bind] in E. destruct (make_group _) as [g|] eqn:MG; [|discriminate]. cbn [bind] in E.
      apply SI in E. subst p. apply mapM_Forall2 in EP. destruct (roles_fit _ _ _ EP) as (pos & <- & FP).
      { intros k v p I EQ. cbn [fst snd] in EQ. apply simple_member_role; [now apply (HK k)|exact EQ]. }
      destruct (object_loads c [class_piece c] ms pos g ND GN FP C1 C2 C3 MG) as (ms' & LO & S). exists (Some (VObj c ms')). now apply (r_sub _ _ _ g).
    + destruct (map_result _ ms) as [ps|] eqn:EP; [|discriminate]. cbn [bind] in E. destruct (make_group _) as [g|] eqn:MG; [|discriminate]. cbn [bind] in E.
      apply SI in E. subst p. apply map_result_Forall2 in EP. destruct (roles_fit _ _ _ EP) as (pos & <- & FP).
      { intros k v p I EQ. destruct (IH k v I) as [Q _]. apply Q; [now apply (HK k)|exact EQ]. }
      destruct (object_loads c [class_piece c] ms pos g ND GN FP C1 C2 C3 MG) as (ms' & LO & S). exists (Some (VObj c ms')). now apply (r_sub _ _ _ g).
  - injection X as <- <-. inversion K as [? P| | |? ? ND GN HK]; subst; [destruct P|]. destruct (class_piece_fits c) as (C1 & C2 & C3).
    apply map_result_Forall2 in E. destruct (roles_fit _ _ _ E) as (pos & <- & FP).
    { intros k v p I EQ. destruct (IH k v I) as [Q _]. apply Q; [now apply (HK k)|exact EQ]. }
    now apply (object_loads c [class_piece c] ms pos g).
Qed.

Lemma file_round c ms g : kept (VObj (Some c) ms) -> save_file (VObj (Some c) ms) = Ok g ->
  exists w, load_object g = Ok w /\ same (VObj (Some c) ms) w.
Proof.
  intros K E. inversion K as [? P| | |? ? ND GN HK]; subst; [destruct P|]. cbn [save_file] in E. destruct (mapM _ ms) as [ps|] eqn:EP; [|discriminate]. cbn [bind] in E.
  apply mapM_Forall2 in EP. destruct (roles_fit _ _ _ EP) as (pos & <- & FP).
  { intros k v p I EQ. cbn [fst snd] in EQ. destruct (save_ok v) as [Q _]. apply Q; [now apply (HK k)|exact EQ]. }
  destruct (object_loads (Some c) [attr CONVENTIONS (VStr "CF-1.6"); class_piece (Some c)] ms pos g ND GN FP) as (ms' & LO & S); [| | |exact E|eauto].
  - intros p [<-|[<-|[]]]; auto.
  - intros k w [X|[X|[]]]; injection X as <- <-; [right; split; [reflexivity|discriminate]|left; eauto].
  - intros s X. injection X as ->. right. now left.
Qed.
