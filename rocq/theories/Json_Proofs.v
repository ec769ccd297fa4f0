(* Proofs about JSON objects. *)
From Coq Require Import QArith Qcanon String Ascii Lia.
From Verif Require Import Base Time_Model Time_Spec Time_Proofs NcObj_Model Json_Model Json_Spec.
Local Open Scope Z_scope.
Local Open Scope list_scope.

Lemma is_ascii_iff s : is_ascii s = true <-> plain_text s.
Proof. unfold is_ascii, plain_text. rewrite forallb_forall, Forall_forall. split; intros H c I; specialize (H c I); now apply Nat.ltb_lt. Qed.

(* ---- the inner loops as functions *)
Definition encode_entry (kx : string * py) : result (string * json) := do j <- encode (snd kx); Ok (fst kx, j).
Definition truthy (x : string * py) : bool := match truth (snd x) with Ok true => true | _ => false end.
Lemma encode_list l : encode (PList l) = do js <- mapM encode l; Ok (JList js).
Proof. cbn [encode]. f_equal. induction l as [|x l IH]; [reflexivity|]. cbn [mapM]. destruct (encode x); [|reflexivity]. cbn [bind]. rewrite IH. reflexivity. Qed.
Lemma encode_dict d : encode (PDict d) = do js <- mapM encode_entry d; Ok (JObj js).
Proof.
  cbn [encode]. f_equal. induction d as [|[k x] d IH]; [reflexivity|]. cbn [mapM]. unfold encode_entry at 1. cbn [fst snd]. destruct (encode x); [|reflexivity]. cbn [bind]. rewrite IH. reflexivity.
Qed.
Fixpoint encode_items (l : list (string * py)) : result (list (string * json)) :=
  match l with [] => Ok [] | (k, x) :: r => do t <- truth x; if t then do j <- encode x; do js <- encode_items r; Ok ((k, j) :: js) else encode_items r end.
Lemma encode_obj c a : encode (PObj c a) = do js <- encode_items a; if is_ascii c then Ok (JObj (put CLASSID (JStr c) js)) else Err ValueError.
Proof. reflexivity. Qed.
Lemma encode_items_kept l : (forall x, In x l -> exists t, truth (snd x) = Ok t) -> encode_items l = mapM encode_entry (filter truthy l).
Proof.
  induction l as [|[k x] l IH]; intros H; [reflexivity|]. cbn [encode_items filter]. destruct (H (k, x) (or_introl eq_refl)) as [t T]. cbn [snd] in T. unfold truthy at 1. cbn [snd]. rewrite T. cbn [bind].
  rewrite IH by (intros y I; apply H; now right). destruct t; [|reflexivity]. cbn [mapM]. unfold encode_entry at 2. cbn [fst snd]. now destruct (encode x).
Qed.

Section Make.
Variable make : string -> list (string * py) -> result py.
Definition load_entry (kx : string * json) : result (string * py) := do y <- load make (snd kx); Ok (fst kx, y).
Definition settle_entry (kx : string * py) : result (string * py) := do y <- load_object make (snd kx); Ok (fst kx, y).
Lemma load_list l : load make (JList l) = do l' <- mapM (load make) l; Ok (PList l').
Proof. cbn [load]. f_equal. induction l as [|x l IH]; [reflexivity|]. cbn [mapM]. destruct (load make x); [|reflexivity]. cbn [bind]. rewrite IH. reflexivity. Qed.
Lemma load_dict d : load make (JObj d) = do d' <- mapM load_entry d; load_object make (PDict (dict_of d')).
Proof.
  cbn [load]. f_equal. induction d as [|[k x] d IH]; [reflexivity|]. cbn [mapM]. unfold load_entry at 1. cbn [fst snd]. destruct (load make x); [|reflexivity]. cbn [bind]. rewrite IH. reflexivity.
Qed.
Lemma load_object_list l : load_object make (PList l) = do l' <- mapM (load_object make) l; Ok (PList l').
Proof. cbn [load_object]. f_equal. induction l as [|x l IH]; [reflexivity|]. cbn [mapM]. destruct (load_object make x); [|reflexivity]. cbn [bind]. rewrite IH. reflexivity. Qed.
Lemma load_object_dict d : load_object make (PDict d) =
  match get d CLASSID with
  | None => Ok (PDict d)
  | Some (PUni c) | Some (PStr c) =>
      if negb (has_dot c) then Err ValueError
      else if String.eqb c DATETIME_CLASS
      then match get d DATETIMEVALUEKEY with None => Err KeyError | Some (PUni s) | Some (PStr s) => do t <- parse s; Ok (PTime t) | Some _ => Err TypeError end
      else do parameters <- mapM settle_entry d; make c (remove_key CLASSID parameters)
  | Some _ => Err AttributeError
  end.
Proof.
  assert (F : forall l, (fix values (l : list (string * py)) : result (list (string * py)) :=
                           match l with [] => Ok [] | (k, x) :: r => do y <- load_object make x; do ys <- values r; Ok ((k, y) :: ys) end) l = mapM settle_entry l).
  { induction l as [|[k x] l IH]; [reflexivity|]. cbn [mapM]. unfold settle_entry at 1. cbn [fst snd]. destruct (load_object make x); [|reflexivity]. cbn [bind]. rewrite IH. reflexivity. }
  cbn [load_object]. now rewrite F.
Qed.

(* ---- dictionaries *)
Lemma put_new {A} k (a : A) d : ~ In k (map fst d) -> put k a d = d ++ [(k, a)].
Proof. induction d as [|[k' a'] d IH]; intros N; [reflexivity|]. cbn in *. destruct (String.eqb_spec k' k) as [->|D]; [exfalso; apply N; now left|]. rewrite IH; [reflexivity|]. intros I. apply N. now right. Qed.
Lemma dict_of_nodup l : NoDup (map fst l) -> dict_of l = l.
Proof.
  intros N. unfold dict_of. assert (G : forall l d : list (string * py), NoDup (map fst (d ++ l)) -> fold_left (fun d kv => put (fst kv) (snd kv) d) l d = d ++ l).
  { clear l N. induction l as [|[k a] l IH]; intros d N; [now rewrite app_nil_r|]. cbn [fold_left fst snd]. rewrite map_app in N. cbn [map fst] in N.
    rewrite put_new by (apply NoDup_remove_2 in N; intros I; apply N; apply in_or_app; now left). rewrite IH by (rewrite <- app_assoc; cbn [app]; rewrite map_app; exact N). now rewrite <- app_assoc. }
  exact (G l [] N).
Qed.
Lemma get_app_new {A} (d : list (string * A)) k a : ~ In k (map fst d) -> get (d ++ [(k, a)]) k = Some a.
Proof.
  unfold get. intros N. induction d as [|[k' a'] d IH]; cbn; [now rewrite String.eqb_refl|]. destruct (String.eqb_spec k' k) as [->|D]; [exfalso; apply N; now left|]. apply IH. intros I. apply N. now right.
Qed.
Lemma get_none {A} (d : list (string * A)) k : ~ In k (map fst d) -> get d k = None.
Proof. unfold get. intros N. induction d as [|[k' a'] d IH]; cbn; [reflexivity|]. destruct (String.eqb_spec k' k) as [->|D]; [exfalso; apply N; now left|]. apply IH. intros I. apply N. now right. Qed.
Lemma remove_key_absent k d : ~ In k (map fst d) -> remove_key k d = d.
Proof. induction d as [|[k' a'] d IH]; intros N; [reflexivity|]. cbn in *. destruct (String.eqb_spec k' k) as [->|D]; [exfalso; apply N; now left|]. rewrite IH; [reflexivity|]. intros I. apply N. now right. Qed.
Lemma remove_key_app k d v : ~ In k (map fst d) -> remove_key k (d ++ [(k, v)]) = d.
Proof. induction d as [|[k' a'] d IH]; intros N; cbn; [now rewrite String.eqb_refl|]. cbn in N. destruct (String.eqb_spec k' k) as [->|D]; [exfalso; apply N; now left|]. rewrite IH; [reflexivity|]. intros I. apply N. now right. Qed.
Lemma mapM_app_ok {A B} (f : A -> result B) l l' r r' : mapM f l = Ok r -> mapM f l' = Ok r' -> mapM f (l ++ l') = Ok (r ++ r').
Proof. revert r. induction l as [|x l IH]; intros r E E'; cbn in *; [injection E as <-; exact E'|]. destruct (f x); [|discriminate]. cbn [bind] in *. destruct (mapM f l); [|discriminate]. injection E as <-. now rewrite (IH _ eq_refl E'). Qed.

Lemma has_dot_app a b : has_dot (a ++ "." ++ b) = true.
Proof. unfold has_dot. rewrite existsb_exists. exists "."%char. split; [|reflexivity]. induction a as [|c a IH]; cbn; [now left|right; exact IH]. Qed.

Lemma nodup_snoc {A} (l : list A) x : NoDup l -> ~ In x l -> NoDup (l ++ [x]).
Proof. intros N I. apply NoDup_rev in N. rewrite <- (rev_involutive (l ++ [x])). apply NoDup_rev. rewrite rev_app_distr. cbn. constructor; [rewrite <- in_rev; exact I|exact N]. Qed.

(* ---- what comes back *)
Definition through (inside : bool) (v w : py) : Prop := exists j r, encode v = Ok j /\ load make j = Ok r /\ (if inside then load_object make r = Ok w else r = w).
Lemma through_list inside l l' : Forall2 (through inside) l l' -> exists js rs, mapM encode l = Ok js /\ mapM (load make) js = Ok rs /\ (if inside then mapM (load_object make) rs = Ok l' else rs = l').
Proof.
  induction 1 as [|v w l l' (j & r & E & L & S) _ (js & rs & ES & LS & SS)]; [exists [], []; repeat split; now destruct inside|]. exists (j :: js), (r :: rs). cbn [mapM]. rewrite E, ES, L, LS. cbn [bind]. split; [reflexivity|]. split; [reflexivity|].
  destruct inside; [now rewrite S, SS|now subst].
Qed.
Lemma through_entries inside (l l' : list (string * py)) : Forall2 (fun x y => fst x = fst y /\ through inside (snd x) (snd y)) l l' ->
  exists js rs, mapM encode_entry l = Ok js /\ mapM load_entry js = Ok rs /\ map fst js = map fst l /\ map fst rs = map fst l /\ (if inside then mapM settle_entry rs = Ok l' else rs = l').
Proof.
  induction 1 as [|[k v] [k' w] l l' [K (j & r & E & L & S)] _ (js & rs & ES & LS & K1 & K2 & SS)]; [exists [], []; repeat split; now destruct inside|]. cbn [fst snd] in *. subst k'.
  exists ((k, j) :: js), ((k, r) :: rs). cbn [mapM map]. unfold encode_entry at 1, load_entry at 1. cbn [fst snd]. rewrite E, L. cbn [bind]. rewrite ES, LS, K1, K2. cbn [bind]. repeat (split; [reflexivity|]).
  destruct inside; [unfold settle_entry at 1; cbn [fst snd]; rewrite S; cbn [bind]; now rewrite SS|now subst].
Qed.
Lemma filter_fst_in {A} (f : string * A -> bool) l k : In k (map fst (filter f l)) -> In k (map fst l).
Proof. rewrite !in_map_iff. intros (x & E & I). apply filter_In in I. exists x. tauto. Qed.
Lemma filter_fst_nodup {A} (f : string * A -> bool) l : NoDup (map fst l) -> NoDup (map fst (filter f l)).
Proof. induction l as [|x l IH]; intros N; [exact N|]. cbn in *. inversion N; subst. destruct (f x); [|now apply IH]. cbn. constructor; [|now apply IH]. intros I. apply filter_fst_in in I. contradiction. Qed.

Lemma returns_through : forall inside v w, returns make inside v w -> through inside v w.
Proof.
  fix IH 4. intros inside v w H. destruct H as [inside v P|s P|s P|s P|s|inside t P|inside l l' F|inside d d' N NC F|inside c a kept args c' a' (PT & (x & y & DOT) & ND) N NC T K F M].
  - destruct v; try contradiction; unfold through; eexists; eexists; (split; [reflexivity|]); (split; [reflexivity|]); now destruct inside.
  - exists (JStr s), (PUni s). cbn. apply is_ascii_iff in P. unfold to_str. now rewrite P.
  - exists (JStr s), (PUni s). cbn. apply is_ascii_iff in P. unfold to_str. now rewrite P.
  - exists (JStr s), (PUni s). cbn. apply is_ascii_iff in P. now rewrite P.
  - exists (JStr s), (PUni s). now cbn.
  - exists (JObj [(CLASSID, JStr DATETIME_CLASS); (DATETIMEVALUEKEY, JStr (build t))]), (PTime (to_the_second t)). split; [reflexivity|]. generalize (parse_build t P). generalize (build t). intros b PB. split; [|now destruct inside]. rewrite load_dict. cbn [mapM load_entry fst snd load bind]. rewrite dict_of_nodup by (cbn; repeat constructor; cbn; intuition discriminate).
    rewrite load_object_dict. cbn [get find String.eqb Ascii.eqb Bool.eqb fst snd CLASSID DATETIMEVALUEKEY DATETIME_CLASS has_dot]. cbn -[parse]. now rewrite PB.
  - assert (F' : Forall2 (through inside) l l') by (induction F; constructor; [apply IH; assumption|assumption]). destruct (through_list _ _ _ F') as (js & rs & E & L & S).
    exists (JList js), (PList rs). rewrite encode_list, load_list, E, L. cbn [bind]. split; [reflexivity|]. split; [reflexivity|]. destruct inside; [rewrite load_object_list, S; reflexivity|now subst].
  - assert (F' : Forall2 (fun x y => fst x = fst y /\ through false (snd x) (snd y)) d d') by (clear N NC; induction F as [|? ? ? ? [? ?] ? ?]; constructor; [split; [assumption|apply IH; assumption]|assumption]).
    destruct (through_entries _ _ _ F') as (js & rs & E & L & K1 & K2 & ->). exists (JObj js), (PDict d'). rewrite encode_dict, load_dict, E, L. cbn [bind]. rewrite dict_of_nodup by (rewrite K2; exact N). rewrite load_object_dict, get_none by (rewrite K2; exact NC).
    split; [reflexivity|]. split; [reflexivity|]. now destruct inside.
  - assert (F' : Forall2 (fun x y => fst x = fst y /\ through true (snd x) (snd y)) kept args) by (clear K M; induction F as [|? ? ? ? [? ?] ? ?]; constructor; [split; [assumption|apply IH; assumption]|assumption]).
    destruct (through_entries _ _ _ F') as (js & rs & E & L & K1 & K2 & S). change (kept = filter truthy a) in K. subst kept.
    assert (NK : NoDup (map fst (filter truthy a))) by now apply filter_fst_nodup. assert (NCK : ~ In CLASSID (map fst (filter truthy a))) by (intros I; now apply NC, (filter_fst_in truthy)).
    assert (KA : map fst args = map fst (filter truthy a)) by (clear -F; induction F as [|? ? ? ? [E _] _ IHF]; cbn; [reflexivity|now rewrite E, IHF]).
    assert (R : load_object make (PDict (rs ++ [(CLASSID, PUni c)])) = Ok (PObj c' a')).
    { rewrite load_object_dict, get_app_new by (rewrite K2; exact NCK). rewrite DOT, has_dot_app, <- DOT. cbn [negb]. replace (String.eqb c DATETIME_CLASS) with false by (symmetry; now apply String.eqb_neq).
      apply is_ascii_iff in PT. rewrite (mapM_app_ok settle_entry rs [(CLASSID, PUni c)] args [(CLASSID, PStr c)] S) by (cbn [mapM]; unfold settle_entry; cbn [fst snd load_object]; unfold to_str; rewrite PT; reflexivity). cbn [bind]. rewrite remove_key_app by (rewrite KA; exact NCK). exact M. }
    exists (JObj (js ++ [(CLASSID, JStr c)])), (PObj c' a'). rewrite encode_obj, encode_items_kept by exact T. rewrite E. cbn [bind]. apply is_ascii_iff in PT. rewrite PT, put_new by (rewrite K1; exact NCK).
    split; [reflexivity|]. split; [|now destruct inside]. rewrite load_dict, (mapM_app_ok load_entry js [(CLASSID, JStr c)] rs [(CLASSID, PUni c)] L) by reflexivity. cbn [bind].
    rewrite dict_of_nodup by (rewrite map_app, K2; cbn; apply nodup_snoc; assumption). exact R.
Qed.
End Make.

(* ---- the encoder and save_object *)
Lemma encode_error : forall v e, encode v = Err e -> e = ValueError.
Proof.
  fix IH 1. intros v e. destruct v as [|b|z|q|s|s|t|l|l|d|c a]; try discriminate.
  - cbn. destruct (is_ascii s); congruence.
  - cbn. congruence.
  - rewrite encode_list. assert (M : forall e, mapM encode l = Err e -> e = ValueError).
    { clear e. induction l as [|x l IHl]; intros e; [discriminate|]. cbn [mapM]. pose proof (IH x) as X. destruct (encode x); [|intros E; injection E as <-; now apply X]. cbn [bind]. destruct (mapM encode l); [discriminate|]. cbn [bind]. intros E. injection E as <-. now apply IHl. }
    destruct (mapM encode l); [discriminate|]. cbn [bind]. intros E. injection E as <-. now apply M.
  - rewrite encode_dict. assert (M : forall e, mapM encode_entry d = Err e -> e = ValueError).
    { clear e. induction d as [|[k x] d IHl]; intros e; [discriminate|]. cbn [mapM]. unfold encode_entry at 1. cbn [fst snd]. pose proof (IH x) as X. destruct (encode x); [|intros E; injection E as <-; now apply X]. cbn [bind]. destruct (mapM encode_entry d); [discriminate|]. cbn [bind]. intros E. injection E as <-. now apply IHl. }
    destruct (mapM encode_entry d); [discriminate|]. cbn [bind]. intros E. injection E as <-. now apply M.
  - rewrite encode_obj. assert (M : forall e, encode_items a = Err e -> e = ValueError).
    { clear e. induction a as [|[k x] a IHl]; intros e; [discriminate|]. cbn [encode_items]. pose proof (IH x) as X. destruct (truth x) as [t|e'] eqn:T.
      - cbn [bind]. destruct t; [|apply IHl]. destruct (encode x); [|intros E; injection E as <-; now apply X]. cbn [bind]. destruct (encode_items a); [discriminate|]. cbn [bind]. intros E. injection E as <-. now apply IHl.
      - intros E. injection E as <-. destruct x as [| | | | | | |[|? [|]]|[|]|[|]|]; cbn in T; congruence. }
    destruct (encode_items a); [cbn [bind]; destruct (is_ascii c); congruence|]. cbn [bind]. intros E. injection E as <-. now apply M.
Qed.
Fixpoint save_items (l : list (string * py)) : result (list (string * py)) :=
  match l with [] => Ok [] | (k, x) :: r => do t <- truth x; if t then do y <- save_object x; do s <- save_items r; Ok ((k, y) :: s) else save_items r end.
Lemma save_object_obj c a : save_object (PObj c a) = do d <- save_items a; Ok (PDict (put CLASSID (PStr c) d)).
Proof. reflexivity. Qed.
Lemma mapM_snoc {A B} (f : A -> result B) l x : mapM f (l ++ [x]) = do r <- mapM f l; do y <- f x; Ok (r ++ [y]).
Proof. induction l as [|a l IH]; cbn; [destruct (f x); reflexivity|]. destruct (f a); [|reflexivity]. cbn [bind]. rewrite IH. destruct (mapM f l); [|reflexivity]. cbn [bind]. now destruct (f x). Qed.
Lemma is_ascii_app a b : is_ascii (a ++ b) = is_ascii a && is_ascii b.
Proof. unfold is_ascii. induction a as [|c a IH]; [reflexivity|]. cbn [append list_ascii_of_string forallb]. now rewrite IH, andb_assoc. Qed.
Lemma digit_ascii n : (nat_of_ascii (digit (n mod 10)) <? 128)%nat = true.
Proof.
  assert (B : 0 <= n mod 10 < 10) by (apply Z.mod_pos_bound; lia). set (d := n mod 10) in *. clearbody d. assert (d = 0 \/ d = 1 \/ d = 2 \/ d = 3 \/ d = 4 \/ d = 5 \/ d = 6 \/ d = 7 \/ d = 8 \/ d = 9) as D by lia.
  repeat destruct D as [-> | D]; try reflexivity. subst d. reflexivity.
Qed.
Lemma pad2_ascii n : is_ascii (pad2 n) = true.
Proof. unfold is_ascii, pad2. cbn [list_ascii_of_string forallb]. now rewrite !digit_ascii. Qed.
Lemma build_ascii t : is_ascii (build t) = true.
Proof. rewrite build_eq. unfold pad4. rewrite !is_ascii_app, !pad2_ascii. reflexivity. Qed.
Lemma encode_default : forall v w, no_class_attribute v -> save_object v = Ok w -> encode w = encode v.
Proof.
  fix IH 1. intros v w. destruct v as [|b|z|q|s|s|t|l|l|d|c a]; try (intros _ E; injection E as <-; reflexivity).
  { intros _ E. injection E as <-. rewrite encode_dict. cbn [mapM]. unfold encode_entry. cbn [fst snd encode]. rewrite build_ascii. reflexivity. }
  rewrite save_object_obj, encode_obj. intros N. 
  assert (M : forall d, save_items a = Ok d -> mapM encode_entry d = encode_items a /\ ~ In CLASSID (map fst d)).
  { cbn [no_class_attribute] in N. clear w. induction a as [|[k x] a IHa]; intros d; cbn [save_items encode_items]; [intros E; injection E as <-; split; [reflexivity|intros []]|]. destruct N as (K & NX & NA). specialize (IHa NA).
    destruct (truth x) as [[|]|]; cbn [bind]; [|exact (IHa d)|discriminate]. pose proof (IH x) as X. destruct (save_object x) as [y|]; [|discriminate]. cbn [bind]. destruct (save_items a) as [s|]; [|discriminate]. cbn [bind]. intros E. injection E as <-.
    destruct (IHa s eq_refl) as [E I]. split; [|cbn; intros [F|F]; [congruence|exact (I F)]]. cbn [mapM]. unfold encode_entry at 1. cbn [fst snd]. rewrite (X y NX eq_refl). destruct (encode x); [|reflexivity]. cbn [bind]. now rewrite E. }
  destruct (save_items a) as [d|]; [|discriminate]. cbn [bind]. intros E. injection E as <-. destruct (M d eq_refl) as [MD I]. rewrite put_new by exact I. rewrite encode_dict, mapM_snoc, MD.
  assert (J : forall js, encode_items a = Ok js -> ~ In CLASSID (map fst js)).
  { intros js. rewrite <- MD. clear -I. revert js. induction d as [|[k x] d IHd]; intros js; cbn [mapM]; [intros E; injection E as <-; intros []|]. unfold encode_entry at 1. cbn [fst snd]. destruct (encode x); [|discriminate]. cbn [bind]. destruct (mapM encode_entry d) as [js'|]; [|discriminate]. cbn [bind]. intros E. injection E as <-.
    cbn in I |- *. intros [F|F]; [apply I; now left|]. revert F. apply IHd; [|reflexivity]. intros F. apply I. now right. }
  destruct (encode_items a) as [js|]; [|reflexivity]. cbn [bind]. unfold encode_entry. cbn [fst snd encode]. destruct (is_ascii c); [|reflexivity]. cbn [bind]. now rewrite put_new by (apply J; reflexivity).
Qed.

(* ---- failures *)
Lemma mapM_in_err {A B} (f : A -> result B) l x e : In x l -> f x = Err e -> exists e', mapM f l = Err e'.
Proof.
  induction l as [|y l IH]; intros I E; [destruct I|]. cbn. destruct I as [->|I]; [rewrite E; eexists; reflexivity|]. destruct (f y); [|eexists; reflexivity]. cbn [bind]. destruct (IH I E) as [e' ->]. eexists. reflexivity.
Qed.
Lemma load_within make j j' e : within j j' -> load make j = Err e -> exists e', load make j' = Err e'.
Proof.
  induction 1 as [|l x I _ IH|d k x I _ IH]; intros E; [eauto| |]; destruct (IH E) as [e' E'].
  - rewrite load_list. destruct (mapM_in_err (load make) l x e' I E') as [e2 ->]. eexists. reflexivity.
  - rewrite load_dict. destruct (mapM_in_err (load_entry make) d (k, x) e' I) as [e2 ->]; [unfold load_entry; cbn [fst snd]; now rewrite E'|]. eexists. reflexivity.
Qed.

(* ---- calling a class with the attributes that were kept *)
Section Rows.
Variable make : string -> list (string * py) -> result py.
(* name, default, attribute, what comes back *)
Notation row := (string * option py * py * py)%type.
Definition r_name (r : row) := fst (fst (fst r)).
Definition r_default (r : row) := snd (fst (fst r)).
Definition r_value (r : row) := snd (fst r).
Definition r_back (r : row) := snd r.
Definition row_ok (r : row) : Prop := (truth (r_value r) = Ok true /\ returns make true (r_value r) (r_back r)) \/ (truth (r_value r) = Ok false /\ r_default r = Some (r_back r)).
Definition r_kept (r : row) : bool := match truth (r_value r) with Ok true => true | _ => false end.
Definition attributes_of (rows : list row) := map (fun r => (r_name r, r_value r)) rows.
Definition params_of (rows : list row) := map (fun r => (r_name r, r_default r)) rows.
Definition back_of (rows : list row) := map (fun r => (r_name r, r_back r)) rows.
Lemma get_rows rows r : NoDup (map r_name rows) -> In r rows -> get (back_of (filter r_kept rows)) (r_name r) = if r_kept r then Some (r_back r) else None.
Proof.
  intros N I. unfold get, back_of. induction rows as [|x rows IH]; [destruct I|]. cbn [map] in N. inversion N as [|? ? NI N']; subst. cbn [filter].
  assert (A : forall y, In y rows -> r_name y <> r_name x) by (intros y J E; apply NI; rewrite <- E; now apply in_map).
  destruct I as [->|I].
  - destruct (r_kept r) eqn:K; [cbn [map find fst snd]; now rewrite String.eqb_refl|].
    assert (F : find (fun p : string * py => String.eqb (fst p) (r_name r)) (map (fun r => (r_name r, r_back r)) (filter r_kept rows)) = None).
    { clear -A. induction rows as [|y rows IH]; [reflexivity|]. cbn [filter]. assert (IH' := IH (fun z J => A z (or_intror J))). destruct (r_kept y); [|exact IH']. cbn [map find fst]. destruct (String.eqb_spec (r_name y) (r_name r)) as [E|_]; [exfalso; exact (A y (or_introl eq_refl) E)|exact IH']. }
    now rewrite F.
  - specialize (IH N' I). destruct (r_kept x); [|exact IH]. cbn [map find fst]. destruct (String.eqb_spec (r_name x) (r_name r)) as [E|_]; [exfalso; exact (A r I (eq_sym E))|exact IH].
Qed.
Lemma bind_some part rows : incl part rows -> incl rows part -> NoDup (map r_name rows) -> Forall row_ok rows -> bind_arguments (params_of part) (back_of (filter r_kept rows)) = Ok (back_of part).
Proof.
  intros PR RP N F. unfold bind_arguments. replace (forallb _ _) with true.
  - assert (G : forall some, (forall r, In r some -> In r rows) -> mapM (fun p : string * option py => match get (back_of (filter r_kept rows)) (fst p), snd p with
        | Some v, _ => Ok (fst p, v) | None, Some v => Ok (fst p, v) | None, None => Err TypeError end) (params_of some) = Ok (back_of some)).
    { clear part PR RP. induction some as [|r part IH]; intros S; [reflexivity|]. cbn [params_of map mapM fst snd]. rewrite get_rows by (try apply S; cbn; auto). rewrite Forall_forall in F. assert (R := F r (S r (or_introl eq_refl))).
      fold (params_of part). rewrite IH by (intros y J; apply S; now right). unfold r_kept. destruct R as [[T _]|[T D]]; rewrite T; [reflexivity|]. now rewrite D. }
    apply G. exact PR.
  - symmetry. apply forallb_forall. intros a I. apply existsb_exists. unfold back_of in I. apply in_map_iff in I. destruct I as (r & <- & I). apply filter_In in I. exists (r_name r, r_default r). split; [|apply String.eqb_refl]. unfold params_of. apply in_map_iff. exists r. split; [reflexivity|apply RP; tauto].
Qed.
Lemma bind_rows rows : NoDup (map r_name rows) -> Forall row_ok rows -> bind_arguments (params_of rows) (back_of (filter r_kept rows)) = Ok (back_of rows).
Proof. apply bind_some; apply incl_refl. Qed.
Lemma rows_return inside c rows c' a' : class_name c -> NoDup (map r_name rows) -> ~ In CLASSID (map r_name rows) -> Forall row_ok rows ->
  make c (back_of (filter r_kept rows)) = Ok (PObj c' a') -> returns make inside (PObj c (attributes_of rows)) (PObj c' a').
Proof.
  intros C N NC F M. assert (NM : map fst (attributes_of rows) = map r_name rows) by (unfold attributes_of; rewrite map_map; reflexivity).
  eapply returns_instance with (arguments := back_of (filter r_kept rows)); [exact C|now rewrite NM|now rewrite NM| |reflexivity| |exact M].
  - intros x I. unfold attributes_of in I. apply in_map_iff in I. destruct I as (r & <- & I). rewrite Forall_forall in F. cbn [snd]. destruct (F r I) as [[T _]|[T _]]; eauto.
  - clear N NC NM M. induction rows as [|r rows IH]; [constructor|]. inversion F as [|? ? R F']; subst. specialize (IH F'). cbn [attributes_of map filter snd]. fold (attributes_of rows). unfold r_kept at 1. destruct R as [[T R]|[T _]]; rewrite T; [|exact IH].
    cbn [back_of map]. constructor; [split; [reflexivity|exact R]|exact IH].
Qed.
End Rows.
