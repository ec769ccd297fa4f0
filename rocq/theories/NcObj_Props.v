(* C18: what is saved in a NetCDF catalogue and read back. *)
From Coq Require Import String Ascii.
From Verif Require Import Base Work_Model Cat_Model Cat_Proofs Time_Model Time_Spec Time_Proofs Name_Model NcObj_Model NcObj_Spec NcObj_Proofs.
Local Open Scope Z_scope.
Local Open Scope list_scope.
Local Open Scope string_scope.

(* Any object built of text, numbers, times, lists of these, rows of numbers or of text, tables and nested objects comes
   back with the same values in the same positions, at any depth. *)
Theorem C18_round_trip c ms g : kept (VObj (Some c) ms) -> save_file (VObj (Some c) ms) = Ok g ->
  exists w, load_object g = Ok w /\ same (VObj (Some c) ms) w.
Proof. apply file_round. Qed.

(* A catalogue with a table of files, two operations with nested objects and reference lists of different lengths. *)
Definition ex_operation (n : string) (refs : list (list Z)) (start : Z) : value :=
  VObj (Some "Operation") [("name", VStr n);
    ("runmodule", VObj (Some "M") [("refs", VList (map (fun r => VList (map VInt r)) refs)); ("x", VNone); ("labels", VList [VStr "a"; VStr "long one"; VStr ""])]);
    ("step", VObj (Some "StepDaily") [("start", VTime (675334 * DAY)); ("end", VTime ((675334 + start) * DAY))]); ("count", VInt start)].
Definition ex_match (n : string) (t s : Z) : value := VObj None [("name", VStr n); ("time", VTime t); ("size", VInt s); ("tags", VNone)].
Definition ex_catalogue : value := VObj (Some "Catalogue") [
  ("identifier", VStr "id-1");
  ("datasets", VList [VObj (Some "DS") [("path", VStr "/data"); ("subsets", VList [VObj (Some "Sub") [("matches", VList [ex_match "f1" (730486 * DAY) 7; ex_match "f22" (730487 * DAY + 3600 * SECOND) 0])]])]]);
  ("operations", VList [ex_operation "first" [[1]; []; [2; 3]] 2; ex_operation "second" [[5; 6; 7]] 9]);
  ("lags", VList [VFloat 3; VFloat 4])].

Lemma good_name_dec k : k <> CLASSID -> k <> CONVENTIONS -> k <> LIST_COUNT -> no_underscore k -> good_name k.
Proof. intros A B C D. split; [exact A|]. split; [exact B|]. split; [exact C|]. intros s i H. apply D. Qed.
Lemma no_underscore_by (k : string) : forallb (fun c => negb (Ascii.eqb c "_"%char)) (list_ascii_of_string k) = true -> no_underscore k.
Proof.
  intros H a b ->. rewrite forallb_forall in H. specialize (H "_"%char). assert (In "_"%char (list_ascii_of_string (a ++ String "_" b))) as I.
  { clear. induction a as [|c a IH]; cbn; [now left|now right]. }
  specialize (H I). discriminate.
Qed.
Lemma no_nul_by s : forallb (fun c => negb (Ascii.eqb c NUL)) (list_ascii_of_string s) = true -> no_nul s.
Proof.
  intros H a b ->. rewrite forallb_forall in H. specialize (H NUL). assert (In NUL (list_ascii_of_string (a ++ String NUL b))) as I.
  { clear. induction a as [|c a IH]; [now left|now right]. }
  specialize (H I). discriminate.
Qed.

Ltac good := first [apply good_name_dec; [discriminate|discriminate|discriminate|apply no_underscore_by; reflexivity]].
Ltac kept_tac :=
  match goal with
  | |- absent (Some VNone) \/ _ => left; right; left; reflexivity
  | |- absent (Some _) \/ _ => right; kept_tac
  | |- kept (VStr _) => apply kept_plain; apply no_nul_by; reflexivity
  | |- kept (VInt _) => apply kept_plain; discriminate
  | |- kept (VFloat _) => apply kept_plain; discriminate
  | |- kept (VTime _) => apply kept_plain; first [assumption|apply andb_true_intro; split; apply Z.leb_le; unfold min_datetime, max_datetime, DAY, SECOND; lia]
  | |- kept (VObj _ _) => apply kept_obj;
      [cbn [map fst]; repeat (constructor; [cbn [In]; intuition discriminate|]); constructor
      |cbn [map fst In]; intros k I; repeat (destruct I as [<-|I]; [good|]); destruct I
      |cbn [In]; intros k v I; repeat (destruct I as [E|I]; [apply pair_equal_spec in E; destruct E as [<- <-]; try kept_tac|]); try destruct I]
  end.

Lemma ex_match_kept n t s : no_nul n -> valid_datetime t = true -> s <> FILL_INT -> kept (ex_match n t s).
Proof. intros A B C. unfold ex_match. kept_tac; right; now apply kept_plain. Qed.

Lemma ex_operation_kept n refs s : no_nul n -> Forall (Forall (fun z => z <> FILL_INT)) refs -> (exists r, In r refs /\ r <> []) ->
  0 <= s <= 1000 -> kept (ex_operation n refs s).
Proof.
  intros A B C D. unfold ex_operation. kept_tac.
  - right. now apply kept_plain.
  - right. apply kept_flat. assert (map (fun r => VList (map VInt r)) refs = map VList (map (map VInt) refs)) as -> by (now rewrite map_map).
      apply (flat_numbers TInt); [now left| |].
    * apply Forall_forall. intros row I. apply in_map_iff in I as (r & <- & I). apply Forall_forall. intros v J. apply in_map_iff in J as (z & <- & J).
      split; [reflexivity|]. rewrite Forall_forall in B. specialize (B r I). rewrite Forall_forall in B. now apply B.
    * destruct C as (r & I & N). exists (map VInt r). split; [now apply in_map|destruct r; [congruence|discriminate]].
  - right. apply kept_flat. apply (flat_scalars TStr); [discriminate|]. repeat (constructor; [split; [reflexivity|apply no_nul_by; reflexivity]|]). constructor.
  - right. apply kept_plain. unfold plain, FILL_INT. lia.
Qed.

Example C18_round_trip_nonvacuous : kept ex_catalogue /\ exists g, save_file ex_catalogue = Ok g.
Proof.
  split; [|destruct (save_file ex_catalogue) as [g|] eqn:E; [now exists g|vm_compute in E; discriminate]].
  unfold ex_catalogue. kept_tac.
  - right. apply kept_objects; [discriminate| |].
    + intros v [<-|[]]. split; [|eauto]. kept_tac. right. apply kept_objects; [discriminate| |].
      * intros v [<-|[]]. split; [|eauto]. kept_tac. right. apply kept_objects; [discriminate| |].
        -- intros v [<-|[<-|[]]]; (split; [apply ex_match_kept; [apply no_nul_by; reflexivity|vm_compute; reflexivity|discriminate]|unfold ex_match; eauto]).
        -- intros _. exists None, ["name"; "time"; "size"; "tags"]. split; [intros v [<-|[<-|[]]]; (eexists; split; [reflexivity|cbn; tauto])|].
           intros k [<-|[<-|[<-|[<-|[]]]]]; (eexists; split; [repeat (constructor; [eexists; eexists; split; reflexivity|]); constructor|]).
           ++ right. apply (flat_scalars TStr); [discriminate|]. repeat (constructor; [split; [reflexivity|apply no_nul_by; reflexivity]|]). constructor.
           ++ right. apply (flat_scalars TTime); [discriminate|]. repeat (constructor; [split; [reflexivity|vm_compute; reflexivity]|]). constructor.
           ++ right. apply (flat_scalars TInt); [discriminate|]. repeat (constructor; [split; [reflexivity|discriminate]|]). constructor.
           ++ left. intros x [<-|[<-|[]]]; right; left; reflexivity.
      * intros F. inversion F. discriminate.
    + intros F. inversion F. discriminate.
  - right. apply kept_objects; [discriminate| |].
    + intros v [<-|[<-|[]]]; (split; [apply ex_operation_kept; [apply no_nul_by; reflexivity| | |lia]|unfold ex_operation; eauto]).
      * repeat constructor; discriminate.
      * exists [1]. split; [now left|discriminate].
      * repeat constructor; discriminate.
      * exists [5; 6; 7]. split; [now left|discriminate].
    + intros F. inversion F. discriminate.
  - right. apply kept_flat, (flat_scalars TFloat); [discriminate|]. repeat (constructor; [split; [reflexivity|discriminate]|]). constructor.
Qed.
Print Assumptions C18_round_trip.

(* The same for a list or column of text, numbers or times by itself. *)
Theorem C18_list_round_trip key l dimension p : flat l -> save_list_of_simple_values key l dimension = Ok p ->
  exists x l', p_vars p = [(key, x)] /\ read_variable x = Ok (VList l') /\ Forall2 same l l'.
Proof. intros F E. now destruct (flat_round _ _ _ _ F E) as (_ & _ & H & _). Qed.
Print Assumptions C18_list_round_trip.

Example C18_list_round_trip_nonvacuous :
  flat [VList [VInt 1]; VList []; VList [VInt 2; VInt 3]] /\ is_ok (save_list_of_simple_values "refs" [VList [VInt 1]; VList []; VList [VInt 2; VInt 3]] None) = true.
Proof.
  split; [|vm_compute; reflexivity]. apply (flat_numbers TInt [[VInt 1]; []; [VInt 2; VInt 3]]); [now left| |].
  - repeat constructor; discriminate.
  - exists [VInt 1]. split; [now left|discriminate].
Qed.

(* In a list or column of numbers or times, None takes no place: what follows moves up. So positions are kept exactly when
   nothing follows a None. *)
Theorem C18_none_closes_up t key l dimension p : t = TInt \/ t = TFloat \/ t = TTime ->
  Forall (fun v => v = VNone \/ has_type t v = true /\ plain v) l -> (exists v, In v l /\ v <> VNone) ->
  save_list_of_simple_values key l dimension = Ok p ->
  exists x l', p_vars p = [(key, x)] /\ read_variable x = Ok (VList l') /\ Forall2 same (filter (fun v => negb (is_none v)) l) l'.
Proof.
  intros T F (v0 & I0 & N0) E. assert (forall A (a b : A), Ok a = Ok b -> a = b) as SI by congruence.
  assert (forallb is_none l = false) as N1 by (apply not_true_is_false; rewrite forallb_none; auto).
  assert (has_type t v0 = true) as T0 by (rewrite Forall_forall in F; destruct (F v0 I0) as [X|[X _]]; [congruence|exact X]).
  assert (is_list_of (VList l) [t] = true) as L1.
  { rewrite list_of_one. apply forallb_forall. intros v I. rewrite Forall_forall in F. destruct (F v I) as [->|[X _]]; [reflexivity|]. rewrite X. apply orb_true_r. }
  assert (forall t', t' <> t -> is_list_of (VList l) [t'] = false) as L2.
  { intros t' NT. apply not_true_is_false. rewrite list_of_one, forallb_forall. intros H. specialize (H v0 I0). destruct v0; try congruence; destruct t, t'; try discriminate; congruence. }
  unfold save_list_of_simple_values in E. cbv zeta in E. rewrite N1 in E. destruct T as [->|[->| ->]].
  - rewrite (L2 TStr), L1 in E by discriminate. destruct (mapM int_cell l) as [cells|] eqn:EC; [|discriminate]. cbn [bind] in E. apply SI in E. subst p.
    cbn [join p_vars app]. eexists. eexists. split; [reflexivity|]. split; [reflexivity|]. clear -EC F. revert cells EC.
    induction F as [|v l H F IH]; intros cells EC; cbn [mapM] in EC; [injection EC as <-; constructor|].
    destruct (int_cell v) as [z|] eqn:Z; [|discriminate]. cbn [bind] in EC. destruct (mapM int_cell l) as [zs|]; [|discriminate]. cbn [bind] in EC. apply (f_equal (fun r => match r with Ok a => a | _ => [] end)) in EC. cbv beta iota in EC. subst cells.
    specialize (IH zs eq_refl). unfold unmasked in *. cbn [filter]. destruct H as [->|[TV PV]].
    + assert (z = FILL_INT) as -> by (cbn [int_cell] in Z; congruence). rewrite Z.eqb_refl. exact IH.
    + apply int_cell_ok in Z; [|exact TV]. subst v. cbn [is_none negb plain] in *. apply Z.eqb_neq in PV. rewrite PV. cbn [negb map]. constructor; [constructor|exact IH].
  - rewrite (L2 TStr), (L2 TInt), L1 in E by discriminate. apply SI in E. subst p. cbn [join p_vars app]. eexists. eexists. split; [reflexivity|]. split; [reflexivity|]. clear -F.
    induction F as [|v l H F IH]; [constructor|]. cbn [map]. unfold unmasked in *. cbn [filter]. destruct H as [->|[TV PV]].
    + cbn [float_cell]. rewrite Z.eqb_refl. exact IH.
    + destruct v; try discriminate. cbn [float_cell is_none negb plain] in *. apply Z.eqb_neq in PV. rewrite PV. cbn [negb map]. constructor; [constructor|exact IH].
  - rewrite (L2 TStr), (L2 TInt), (L2 TFloat), L1 in E by discriminate. apply SI in E. subst p. cbn [join p_vars app]. 
    assert (exists ts, mapM (seconds_number_to_datetime EPOCH) (unmasked FILL_INT (map time_cell l)) = Ok ts /\ Forall2 same (filter (fun v => negb (is_none v)) l) (map VTime ts)) as (ts & R & FS).
    { clear -F. induction F as [|v l H F (ts & R & FS)]; [exists []; split; [reflexivity|constructor]|]. cbn [map]. unfold unmasked in *. cbn [filter]. destruct H as [->|[TV PV]].
      - cbn [time_cell]. rewrite Z.eqb_refl. exists ts. split; assumption.
      - destruct v; try discriminate. cbn [time_cell is_none negb plain] in *. rewrite (proj2 (Z.eqb_neq _ _) (time_cell_not_fill t PV)). cbn [negb mapM]. rewrite time_round by assumption. cbn [bind].
        rewrite R. cbn [bind]. exists (to_the_second t :: ts). split; [reflexivity|]. cbn [map]. constructor; [constructor|exact FS]. }
    exists (VarTime (map time_cell l)), (map VTime ts). split; [reflexivity|]. split; [|exact FS]. cbn [read_variable]. rewrite R. reflexivity.
Qed.
Print Assumptions C18_none_closes_up.

Example C18_none_closes_up_nonvacuous : exists p, save_list_of_simple_values "size" [VNone; VInt 5; VNone; VInt 7] (Some LIST_COUNT) = Ok p /\
  exists x, p_vars p = [("size", x)] /\ read_variable x = Ok (VList [VInt 5; VInt 7]).
Proof. eexists. split; [vm_compute; reflexivity|]. eexists. split; reflexivity. Qed.

(* ---- what is not kept: C18 as it stands is false. *)

Definition reload (v : value) : result value := do g <- save_file v; load_object g.
Definition holder (v : value) : value := VObj (Some "H") [("x", v); ("y", VObj None [("z", VList [VObj None [("w", VObj None [])]])])].

(* A record without a size receives the size of the next one, which loses it. *)
Definition two_records (a b : value) : value := VList [VObj None [("n", VStr "a"); ("size", a)]; VObj None [("n", VStr "b"); ("size", b)]].
Theorem C18_round_trip_refuted : exists s : Z, exists ms, reload (holder (two_records VNone (VInt s))) = Ok (VObj (Some "H") ms) /\
  get ms "x" = Some (VList [VObj None [("n", VStr "a"); ("size", VInt s)]; VObj None [("n", VStr "b")]]).
Proof. exists 42. eexists. split; vm_compute; reflexivity. Qed.
Print Assumptions C18_round_trip_refuted.

(* Text that is None comes back as the empty text. *)
Theorem C18_none_text_refuted : exists ms, reload (holder (VList [VNone; VStr "b"])) = Ok (VObj (Some "H") ms) /\ get ms "x" = Some (VList [VStr ""; VStr "b"]).
Proof. eexists. split; vm_compute; reflexivity. Qed.
Print Assumptions C18_none_text_refuted.

(* Rows of text can never be saved as a member of an object (such as the unused names of an archive): two dimensions of the
   group get the same name, whatever the rows hold. *)
Theorem C18_text_rows_never_saved key rows p pieces : (exists row s, In row rows /\ In s row /\ s <> "") ->
  save_list_of_simple_values key (map (fun row => VList (map VStr row)) rows) None = Ok p -> In p pieces ->
  make_group pieces = Err ModuleError.
Proof.
  intros (row & s & Ir & Is & Ns) E I. assert (forall A (a b : A), Ok a = Ok b -> a = b) as SI by congruence.
  assert (map (fun row => VList (map VStr row)) rows = map VList (map (map VStr) rows)) as X by (now rewrite map_map). rewrite X in E.
  assert (map (map VStr) rows <> []) as NR by (destruct rows; [destruct Ir|discriminate]).
  destruct (rows_not_scalars _ NR) as [A B]. unfold save_list_of_simple_values in E. cbv zeta in E. rewrite A, !B in E.
  assert (is_list2d_of (VList (map VList (map (map VStr) rows))) [TStr] = true) as C.
  { apply list2d_of_rows. intros r v Ir' Iv. apply in_map_iff in Ir' as (r' & <- & _). apply in_map_iff in Iv as (s' & <- & _). now right. }
  rewrite C in E. apply SI in E. unfold save_string_list2d in E. cbv zeta in E.
  match type of E with context [match flat_map ?f ?x with _ => _ end] => remember (flat_map f x) as lengths eqn:EL in E end.
  assert (In (String.length s) lengths) as IL.
  { rewrite EL. apply in_flat_map. exists (VList (map VStr row)). split; [apply in_map_iff; exists (map VStr row); split; [reflexivity|now apply in_map]|].
    cbn [elements]. apply in_flat_map. exists (VStr s). split; [now apply in_map|]. destruct s; [congruence|]. now left. }
  destruct lengths as [|n lengths]; [destruct IL|]. 
  unfold make_group. cbv zeta. rewrite join_all. cbn [p_attrs p_dims p_vars p_subs].
  assert (has_dup (map fst (flat_map p_dims pieces)) = true) as ->; [|reflexivity].
  apply not_false_is_true. rewrite has_dup_NoDup. intros ND. apply in_split in I as (l1 & l2 & ->). rewrite flat_map_app, map_app in ND. apply NoDup_app_r in ND.
  cbn [flat_map] in ND. rewrite map_app in ND. apply NoDup_app_l in ND. subst p. cbn [join p_dims app map fst] in ND. inversion ND as [|? ? N1 N2]; subst. apply N1. now left.
Qed.
Print Assumptions C18_text_rows_never_saved.
Example C18_text_rows_never_saved_nonvacuous : is_ok (save_list_of_simple_values "archive_unused" [VList [VStr "a"]; VList [VStr "b"; VStr "c"]] None) = true /\
  reload (VObj (Some "DS") [("archive_unused", VList [VList [VStr "a"]; VList [VStr "b"; VStr "c"]])]) = Err ModuleError.
Proof. split; vm_compute; reflexivity. Qed.

(* Nor can a table with two columns of number lists. *)
Theorem C18_two_list_columns_refuted : exists a b c d, 
  reload (holder (VList [VObj None [("p", VList [VInt a]); ("q", VList [VInt b])]; VObj None [("p", VList [VInt c]); ("q", VList [VInt d])]])) = Err ModuleError.
Proof. exists 1, 2, 3, 4. vm_compute. reflexivity. Qed.
Print Assumptions C18_two_list_columns_refuted.

(* Rows of text of a table are filled up with empty texts. *)
Theorem C18_text_rows_padded_refuted : exists ms, 
  reload (holder (VList [VObj None [("p", VList [VStr "a"])]; VObj None [("p", VList [VStr "b"; VStr "c"])]])) = Ok (VObj (Some "H") ms) /\
  get ms "x" = Some (VList [VObj None [("p", VList [VStr "a"; VStr ""])]; VObj None [("p", VList [VStr "b"; VStr "c"])]]).
Proof. eexists. split; vm_compute; reflexivity. Qed.
Print Assumptions C18_text_rows_padded_refuted.

(* All objects of a table get the class and the members of the first. *)
Theorem C18_mixed_table_refuted : exists ms, 
  reload (holder (VList [VObj (Some "A") [("p", VInt 1)]; VObj (Some "B") [("p", VInt 2); ("q", VInt 3)]])) = Ok (VObj (Some "H") ms) /\
  get ms "x" = Some (VList [VObj (Some "A") [("p", VInt 1)]; VObj (Some "A") [("p", VInt 2)]]).
Proof. eexists. split; vm_compute; reflexivity. Qed.
Print Assumptions C18_mixed_table_refuted.

(* A number equal to the library's fill value is dropped. *)
Theorem C18_fill_value_refuted : exists ms, reload (holder (VList [VInt FILL_INT; VInt 2])) = Ok (VObj (Some "H") ms) /\ get ms "x" = Some (VList [VInt 2]).
Proof. eexists. split; vm_compute; reflexivity. Qed.
Print Assumptions C18_fill_value_refuted.

(* A time can be a member of an object only if every other member is simple. *)
Theorem C18_time_beside_object_refuted : exists t, valid_datetime t = true /\ reload (holder (VTime t)) = Err TypeError /\
  is_ok (reload (VObj (Some "H") [("s", VObj (Some "S") [("x", VTime t)])])) = true.
Proof. exists (730486 * DAY). repeat split; vm_compute; reflexivity. Qed.
Print Assumptions C18_time_beside_object_refuted.
