(* Proofs about diagnostic grids: places, the loop cell by cell, the list of cubes. *)
From Coq Require Import QArith Qcanon Ascii String.
From Verif Require Import Base Time_Model Grid_Model Grid_Spec Grid_Proofs Obs_Model Obs_Spec Cpp_Model Diag_Model Diag_Spec.
Local Open Scope Z_scope.
Local Open Scope list_scope.

(* ---- places *)

Definition plain_axis (a : field_axis) : axis :=
  {| a_start := (fa_zeroth a + (1 / qz 2) * fa_step a)%Qc; a_increment := fa_step a; a_length := fa_count a; a_wrap := fa_circular a |}.
Lemma plain_axis_iris a : iris_axis (plain_axis a) = a.
Proof. destruct a as [z s n c]. unfold iris_axis, plain_axis. cbn. f_equal. ring. Qed.

Lemma covers_within a i v : covers a i v <-> within (plain_axis a) i v.
Proof.
  unfold covers, within, plain_axis. cbn [a_start a_increment].
  split; intros (t & A & B & E); exists t; (split; [exact A | split; [exact B | rewrite E; ring]]).
Qed.
Lemma field_axis_index_iff a v i : fa_step a <> 0%Qc -> field_axis_index a v = Ok i <-> lies a i v.
Proof.
  intros N. rewrite <- (plain_axis_iris a) at 1. rewrite iris_axis_index. rewrite axis_index_iff by exact N.
  unfold lies. rewrite !covers_within. unfold just_before, plain_axis. cbn [a_start a_increment a_length a_wrap].
  split; intros (R & [H | [(I & t & A & B & E) | H]]); (split; [exact R |]); auto; right; left; (split; [exact I |]); exists t;
    (split; [exact A | split; [exact B | rewrite E; ring]]).
Qed.
Lemma lies_unique a i j v : fa_step a <> 0%Qc -> lies a i v -> lies a j v -> i = j.
Proof. intros N A B. apply (field_axis_index_iff a v i N) in A. apply (field_axis_index_iff a v j N) in B. congruence. Qed.

Lemma f2_length {A B} (R : A -> B -> Prop) l r : Forall2 R l r -> List.length l = List.length r.
Proof. induction 1; cbn; auto. Qed.
Lemma mapM_nth {A B} (f : A -> result B) l r : mapM f l = Ok r -> List.length r = List.length l /\ forall n a, nth_error l n = Some a -> exists b, nth_error r n = Some b /\ f a = Ok b.
Proof.
  intros H. apply mapM_ok_iff in H. split; [symmetry; eapply f2_length; eassumption |].
  induction H as [| x y l r E H IH]; intros [| n] a E'; try discriminate; cbn in *.
  - exists y. split; [reflexivity | congruence].
  - auto.
Qed.
Lemma mapM_all {A B} (f : A -> result B) l : (forall a, In a l -> exists b, f a = Ok b) -> exists r, mapM f l = Ok r.
Proof.
  induction l as [| x l IH]; intros H; [exists []; reflexivity |]. destruct (H x (or_introl eq_refl)) as [y E]. destruct IH as [r R]; [intros; apply H; now right |].
  exists (y :: r). cbn. now rewrite E, R.
Qed.

Definition connect2 (lat lon : field_axis) (table : list (Qc * Qc)) : result (list Z) :=
  do is <- mapM (field_axis_index lat) (map fst table);
  do js <- mapM (field_axis_index lon) (map snd table);
  Ok (map (fun ij => fst ij * fa_count lon + snd ij) (combine is js)).

Lemma connect2_nth lat lon table cells : fa_step lat <> 0%Qc -> fa_step lon <> 0%Qc -> connect2 lat lon table = Ok cells ->
  List.length cells = List.length table /\
  forall n ll, nth_error table n = Some ll -> exists c, nth_error cells n = Some c /\ in_grid_cell lat lon c ll.
Proof.
  intros N M. unfold connect2. destruct (mapM (field_axis_index lat) (map fst table)) as [is |] eqn:E1; [| discriminate]. cbn [bind].
  destruct (mapM (field_axis_index lon) (map snd table)) as [js |] eqn:E2; [| discriminate]. cbn [bind]. intros H.
  assert (cells = map (fun ij => fst ij * fa_count lon + snd ij) (combine is js)) as -> by congruence. clear H.
  apply mapM_nth in E1. destruct E1 as [L1 E1]. apply mapM_nth in E2. destruct E2 as [L2 E2]. rewrite map_length in L1, L2.
  split; [rewrite map_length, combine_length; lia |].
  intros n ll E. destruct (E1 n (fst ll)) as (i & I1 & I2); [now apply map_nth_error |]. destruct (E2 n (snd ll)) as (j & J1 & J2); [now apply map_nth_error |].
  exists (i * fa_count lon + j). split.
  - assert (nth_error (combine is js) n = Some (i, j)) as C.
    { clear - I1 J1. revert n js I1 J1. induction is as [| x is IH]; intros [| n] [| y js] I1 J1; try discriminate; cbn in *; [congruence | eauto]. }
    exact (map_nth_error (fun ij => fst ij * fa_count lon + snd ij) _ _ C).
  - exists i, j. split; [now apply field_axis_index_iff | split; [now apply field_axis_index_iff | reflexivity]].
Qed.
Lemma connect2_ok lat lon table : fa_step lat <> 0%Qc -> fa_step lon <> 0%Qc ->
  (exists cells, connect2 lat lon table = Ok cells) <-> Forall (fun ll => exists c, in_grid_cell lat lon c ll) table.
Proof.
  intros N M. split.
  - intros [cells H]. apply Forall_forall. intros ll I. apply In_nth_error in I. destruct I as [n I].
    destruct (connect2_nth _ _ _ _ N M H) as [_ K]. destruct (K n ll I) as (c & _ & C). eauto.
  - intros F. rewrite Forall_forall in F.
    destruct (mapM_all (field_axis_index lat) (map fst table)) as [is E1].
    { intros v I. apply in_map_iff in I. destruct I as (ll & <- & I). destruct (F ll I) as (c & i & j & A & _). exists i. now apply field_axis_index_iff. }
    destruct (mapM_all (field_axis_index lon) (map snd table)) as [js E2].
    { intros v I. apply in_map_iff in I. destruct I as (ll & <- & I). destruct (F ll I) as (c & i & j & _ & A & _). exists j. now apply field_axis_index_iff. }
    unfold connect2. rewrite E1. cbn [bind]. rewrite E2. cbn [bind]. eauto.
Qed.
Lemma in_grid_cell_unique lat lon c d ll : fa_step lat <> 0%Qc -> fa_step lon <> 0%Qc -> in_grid_cell lat lon c ll -> in_grid_cell lat lon d ll -> c = d.
Proof.
  intros N M (i & j & A & B & ->) (i' & j' & A' & B' & ->). now rewrite (lies_unique lat i i' _ N A A'), (lies_unique lon j j' _ M B B').
Qed.
Lemma in_grid_cell_range lat lon c ll : in_grid_cell lat lon c ll -> 0 <= c < fa_count lat * fa_count lon.
Proof. intros (i & j & (A & _) & (B & _) & ->). nia. Qed.

Lemma connect_cases axes table cells : connect axes table = Ok cells ->
  exists lat lon, (axes = [lat; lon] \/ (exists time, axes = [time; lat; lon] /\ fa_count time = 1)) /\ connect2 lat lon table = Ok cells.
Proof.
  unfold connect. destruct axes as [| a [| b [| c [| d r]]]]; try discriminate.
  - intros H. exists a, b. split; [now left | exact H].
  - destruct (fa_count a =? 1) eqn:E; [| discriminate]. intros H. exists b, c. split; [right; exists a; split; [reflexivity | lia] | exact H].
Qed.

(* ---- the observations of a day *)

Lemma trunc_qz d : trunc (qz d) = d.
Proof. unfold trunc. rewrite qz_this. cbn. now rewrite Z.quot_1_r. Qed.

Lemma take_nth {A B} (d : A) (f : nat -> B) l is : take d l is = map (fun i => nth i l d) is.
Proof. reflexivity. Qed.

Lemma combine_map_same {A B C} (f : A -> B) (g : A -> C) l : combine (map f l) (map g l) = map (fun a => (f a, g a)) l.
Proof. induction l as [| x l IH]; [reflexivity |]. cbn. now rewrite IH. Qed.

Definition obs_of (gi : grid_input) : list (Z * (Qc * Qc)) := combine (gi_indices gi) (combine (gi_observation gi) (gi_uncertainty gi)).

Lemma sel_place (place : Z -> Z) (is : list nat) (loc : nat -> Z) (val : nat -> Qc * Qc) (ks : list Z) c :
  Forall2 (fun i k => place (loc i) = k) is ks ->
  sel c (combine ks (map val is)) = map snd (filter (fun r => place (fst r) =? c) (map (fun i => (loc i, val i)) is)).
Proof.
  intros F. induction F as [| i k is ks E F IH]; [reflexivity |]. cbn [map combine]. rewrite sel_cons. cbn [filter fst]. rewrite E, IH. destruct (k =? c); reflexivity.
Qed.

(* the records at the positions chosen *)
Definition rec_at (o : obset) (i : nat) : Z * (Qc * Qc) := (nth i (s_location o) 0, (nth i (s_measurement o) 0%Qc, nth i (s_unc o) 0%Qc)).
Definition chosen_positions (o : obset) (daynumber : Z) : list nat :=
  filter (fun i => negb (negb (trunc (time_at (s_time o) i) =? daynumber) || nth i (s_mask o) true)) (seq 0 (List.length (s_mask o))).

Lemma get_day_inv cells o observable day gi : get_day cells o observable day = Ok gi ->
  gi_observable gi = observable /\ gi_day gi = day /\
  List.length (gi_indices gi) = List.length (chosen_positions o day) /\
  gi_observation gi = map (fun i => nth i (s_measurement o) 0%Qc) (chosen_positions o day) /\
  gi_uncertainty gi = map (fun i => nth i (s_unc o) 0%Qc) (chosen_positions o day) /\
  Forall2 (fun i k => nth_error cells (Z.to_nat (nth i (s_location o) 0)) = Some k) (chosen_positions o day) (gi_indices gi).
Proof.
  unfold get_day. fold (chosen_positions o day). cbv zeta.
  destruct (mapM (at_id cells) (take 0 (s_location o) (chosen_positions o day))) as [ks |] eqn:E; [| discriminate]. cbn [bind]. intros H.
  assert (gi = {| gi_observable := observable; gi_day := day; gi_indices := ks; gi_observation := take 0%Qc (s_measurement o) (chosen_positions o day);
                  gi_uncertainty := take 0%Qc (s_unc o) (chosen_positions o day) |}) as -> by congruence. cbn.
  assert (Forall2 (fun i k => nth_error cells (Z.to_nat (nth i (s_location o) 0)) = Some k) (chosen_positions o day) ks) as F.
  { apply mapM_ok_iff in E. unfold take in E. clear H. remember (chosen_positions o day) as is eqn:Q. clear Q. revert ks E. induction is as [| i is IH]; intros ks E; inversion E; subst; constructor.
    - unfold at_id in *. destruct (nth_error cells _) eqn:X; [congruence | discriminate].
    - now apply IH. }
  split; [reflexivity |]. split; [reflexivity |]. split; [symmetry; eapply f2_length; exact F |]. split; [reflexivity |]. split; [reflexivity | exact F].
Qed.
Lemma get_day_ok cells o observable day : (forall i, In i (chosen_positions o day) -> (Z.to_nat (nth i (s_location o) 0%Z) < List.length cells)%nat) ->
  exists gi, get_day cells o observable day = Ok gi.
Proof.
  intros H. unfold get_day. fold (chosen_positions o day). cbv zeta.
  destruct (mapM_all (at_id cells) (take 0 (s_location o) (chosen_positions o day))) as [ks E].
  - intros a I. unfold take in I. apply in_map_iff in I. destruct I as (i & <- & I). unfold at_id. destruct (nth_error cells _) eqn:X; [eauto |].
    apply nth_error_None in X. specialize (H i I). lia.
  - rewrite E. cbn [bind]. eauto.
Qed.
Lemma get_day_bad cells o observable day i : In i (chosen_positions o day) -> (List.length cells <= Z.to_nat (nth i (s_location o) 0%Z))%nat ->
  get_day cells o observable day = Err IndexError.
Proof.
  intros I L. unfold get_day. fold (chosen_positions o day). cbv zeta.
  assert (mapM (at_id cells) (take 0 (s_location o) (chosen_positions o day)) = Err IndexError) as ->; [| reflexivity].
  revert I. induction (chosen_positions o day) as [| x l IH]; intros I; [destruct I |]. cbn [take map mapM]. unfold at_id at 1.
  destruct I as [-> | I].
  - rewrite (proj2 (nth_error_None _ _) L). reflexivity.
  - destruct (nth_error cells (Z.to_nat (nth x (s_location o) 0))) as [c |]; [| reflexivity]. cbn [bind]. fold (take 0 (s_location o) l). now rewrite (IH I).
Qed.

Lemma obs_of_sel cells o observable day gi (place : Z -> Z) c : get_day cells o observable day = Ok gi ->
  (forall i k, In i (chosen_positions o day) -> nth_error cells (Z.to_nat (nth i (s_location o) 0)) = Some k -> place (nth i (s_location o) 0) = k) ->
  sel c (obs_of gi) = map snd (filter (fun r => place (fst r) =? c) (map (rec_at o) (chosen_positions o day))).
Proof.
  intros H P. destruct (get_day_inv _ _ _ _ _ H) as (_ & _ & _ & A & B & F). unfold obs_of. rewrite A, B, combine_map_same.
  apply (sel_place place (chosen_positions o day) (fun i => nth i (s_location o) 0) (fun i => (nth i (s_measurement o) 0%Qc, nth i (s_unc o) 0%Qc))).
  clear - F P. induction F as [| i k is ks E F IH]; constructor.
  - apply P; [now left | exact E].
  - apply IH. intros; apply P; [now right | assumption].
Qed.

Lemma chosen_day o day : set_ok o -> day >= 1 \/ (day = 0 /\ forall i, (0 <= set_time o i)%Qc) ->
  map (rec_at o) (chosen_positions o day) = day_records o day.
Proof.
  intros (L & _) H. unfold chosen_positions, day_records. rewrite L. fold (rec_at o). unfold rec_at. f_equal.
  apply filter_ext_in. intros i _. unfold set_time, time_at in *. rewrite Bool.negb_orb, Bool.negb_involutive, Bool.andb_comm. f_equal.
  set (t := match s_time o with TScalar t => t | TArray ts => nth i ts 0%Qc end) in *.
  unfold in_day. pose proof (trunc_cases t) as T.
  assert (forall a b : Qc, Qle_bool a b = true <-> (a <= b)%Qc) as QL by (intros; apply Qle_bool_iff).
  apply Bool.eq_iff_eq_true. rewrite Bool.andb_true_iff, Bool.negb_true_iff, QL.
  assert (Qle_bool (qz (day + 1)) t = false <-> (t < qz (day + 1))%Qc) as QF.
  { split.
    - intros E. apply Qcnot_le_lt. intros X. apply QL in X. congruence.
    - intros E. destruct (Qle_bool _ _) eqn:X; [| reflexivity]. apply QL in X. exfalso. exact (Qclt_not_le _ _ E X). }
  rewrite QF, Z.eqb_eq, qz_plus, qz_1.
  split.
  - intros E. subst day. destruct T as [(P & A & B & C) | (P & A & B & C)]; [auto |].
    exfalso. destruct H as [H | (H & K)]; [lia |]. specialize (K i). exact (Qclt_not_le _ _ P K).
  - intros [A B]. apply trunc_nonneg; [| auto]. destruct H as [H | (H & K)]; [| apply K].
    eapply Qcle_trans; [| exact A]. rewrite <- qz_0. apply qz_le. lia.
Qed.

(* ---- the loop, cell by cell *)

Definition fold_d (d : diagnostic) (v : Qc) (ou : Qc * Qc) : Qc :=
  match d with
  | DCount => (v + 1)%Qc
  | DObsMax => if Qclt_bool v (fst ou) then fst ou else v
  | DObsMin => if Qclt_bool (fst ou) v then fst ou else v
  | DUncMax => if Qclt_bool v (snd ou) then snd ou else v
  | DUncMin => if Qclt_bool (fst ou) v then snd ou else v
  | DSum => (v + fst ou / snd ou)%Qc
  | DPrec => (v + 1 / snd ou)%Qc
  end.

Lemma set_at_eq a d c v d' c' : set_at a d c v d' c' = if diag_eqb d d' && (c =? c') then v else a d' c'.
Proof.
  unfold set_at. destruct (diag_eqb d d') eqn:E; [| reflexivity]. cbn [andb]. rewrite upd_at. destruct (c =? c') eqn:F; [reflexivity |].
  destruct d, d'; try discriminate E; reflexivity.
Qed.
Lemma aggregate_one_cell a i o u a' : aggregate_one a (i, (o, u)) = Ok a' ->
  u <> 0%Qc /\ forall d c, a' d c = if i =? c then fold_d d (a d c) (o, u) else a d c.
Proof.
  unfold aggregate_one. cbv zeta. destruct (Qc_eq_bool u 0%Qc) eqn:Z; [discriminate |]. intros H. split.
  - intros ->. now rewrite (proj2 (Qc_eq_bool_iff 0%Qc 0%Qc) eq_refl) in Z.
  - intros d c. match type of H with Ok ?t = _ => assert (a' = t) as -> by congruence end. clear H.
    destruct (i =? c) eqn:E.
    + apply Z.eqb_eq in E. subst i.
      repeat (rewrite ?set_at_eq, ?Z.eqb_refl; cbn [diag_eqb andb];
        match goal with |- context [if Qclt_bool ?x ?y then _ else _] => let F := fresh "F" in destruct (Qclt_bool x y) eqn:F end).
      all: destruct d; cbn [fold_d fst snd]; rewrite ?set_at_eq, ?Z.eqb_refl; cbn [diag_eqb andb];
        rewrite ?set_at_eq, ?Z.eqb_refl in *; cbn [diag_eqb andb] in *; try reflexivity;
        repeat match goal with H : Qclt_bool ?x ?y = _ |- _ => rewrite H; clear H end; try reflexivity.
    + repeat (match goal with |- context [if Qclt_bool ?x ?y then _ else _] => destruct (Qclt_bool x y) end);
      rewrite !set_at_eq, E, !Bool.andb_false_r; reflexivity.
Qed.

Lemma aggregate_cell l : forall a a', aggregate a l = Ok a' ->
  Forall (fun x => snd (snd x) <> 0%Qc) l /\ forall d c, a' d c = fold_left (fold_d d) (sel c l) (a d c).
Proof.
  induction l as [| [i [o u]] l IH]; intros a a' H.
  - cbn in H. assert (a' = a) as -> by congruence. split; [constructor | reflexivity].
  - unfold aggregate in H. cbn [foldM] in H. destruct (aggregate_one a (i, (o, u))) as [b |] eqn:E; [| discriminate]. cbn [bind] in H.
    destruct (aggregate_one_cell _ _ _ _ _ E) as [N C]. destruct (IH _ _ H) as [F D]. split; [constructor; assumption |].
    intros d c. rewrite D, C, sel_cons. destruct (i =? c); reflexivity.
Qed.
Lemma aggregate_ok l : forall a, Forall (fun x => snd (snd x) <> 0%Qc) l -> exists a', aggregate a l = Ok a'.
Proof.
  induction l as [| [i [o u]] l IH]; intros a F; [exists a; reflexivity |]. inversion F as [| ? ? N F']; subst. cbn in N.
  unfold aggregate. cbn [foldM]. unfold aggregate_one at 1. cbv zeta. destruct (Qc_eq_bool u 0%Qc) eqn:Z; [apply Qc_eq_bool_iff in Z; contradiction |]. cbn [bind].
  apply IH. exact F'.
Qed.
Lemma aggregate_err l a e : aggregate a l = Err e -> e = ZeroDivisionError.
Proof.
  revert a. induction l as [| [i [o u]] l IH]; intros a H; [discriminate |]. unfold aggregate in H. cbn [foldM] in H.
  destruct (aggregate_one a (i, (o, u))) as [b | e'] eqn:E; cbn [bind] in H; [exact (IH _ H) |].
  unfold aggregate_one in E. cbv zeta in E. destruct (Qc_eq_bool u 0%Qc); congruence.
Qed.

(* ---- the list of cubes *)

Lemma get_field_find cubes n : get_field cubes n = find (fun k => String.eqb (cu_name k) n) cubes.
Proof. induction cubes as [| c r IH]; [reflexivity |]. cbn. now rewrite IH. Qed.
Lemma get_field_app cubes more n : get_field (cubes ++ more) n = match get_field cubes n with Some k => Some k | None => get_field more n end.
Proof. induction cubes as [| c r IH]; [reflexivity |]. cbn. destruct (String.eqb (cu_name c) n); [reflexivity | exact IH]. Qed.
Lemma get_put_other cubes n m mk dt : n <> m -> get_field (put_field cubes n mk dt) m = get_field cubes m.
Proof.
  intros N. induction cubes as [| c r IH]; [reflexivity |]. cbn. destruct (String.eqb (cu_name c) n) eqn:E.
  - cbn. destruct (String.eqb n m) eqn:F; [apply String.eqb_eq in F; contradiction |]. apply String.eqb_eq in E. rewrite E, F. reflexivity.
  - cbn. destruct (String.eqb (cu_name c) m); [reflexivity | exact IH].
Qed.
Lemma get_put_same cubes n mk dt : get_field cubes n <> None -> get_field (put_field cubes n mk dt) n = Some {| cu_name := n; cu_mask := mk; cu_data := dt |}.
Proof.
  induction cubes as [| c r IH]; intros H; [now contradict H |]. cbn in *. destruct (String.eqb (cu_name c) n) eqn:E; cbn; [now rewrite String.eqb_refl |]. rewrite E. auto.
Qed.
Lemma put_names cubes n mk dt : map cu_name (put_field cubes n mk dt) = map cu_name cubes.
Proof.
  induction cubes as [| c r IH]; [reflexivity |]. cbn. destruct (String.eqb (cu_name c) n) eqn:E; cbn; [apply String.eqb_eq in E; congruence | now rewrite IH].
Qed.
Lemma get_field_none cubes n : get_field cubes n = None <-> ~ In n (map cu_name cubes).
Proof.
  induction cubes as [| c r IH]; [cbn; tauto |]. cbn. destruct (String.eqb (cu_name c) n) eqn:E.
  - apply String.eqb_eq in E. split; [discriminate | intros H; exfalso; apply H; now left].
  - apply String.eqb_neq in E. rewrite IH. tauto.
Qed.

Lemma append_cancel (p a b : string) : (p ++ a)%string = (p ++ b)%string -> a = b.
Proof. induction p as [| x p IH]; cbn; intros H; [exact H |]. apply IH. congruence. Qed.
Definition name_of (s o : string) (d : diagnostic) : string := field_name s o (diagnostic_name d).
Lemma field_name_diag s o x y : field_name s o x = field_name s o y -> x = y.
Proof. unfold field_name. intros H. now apply append_cancel, (append_cancel "_"), append_cancel, (append_cancel "_") in H. Qed.
Lemma name_of_inj s o d e : name_of s o d = name_of s o e -> d = e.
Proof. intros H. apply field_name_diag in H. destruct d, e; try reflexivity; discriminate H. Qed.

Lemma fold_fields (s o : string) (f : list cube -> diagnostic -> list cube) (G : diagnostic -> option cube -> option cube) :
  (forall cubes d n, n <> name_of s o d -> get_field (f cubes d) n = get_field cubes n) ->
  (forall cubes d, get_field (f cubes d) (name_of s o d) = G d (get_field cubes (name_of s o d))) ->
  forall ds cubes, NoDup ds ->
  (forall n, (forall d, In d ds -> n <> name_of s o d) -> get_field (fold_left f ds cubes) n = get_field cubes n) /\
  (forall d, In d ds -> get_field (fold_left f ds cubes) (name_of s o d) = G d (get_field cubes (name_of s o d))).
Proof.
  intros Ho Hs. induction ds as [| e ds IH]; intros cubes ND; [split; [reflexivity | intros d []] |].
  inversion ND as [| ? ? NI ND']; subst. destruct (IH (f cubes e) ND') as [A B]. cbn [fold_left]. split.
  - intros n H. rewrite A by (intros; apply H; now right). apply Ho. apply H. now left.
  - intros d [-> | I].
    + rewrite A; [apply Hs |]. intros d' I E. apply name_of_inj in E. subst d'. contradiction.
    + rewrite B by exact I. rewrite Ho; [reflexivity |]. intros E. apply name_of_inj in E. subst d. contradiction.
Qed.
Lemma diagnostics_nodup : NoDup diagnostics.
Proof. repeat constructor; cbn; intuition discriminate. Qed.
Lemma diagnostics_all d : In d diagnostics.
Proof. destruct d; cbn; tauto. Qed.

Definition opened (n : string) (init : Qc) (ixs : list Z) (k : option cube) : cube :=
  {| cu_name := n; cu_mask := fun i => if existsb (Z.eqb i) ixs then false else match k with Some c => cu_mask c i | None => true end;
     cu_data := match k with Some c => cu_data c | None => fun _ => init end |}.
Lemma open_field_other s obs cubes d n : n <> name_of s (gi_observable obs) d -> get_field (open_field s obs cubes d) n = get_field cubes n.
Proof.
  intros N. unfold open_field. fold (name_of s (gi_observable obs) d). set (m := name_of s (gi_observable obs) d) in *.
  assert (get_field (get_or_create cubes m (initial_value d)) n = get_field cubes n) as E.
  { unfold get_or_create. destruct (get_field cubes m); [reflexivity |]. rewrite get_field_app. destruct (get_field cubes n); [reflexivity |]. cbn.
    destruct (String.eqb m n) eqn:F; [apply String.eqb_eq in F; congruence | reflexivity]. }
  cbv zeta. destruct (get_field (get_or_create cubes m (initial_value d)) m); [| exact E]. rewrite get_put_other by congruence. exact E.
Qed.
Lemma open_field_same s obs cubes d :
  get_field (open_field s obs cubes d) (name_of s (gi_observable obs) d) =
  Some (opened (name_of s (gi_observable obs) d) (initial_value d) (gi_indices obs) (get_field cubes (name_of s (gi_observable obs) d))).
Proof.
  unfold open_field. fold (name_of s (gi_observable obs) d). set (m := name_of s (gi_observable obs) d) in *. cbv zeta.
  assert (get_field (get_or_create cubes m (initial_value d)) m =
          Some match get_field cubes m with Some k => k | None => {| cu_name := m; cu_mask := fun _ => true; cu_data := fun _ => initial_value d |} end) as E.
  { unfold get_or_create. destruct (get_field cubes m) eqn:F; [exact F |]. rewrite get_field_app, F. cbn. now rewrite String.eqb_refl. }
  rewrite E. rewrite get_put_same by (rewrite E; discriminate). f_equal. unfold opened. destruct (get_field cubes m); reflexivity.
Qed.
Lemma store_other s o a cubes d n : n <> name_of s o d -> get_field (store_data s o a cubes d) n = get_field cubes n.
Proof. intros N. unfold store_data. fold (name_of s o d). cbv zeta. destruct (get_field cubes (name_of s o d)); [| reflexivity]. apply get_put_other. congruence. Qed.
Lemma store_same s o a cubes d : get_field (store_data s o a cubes d) (name_of s o d) =
  option_map (fun c => {| cu_name := name_of s o d; cu_mask := cu_mask c; cu_data := a d |}) (get_field cubes (name_of s o d)).
Proof.
  unfold store_data. fold (name_of s o d). cbv zeta. destruct (get_field cubes (name_of s o d)) eqn:E; cbn [option_map]; [| exact E].
  apply get_put_same. rewrite E. discriminate.
Qed.

(* the fields of s and o hold what the lists L say *)
Definition holds_field (d : diagnostic) (k : option cube) (L : Z -> list (Qc * Qc)) : Prop :=
  match k with
  | Some k => forall c, cu_mask k c = match L c with [] => true | _ => false end /\ cu_data k c = fold_left (fold_d d) (L c) (initial_value d)
  | None => forall c, L c = []
  end.
Definition holdsD (cubes : list cube) (s o : string) (L : Z -> list (Qc * Qc)) : Prop :=
  forall d, holds_field d (get_field cubes (name_of s o d)) L.

Lemma sel_nil_existsb {A} (ixs : list Z) (vs : list A) c : List.length vs = List.length ixs ->
  existsb (Z.eqb c) ixs = match sel c (combine ixs vs) with [] => false | _ => true end.
Proof.
  revert vs. induction ixs as [| i ixs IH]; intros [| v vs] L; try discriminate; [reflexivity |]. cbn [combine existsb]. rewrite sel_cons, Z.eqb_sym.
  destruct (i =? c); [reflexivity |]. cbn [orb]. apply IH. cbn in L. lia.
Qed.

Lemma create_fields_inv ncells s cubes obs cubes' L :
  List.length (gi_observation obs) = List.length (gi_indices obs) -> List.length (gi_uncertainty obs) = List.length (gi_indices obs) ->
  holdsD cubes s (gi_observable obs) L -> create_fields ncells s cubes obs = Ok cubes' ->
  Forall (fun i => 0 <= i < ncells) (gi_indices obs) /\ Forall (fun x => snd (snd x) <> 0%Qc) (obs_of obs) /\
  (forall n, (forall d, n <> name_of s (gi_observable obs) d) -> get_field cubes' n = get_field cubes n) /\
  (forall d, get_field cubes' (name_of s (gi_observable obs) d) <> None) /\
  holdsD cubes' s (gi_observable obs) (fun c => L c ++ sel c (obs_of obs)).
Proof.
  intros L1 L2 H. unfold create_fields. destruct (forallb _ _) eqn:R; [| discriminate]. cbn [negb]. cbv zeta.
  set (o := gi_observable obs) in *.
  destruct (fold_fields s o (open_field s obs) (fun d k => Some (opened (name_of s o d) (initial_value d) (gi_indices obs) k))
    (fun cubes d n => open_field_other s obs cubes d n) (fun cubes d => open_field_same s obs cubes d) diagnostics cubes diagnostics_nodup) as [A B].
  set (mid := fold_left (open_field s obs) diagnostics cubes) in *. fold (obs_of obs).
  destruct (aggregate (data_of s o mid) (obs_of obs)) as [a |] eqn:E; [| discriminate]. cbn [bind]. intros Q.
  assert (cubes' = fold_left (store_data s o a) diagnostics mid) as -> by congruence. clear Q.
  destruct (aggregate_cell _ _ _ E) as [N C].
  destruct (fold_fields s o (store_data s o a) (fun d => option_map (fun c => {| cu_name := name_of s o d; cu_mask := cu_mask c; cu_data := a d |}))
    (fun cubes d n => store_other s o a cubes d n) (fun cubes d => store_same s o a cubes d) diagnostics mid diagnostics_nodup) as [A' B'].
  split; [apply Forall_forall; intros i I; rewrite forallb_forall in R; specialize (R i I); lia |].
  split; [exact N |].
  split. { intros n K. rewrite A' by (intros; apply K). apply A. intros; apply K. }
  assert (forall d, get_field (fold_left (store_data s o a) diagnostics mid) (name_of s o d) =
     Some {| cu_name := name_of s o d; cu_mask := cu_mask (opened (name_of s o d) (initial_value d) (gi_indices obs) (get_field cubes (name_of s o d))); cu_data := a d |}) as G.
  { intros d. rewrite B' by apply diagnostics_all. rewrite B by apply diagnostics_all. reflexivity. }
  split. { intros d. rewrite G. discriminate. }
  intros d. rewrite G. unfold holds_field. intros c. cbn [cu_mask cu_data opened]. specialize (H d). split.
  - assert (existsb (Z.eqb c) (gi_indices obs) = match sel c (obs_of obs) with [] => false | _ => true end) as ->.
    { apply sel_nil_existsb. rewrite combine_length. lia. }
    unfold holds_field in H. destruct (get_field cubes (name_of s o d)) as [k |].
    + destruct (H c) as [Hm _]. rewrite Hm. destruct (sel c (obs_of obs)) as [| x r]; [now rewrite app_nil_r |]. destruct (L c); reflexivity.
    + rewrite (H c). cbn [app]. destruct (sel c (obs_of obs)); reflexivity.
  - rewrite C, fold_left_app. f_equal. unfold data_of. fold (name_of s o d). rewrite B by apply diagnostics_all. cbn [opened cu_data].
    unfold holds_field in H. destruct (get_field cubes (name_of s o d)) as [k |]; [apply H |]. now rewrite (H c).
Qed.
Lemma create_fields_ok ncells s cubes obs : Forall (fun i => 0 <= i < ncells) (gi_indices obs) -> Forall (fun x => snd (snd x) <> 0%Qc) (obs_of obs) ->
  exists cubes', create_fields ncells s cubes obs = Ok cubes'.
Proof.
  intros F N. unfold create_fields. assert (forallb (fun i => (0 <=? i) && (i <? ncells)) (gi_indices obs) = true) as ->.
  { apply forallb_forall. intros i I. rewrite Forall_forall in F. specialize (F i I). lia. }
  cbn [negb]. cbv zeta. fold (obs_of obs). destruct (aggregate_ok (obs_of obs) (data_of s (gi_observable obs) (fold_left (open_field s obs) diagnostics cubes)) N) as [a E].
  rewrite E. cbn [bind]. eauto.
Qed.

Lemma weighted_mean_inv s o cubes cubes' : compute_weighted_mean s o cubes = Ok cubes' ->
  exists a p, get_field cubes (name_of s o DSum) = Some a /\ get_field cubes (name_of s o DPrec) = Some p /\
  cubes' = cubes ++ [{| cu_name := field_name s o "observation_weightedmean"; cu_mask := fun i => cu_mask a i || cu_mask p i || Qc_eq_bool (cu_data p i) 0%Qc;
                       cu_data := fun i => (cu_data a i / cu_data p i)%Qc |}].
Proof.
  unfold compute_weighted_mean. change (field_name s o "observation_weightedsum") with (name_of s o DSum). change (field_name s o "precision_sum") with (name_of s o DPrec).
  destruct (get_field cubes (name_of s o DSum)) as [a |]; [| discriminate]. destruct (get_field cubes (name_of s o DPrec)) as [p |]; [| discriminate].
  intros H. exists a, p. split; [reflexivity |]. split; [reflexivity |]. congruence.
Qed.
