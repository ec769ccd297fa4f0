(* Lemmas about the merge of files. *)
From Coq Require Import QArith Qcanon Ascii String Lqa.
From Verif Require Import Base Grid_Model Grid_Proofs Flag_Proofs Win_Proofs Merge_Model Merge_Spec.
Local Open Scope Z_scope.
Local Open Scope list_scope.

(* ------------------------------------------------------------------ pairs *)
Lemma loop_pairs_from n m : forall a, n - a = Z.of_nat m -> flat_map (fun i => map (fun j => (i, j)) (zrange (i + 1) n)) (zrange a n) = pairs_of (zrange a n).
Proof.
  induction m as [|m IH]; intros a H; [rewrite zrange_empty by lia; reflexivity|]. rewrite (zrange_cons a n) by lia. cbn [flat_map pairs_of]. rewrite IH by lia. reflexivity.
Qed.
Lemma loop_pairs_of n : loop_pairs n = pairs_of (zrange 0 n).
Proof. unfold loop_pairs. destruct (Z_le_dec 0 n); [apply (loop_pairs_from n (Z.to_nat n)); lia|rewrite zrange_empty by lia; reflexivity]. Qed.
Lemma pairs_In {A} (l : list A) p : In p (pairs_of l) -> In (fst p) l /\ In (snd p) l.
Proof.
  induction l as [|x l IH]; cbn; [tauto|]. rewrite in_app_iff. intros [H|H]; [apply in_map_iff in H; destruct H as (y & <- & Y); cbn; auto|destruct (IH H); auto].
Qed.
Lemma pairs_lt a n p : In p (pairs_of (zrange a n)) -> a <= fst p < snd p /\ snd p < n.
Proof.
  remember (Z.to_nat (n - a)) as m eqn:E. revert a E. induction m as [|m IH]; intros a E; [rewrite zrange_empty by lia; intros []|]. rewrite zrange_cons by lia. cbn [pairs_of]. rewrite in_app_iff.
  intros [H|H]; [apply in_map_iff in H; destruct H as (y & <- & Y); apply in_zrange in Y; cbn; lia|]. apply IH in H; lia.
Qed.
Lemma pairs_of_filter {A} (P : A -> bool) l : filter (fun p => P (fst p) && P (snd p)) (pairs_of l) = pairs_of (filter P l).
Proof.
  induction l as [|x l IH]; [reflexivity|]. cbn [pairs_of]. rewrite filter_app, IH. cbn [filter].
  assert (F : filter (fun p => P (fst p) && P (snd p)) (map (pair x) l) = if P x then map (pair x) (filter P l) else []).
  { clear IH. induction l as [|y l IHl]; [destruct (P x); reflexivity|]. cbn. rewrite IHl. destruct (P x); [|reflexivity]. cbn. destruct (P y); reflexivity. }
  rewrite F. destruct (P x); reflexivity.
Qed.
Lemma NoDup_app_intro' {A} (l m : list A) : NoDup l -> NoDup m -> (forall x, In x l -> In x m -> False) -> NoDup (l ++ m).
Proof.
  induction 1 as [|x l N ND IH]; intros M D; [exact M|]. cbn. constructor; [|apply IH; [exact M|intros y Y; apply D; right; exact Y]].
  rewrite in_app_iff. intros [H|H]; [exact (N H)|]. apply (D x); [left; reflexivity|exact H].
Qed.
Lemma pairs_NoDup {A} (l : list A) : NoDup l -> NoDup (pairs_of l).
Proof.
  induction 1 as [|x l N ND IH]; [constructor|]. cbn [pairs_of]. apply NoDup_app_intro'; [|exact IH|].
  - apply FinFun.Injective_map_NoDup; [|exact ND]. intros a b E. congruence.
  - intros p P Q. apply in_map_iff in P. destruct P as (y & <- & Y). apply pairs_In in Q. cbn in Q. tauto.
Qed.
Lemma pairs_length {A} (l : list A) : 2 * zlen (pairs_of l) = zlen l * (zlen l - 1).
Proof.
  induction l as [|x l IH]; [reflexivity|]. cbn [pairs_of]. rewrite zlen_app, zlen_map, zlen_cons. lia.
Qed.

(* ------------------------------------------------------------------ cleaning *)
Lemma path_eqb_refl p : path_eqb p p = true.
Proof. destruct p as [s|]; [apply String.eqb_refl|reflexivity]. Qed.
Lemma path_eqb_eq a b : path_eqb a b = true -> a = b.
Proof. destruct a, b; cbn; try discriminate; [|reflexivity]. intros H. apply String.eqb_eq in H. congruence. Qed.
Lemma remove_here isfile x fm r : present isfile x = false -> (forall y, In y fm -> present isfile y = true) -> remove_first path_eqb x (fm ++ x :: r) = Ok (fm ++ r).
Proof.
  intros X. induction fm as [|y fm IH]; intros H; cbn [app remove_first]; [rewrite path_eqb_refl; reflexivity|].
  destruct (path_eqb x y) eqn:E. { apply path_eqb_eq in E. subst y. rewrite (H x) in X by (left; reflexivity). discriminate. } rewrite IH by (intros z Z0; apply H; right; exact Z0). reflexivity.
Qed.
Fixpoint missing_from (isfile : string -> bool) (k : Z) (l : list path) : list Z :=
  match l with [] => [] | p :: r => if present isfile p then missing_from isfile (k + 1) r else k :: missing_from isfile (k + 1) r end.
Lemma clean_loop isfile rm : forall ra k fm fa n rem, length rm = length ra -> (forall y, In y fm -> present isfile y = true) -> (forall y, In y fa -> present isfile y = true) ->
  foldM (clean_step isfile) {| main := fm ++ rm; ancillary := fa ++ ra; sources := n; to_remove := rem |} (combine (zrange k (k + zlen rm)) (combine rm ra)) =
  Ok {| main := fm ++ filter (present isfile) rm; ancillary := fa ++ filter (present isfile) ra; sources := n + zlen (filter (present isfile) rm); to_remove := rem ++ missing_from isfile k rm |}.
Proof.
  induction rm as [|m rm IH]; intros ra k fm fa n rem L FM FA; destruct ra as [|a ra]; try discriminate L.
  - change (zlen (@nil path)) with 0. rewrite Z.add_0_r, zrange_empty by lia. cbn [combine foldM filter missing_from]. change (zlen (@nil path)) with 0. rewrite Z.add_0_r, !app_nil_r. reflexivity.
  - injection L as L. rewrite zlen_cons, zrange_cons by (pose proof (zlen_nonneg rm); lia). cbn [combine foldM]. replace (k + (1 + zlen rm)) with (k + 1 + zlen rm) by lia. unfold clean_step at 1. cbn [main ancillary sources to_remove].
    assert (STEP : forall l x, fm ++ l :: x = (fm ++ [l]) ++ x) by (intros; rewrite <- app_assoc; reflexivity). assert (STEP' : forall l x, fa ++ l :: x = (fa ++ [l]) ++ x) by (intros; rewrite <- app_assoc; reflexivity).
    assert (PR : forall (f : list path) x, present isfile x = true -> (forall y, In y f -> present isfile y = true) -> forall y, In y (f ++ [x]) -> present isfile y = true).
    { intros f x X F y Y. apply in_app_or in Y. destruct Y as [Y|[<-|[]]]; auto. }
    cbn [filter missing_from]. destruct (present isfile m) eqn:PM; cbn [bind main ancillary sources to_remove]; destruct (present isfile a) eqn:PA; cbn [bind main ancillary sources to_remove].
    + rewrite STEP, STEP', IH by (exact L || apply PR; assumption). rewrite <- !app_assoc, zlen_cons. do 2 f_equal. lia.
    + rewrite (remove_here isfile) by assumption. cbn [bind]. rewrite STEP, IH by (exact L || assumption || apply PR; assumption). rewrite <- !app_assoc, zlen_cons. do 2 f_equal. lia.
    + rewrite (remove_here isfile) by assumption. cbn [bind main ancillary sources to_remove]. rewrite STEP', IH by (exact L || assumption || apply PR; assumption). rewrite <- !app_assoc. reflexivity.
    + rewrite (remove_here isfile) by assumption. cbn [bind main ancillary sources to_remove]. rewrite (remove_here isfile) by assumption. cbn [bind main ancillary sources to_remove]. rewrite IH by assumption. rewrite <- !app_assoc. reflexivity.
Qed.
Lemma missing_In isfile l : forall k x, In x (missing_from isfile k l) <-> k <= x < k + zlen l /\ present isfile (nth (Z.to_nat (x - k)) l None) = false.
Proof.
  induction l as [|p l IH]; intros k x; cbn [missing_from]. { rewrite zlen_nil. split; [intros []|lia]. } rewrite zlen_cons. pose proof (zlen_nonneg l).
  assert (N : x <> k -> k + 1 <= x -> nth (Z.to_nat (x - k)) (p :: l) None = nth (Z.to_nat (x - (k + 1))) l None) by (intros; replace (Z.to_nat (x - k)) with (S (Z.to_nat (x - (k + 1)))) by lia; reflexivity).
  destruct (present isfile p) eqn:P; [|cbn [In]]; rewrite IH; split.
  - intros [R M]. split; [lia|]. rewrite N by lia. exact M.
  - intros [R M]. destruct (Z.eq_dec x k) as [->|D]; [rewrite Z.sub_diag in M; cbn in M; congruence|]. rewrite N in M by lia. split; [lia|exact M].
  - intros [<-|[R M]]; [split; [lia|rewrite Z.sub_diag; exact P]|]. split; [lia|]. rewrite N by lia. exact M.
  - intros [R M]. destruct (Z.eq_dec x k) as [->|D]; [left; reflexivity|right]. rewrite N in M by lia. split; [lia|exact M].
Qed.
Lemma set_nth_app {A} (a : list A) x y b : set_nth (length a) x (a ++ y :: b) = Ok (a ++ x :: b).
Proof. induction a as [|z a IH]; cbn; [reflexivity|]. rewrite IH. reflexivity. Qed.
Lemma label_pairs (g : Z * Z -> option Qc) x rest : forall done,
  foldM (fun (st : list (option Qc) * Z) (p : Z * Z) =>
    do l <- (if (x =? fst p) || (x =? snd p) then set_nth (Z.to_nat (snd st)) None (fst st) else Ok (fst st));
    Ok (l, snd st + 1)) (done ++ map g rest, zlen done) rest = Ok (done ++ map (fun p => if (x =? fst p) || (x =? snd p) then None else g p) rest, zlen done + zlen rest).
Proof.
  induction rest as [|p rest IH]; intros done; cbn [map foldM]. { rewrite zlen_nil, Z.add_0_r. reflexivity. } cbn [fst snd]. rewrite zlen_cons.
  destruct ((x =? fst p) || (x =? snd p)) eqn:E.
  - replace (Z.to_nat (zlen done)) with (length done) by (unfold zlen; lia). rewrite set_nth_app. cbn [bind]. replace (done ++ None :: map g rest) with ((done ++ [None]) ++ map g rest) by (rewrite <- app_assoc; reflexivity).
    replace (zlen done + 1) with (zlen (done ++ [@None Qc])) by (rewrite zlen_app; reflexivity). rewrite IH. rewrite <- app_assoc, zlen_app. cbn [app]. do 2 f_equal. rewrite zlen_cons, zlen_nil. lia.
  - cbn [bind]. replace (done ++ g p :: map g rest) with ((done ++ [g p]) ++ map g rest) by (rewrite <- app_assoc; reflexivity).
    replace (zlen done + 1) with (zlen (done ++ [g p])) by (rewrite zlen_app; reflexivity). rewrite IH. rewrite <- app_assoc, zlen_app. cbn [app]. do 2 f_equal. rewrite zlen_cons, zlen_nil. lia.
Qed.
Lemma label_sub_list_spec n x g : label_sub_list n x (map g (loop_pairs n)) = Ok (map (fun p => if (x =? fst p) || (x =? snd p) then None else g p) (loop_pairs n)).
Proof. unfold label_sub_list. pose proof (label_pairs g x (loop_pairs n) []) as H. cbn [app] in H. change (zlen (@nil (option Qc))) with 0 in H. rewrite H. reflexivity. Qed.
Lemma mapM_map_pure {A B C} (f : B -> result C) (h : A -> B) (g : A -> C) l : (forall a, f (h a) = Ok (g a)) -> mapM f (map h l) = Ok (map g l).
Proof. intros H. induction l as [|a l IH]; cbn; [reflexivity|]. rewrite H. cbn. rewrite IH. reflexivity. Qed.
Lemma label_lists_spec n xs : forall gs, label_lists n xs (map (fun g => map g (loop_pairs n)) gs) =
  Ok (map (fun g => map (fun p : Z * Z => if existsb (fun x => (x =? fst p) || (x =? snd p)) xs then None else g p) (loop_pairs n)) gs).
Proof.
  unfold label_lists. induction xs as [|x xs IH]; intros gs; cbn [foldM existsb]; [reflexivity|].
  rewrite (mapM_map_pure (label_sub_list n x) (fun g => map g (loop_pairs n)) (fun g => map (fun p : Z * Z => if (x =? fst p) || (x =? snd p) then None else g p) (loop_pairs n))) by (intros g; apply label_sub_list_spec). cbn [bind].
  rewrite <- (map_map (fun (g : Z * Z -> option Qc) (p : Z * Z) => if (x =? fst p) || (x =? snd p) then None else g p) (fun g => map g (loop_pairs n))). rewrite IH, map_map. f_equal. apply map_ext. intros g. apply map_ext. intros p.
  destruct (existsb _ xs); destruct ((x =? fst p) || (x =? snd p)); reflexivity.
Qed.
Lemma drop_none_map {A B} (bad : A -> bool) (r : A -> B) l : drop_none (map (fun p => if bad p then None else Some (r p)) l) = map r (filter (fun p => negb (bad p)) l).
Proof. unfold drop_none in *. induction l as [|p l IH]; [reflexivity|]. cbn [map flat_map filter]. rewrite IH. destruct (bad p); reflexivity. Qed.
Lemma filter_ext_In' {A} (f g : A -> bool) l : (forall x, In x l -> f x = g x) -> filter f l = filter g l.
Proof. induction l as [|x l IH]; intros H; [reflexivity|]. cbn. rewrite (H x (or_introl eq_refl)), IH; [reflexivity|]. intros y Y. apply H. right. exact Y. Qed.
Lemma filter_remaining isfile l : filter (present isfile) l = map (fun i => nth (Z.to_nat i) l None) (remaining isfile l).
Proof.
  unfold remaining. assert (G : forall l k, filter (present isfile) l = map (fun i => nth (Z.to_nat (i - k)) l None) (filter (fun i => present isfile (nth (Z.to_nat (i - k)) l None)) (zrange k (k + zlen l)))).
  { clear l. induction l as [|p l IH]; intros k. { rewrite zlen_nil, Z.add_0_r, zrange_empty by lia. reflexivity. } rewrite zlen_cons, zrange_cons by (pose proof (zlen_nonneg l); lia). cbn [filter]. rewrite Z.sub_diag. change (nth (Z.to_nat 0) (p :: l) None) with p.
    replace (k + (1 + zlen l)) with (k + 1 + zlen l) by lia. rewrite (IH (k + 1)).
    assert (E : forall i, In i (zrange (k + 1) (k + 1 + zlen l)) -> nth (Z.to_nat (i - k)) (p :: l) None = nth (Z.to_nat (i - (k + 1))) l None) by (intros i I; apply in_zrange in I; replace (Z.to_nat (i - k)) with (S (Z.to_nat (i - (k + 1)))) by lia; reflexivity).
    rewrite (filter_ext_In' (fun i => present isfile (nth (Z.to_nat (i - k)) (p :: l) None)) (fun i => present isfile (nth (Z.to_nat (i - (k + 1))) l None))) by (intros i I; rewrite E by exact I; reflexivity).
    assert (M : map (fun i => nth (Z.to_nat (i - k)) (p :: l) None) (filter (fun i => present isfile (nth (Z.to_nat (i - (k + 1))) l None)) (zrange (k + 1) (k + 1 + zlen l))) = map (fun i => nth (Z.to_nat (i - (k + 1))) l None) (filter (fun i => present isfile (nth (Z.to_nat (i - (k + 1))) l None)) (zrange (k + 1) (k + 1 + zlen l)))).
    { apply map_ext_in. intros i I. apply filter_In in I. apply E, I. }
    destruct (present isfile p); cbn [map]; rewrite M; [|reflexivity]. rewrite Z.sub_diag. reflexivity. }
  rewrite (G l 0). rewrite Z.add_0_l. rewrite (filter_ext_In' (fun i => present isfile (nth (Z.to_nat (i - 0)) l None)) (fun i => present isfile (nth (Z.to_nat i) l None))) by (intros i _; rewrite Z.sub_0_r; reflexivity).
  apply map_ext. intros i. rewrite Z.sub_0_r. reflexivity.
Qed.
Theorem clean_spec isfile m a n0 rs : zlen m = zlen a -> zlen (filter (present isfile) m) = zlen (filter (present isfile) a) ->
  clean_list_of_outputs_to_merge isfile m a n0 (map (fun r => listed r (zrange 0 (zlen m))) rs) =
  Ok (filter (present isfile) m, filter (present isfile) a, n0 + zlen (remaining isfile m), map (fun r => listed r (remaining isfile m)) rs).
Proof.
  intros L K. unfold clean_list_of_outputs_to_merge. rewrite L, Z.eqb_refl. cbn [negb]. unfold enumerate.
  assert (LC : zlen (combine m a) = zlen m) by (unfold zlen in *; rewrite combine_length; lia). rewrite LC. pose proof (clean_loop isfile m a 0 [] [] n0 [] ltac:(unfold zlen in L; lia) ltac:(intros y []) ltac:(intros y [])) as C. cbn [app] in C. rewrite Z.add_0_l in C. rewrite C. cbn [bind main ancillary sources to_remove].
  replace (zlen (filter (present isfile) m) =? zlen (filter (present isfile) a)) with true by lia. cbn [negb]. rewrite <- ?L, map_map.
  replace (map (fun x => map Some (listed x (zrange 0 (zlen m)))) rs) with (map (fun g => map g (loop_pairs (zlen m))) (map (fun r (p : Z * Z) => Some (r (fst p) (snd p))) rs)).
  2:{ rewrite map_map. apply map_ext. intros r. unfold listed. rewrite map_map, loop_pairs_of. reflexivity. }
  rewrite label_lists_spec. cbn [bind]. rewrite !map_map. do 2 f_equal; [f_equal|].
  - rewrite filter_remaining, zlen_map. reflexivity.
  - apply map_ext. intros r. rewrite drop_none_map. unfold listed. f_equal. rewrite loop_pairs_of. unfold remaining. rewrite <- pairs_of_filter. apply filter_ext_In'. intros p P. apply pairs_lt in P.
    assert (X : forall i, 0 <= i < zlen m -> existsb (fun x => x =? i) (missing_from isfile 0 m) = negb (present isfile (nth (Z.to_nat i) m None))).
    { intros i I. pose proof (missing_In isfile m 0 i) as M. rewrite Z.sub_0_r in M. destruct (existsb (fun x => x =? i) (missing_from isfile 0 m)) eqn:E.
      - apply existsb_exists in E. destruct E as (y & Y & E). apply Z.eqb_eq in E. subst y. apply M in Y. destruct Y as [_ Y]. rewrite Y. reflexivity.
      - destruct (present isfile (nth (Z.to_nat i) m None)) eqn:PI; [reflexivity|]. exfalso. assert (Y : In i (missing_from isfile 0 m)) by (apply M; split; [lia|reflexivity]). assert (existsb (fun x => x =? i) (missing_from isfile 0 m) = true) by (apply existsb_exists; exists i; split; [exact Y|apply Z.eqb_refl]). congruence. }
    assert (O : forall xs, existsb (fun x => (x =? fst p) || (x =? snd p)) xs = existsb (fun x => x =? fst p) xs || existsb (fun x => x =? snd p) xs).
    { clear. induction xs as [|x xs IH]; [reflexivity|]. cbn. rewrite IH. destruct (x =? fst p), (x =? snd p), (existsb (fun x0 => x0 =? fst p) xs); reflexivity. }
    rewrite O, !X by lia. rewrite negb_orb, !negb_involutive. reflexivity.
Qed.
Theorem clean_mismatch isfile m a n0 corr : zlen m <> zlen a \/ zlen (filter (present isfile) m) <> zlen (filter (present isfile) a) -> clean_list_of_outputs_to_merge isfile m a n0 corr = Err ValueError.
Proof.
  intros H. unfold clean_list_of_outputs_to_merge. destruct (zlen m =? zlen a) eqn:L; [|reflexivity]. cbn [negb]. apply Z.eqb_eq in L. destruct H as [H|H]; [contradiction|]. unfold enumerate.
  assert (LC : zlen (combine m a) = zlen m) by (unfold zlen in *; rewrite combine_length; lia). rewrite LC. pose proof (clean_loop isfile m a 0 [] [] n0 [] ltac:(unfold zlen in L; lia) ltac:(intros y []) ltac:(intros y [])) as C. cbn [app] in C. rewrite Z.add_0_l in C. rewrite C. cbn [bind main ancillary sources to_remove].
  destruct (zlen (filter (present isfile) m) =? zlen (filter (present isfile) a)) eqn:E; [apply Z.eqb_eq in E; contradiction|reflexivity].
Qed.

(* ------------------------------------------------------------------ the matrix and the quadratic form *)
Lemma matrix_fold (R : Z * Z -> Qc) sub rest : forall done M0, sub = map R done ++ map R rest ->
  exists M, foldM (fun (st : (Z -> Z -> Qc) * Z) (p : Z * Z) =>
      do v <- py_index sub (snd st);
      Ok ((fun a b => if (a =? fst p) && (b =? snd p) then (qz 2 * v)%Qc else fst st a b), snd st + 1)) (M0, zlen done) rest = Ok (M, zlen done + zlen rest) /\
    forall a b, M a b = if existsb (fun p => (a =? fst p) && (b =? snd p)) rest then (qz 2 * R (a, b))%Qc else M0 a b.
Proof.
  induction rest as [|p rest IH]; intros done M0 E.
  - exists M0. cbn [foldM existsb]. change (zlen (@nil (Z * Z))) with 0. rewrite Z.add_0_r. split; reflexivity.
  - cbn [foldM fst snd]. rewrite py_index_nonneg by apply zlen_nonneg. replace (nth_error sub (Z.to_nat (zlen done))) with (Some (R p)).
    2:{ subst sub. unfold zlen. rewrite Nat2Z.id. rewrite nth_error_app2 by (rewrite map_length; lia). rewrite map_length, Nat.sub_diag. reflexivity. }
    cbn [bind]. destruct (IH (done ++ [p]) (fun a b => if (a =? fst p) && (b =? snd p) then (qz 2 * R p)%Qc else M0 a b)) as (M & EM & PM). { rewrite E, map_app, <- app_assoc. reflexivity. }
    replace (zlen (done ++ [p])) with (zlen done + 1) in EM by (rewrite zlen_app; reflexivity). exists M. split; [rewrite EM, zlen_cons; do 2 f_equal; lia|]. intros a b. rewrite PM. cbn [existsb].
    destruct (existsb (fun p0 => (a =? fst p0) && (b =? snd p0)) rest); [rewrite orb_true_r; reflexivity|]. rewrite orb_false_r. destruct ((a =? fst p) && (b =? snd p)) eqn:EQ; [|reflexivity].
    assert (p = (a, b)) as -> by (destruct p; cbn [fst snd] in *; f_equal; lia). reflexivity.
Qed.
Lemma pairs_all a n i j : a <= i < j -> j < n -> In (i, j) (pairs_of (zrange a n)).
Proof.
  remember (Z.to_nat (n - a)) as m eqn:E. revert a E. induction m as [|m IH]; intros a E H J; [lia|]. rewrite zrange_cons by lia. cbn [pairs_of]. apply in_or_app. destruct (Z.eq_dec i a) as [->|D]; [left|right; apply IH; lia].
  apply in_map. apply in_zrange. lia.
Qed.
Lemma matrix_spec n r : 0 <= n -> exists M, build_triangular_correlation_matrix n (listed r (zrange 0 n)) = Ok M /\ forall a b, 0 <= a <= b -> b < n -> M a b = if a =? b then 1%Qc else (qz 2 * r a b)%Qc.
Proof.
  intros N. unfold build_triangular_correlation_matrix. assert (L : 2 * zlen (listed r (zrange 0 n)) = n * (n - 1)) by (unfold listed; rewrite zlen_map, pairs_length, zlen_zrange by lia; lia). rewrite L, Z.eqb_refl. cbn [negb].
  destruct (matrix_fold (fun p => r (fst p) (snd p)) (listed r (zrange 0 n)) (loop_pairs n) [] (fun a b => if a =? b then 1%Qc else 0%Qc)) as (M & E & P). { unfold listed. rewrite loop_pairs_of. reflexivity. }
  change (zlen (@nil (Z * Z))) with 0 in E. rewrite E. cbn [bind fst]. exists M. split; [reflexivity|]. intros a b AB BN. rewrite P, loop_pairs_of. cbn [fst snd]. destruct (existsb _ _) eqn:X.
  - apply existsb_exists in X. destruct X as (p & I & EQ). apply pairs_lt in I. replace (a =? b) with false by lia. reflexivity.
  - destruct (a =? b) eqn:AE; [reflexivity|]. exfalso. assert (I : In (a, b) (pairs_of (zrange 0 n))) by (apply pairs_all; lia).
    assert (existsb (fun p => (a =? fst p) && (b =? snd p)) (pairs_of (zrange 0 n)) = true) by (apply existsb_exists; exists (a, b); split; [exact I|cbn; rewrite !Z.eqb_refl; reflexivity]). congruence.
Qed.
Lemma fold_left_sum {A} (f : A -> Qc) l : forall x, fold_left (fun acc p => acc + f p)%Qc l x = (x + sumQ (map f l))%Qc.
Proof. induction l as [|a l IH]; intros x; cbn [fold_left map]; [unfold sumQ; cbn; ring|]. rewrite IH, sumQ_cons. ring. Qed.
Lemma variance_cons R u x t : variance_of_sum R u (x :: t) = (R x x * u x * u x + sumQ (map (fun j => R x j * u x * u j) t) + sumQ (map (fun i => R i x * u i * u x) t) + variance_of_sum R u t)%Qc.
Proof.
  unfold variance_of_sum. cbn [map]. rewrite !sumQ_cons.
  replace (sumQ (map (fun i => sumQ (R i x * u i * u x :: map (fun j => R i j * u i * u j) t)) t))%Qc with (sumQ (map (fun i => R i x * u i * u x) t) + sumQ (map (fun i => sumQ (map (fun j => R i j * u i * u j) t)) t))%Qc; [ring|].
  rewrite <- sumQ_plus. apply sumQ_ext. intros i. rewrite sumQ_cons. reflexivity.
Qed.
Lemma sumQ_ext_in {A} (f h : A -> Qc) l : (forall x, In x l -> f x = h x) -> sumQ (map f l) = sumQ (map h l).
Proof. intros H. f_equal. apply map_ext_in. exact H. Qed.
Lemma upper_sum n r M u m : (forall a b, 0 <= a <= b -> b < n -> M a b = if a =? b then 1%Qc else (qz 2 * r a b)%Qc) -> forall a, 0 <= a -> n - a = Z.of_nat m ->
  sumQ (map (fun p => u (fst p) * M (fst p) (snd p) * u (snd p))%Qc (flat_map (fun i => map (fun j => (i, j)) (zrange i n)) (zrange a n))) = variance_of_sum (correlation r) u (zrange a n).
Proof.
  intros HM. induction m as [|m IH]; intros a A E; [rewrite zrange_empty by lia; reflexivity|]. rewrite (zrange_cons a n) by lia. cbn [flat_map]. rewrite map_app, sumQ_app, map_map, IH by lia. rewrite variance_cons. rewrite (zrange_cons a n) by lia. cbn [map fst snd]. rewrite sumQ_cons.
  rewrite HM by lia. rewrite Z.eqb_refl. replace (correlation r a a) with 1%Qc by (unfold correlation; rewrite Z.eqb_refl; reflexivity).
  assert (S : forall (g : Z -> Qc), (forall j, a < j < n -> g j = (r a j * u a * u j)%Qc) -> sumQ (map g (zrange (a + 1) n)) = sumQ (map (fun j => r a j * u a * u j)%Qc (zrange (a + 1) n))).
  { intros g G. apply sumQ_ext_in. intros j J. apply in_zrange in J. apply G. lia. }
  rewrite (S (fun j => correlation r a j * u a * u j)%Qc), (S (fun i => correlation r i a * u i * u a)%Qc).
  - replace (sumQ (map (fun x => u a * M a x * u x)%Qc (zrange (a + 1) n))) with (sumQ (map (fun x => r a x * u a * u x)%Qc (zrange (a + 1) n)) + sumQ (map (fun x => r a x * u a * u x)%Qc (zrange (a + 1) n)))%Qc; [ring|].
    rewrite <- sumQ_plus. apply sumQ_ext_in. intros j J. apply in_zrange in J. rewrite HM by lia. replace (a =? j) with false by lia. replace (qz 2) with (1 + 1)%Qc by (apply Qc_is_canon; reflexivity). ring.
  - intros j J. unfold correlation. replace (j =? a) with false by lia. replace (j <? a) with false by lia. ring.
  - intros j J. unfold correlation. replace (a =? j) with false by lia. replace (a <? j) with true by lia. reflexivity.
Qed.
Lemma propagate_spec n r M u : 0 <= n -> (forall a b, 0 <= a <= b -> b < n -> M a b = if a =? b then 1%Qc else (qz 2 * r a b)%Qc) ->
  propagate n u M = variance_of_sum (correlation r) (fun i => nth (Z.to_nat i) u 0%Qc) (zrange 0 n).
Proof.
  intros N HM. unfold propagate. cbv zeta. rewrite fold_left_sum. rewrite (upper_sum n r M (fun i => nth (Z.to_nat i) u 0%Qc) (Z.to_nat n) HM) by lia. ring.
Qed.
Lemma variance_filter R u P l : (forall i, In i l -> P i = false -> u i = 0%Qc) -> variance_of_sum R u l = variance_of_sum R u (filter P l).
Proof.
  intros H. unfold variance_of_sum.
  assert (G : forall (g : Z -> Qc) l', (forall i, In i l' -> P i = false -> g i = 0%Qc) -> sumQ (map g l') = sumQ (map g (filter P l'))).
  { intros g l'. induction l' as [|x l' IH]; intros Z0; [reflexivity|]. cbn [map filter]. rewrite sumQ_cons, IH by (intros i I; apply Z0; right; exact I). destruct (P x) eqn:E; [cbn [map]; rewrite sumQ_cons; reflexivity|]. rewrite (Z0 x (or_introl eq_refl) E). ring. }
  rewrite G.
  - apply sumQ_ext. intros i. apply G. intros j J PJ. rewrite (H j J PJ). ring.
  - intros i I PI. rewrite <- (sumQ_zeros l). apply sumQ_ext. intros j. rewrite (H i I PI). ring.
Qed.
Lemma variance_ext R u v l : (forall i, In i l -> u i = v i) -> variance_of_sum R u l = variance_of_sum R v l.
Proof. intros H. unfold variance_of_sum. apply sumQ_ext_in. intros i I. apply sumQ_ext_in. intros j J. rewrite (H i I), (H j J). reflexivity. Qed.
(* bounds *)
Lemma sumQ_nonneg {A} (f : A -> Qc) l : (forall x, In x l -> (0 <= f x)%Qc) -> (0 <= sumQ (map f l))%Qc.
Proof.
  induction l as [|x l IH]; intros H; [apply Qcle_refl|]. cbn [map]. rewrite sumQ_cons. replace 0%Qc with (0 + 0)%Qc by ring. apply Qcplus_le_compat; [apply H; left; reflexivity|apply IH; intros y Y; apply H; right; exact Y].
Qed.
Lemma sumQ_le {A} (f h : A -> Qc) l : (forall x, In x l -> (f x <= h x)%Qc) -> (sumQ (map f l) <= sumQ (map h l))%Qc.
Proof.
  induction l as [|x l IH]; intros H; [apply Qcle_refl|]. cbn [map]. rewrite !sumQ_cons. apply Qcplus_le_compat; [apply H; left; reflexivity|apply IH; intros y Y; apply H; right; exact Y].
Qed.
Lemma variance_bounds r u l : NoDup l -> (forall i j, In i l -> In j l -> (0 <= r i j)%Qc /\ (r i j <= 1)%Qc) -> (forall i, In i l -> (0 <= u i)%Qc) ->
  (sumQ (map (fun i => u i * u i) l) <= variance_of_sum (correlation r) u l)%Qc /\ (variance_of_sum (correlation r) u l <= sumQ (map u l) * sumQ (map u l))%Qc.
Proof.
  intros ND HR HU. assert (C : forall i j, In i l -> In j l -> (0 <= correlation r i j)%Qc /\ (correlation r i j <= 1)%Qc).
  { intros i j I J. unfold correlation. destruct (i =? j); [split; vm_compute; discriminate|]. destruct (i <? j); auto. }
  assert (UU : forall i j, In i l -> In j l -> (0 <= u i * u j)%Qc) by (intros i j I J; apply nonneg_mult; auto).
  assert (T0 : forall i j, In i l -> In j l -> (0 <= correlation r i j * u i * u j)%Qc). { intros i j I J. replace (correlation r i j * u i * u j)%Qc with (correlation r i j * (u i * u j))%Qc by ring. apply nonneg_mult; [apply C; assumption|apply UU; assumption]. }
  assert (T1 : forall i j, In i l -> In j l -> (correlation r i j * u i * u j <= u i * u j)%Qc). { intros i j I J. replace (correlation r i j * u i * u j)%Qc with (correlation r i j * (u i * u j))%Qc by ring. replace (u i * u j)%Qc with (1 * (u i * u j))%Qc at 2 by ring. apply Qcmult_le_compat_r; [apply C; assumption|apply UU; assumption]. }
  unfold variance_of_sum. split.
  - apply sumQ_le. intros i I. assert (D : (correlation r i i * u i * u i = u i * u i)%Qc) by (unfold correlation; rewrite Z.eqb_refl; ring). rewrite <- D. destruct (in_split i l I) as (l1 & l2 & E). rewrite E at 1. rewrite map_app. cbn [map]. rewrite sumQ_app, sumQ_cons.
    assert (N1 : (0 <= sumQ (map (fun j => correlation r i j * u i * u j) l1))%Qc) by (apply sumQ_nonneg; intros j J; apply T0; [exact I|rewrite E; apply in_or_app; left; exact J]).
    assert (N2 : (0 <= sumQ (map (fun j => correlation r i j * u i * u j) l2))%Qc) by (apply sumQ_nonneg; intros j J; apply T0; [exact I|rewrite E; apply in_or_app; right; right; exact J]).
    set (d := (correlation r i i * u i * u i)%Qc). replace d with (0 + (d + 0))%Qc at 1 by ring. repeat apply Qcplus_le_compat; try assumption. apply Qcle_refl.
  - apply Qcle_trans with (sumQ (map (fun i => sumQ (map (fun j => u i * u j) l)) l))%Qc.
    + apply sumQ_le. intros i I. apply sumQ_le. intros j J. apply T1; assumption.
    + replace (sumQ (map u l) * sumQ (map u l))%Qc with (sumQ (map (fun i => sumQ (map (fun j => u i * u j) l)) l))%Qc; [apply Qcle_refl|].
      rewrite (sumQ_ext (fun i => sumQ (map (fun j => u i * u j) l)) (fun i => sumQ (map u l) * u i))%Qc. * rewrite <- (map_map u (fun x => sumQ (map u l) * x)%Qc). apply sumQ_scale. * intros i. rewrite <- (map_map u (fun x => u i * x)%Qc), sumQ_scale. ring.
Qed.
(* any list of the right length lists some correlations *)
Lemma listed_every l sub : NoDup l -> 2 * zlen sub = zlen l * (zlen l - 1) -> exists r, sub = listed r l.
Proof.
  intros ND L. rewrite <- pairs_length in L. pose proof (pairs_NoDup l ND) as NP. unfold listed. assert (LL : length sub = length (pairs_of l)) by (unfold zlen in L; lia). clear L ND. revert sub LL. induction (pairs_of l) as [|p ps IH]; intros sub LL.
  - destruct sub; [|discriminate]. exists (fun _ _ => 0%Qc). reflexivity.
  - destruct sub as [|v sub]; [discriminate|]. inversion NP as [|? ? NI NP']. subst. destruct (IH NP' sub ltac:(cbn in LL; lia)) as (r & E). exists (fun a b => if (a =? fst p) && (b =? snd p) then v else r a b). cbn [map]. rewrite !Z.eqb_refl. cbn [andb]. f_equal.
    rewrite E. apply map_ext_in. intros q Q. destruct ((fst q =? fst p) && (snd q =? snd p)) eqn:X; [|reflexivity]. exfalso. apply NI. assert (q = p) by (destruct p, q; cbn [fst snd] in *; f_equal; lia). subst q. exact Q.
Qed.

(* ------------------------------------------------------------------ merged fields *)
Definition shaped (n : nat) (f : field) : Prop := length (data f) = n /\ forall m, mask f = Some m -> length m = n.
Definition shaped_mask (n : nat) (m : option (list bool)) : Prop := forall l, m = Some l -> length l = n.
Lemma well_shaped n f : well_masked n f -> shaped n f. Proof. intros (A & B & _). split; assumption. Qed.
Lemma row_stack_ok {A} (r0 : list A) rows row : length r0 = length row -> row_stack (r0 :: rows) row = Ok ((r0 :: rows) ++ [row]).
Proof. intros E. cbn [row_stack]. rewrite E, Nat.eqb_refl. reflexivity. Qed.
Lemma nth_combine_and k : forall a b : list bool, length a = length b -> nth k (map (fun p => fst p && snd p) (combine a b)) false = nth k a false && nth k b false.
Proof. induction k as [|k IH]; intros [|x a] [|y b] E; try discriminate; try reflexivity. cbn [combine map nth]. apply IH. cbn in E. lia. Qed.
Lemma nth_all_false {A} k (l : list A) : nth k (map (fun _ => false) l) false = false.
Proof. revert l. induction k as [|k IH]; intros [|x l]; try reflexivity. cbn [map nth]. apply IH. Qed.
Lemma mask_and_ok n a b : shaped_mask n a -> shaped_mask n b -> exists m, mask_and a b = Ok m /\ shaped_mask n m /\ forall k, masked m k = masked a k && masked b k.
Proof.
  intros A B. destruct a as [a|], b as [b|]; cbn [mask_and].
  - rewrite (A a eq_refl), (B b eq_refl), Nat.eqb_refl. eexists. split; [reflexivity|]. split.
    + intros l E. inversion E. subst l. rewrite map_length, combine_length, (A a eq_refl), (B b eq_refl). apply Nat.min_id.
    + intros k. apply nth_combine_and. rewrite (A a eq_refl), (B b eq_refl). reflexivity.
  - eexists. split; [reflexivity|]. split; [intros l E; inversion E; subst l; rewrite map_length; apply (A a eq_refl)|]. intros k. cbn [masked]. rewrite nth_all_false, andb_false_r. reflexivity.
  - eexists. split; [reflexivity|]. split; [intros l E; inversion E; subst l; rewrite map_length; apply (B b eq_refl)|]. intros k. cbn [masked]. rewrite nth_all_false. reflexivity.
  - exists None. split; [reflexivity|]. split; [intros l E; discriminate|]. intros k. reflexivity.
Qed.
Lemma mean_fold n f0 rest : shaped n f0 -> Forall (shaped n) rest -> forall done m, shaped_mask n m ->
  exists m', foldM (fun (st : list (list (option Qc)) * option (list bool)) f =>
        do rows <- row_stack (fst st) (extract_nan f);
        do m <- mask_and (snd st) (mask f);
        Ok (rows, m)) (map extract_nan (f0 :: done), m) rest = Ok (map extract_nan (f0 :: done ++ rest), m') /\
    (forall k, masked m' k = masked m k && forallb (fun f => masked (mask f) k) rest).
Proof.
  intros S0 SR. induction SR as [|f rest Sf SR IH]; intros done m Sm.
  - exists m. cbn [foldM forallb]. rewrite app_nil_r. split; [reflexivity|]. intros k. rewrite andb_true_r. reflexivity.
  - cbn [foldM fst snd]. rewrite (row_stack_ok (extract_nan f0) (map extract_nan done)) by (unfold extract_nan; rewrite !map_length; destruct S0 as [-> _], Sf as [-> _]; reflexivity). cbn [bind].
    destruct (mask_and_ok n m (mask f) Sm (proj2 Sf)) as (m1 & E1 & S1 & P1). rewrite E1. cbn [bind]. destruct (IH (done ++ [f]) m1 S1) as (m' & E & P). exists m'. split.
    + replace ((extract_nan f0 :: map extract_nan done) ++ [extract_nan f]) with (map extract_nan (f0 :: done ++ [f])) by (cbn [map]; rewrite map_app; reflexivity). rewrite <- app_assoc in E. exact E.
    + intros k. rewrite P, P1. cbn [forallb]. rewrite andb_assoc. reflexivity.
Qed.
Lemma nth_map_len {A B} (f : A -> B) da db l k : (k < length l)%nat -> nth k (map f l) db = f (nth k l da).
Proof. intros H. rewrite (nth_indep _ db (f da)) by (rewrite map_length; exact H). apply map_nth. Qed.
Lemma extract_nan_datum f k : nth k (extract_nan f) None = datum f k.
Proof.
  unfold extract_nan, datum. destruct (nth_error (data f) k) as [v|] eqn:E.
  - assert (L : (k < length (data f))%nat) by (apply nth_error_Some; congruence). rewrite (nth_map_len _ 0%Qc) by exact L. rewrite (nth_error_nth _ _ _ E). reflexivity.
  - apply nth_overflow. rewrite map_length. apply nth_error_None. exact E.
Qed.
Lemma extract_zero_datum f k : nth k (extract_zero f) 0%Qc = match datum f k with Some v => v | None => 0%Qc end.
Proof.
  unfold extract_zero, datum. destruct (nth_error (data f) k) as [v|] eqn:E.
  - assert (L : (k < length (data f))%nat) by (apply nth_error_Some; congruence). rewrite (nth_map_len _ 0%Qc) by exact L. rewrite (nth_error_nth _ _ _ E). destruct (Qceqb v (fill f)); reflexivity.
  - apply nth_overflow. rewrite map_length. apply nth_error_None. exact E.
Qed.
(* lists of fields, by number *)
Lemma zrange_at a b k d : (k < Z.to_nat (b - a))%nat -> nth k (zrange a b) d = a + Z.of_nat k.
Proof. intros H. unfold zrange. rewrite (nth_map_len _ 0%nat) by (rewrite seq_length; exact H). rewrite seq_nth by exact H. reflexivity. Qed.
Lemma fields_by_number (fields : list field) : map (source fields) (zrange 0 (zlen fields)) = fields.
Proof.
  apply (nth_ext _ _ no_field no_field). { rewrite map_length, zrange_length. unfold zlen. lia. }
  intros k K. rewrite map_length, zrange_length in K. rewrite (nth_map_len _ 0) by (rewrite zrange_length; exact K). rewrite zrange_at by exact K. unfold source. f_equal. lia.
Qed.
Lemma drop_none_contributors fields k : drop_none (map (fun f => datum f k) fields) = map (value fields k) (contributors fields k).
Proof.
  rewrite <- (fields_by_number fields) at 1. unfold contributors, value. generalize (zrange 0 (zlen fields)). intros l. induction l as [|i l IH]; [reflexivity|]. cbn [map filter]. unfold drop_none. cbn [flat_map]. fold (@drop_none Qc).
  unfold has_data at 1. destruct (datum (source fields i) k) eqn:E; cbn [map app]; [rewrite E; f_equal|]; exact IH.
Qed.
Lemma contributors_none fields k : contributors fields k = [] <-> forallb (fun f => negb (has_data f k)) fields = true.
Proof.
  rewrite <- (fields_by_number fields) at 2. unfold contributors. generalize (zrange 0 (zlen fields)). intros l. induction l as [|i l IH]; [split; reflexivity|]. cbn [filter map forallb]. destruct (has_data (source fields i) k); cbn [negb andb]; [split; discriminate|exact IH].
Qed.
Lemma mean_spec n fields : fields <> [] -> Forall (well_masked n) fields -> exists g, mean_field fields = Ok g /\ length (data g) = n /\ fill g = fill (source fields 0) /\
  forall k, (k < n)%nat -> (masked (mask g) k = true <-> contributors fields k = []) /\
    nth_error (data g) k = Some (if masked (mask g) k then fill g else sumQ (map (value fields k) (contributors fields k)) / qz (zlen (contributors fields k)))%Qc.
Proof.
  intros NE WM. destruct fields as [|f0 rest]; [congruence|]. inversion WM as [|? ? W0 WR]. subst. unfold mean_field.
  destruct (mean_fold n f0 rest (well_shaped n f0 W0) (Forall_impl _ (well_shaped n) WR) [] (mask f0) (proj2 (well_shaped n f0 W0))) as (m & E & P).
  change ([extract_nan f0]) with (map extract_nan [f0]). cbn [app] in E. rewrite E. cbn [bind fst snd]. eexists. split; [reflexivity|]. cbn [data fill mask]. split; [rewrite map_length, seq_length; apply W0|]. split; [reflexivity|]. intros k K.
  assert (MK : masked m k = true <-> contributors (f0 :: rest) k = []).
  { rewrite P, contributors_none. change (masked (mask f0) k && forallb (fun f => masked (mask f) k) rest) with (forallb (fun f => masked (mask f) k) (f0 :: rest)).
    assert (Q : forall f, In f (f0 :: rest) -> masked (mask f) k = negb (has_data f k)).
    { intros f F. rewrite Forall_forall in WM. destruct (WM f F) as (_ & _ & Wk). specialize (Wk k K). unfold has_data. destruct Wk as [Wk1 Wk2]. destruct (datum f k) eqn:DD, (masked (mask f) k) eqn:MM; cbn [negb]; try reflexivity; [discriminate (Wk1 eq_refl)|discriminate (Wk2 eq_refl)]. }
    clear - Q. induction (f0 :: rest) as [|f l IH]; [reflexivity|]. cbn [forallb]. rewrite (Q f) by (left; reflexivity). rewrite !andb_true_iff, IH by (intros x X; apply Q; right; exact X). reflexivity. }
  split; [exact MK|]. rewrite nth_error_map. rewrite (nth_error_nth' _ 0%nat) by (rewrite seq_length; destruct W0 as [-> _]; exact K). rewrite seq_nth by (destruct W0 as [-> _]; exact K). cbn [option_map Nat.add]. f_equal.
  unfold nanmean, column. rewrite map_map. rewrite (map_ext _ _ (fun f => extract_nan_datum f k)). rewrite drop_none_contributors. destruct (masked m k) eqn:MM.
  - rewrite (proj1 MK eq_refl). reflexivity.
  - destruct (contributors (f0 :: rest) k) as [|i l]; [discriminate (proj2 MK eq_refl)|]. cbn [map]. unfold zlen. cbn [length]. rewrite map_length. reflexivity.
Qed.
Definition scalar_mask (m : option (list bool)) : bool := match m with None => true | Some _ => false end.
Lemma stack_masks_ok n m0 masks m : shaped_mask n m0 -> shaped_mask n m -> stack_masks (m0 :: masks) m = if Bool.eqb (scalar_mask m0) (scalar_mask m) then Ok ((m0 :: masks) ++ [m]) else Err ValueError.
Proof.
  intros A B. destruct m0 as [a|], m as [b|]; cbn [stack_masks scalar_mask Bool.eqb]; try reflexivity. rewrite (A a eq_refl), (B b eq_refl), Nat.eqb_refl. reflexivity.
Qed.
Lemma unc_fold n f0 rest : shaped n f0 -> Forall (shaped n) rest -> forall done m, shaped_mask n m ->
  if forallb (fun f => Bool.eqb (scalar_mask (mask f0)) (scalar_mask (mask f))) rest then
  exists m', foldM (fun (st : list (list Qc) * list (option (list bool)) * option (list bool)) f =>
        do rows <- row_stack (fst (fst st)) (extract_zero f);
        do masks <- stack_masks (snd (fst st)) (mask f);
        do m <- mask_and (snd st) (mask f);
        Ok (rows, masks, m)) (map extract_zero (f0 :: done), map mask (f0 :: done), m) rest = Ok (map extract_zero (f0 :: done ++ rest), map mask (f0 :: done ++ rest), m') /\
    (forall k, masked m' k = masked m k && forallb (fun f => masked (mask f) k) rest)
  else foldM (fun (st : list (list Qc) * list (option (list bool)) * option (list bool)) f =>
        do rows <- row_stack (fst (fst st)) (extract_zero f);
        do masks <- stack_masks (snd (fst st)) (mask f);
        do m <- mask_and (snd st) (mask f);
        Ok (rows, masks, m)) (map extract_zero (f0 :: done), map mask (f0 :: done), m) rest = Err ValueError.
Proof.
  intros S0 SR. induction SR as [|f rest Sf SR IH]; intros done m Sm.
  - cbn [forallb]. exists m. cbn [foldM forallb]. rewrite app_nil_r. split; [reflexivity|]. intros k. rewrite andb_true_r. reflexivity.
  - cbn [forallb foldM fst snd]. rewrite (row_stack_ok (extract_zero f0) (map extract_zero done)) by (unfold extract_zero; rewrite !map_length; destruct S0 as [-> _], Sf as [-> _]; reflexivity). cbn [bind].
    change (map mask (f0 :: done)) with (mask f0 :: map mask done). rewrite (stack_masks_ok n) by (exact (proj2 S0) || exact (proj2 Sf)). destruct (Bool.eqb (scalar_mask (mask f0)) (scalar_mask (mask f))); cbn [andb bind]; [|reflexivity].
    destruct (mask_and_ok n m (mask f) Sm (proj2 Sf)) as (m1 & E1 & S1 & P1). rewrite E1. cbn [bind]. specialize (IH (done ++ [f]) m1 S1).
    replace (map extract_zero (f0 :: done ++ [f])) with ((extract_zero f0 :: map extract_zero done) ++ [extract_zero f]) in IH by (cbn [map]; rewrite map_app; reflexivity).
    replace (map mask (f0 :: done ++ [f])) with ((mask f0 :: map mask done) ++ [mask f]) in IH by (cbn [map]; rewrite map_app; reflexivity).
    destruct (forallb _ rest).
    + destruct IH as (m' & E & P). exists m'. split; [rewrite <- app_assoc in E; exact E|]. intros k. rewrite P, P1. cbn [forallb]. rewrite andb_assoc. reflexivity.
    + exact IH.
Qed.
Lemma masked_data n f k : well_masked n f -> (k < n)%nat -> masked (mask f) k = negb (has_data f k).
Proof.
  intros (_ & _ & Wk) K. specialize (Wk k K). unfold has_data. destruct Wk as [Wk1 Wk2]. destruct (datum f k) eqn:DD, (masked (mask f) k) eqn:MM; cbn [negb]; try reflexivity; [discriminate (Wk1 eq_refl)|discriminate (Wk2 eq_refl)].
Qed.
Lemma unmasked_data n f k : well_masked n f -> (k < n)%nat -> unmasked_at k (mask f) = has_data f k.
Proof. intros W K. pose proof (masked_data n f k W K) as M. unfold unmasked_at. unfold masked in M. destruct (mask f); [rewrite M, negb_involutive; reflexivity|]. destruct (has_data f k); [reflexivity|discriminate]. Qed.
Lemma all_masked n fields k : Forall (well_masked n) fields -> (k < n)%nat -> (forallb (fun f => masked (mask f) k) fields = true <-> contributors fields k = []).
Proof.
  intros W K. rewrite contributors_none. induction W as [|f l Wf W IH]; [reflexivity|]. cbn [forallb]. rewrite (masked_data n f k Wf K), !andb_true_iff, IH. reflexivity.
Qed.
Lemma count_contributors n fields k : Forall (well_masked n) fields -> (k < n)%nat -> count (map (unmasked_at k) (map mask fields)) = zlen (contributors fields k).
Proof.
  intros W K. rewrite map_map. rewrite (map_ext_in _ (fun f => has_data f k)). 2:{ intros f F. rewrite Forall_forall in W. apply (unmasked_data n); auto. }
  rewrite <- (fields_by_number fields) at 1. unfold count, contributors. generalize (zrange 0 (zlen fields)). intros l. induction l as [|i l IH]; [reflexivity|]. cbn [map filter]. destruct (has_data (source fields i) k); [rewrite !zlen_cons, IH; reflexivity|exact IH].
Qed.
Lemma alike_spec f0 rest : alike (f0 :: rest) <-> forallb (fun f => Bool.eqb (scalar_mask (mask f0)) (scalar_mask (mask f))) rest = true.
Proof.
  rewrite forallb_forall. split.
  - intros [A|A] f F; rewrite Bool.eqb_true_iff; [rewrite (A f0), (A f) by (cbn; auto); reflexivity|]. pose proof (A f0 (or_introl eq_refl)). pose proof (A f (or_intror F)). destruct (mask f0), (mask f); try congruence; reflexivity.
  - intros H. destruct (mask f0) eqn:E.
    + right. intros f [<-|F]; [congruence|]. specialize (H f F). cbn in H. destruct (mask f); [discriminate|]. discriminate.
    + left. intros f [<-|F]; [exact E|]. specialize (H f F). cbn in H. destruct (mask f); [discriminate|reflexivity].
Qed.
Lemma contributors_In fields k i : In i (contributors fields k) <-> 0 <= i < zlen fields /\ has_data (source fields i) k = true.
Proof. unfold contributors. rewrite filter_In. rewrite zrange_In. reflexivity. Qed.
Lemma contributors_NoDup fields k : NoDup (contributors fields k).
Proof. apply NoDup_filter. apply zrange_NoDup. Qed.
Lemma propagated_spec n r fields : fields <> [] -> Forall (well_masked n) fields -> alike fields -> exists g, propagated_field (listed r (zrange 0 (zlen fields))) fields = Ok g /\ length (cells g) = n /\ ufill g = fill (source fields 0) /\
  forall k, (k < n)%nat -> (masked (umask g) k = true <-> contributors fields k = []) /\
    nth_error (cells g) k = Some (let v := variance_of_sum (correlation r) (value fields k) (contributors fields k) in
      if masked (umask g) k then Filled else if Qclt_bool v 0%Qc then Filled else Root v (zlen (contributors fields k))).
Proof.
  intros NE WM AL. unfold propagated_field. destruct (matrix_spec (zlen fields) r (zlen_nonneg _)) as (M & EM & HM). rewrite EM. cbn [bind]. destruct fields as [|f0 rest]; [congruence|]. pose proof WM as WM'. inversion WM as [|? ? W0 WR]. subst.
  pose proof (unc_fold n f0 rest (well_shaped n f0 W0) (Forall_impl _ (well_shaped n) WR) [] (mask f0) (proj2 (well_shaped n f0 W0))) as U. rewrite (proj1 (alike_spec f0 rest) AL) in U. destruct U as (m & E & P).
  change ([extract_zero f0], [mask f0], mask f0) with (map extract_zero [f0], map mask [f0], mask f0). cbn [app] in E. rewrite E. cbn [bind]. eexists. split; [reflexivity|]. cbn [cells ufill umask]. split; [rewrite map_length, seq_length; apply W0|]. split; [reflexivity|]. intros k K.
  assert (MK : masked m k = true <-> contributors (f0 :: rest) k = []) by (rewrite P, <- (all_masked n) by assumption; reflexivity). split; [exact MK|]. cbv zeta.
  rewrite nth_error_map. rewrite (nth_error_nth' _ 0%nat) by (rewrite seq_length; destruct W0 as [-> _]; exact K). rewrite seq_nth by (destruct W0 as [-> _]; exact K). cbn [option_map Nat.add]. f_equal. rewrite (count_contributors n) by assumption.
  rewrite (propagate_spec _ r) by (apply zlen_nonneg || exact HM). set (fields := f0 :: rest) in *.
  assert (V : variance_of_sum (correlation r) (fun i => nth (Z.to_nat i) (column 0%Qc (map extract_zero fields) k) 0%Qc) (zrange 0 (zlen fields)) = variance_of_sum (correlation r) (value fields k) (contributors fields k)).
  { unfold contributors. rewrite <- variance_filter.
    - apply variance_ext. intros i I. apply zrange_In in I. unfold column. rewrite map_map. rewrite (nth_map_len _ no_field) by (unfold zlen in I; lia). rewrite extract_zero_datum. reflexivity.
    - intros i I HD. unfold value. unfold has_data in HD. destruct (datum (source fields i) k); [discriminate|reflexivity]. }
  rewrite V. unfold weighted. destruct (masked m k) eqn:MM.
  - rewrite (proj1 MK eq_refl). reflexivity.
  - destruct (Qclt_bool _ _); [reflexivity|]. replace (zlen (contributors fields k) =? 0) with false; [reflexivity|]. destruct (contributors fields k) as [|i l]; [discriminate (proj2 MK eq_refl)|]. rewrite zlen_cons. pose proof (zlen_nonneg l). lia.
Qed.
Lemma propagated_not_alike n sub fields : Forall (well_masked n) fields -> ~ alike fields -> propagated_field sub fields = Err ValueError.
Proof.
  intros WM NA. unfold propagated_field. destruct (2 * zlen sub =? zlen fields * (zlen fields - 1)) eqn:L.
  2:{ unfold build_triangular_correlation_matrix. replace (zlen fields * (zlen fields - 1) =? 2 * zlen sub) with false by lia. reflexivity. }
  destruct (listed_every (zrange 0 (zlen fields)) sub) as (r & ->); [apply zrange_NoDup|rewrite zlen_zrange by apply zlen_nonneg; lia|].
  destruct (matrix_spec (zlen fields) r (zlen_nonneg _)) as (M & EM & _). rewrite EM. cbn [bind]. destruct fields as [|f0 rest]; [exfalso; apply NA; left; intros f []|]. inversion WM as [|? ? W0 WR]. subst.
  pose proof (unc_fold n f0 rest (well_shaped n f0 W0) (Forall_impl _ (well_shaped n) WR) [] (mask f0) (proj2 (well_shaped n f0 W0))) as U. destruct (forallb _ rest) eqn:A; [exfalso; apply NA; apply alike_spec; exact A|].
  change ([extract_zero f0], [mask f0], mask f0) with (map extract_zero [f0], map mask [f0], mask f0). rewrite U. reflexivity.
Qed.
Lemma propagated_wrong sub fields : 2 * zlen sub <> zlen fields * (zlen fields - 1) -> propagated_field sub fields = Err ValueError.
Proof. intros H. unfold propagated_field, build_triangular_correlation_matrix. replace (zlen fields * (zlen fields - 1) =? 2 * zlen sub) with false by lia. reflexivity. Qed.
Lemma value_nonneg fields k i : (forall f v, In f fields -> datum f k = Some v -> (0 <= v)%Qc) -> (0 <= value fields k i)%Qc.
Proof.
  intros H. unfold value. destruct (datum (source fields i) k) as [v|] eqn:E; [|apply Qcle_refl]. destruct (nth_in_or_default (Z.to_nat i) fields no_field) as [IN|D].
  - apply (H _ _ IN E).
  - unfold source in E. rewrite D in E. unfold datum in E. cbn in E. destruct (Z.to_nat i), k; discriminate.
Qed.

(* ------------------------------------------------------------------ renumbering the sources that remain *)
Lemma pairs_map {A B} (f : A -> B) l : pairs_of (map f l) = map (fun p => (f (fst p), f (snd p))) (pairs_of l).
Proof. induction l as [|x l IH]; [reflexivity|]. cbn [map pairs_of]. rewrite map_app, IH, !map_map. reflexivity. Qed.
Lemma by_number {A} (d : A) l : map (fun i => nth (Z.to_nat i) l d) (zrange 0 (zlen l)) = l.
Proof.
  apply (nth_ext _ _ d d). { rewrite map_length, zrange_length. unfold zlen. lia. }
  intros k K. rewrite map_length, zrange_length in K. rewrite (nth_map_len _ 0) by (rewrite zrange_length; exact K). rewrite zrange_at by exact K. f_equal. lia.
Qed.
Lemma listed_renumber r l : listed r l = listed (fun a b => r (nth (Z.to_nat a) l 0) (nth (Z.to_nat b) l 0)) (zrange 0 (zlen l)).
Proof. unfold listed. rewrite <- (by_number 0 l) at 1. rewrite pairs_map, map_map. reflexivity. Qed.

(* ------------------------------------------------------------------ days *)
Lemma slices_fold {A} (l : list A) ds : Forall (fun d => 0 <= d) ds -> forall start acc, 0 <= start -> start + fold_right Z.add 0 ds <= zlen l ->
  exists out, fold_left (fun st sources => (fst st + sources, snd st ++ [zslice l (fst st) (fst st + sources)])) ds (start, acc) = (start + fold_right Z.add 0 ds, acc ++ out) /\
    map zlen out = ds /\ firstn (Z.to_nat start) l ++ concat out = firstn (Z.to_nat (start + fold_right Z.add 0 ds)) l.
Proof.
  intros H. induction H as [|d ds Hd H IH]; intros start acc S0 LE.
  - exists []. cbn [fold_left fold_right map concat]. rewrite Z.add_0_r, !app_nil_r. repeat split.
  - cbn [fold_left fold_right fst snd] in *. assert (SN : 0 <= fold_right Z.add 0 ds) by (clear - H; induction H; cbn [fold_right]; lia).
    destruct (IH (start + d) (acc ++ [zslice l start (start + d)])) as (out & E & L & C); [lia|lia|]. exists (zslice l start (start + d) :: out). rewrite E. split; [f_equal; [lia|rewrite <- app_assoc; reflexivity]|]. split.
    + cbn [map]. rewrite L. f_equal. unfold zslice, zlen. rewrite firstn_length, skipn_length. unfold zlen in LE. lia.
    + cbn [concat]. rewrite app_assoc. replace (start + (d + fold_right Z.add 0 ds)) with (start + d + fold_right Z.add 0 ds) by lia. rewrite <- C. f_equal.
      unfold zslice. replace (Z.to_nat (start + d)) with (Z.to_nat start + Z.to_nat (start + d - start))%nat by lia. generalize (Z.to_nat (start + d - start)) as m. generalize (Z.to_nat start) as k. clear. intros k. revert l. induction k as [|k IHk]; intros l m; [reflexivity|]. destruct l; [rewrite !firstn_nil; reflexivity|]. cbn [Nat.add firstn skipn app]. f_equal. apply IHk.
Qed.
Lemma slices_spec {A} (l : list A) ds : Forall (fun d => 0 <= d) ds -> fold_right Z.add 0 ds = zlen l -> map zlen (daily_slices l ds) = ds /\ concat (daily_slices l ds) = l.
Proof.
  intros H T. unfold daily_slices. destruct (slices_fold l ds H 0 []) as (out & E & L & C); [lia|lia|]. rewrite E. cbn [snd app]. split; [exact L|]. change (firstn (Z.to_nat 0) l ++ concat out) with (concat out) in C. rewrite C, T. unfold zlen. rewrite Z.add_0_l, Nat2Z.id. apply firstn_all.
Qed.

(* ------------------------------------------------------------------ results *)
Lemma lookup_cons {A} n m (v : A) l : lookup n ((m, v) :: l) = if String.eqb n m then Some v else lookup n l. Proof. reflexivity. Qed.
Lemma lookup_In {A} n (v : A) l : NoDup (map fst l) -> In (n, v) l -> lookup n l = Some v.
Proof.
  induction l as [|[m w] l IH]; intros ND I; [destruct I|]. inversion ND as [|? ? NI ND']. subst. rewrite lookup_cons. destruct (String.eqb_spec n m) as [->|D].
  - destruct I as [I|I]; [inversion I; reflexivity|]. exfalso. apply NI. apply (in_map fst) in I. exact I.
  - apply IH; [exact ND'|]. destruct I as [I|I]; [inversion I; congruence|exact I].
Qed.
Lemma mean_results files names : forall results r, compute_mean_fields names files results = Ok r -> exists new, r = new ++ results /\ map fst new = rev names /\
  forall n, In n names -> exists fields g, mapM (fun nf => read_field n (snd nf)) files = Ok fields /\ mean_field fields = Ok g /\ In (n, Plain g) new.
Proof.
  induction names as [|m names IH]; intros results r E; unfold compute_mean_fields in *; cbn [foldM] in *; [inversion E; subst; exists []; repeat split; intros n []|].
  destruct (mapM (fun nf => read_field m (snd nf)) files) as [fields|] eqn:EF; [|discriminate]. cbn [bind] in E. destruct (mean_field fields) as [g|] eqn:EG; [|discriminate]. cbn [bind] in E. destruct (IH _ _ E) as (new & -> & K & P).
  exists (new ++ [(m, Plain g)]). split; [rewrite <- app_assoc; reflexivity|]. split; [rewrite map_app, K; reflexivity|]. intros n [<-|I].
  - exists fields, g. split; [exact EF|]. split; [exact EG|]. apply in_or_app. right. left. reflexivity.
  - destruct (P n I) as (f & h & A & B & C). exists f, h. split; [exact A|]. split; [exact B|]. apply in_or_app. left. exact C.
Qed.
Lemma uncertain_results (corr : list (list Qc)) (files : list (string * file)) (ps : list (Z * string)) : forall results r, foldM (fun results p =>
    do sub_list <- py_index corr (fst p);
    do fields <- mapM (fun nf => read_field (snd p) (snd nf)) files;
    do u <- propagated_field sub_list fields; Ok ((snd p, Uncertain u) :: results)) results ps = Ok r -> exists new, r = new ++ results /\ map fst new = rev (map snd ps) /\
  forall i n, In (i, n) ps -> exists sub fields g, py_index corr i = Ok sub /\ mapM (fun nf => read_field n (snd nf)) files = Ok fields /\ propagated_field sub fields = Ok g /\ In (n, Uncertain g) new.
Proof.
  induction ps as [|[i m] ps IH]; intros results r E; cbn [foldM fst snd] in *; [inversion E; subst; exists []; repeat split; intros i n []|].
  destruct (py_index corr i) as [sub|] eqn:ES; [|discriminate]. cbn [bind] in E. destruct (mapM (fun nf => read_field m (snd nf)) files) as [fields|] eqn:EF; [|discriminate]. cbn [bind] in E. destruct (propagated_field sub fields) as [g|] eqn:EG; [|discriminate]. cbn [bind] in E. destruct (IH _ _ E) as (new & -> & K & P).
  exists (new ++ [(m, Uncertain g)]). split; [rewrite <- app_assoc; reflexivity|]. split; [rewrite map_app, K; reflexivity|]. intros j n [I|I].
  - inversion I. subst. exists sub, fields, g. split; [exact ES|]. split; [exact EF|]. split; [exact EG|]. apply in_or_app. right. left. reflexivity.
  - destruct (P j n I) as (s' & f & h & A & B & C & D). exists s', f, h. split; [exact A|]. split; [exact B|]. split; [exact C|]. apply in_or_app. left. exact D.
Qed.
Lemma enumerate_names {A} (l : list A) : map snd (enumerate l) = l.
Proof. unfold enumerate. assert (L : length (zrange 0 (zlen l)) = length l) by (rewrite zrange_length; unfold zlen; lia). revert L. generalize (zrange 0 (zlen l)). induction l as [|x l IH]; intros [|z zs] L; try discriminate; [reflexivity|]. cbn [combine map snd]. f_equal. apply IH. cbn in L. lia. Qed.
Lemma enumerate_In {A} (l : list A) i x : nth_error l i = Some x -> In (Z.of_nat i, x) (enumerate l).
Proof.
  intros E. unfold enumerate. assert (L : (i < length l)%nat) by (apply nth_error_Some; congruence). apply (nth_error_In _ i).
  assert (G : forall (a : list Z) (b : list A) k z y, nth_error a k = Some z -> nth_error b k = Some y -> nth_error (combine a b) k = Some (z, y)). { induction a as [|z0 a IHa]; intros [|y0 b] [|k] z y Ha Hb; cbn in *; try discriminate; [inversion Ha; inversion Hb; reflexivity|]. apply IHa; assumption. }
  apply G; [|exact E]. rewrite (nth_error_nth' _ 0) by (rewrite zrange_length; unfold zlen; lia). rewrite zrange_at by (unfold zlen; lia). reflexivity.
Qed.
Lemma original_one names nf results r : foldM (fun results name => do v <- read_field name (snd nf); do source <- source_label (fst nf); Ok ((name ++ "_" ++ source, Plain v)%string :: results)) results names = Ok r ->
  exists new, r = new ++ results /\ (names <> [] -> exists label, source_label (fst nf) = Ok label /\ map fst new = rev (map (fun n => n ++ "_" ++ label)%string names) /\ forall n, In n names -> exists v, read_field n (snd nf) = Ok v /\ In (n ++ "_" ++ label, Plain v)%string new) /\ (names = [] -> new = []).
Proof.
  revert results. induction names as [|m names IH]; intros results E; cbn [foldM] in E; [inversion E; subst; exists []; repeat split; congruence|].
  destruct (read_field m (snd nf)) as [v|] eqn:EV; [|discriminate]. cbn [bind] in E. destruct (source_label (fst nf)) as [label|] eqn:EL; [|discriminate]. cbn [bind] in E. destruct (IH _ E) as (new & -> & P & Q).
  exists (new ++ [(m ++ "_" ++ label, Plain v)%string]). split; [rewrite <- app_assoc; reflexivity|]. split; [|discriminate]. intros _. exists label. split; [reflexivity|]. destruct names as [|m' names].
  - rewrite (Q eq_refl). split; [reflexivity|]. intros n [<-|[]]. exists v. split; [exact EV|]. left. reflexivity.
  - destruct (P ltac:(discriminate)) as (label' & EL' & K & R). assert (label' = label) by congruence. subst label'. split; [rewrite map_app, K; reflexivity|]. intros n [<-|I].
    + exists v. split; [exact EV|]. apply in_or_app. right. left. reflexivity.
    + destruct (R n I) as (w & A & B). exists w. split; [exact A|]. apply in_or_app. left. exact B.
Qed.
Lemma original_results names files : names <> [] -> forall results r, append_original_fields names files results = Ok r -> exists new labels, r = new ++ results /\ mapM (fun nf => source_label (fst nf)) files = Ok labels /\
  map fst new = rev (flat_map (fun label => map (fun n => n ++ "_" ++ label)%string names) labels) /\
  forall nf label n, In nf files -> source_label (fst nf) = Ok label -> In n names -> exists v, read_field n (snd nf) = Ok v /\ In (n ++ "_" ++ label, Plain v)%string new.
Proof.
  intros NE. induction files as [|nf files IH]; intros results r E; unfold append_original_fields in E; cbn [foldM] in E.
  - inversion E. subst. exists [], []. repeat split. intros nf label n [].
  - destruct (foldM _ results names) as [r1|] eqn:E1; [|discriminate]. cbn [bind] in E. destruct (original_one names nf results r1 E1) as (new1 & -> & P1 & _). destruct (P1 NE) as (label & EL & K1 & R1). destruct (IH _ _ E) as (new & labels & -> & EM & K & R).
    exists (new ++ new1), (label :: labels). split; [rewrite app_assoc; reflexivity|]. split; [cbn [mapM]; rewrite EL, EM; reflexivity|]. split; [rewrite map_app, K, K1; cbn [flat_map]; rewrite rev_app_distr; reflexivity|]. intros nf' label' n [<-|I] L N.
    + assert (label' = label) by congruence. subst. destruct (R1 n N) as (v & A & B). exists v. split; [exact A|]. apply in_or_app. right. exact B.
    + destruct (R nf' label' n I L N) as (v & A & B). exists v. split; [exact A|]. apply in_or_app. left. exact B.
Qed.
Lemma write_element_lookup names results n : lookup n (write_element names results) = if existsb (String.eqb n) names then lookup n results else None.
Proof.
  induction names as [|m names IH]; [reflexivity|]. unfold write_element in *. cbn [flat_map existsb]. destruct (String.eqb_spec n m) as [->|D]; cbn [orb].
  - destruct (lookup m results) eqn:E; cbn [app]; [rewrite lookup_cons, String.eqb_refl; reflexivity|]. rewrite IH. destruct (existsb (String.eqb m) names); congruence.
  - destruct (lookup m results); cbn [app]; [rewrite lookup_cons; destruct (String.eqb_spec n m); [congruence|]|]; exact IH.
Qed.
Lemma opened s names fp : mapM (fun n => do f <- open_file s n; Ok (n, f)) names = Ok fp -> map fst fp = names /\ Forall (fun nf => s (fst nf) = Some (snd nf)) fp.
Proof.
  revert fp. induction names as [|n names IH]; intros fp E; cbn [mapM] in E; [inversion E; split; [reflexivity|constructor]|]. unfold open_file in E at 1. destruct (s n) as [f|] eqn:EF; [|discriminate]. cbn [bind] in E. destruct (mapM _ names) as [l|] eqn:EL; [|discriminate]. cbn [bind] in E. inversion E. subst. destruct (IH _ eq_refl) as [A B]. split; [cbn [map fst]; rewrite A; reflexivity|]. constructor; [exact EF|exact B].
Qed.
Lemma read_fields_of s n fp fields : Forall (fun nf => s (fst nf) = Some (snd nf)) fp -> mapM (fun nf => read_field n (snd nf)) fp = Ok fields -> fields_of s n (map fst fp) fields.
Proof.
  intros F. revert fields. induction F as [|nf fp Ef F IH]; intros fields E; cbn [mapM] in E; [inversion E; constructor|]. unfold read_field in E at 1. destruct (lookup n (variables (snd nf))) as [[f|u]|] eqn:EL; try discriminate. cbn [bind] in E. destruct (mapM _ fp) as [l|]; [|discriminate]. cbn [bind] in E. inversion E. subst. constructor; [exists (snd nf); split; assumption|apply IH; reflexivity].
Qed.
Lemma mapM_map_fst {A B C} (f : A -> result C) (l : list (A * B)) : mapM (fun nf => f (fst nf)) l = mapM f (map fst l).
Proof. induction l as [|x l IH]; [reflexivity|]. cbn [mapM map]. rewrite IH. reflexivity. Qed.
Lemma existsb_In n l : In n l -> existsb (String.eqb n) l = true.
Proof. intros I. apply existsb_exists. exists n. split; [exact I|apply String.eqb_refl]. Qed.
Lemma Permutation_lists {A} (a b c d e : list A) : Permutation.Permutation (rev a ++ rev b ++ rev c ++ rev d ++ rev e) (c ++ b ++ a ++ e ++ d).
Proof.
  repeat rewrite <- rev_app_distr. eapply Permutation.Permutation_trans; [symmetry; apply Permutation.Permutation_rev|]. rewrite !app_assoc_reverse.
  replace (e ++ d ++ c ++ b ++ a) with ((e ++ d) ++ (c ++ b ++ a)) by (rewrite !app_assoc_reverse; reflexivity). replace (c ++ b ++ a ++ e ++ d) with ((c ++ b ++ a) ++ (e ++ d)) by (rewrite !app_assoc_reverse; reflexivity). apply Permutation.Permutation_app_comm.
Qed.
Lemma all_equal_spec l d : all_equal l = Ok d -> forall x, In x l -> x = d.
Proof.
  destruct l as [|y l]; [discriminate|]. cbn [all_equal]. destruct (forallb (Z.eqb y) l) eqn:F; [|discriminate]. intros E. inversion E. subst. intros x [<-|I]; [reflexivity|]. rewrite forallb_forall in F. specialize (F x I). lia.
Qed.
Lemma mapM_In_ok {A B} (f : A -> result B) l r x : mapM f l = Ok r -> In x l -> exists y, f x = Ok y /\ In y r.
Proof.
  revert r. induction l as [|a l IH]; intros r E I; [destruct I|]. cbn [mapM] in E. destruct (f a) as [b|] eqn:EA; [|discriminate]. cbn [bind] in E. destruct (mapM f l) as [r'|] eqn:EL; [|discriminate]. cbn [bind] in E. inversion E. subst. destruct I as [<-|I]; [exists b; split; [exact EA|left; reflexivity]|]. destruct (IH _ eq_refl I) as (y & A1 & A2). exists y. split; [exact A1|right; exact A2].
Qed.
Lemma map_const_length {A B} (c : B) (l : list A) : map (fun _ => c) l = repeat c (length l).
Proof. induction l as [|x l IH]; [reflexivity|]. cbn [map repeat length]. rewrite IH. reflexivity. Qed.
Lemma merge_contents d corr s primary anc ops labels :
  merge_outputs_from_single_day d corr s primary anc = Ok ops -> zlen primary <> 1 -> mapM source_label primary = Ok labels -> mapM source_label anc = Ok labels ->
  primary_fields d <> [] -> ancillary_fields d <> [] -> NoDup (output_names d labels) ->
  exists p0 a0 label F G, nth_error primary 0 = Some p0 /\ nth_error anc 0 = Some a0 /\ nth_error labels 0 = Some label /\
    ops = [Write (without_label label p0) F; Write (without_label label a0) G] ++ map Remove (primary ++ anc) /\
    (forall n c, In n (primary ++ anc) -> s n = Some c -> day F = day c /\ day G = day c) /\
    (forall n, In n (primary_fields d) -> In n (primary_variables d) -> exists fields g, fields_of s n primary fields /\ mean_field fields = Ok g /\ lookup n (variables F) = Some (Plain g)) /\
    (forall n, In n (primary_uncertainties d) -> In n (primary_variables d) -> exists fields g, fields_of s n primary fields /\ propagated_field (listed (fun _ _ => 0%Qc) (zrange 0 (zlen primary))) fields = Ok g /\ lookup n (variables F) = Some (Uncertain g)) /\
    (forall i n, nth_error (ancillary_fields d) i = Some n -> exists sub fields g, nth_error corr i = Some sub /\ fields_of s n anc fields /\ propagated_field sub fields = Ok g /\ lookup n (variables G) = Some (Uncertain g)) /\
    (forall f l n, In f primary -> source_label f = Ok l -> In n (primary_fields d ++ primary_uncertainties d) -> exists c v, s f = Some c /\ lookup n (variables c) = Some (Plain v) /\ lookup (n ++ "_" ++ l) (variables G) = Some (Plain v)) /\
    (forall f l n, In f anc -> source_label f = Ok l -> In n (ancillary_fields d) -> exists c v, s f = Some c /\ lookup n (variables c) = Some (Plain v) /\ lookup (n ++ "_" ++ l) (variables G) = Some (Plain v)).
Proof.
  intros E NZ LP LA NP NA ND. unfold merge_outputs_from_single_day in E. replace (zlen primary =? 1) with false in E by lia. unfold merge_multiple_files in E.
  destruct (mapM _ primary) as [fp|] eqn:EP; [|discriminate]. cbn [bind] in E. destruct (mapM (fun n => do f <- open_file s n; Ok (n, f)) anc) as [fa|] eqn:EA; [|discriminate]. cbn [bind] in E.
  destruct (opened _ _ _ EP) as [FP SP]. destruct (opened _ _ _ EA) as [FA SA].
  destruct (all_equal _) as [dn|] eqn:ED; [|discriminate]. cbn [bind] in E.
  destruct (append_original_fields _ fp []) as [r1|] eqn:E1; [|discriminate]. cbn [bind] in E. destruct (append_original_fields _ fa r1) as [r2|] eqn:E2; [|discriminate]. cbn [bind] in E.
  destruct (compute_mean_fields _ fp r2) as [r3|] eqn:E3; [|discriminate]. cbn [bind] in E. destruct (compute_propagated_uncertainties _ fp _ r3) as [r4|] eqn:E4; [|discriminate]. cbn [bind] in E. destruct (compute_propagated_uncertainties _ fa corr r4) as [r5|] eqn:E5; [|discriminate]. cbn [bind] in E.
  rewrite LP in E. cbn [bind] in E. destruct primary as [|p0 primary']; [discriminate|]. destruct anc as [|a0 anc']; [discriminate|]. set (primary := p0 :: primary') in *. set (anc := a0 :: anc') in *.
  change (py_index primary 0) with (Ok p0) in E. change (py_index anc 0) with (Ok a0) in E. cbn [bind] in E. destruct (source_label p0) as [label|] eqn:EL; [|discriminate]. cbn [bind] in E.
  set (ancvars := ancillary_fields d ++ _) in E.
  inversion E as [E']. clear E. eexists p0, a0, label, _, _. split; [reflexivity|]. split; [reflexivity|]. split. { unfold primary in LP. cbn [mapM] in LP. rewrite EL in LP. cbn [bind] in LP. destruct (mapM source_label primary'); [|discriminate]. inversion LP. reflexivity. }
  split; [reflexivity|]. clear E'. cbn [day variables].
  destruct (original_results (primary_fields d ++ primary_uncertainties d) fp ltac:(destruct (primary_fields d); [congruence|discriminate]) _ _ E1) as (n1 & l1 & -> & L1 & K1 & P1). rewrite mapM_map_fst, FP, LP in L1. inversion L1. subst l1.
  destruct (original_results (ancillary_fields d) fa NA _ _ E2) as (n2 & l2 & -> & L2 & K2 & P2). rewrite mapM_map_fst, FA, LA in L2. inversion L2. subst l2.
  destruct (mean_results _ _ _ _ E3) as (n3 & -> & K3 & P3). unfold compute_propagated_uncertainties in E4, E5. destruct (uncertain_results _ _ _ _ _ E4) as (n4 & -> & K4 & P4). destruct (uncertain_results _ _ _ _ _ E5) as (n5 & -> & K5 & P5). rewrite enumerate_names in K4, K5.
  set (results := n5 ++ n4 ++ n3 ++ n2 ++ n1 ++ []) in *.
  assert (NR : NoDup (map fst results)). { unfold results. rewrite !map_app, K1, K2, K3, K4, K5. change (map fst (@nil (string * variable))) with (@nil string). rewrite app_nil_r. eapply Permutation.Permutation_NoDup; [symmetry; apply Permutation_lists|exact ND]. }
  assert (LK : forall n v, In (n, v) results -> lookup n results = Some v) by (intros n v; apply lookup_In; exact NR).
  assert (IN1 : forall x, In x n1 -> In x results) by (intros x X; unfold results; rewrite !in_app_iff; tauto). assert (IN2 : forall x, In x n2 -> In x results) by (intros x X; unfold results; rewrite !in_app_iff; tauto). assert (IN3 : forall x, In x n3 -> In x results) by (intros x X; unfold results; rewrite !in_app_iff; tauto). assert (IN4 : forall x, In x n4 -> In x results) by (intros x X; unfold results; rewrite !in_app_iff; tauto). assert (IN5 : forall x, In x n5 -> In x results) by (intros x X; unfold results; rewrite !in_app_iff; tauto).
  assert (FND : forall (fs : list (string * file)) f, Forall (fun nf => s (fst nf) = Some (snd nf)) fs -> In f (map fst fs) -> exists c, In (f, c) fs /\ s f = Some c). { intros fs f FS I. apply in_map_iff in I. destruct I as ([f' c] & <- & I). exists c. split; [exact I|]. rewrite Forall_forall in FS. apply (FS _ I). }
  assert (RF : forall n c v, read_field n c = Ok v -> lookup n (variables c) = Some (Plain v)). { intros n c v. unfold read_field. destruct (lookup n (variables c)) as [[f|u]|]; intros Q; inversion Q. reflexivity. }
  assert (AV : forall f l n, In f (primary ++ anc) -> source_label f = Ok l -> In n (primary_fields d ++ primary_uncertainties d ++ ancillary_fields d) -> In (n ++ "_" ++ l)%string ancvars).
  { intros f l n I L N. unfold ancvars. apply in_or_app. right. apply in_flat_map. exists n. split; [exact N|]. apply (in_map (fun l => n ++ "_" ++ l)%string). apply in_app_or in I. destruct I as [I|I]; [destruct (mapM_In_ok _ _ _ _ LP I) as (y & A & B)|destruct (mapM_In_ok _ _ _ _ LA I) as (y & A & B)]; congruence. }
  split; [|split; [|split; [|split; [|split]]]].
  - intros n c I S. assert (IN : In (n, c) (fp ++ fa)). { apply in_app_or in I. apply in_or_app. destruct I as [I|I]; [left; rewrite <- FP in I; destruct (FND fp n SP I) as (c' & A & B)|right; rewrite <- FA in I; destruct (FND fa n SA I) as (c' & A & B)]; congruence. }
    apply (in_map (fun nf => day (snd nf))) in IN. pose proof (all_equal_spec _ _ ED _ IN) as Q. cbn [snd] in Q. split; congruence.
  - intros n I V. destruct (P3 n I) as (fields & g & A & B & C). exists fields, g. split; [rewrite <- FP; apply read_fields_of; assumption|]. split; [exact B|]. rewrite write_element_lookup, (existsb_In _ _ V). apply LK, IN3, C.
  - intros n I V. destruct (In_nth_error _ _ I) as (i & NE). destruct (P4 _ _ (enumerate_In _ _ _ NE)) as (sub & fields & g & A & B & C & D). exists fields, g. split; [rewrite <- FP; apply read_fields_of; assumption|]. split; [|rewrite write_element_lookup, (existsb_In _ _ V); apply LK, IN4, D]. rewrite <- C. f_equal.
    rewrite py_index_nonneg in A by lia. rewrite Nat2Z.id, nth_error_map, NE in A. cbn [option_map] in A. match type of A with Ok ?x = Ok _ => assert (sub = x) as -> by congruence end. symmetry. unfold listed. rewrite map_const_length. rewrite map_const_length. f_equal. 
    pose proof (pairs_length (zrange 0 (zlen primary))) as PL. rewrite zlen_zrange in PL by apply zlen_nonneg. rewrite zrange_length. unfold zlen at 1 in PL. rewrite Z.sub_0_r in *. set (q := zlen primary) in *. set (ps := length (pairs_of (zrange 0 q))) in *. clearbody ps q. assert (Q : q * (q - 1) / 2 = Z.of_nat ps) by (rewrite <- PL, Z.mul_comm; apply Z.div_mul; lia). rewrite Q. lia.
  - intros i n NE. destruct (P5 _ _ (enumerate_In _ _ _ NE)) as (sub & fields & g & A & B & C & D). exists sub, fields, g. rewrite py_index_nonneg in A by lia. rewrite Nat2Z.id in A. destruct (nth_error corr i) eqn:Q; [|discriminate]. inversion A. subst. split; [reflexivity|]. split; [rewrite <- FA; apply read_fields_of; assumption|]. split; [exact C|]. rewrite write_element_lookup. rewrite existsb_In; [apply LK, IN5, D|]. unfold ancvars. apply in_or_app. left. apply nth_error_In in NE. exact NE.
  - intros f l n I L N. rewrite <- FP in I. destruct (FND fp f SP I) as (c & A & B). destruct (P1 (f, c) l n A L N) as (v & C & D). exists c, v. split; [exact B|]. split; [apply RF; exact C|]. rewrite write_element_lookup. rewrite existsb_In; [apply LK, IN1, D|]. apply (AV f); [rewrite FP in I; apply in_or_app; left; exact I|exact L|rewrite app_assoc; apply in_or_app; left; exact N].
  - intros f l n I L N. rewrite <- FA in I. destruct (FND fa f SA I) as (c & A & B). destruct (P2 (f, c) l n A L N) as (v & C & D). exists c, v. split; [exact B|]. split; [apply RF; exact C|]. rewrite write_element_lookup. rewrite existsb_In; [apply LK, IN2, D|]. apply (AV f); [rewrite FA in I; apply in_or_app; right; exact I|exact L|rewrite app_assoc; apply in_or_app; right; exact N].
Qed.

(* ------------------------------------------------------------------ interruptions *)
Lemma put_same n f s : put n f s n = f. Proof. unfold put. rewrite String.eqb_refl. reflexivity. Qed.
Lemma put_other n m f s : n <> m -> put m f s n = s n. Proof. intros D. unfold put. destruct (String.eqb_spec n m); [contradiction|reflexivity]. Qed.
Lemma removed l : forall s s', foldM exec s (map Remove l) = Ok s' -> forall n, (In n l -> s' n = None) /\ (~ In n l -> s' n = s n).
Proof.
  induction l as [|x l IH]; intros s s' E n; cbn [map foldM exec] in E; [inversion E; split; [intros []|reflexivity]|]. destruct (s x) eqn:SX; [|discriminate]. cbn [bind] in E. destruct (IH _ _ E n) as [A B].
  split.
  - intros [->|I]; [|auto]. destruct (in_dec string_dec n l) as [I|NI]; [auto|]. rewrite (B NI). apply put_same.
  - intros NI. rewrite B by (intros I; apply NI; right; exact I). apply put_other. intros ->. apply NI. left. reflexivity.
Qed.
Lemma firstn_removes k l : firstn k (map Remove l) = map Remove (firstn k l). Proof. apply firstn_map. Qed.
Lemma In_firstn {A} k (x : A) l : In x (firstn k l) -> In x l.
Proof. intros I. rewrite <- (firstn_skipn k l). apply in_or_app. left. exact I. Qed.
Lemma merge_steps s om F oa G l k s' : foldM exec s (firstn k ([Write om F; Write oa G] ++ map Remove l)) = Ok s' -> ~ In om l -> ~ In oa l -> om <> oa ->
  (forall n, In n l -> s' n = if existsb (String.eqb n) (firstn (k - 2) l) then None else s n) /\ ((2 <= k)%nat -> s' om = Some F /\ s' oa = Some G) /\ (forall n, n <> om -> n <> oa -> ~ In n l -> s' n = s n).
Proof.
  intros E NM NA D. destruct k as [|[|k]].
  - cbn in E. inversion E. subst. split; [reflexivity|]. split; [lia|reflexivity].
  - cbn in E. inversion E. subst. split; [intros n I; cbn; apply put_other; congruence|]. split; [lia|]. intros n A B C. apply put_other. exact A.
  - cbn [app firstn foldM exec bind] in E. rewrite firstn_removes in E. pose proof (removed _ _ _ E) as R. replace (S (S k) - 2)%nat with k by lia. split; [|split].
    + intros n I. destruct (existsb (String.eqb n) (firstn k l)) eqn:X.
      * apply existsb_exists in X. destruct X as (y & Y & EQ). apply String.eqb_eq in EQ. subst y. apply R. exact Y.
      * rewrite (proj2 (R n)) by (intros Y; rewrite (existsb_In _ _ Y) in X; discriminate). rewrite !put_other by congruence. reflexivity.
    + intros _. split.
      * rewrite (proj2 (R om)) by (intros Y; apply NM; apply In_firstn in Y; exact Y). rewrite put_other by exact D. apply put_same.
      * rewrite (proj2 (R oa)) by (intros Y; apply NA; apply In_firstn in Y; exact Y). apply put_same.
    + intros n A B C. rewrite (proj2 (R n)) by (intros Y; apply C; apply In_firstn in Y; exact Y). rewrite !put_other by assumption. reflexivity.
Qed.
Lemma merge_ops d corr s primary anc ops : merge_outputs_from_single_day d corr s primary anc = Ok ops -> zlen primary <> 1 ->
  exists p0 a0 label F G, nth_error primary 0 = Some p0 /\ nth_error anc 0 = Some a0 /\ source_label p0 = Ok label /\ ops = [Write (without_label label p0) F; Write (without_label label a0) G] ++ map Remove (primary ++ anc).
Proof.
  intros E NZ. unfold merge_outputs_from_single_day in E. replace (zlen primary =? 1) with false in E by lia. destruct (merge_multiple_files _ _ _ _ _) as [[dn r]|]; [|discriminate]. cbn [bind] in E. destruct (mapM source_label primary) as [labels|]; [|discriminate]. cbn [bind] in E.
  destruct primary as [|p0 primary]; [discriminate|]. destruct anc as [|a0 anc]; [discriminate|]. change (py_index (p0 :: primary) 0) with (Ok p0) in E. change (py_index (a0 :: anc) 0) with (Ok a0) in E. cbn [bind] in E. destruct (source_label p0) as [label|] eqn:EL; [|discriminate]. cbn [bind] in E. inversion E. eexists p0, a0, label, _, _. split; [reflexivity|]. split; [reflexivity|]. split; [exact EL|]. reflexivity.
Qed.
Lemma present_some (s : store) l : (forall n, In n l -> s n <> None) -> filter (present (fun n => match s n with None => false | Some _ => true end)) (map Some l) = map Some l.
Proof.
  induction l as [|x l IH]; intros H; [reflexivity|]. cbn [map filter present]. destruct (s x) eqn:E; [|exfalso; apply (H x); [left; reflexivity|exact E]]. f_equal. apply IH. intros n I. apply H. right. exact I.
Qed.
Lemma present_none (s : store) l : (forall n, In n l -> s n = None) -> filter (present (fun n => match s n with None => false | Some _ => true end)) (map Some l) = [].
Proof. induction l as [|x l IH]; intros H; [reflexivity|]. cbn [map filter present]. rewrite (H x) by (left; reflexivity). apply IH. intros n I. apply H. right. exact I. Qed.
Lemma unwrap l : mapM (fun p : path => match p with Some x => Ok x | None => Err ValueError end) (map Some l) = Ok l.
Proof. induction l as [|x l IH]; [reflexivity|]. cbn [map mapM bind]. rewrite IH. reflexivity. Qed.
Lemma remaining_all (s : store) l : (forall n, In n l -> s n <> None) -> remaining (fun n => match s n with None => false | Some _ => true end) (map Some l) = zrange 0 (zlen l).
Proof.
  intros H. unfold remaining. rewrite zlen_map. rewrite (filter_ext_In' _ (fun _ => true)); [induction (zrange 0 (zlen l)) as [|z zs IH]; [reflexivity|cbn [filter]; rewrite IH; reflexivity]|].
  intros i I. apply zrange_In in I. rewrite (nth_map_len _ EmptyString) by (unfold zlen in I; lia). cbn [present]. destruct (s _) eqn:E; [reflexivity|]. exfalso. apply (H (nth (Z.to_nat i) l EmptyString)); [apply nth_In; unfold zlen in I; lia|exact E].
Qed.
Lemma day_existing d rs (s : store) m a : length m = length a -> m <> [] -> (forall n, In n (m ++ a) -> s n <> None) -> length (ancillary_fields d) = length rs ->
  merge_single_day_outputs d (map (fun r => listed r (zrange 0 (zlen m))) rs) s (map Some m) (map Some a) = merge_outputs_from_single_day d (map (fun r => listed r (zrange 0 (zlen m))) rs) s m a.
Proof.
  intros L NE EX LA. unfold merge_single_day_outputs. replace (map (fun r => listed r (zrange 0 (zlen m))) rs) with (map (fun r => listed r (zrange 0 (zlen (map (@Some string) m)))) rs) at 1 by (rewrite zlen_map; reflexivity). rewrite clean_spec.
  - rewrite !present_some by (intros n I; apply EX; apply in_or_app; auto). rewrite remaining_all by (intros n I; apply EX; apply in_or_app; auto). cbn [bind]. rewrite zlen_zrange by apply zlen_nonneg. rewrite Z.add_0_l, Z.sub_0_r.
    replace (zlen m =? 0) with false by (destruct m; [congruence|rewrite zlen_cons; pose proof (zlen_nonneg m); lia]). rewrite !unwrap. cbn [bind]. replace (zlen a =? zlen m) with true by (unfold zlen; lia). rewrite Z.eqb_refl. cbn [negb orb]. rewrite map_length, LA, Nat.eqb_refl. reflexivity.
  - unfold zlen. rewrite !map_length. lia.
  - rewrite !present_some by (intros n I; apply EX; apply in_or_app; auto). unfold zlen. rewrite !map_length. lia.
Qed.
Lemma day_nothing d rs (s : store) m a : length m = length a -> (forall n, In n (m ++ a) -> s n = None) -> merge_single_day_outputs d (map (fun r => listed r (zrange 0 (zlen m))) rs) s (map Some m) (map Some a) = Ok [].
Proof.
  intros L EX. unfold merge_single_day_outputs. replace (map (fun r => listed r (zrange 0 (zlen m))) rs) with (map (fun r => listed r (zrange 0 (zlen (map (@Some string) m)))) rs) at 1 by (rewrite zlen_map; reflexivity). rewrite clean_spec.
  - rewrite !present_none by (intros n I; apply EX; apply in_or_app; auto). cbn [bind]. assert (R : zlen (remaining (fun n => match s n with None => false | Some _ => true end) (map Some m)) = 0). { rewrite <- (zlen_map (fun i => nth (Z.to_nat i) (map Some m) None)). rewrite <- filter_remaining. rewrite present_none by (intros n I; apply EX; apply in_or_app; auto). reflexivity. }
    rewrite R. reflexivity.
  - unfold zlen. rewrite !map_length. lia.
  - rewrite !present_none by (intros n I; apply EX; apply in_or_app; auto). reflexivity.
Qed.
Lemma present_partly (s s' : store) l j : NoDup l -> (forall n, In n l -> s n <> None) -> (forall n, In n l -> s' n = if existsb (String.eqb n) (firstn j l) then None else s n) ->
  filter (present (fun n => match s' n with None => false | Some _ => true end)) (map Some l) = map Some (skipn j l).
Proof.
  intros ND EX H. rewrite <- (firstn_skipn j l) at 1. rewrite map_app, filter_app. rewrite <- (firstn_skipn j l) in ND.
  rewrite present_none. 2:{ intros n I. rewrite H by (apply In_firstn in I; exact I). rewrite existsb_In by exact I. reflexivity. }
  apply present_some. intros n I. assert (IL : In n l) by (rewrite <- (firstn_skipn j l); apply in_or_app; right; exact I). rewrite H by exact IL. destruct (existsb (String.eqb n) (firstn j l)) eqn:X; [|apply EX; exact IL].
  exfalso. apply existsb_exists in X. destruct X as (y & Y & EQ). apply String.eqb_eq in EQ. subst y. clear - ND Y I. induction (firstn j l) as [|x t IH]; [destruct Y|]. cbn [app] in ND. inversion ND as [|? ? NI ND']. subst. destruct Y as [->|Y]; [apply NI; apply in_or_app; right; exact I|apply IH; assumption].
Qed.
Lemma NoDup_app_parts {A} (l1 l2 : list A) : NoDup (l1 ++ l2) -> NoDup l1 /\ NoDup l2 /\ forall x, In x l1 -> ~ In x l2.
Proof.
  induction l1 as [|x l1 IH]; intros ND; [split; [constructor|split; [exact ND|intros x []]]|]. cbn [app] in ND. inversion ND as [|? ? NI ND']. subst. destruct (IH ND') as (A1 & A2 & A3). split; [constructor; [intros I; apply NI; apply in_or_app; left; exact I|exact A1]|]. split; [exact A2|]. intros y [<-|Y]; [intros I; apply NI; apply in_or_app; right; exact I|apply A3; exact Y].
Qed.
Lemma firstn_In_app {A} (eqb : A -> A -> bool) j (l1 l2 : list A) x : (forall a b, eqb a b = true <-> a = b) -> (In x l1 -> ~ In x l2) -> In x l1 -> existsb (eqb x) (firstn j (l1 ++ l2)) = existsb (eqb x) (firstn j l1).
Proof.
  intros EQ D I. rewrite firstn_app, existsb_app. replace (existsb (eqb x) (firstn (j - length l1) l2)) with false; [apply orb_false_r|]. destruct (existsb _ (firstn (j - length l1) l2)) eqn:X; [|reflexivity]. apply existsb_exists in X. destruct X as (y & Y & E). apply EQ in E. subst y. apply In_firstn in Y. exfalso. exact (D I Y).
Qed.
Lemma day_interrupted d corr (s s' : store) m a j : length m = length a -> NoDup (m ++ a) -> (forall n, In n (m ++ a) -> s n <> None) -> (forall n, In n (m ++ a) -> s' n = if existsb (String.eqb n) (firstn j (m ++ a)) then None else s n) -> (0 < j < length (m ++ a))%nat ->
  merge_single_day_outputs d corr s' (map Some m) (map Some a) = Err ValueError.
Proof.
  intros L ND EX H J. destruct (NoDup_app_parts _ _ ND) as (N1 & N2 & N3). unfold merge_single_day_outputs. rewrite clean_mismatch; [reflexivity|]. right.
  rewrite (present_partly s s' m j N1).
  - rewrite (present_partly s s' a (j - length m) N2).
    + unfold zlen. rewrite !map_length, !skipn_length. rewrite app_length in J. lia.
    + intros n I. apply EX. apply in_or_app. right. exact I.
    + intros n I. rewrite H by (apply in_or_app; right; exact I). rewrite firstn_app, existsb_app. replace (existsb (String.eqb n) (firstn j m)) with false; [reflexivity|]. destruct (existsb _ (firstn j m)) eqn:X; [|reflexivity]. apply existsb_exists in X. destruct X as (y & Y & E). apply String.eqb_eq in E. subst y. apply In_firstn in Y. exfalso. exact (N3 _ Y I).
  - intros n I. apply EX. apply in_or_app. left. exact I.
  - intros n I. rewrite H by (apply in_or_app; left; exact I). rewrite (firstn_In_app String.eqb); [reflexivity|apply String.eqb_eq|apply N3|exact I].
Qed.

(* ------------------------------------------------------------------ names *)
Lemma sapp_assoc a b c : ((a ++ b) ++ c)%string = (a ++ (b ++ c))%string.
Proof. induction a as [|x a IH]; cbn; [reflexivity|rewrite IH; reflexivity]. Qed.
Lemma sapp_nil a : (a ++ "")%string = a. Proof. induction a as [|x a IH]; cbn; [reflexivity|rewrite IH; reflexivity]. Qed.
Lemma prefix_spec p : forall s, String.prefix p s = true <-> exists t, s = (p ++ t)%string.
Proof.
  induction p as [|x p IH]; intros s; [split; [intros _; exists s; reflexivity|intros _; destruct s; reflexivity]|]. destruct s as [|y s]; [split; [discriminate|intros (t & E); discriminate]|]. cbn [String.prefix]. destruct (ascii_dec x y) as [->|D].
  - rewrite IH. split; intros (t & E); exists t; [cbn; rewrite E; reflexivity|cbn in E; inversion E; reflexivity].
  - split; [discriminate|]. intros (t & E). cbn in E. inversion E. congruence.
Qed.
Lemma underscores_app a b : underscores (a ++ b) = underscores a + underscores b.
Proof. induction a as [|x a IH]; [reflexivity|]. cbn [String.append underscores]. rewrite IH. lia. Qed.
Lemma underscores_nonneg a : 0 <= underscores a. Proof. induction a as [|x a IH]; cbn [underscores]; [lia|]. destruct (Ascii.eqb x "_"); lia. Qed.
Lemma delete_skip p x : forall y, delete_all p (String.length x) (x ++ y) = delete_all p 0 y.
Proof. induction x as [|c x IH]; intros y; [reflexivity|]. cbn [String.length String.append delete_all]. apply IH. Qed.
Lemma delete_here p y : p <> EmptyString -> delete_all p 0 (p ++ y) = delete_all p 0 y.
Proof.
  intros NE. destruct p as [|c p]; [congruence|]. cbn [String.append delete_all]. assert (P : String.prefix (String c p) (String c (p ++ y)) = true) by (apply prefix_spec; exists y; reflexivity). rewrite P. cbn [String.length]. rewrite Nat.sub_succ, Nat.sub_0_r. apply delete_skip.
Qed.
Lemma free_tail p c s : free_of p (String c s) -> free_of p s.
Proof. intros F (a & b & E). apply F. exists (String c a), b. rewrite E. reflexivity. Qed.
Lemma delete_free p s : free_of p s -> delete_all p 0 s = s.
Proof.
  induction s as [|c s IH]; intros F; [reflexivity|]. cbn [delete_all]. destruct (String.prefix p (String c s)) eqn:P; [|rewrite IH by (apply (free_tail p c); exact F); reflexivity]. exfalso. apply prefix_spec in P. destruct P as (t & E). apply F. exists EmptyString, t. exact E.
Qed.
Lemma cover u : forall p v t, (u ++ v)%string = (p ++ t)%string -> (exists x, u = (p ++ x)%string) \/ exists c w, p = (u ++ String c w)%string /\ v = (String c w ++ t)%string.
Proof.
  induction u as [|x u IH]; intros p v t E.
  - destruct p as [|c w]; [left; exists EmptyString; reflexivity|]. right. exists c, w. split; [reflexivity|exact E].
  - destruct p as [|y p]; [left; exists (String x u); reflexivity|]. cbn in E. inversion E. subst y. destruct (IH p v t H1) as [(z & ->)|(c & w & -> & ->)]; [left; exists z; reflexivity|right; exists c, w; split; reflexivity].
Qed.
Lemma delete_one label pre post : underscores label = 0 -> free_of ("_" ++ label) pre -> free_of ("_" ++ label) post -> delete_all ("_" ++ label) 0 (pre ++ "_" ++ label ++ post) = (pre ++ post)%string.
Proof.
  intros U. revert post. induction pre as [|c pre IH]; intros post F1 F2.
  - change ("" ++ "_" ++ label ++ post)%string with (("_" ++ label) ++ post)%string. rewrite delete_here by discriminate. apply delete_free. exact F2.
  - cbn [String.append]. cbn [delete_all]. destruct (String.prefix _ _) eqn:P; [|change (String c (delete_all (String "_" label) 0 (pre ++ String "_" (label ++ post)))) with (String c (delete_all ("_" ++ label) 0 (pre ++ "_" ++ label ++ post))); rewrite IH by (assumption || (apply (free_tail _ c); exact F1)); reflexivity].
    exfalso. apply prefix_spec in P. destruct P as (t & E). destruct (cover (String c pre) (String "_" label) (String "_" (label ++ post)) t E) as [(x & EX)|(c' & w & EP & EV)].
    + apply F1. exists EmptyString, x. exact EX.
    + cbn in EP. inversion EP. subst c. cbn [String.append] in EV. inversion EV. subst c'. rewrite H1 in U. rewrite underscores_app in U. cbn [underscores] in U. change (Ascii.eqb "_" "_") with true in U. cbv iota in U. pose proof (underscores_nonneg pre). pose proof (underscores_nonneg w). lia.
Qed.
Lemma underscores_delete p : forall s k, underscores (delete_all p k s) <= underscores s.
Proof.
  induction s as [|c s IH]; intros k; [cbn; lia|]. cbn [delete_all]. destruct k as [|k].
  - destruct (String.prefix p (String c s)); cbn [underscores]; [specialize (IH (String.length p - 1)%nat)|specialize (IH 0%nat)]; destruct (Ascii.eqb c "_"); lia.
  - cbn [underscores]. specialize (IH k). destruct (Ascii.eqb c "_"); lia.
Qed.
Lemma underscores_fewer label a : forall b, underscores (without_label label (a ++ "_" ++ label ++ b)) < underscores (a ++ "_" ++ label ++ b).
Proof.
  unfold without_label. induction a as [|c a IH]; intros b.
  - cbn [String.append delete_all]. assert (P : String.prefix (String "_" label) (String "_" (label ++ b)) = true) by (apply prefix_spec; exists b; reflexivity). rewrite P. cbn [underscores]. change (Ascii.eqb "_" "_") with true. cbv iota. pose proof (underscores_delete (String "_" label) (label ++ b) (String.length (String "_" label) - 1)%nat). lia.
  - cbn [String.append] in *. cbn [delete_all]. destruct (String.prefix _ _) eqn:P.
    + apply prefix_spec in P. destruct P as (t & E). cbn [String.append] in E. injection E as -> _. cbn [underscores]. change (Ascii.eqb "_" "_") with true. cbv iota. pose proof (underscores_delete (String "_" label) (a ++ String "_" (label ++ b)) (String.length (String "_" label) - 1)%nat). lia.
    + cbn [underscores]. specialize (IH b). lia.
Qed.
Lemma split_nonempty c s : split_on c s <> [].
Proof. induction s as [|d s IH]; [discriminate|]. cbn [split_on]. destruct (Ascii.eqb c d); [discriminate|]. destruct (split_on c s); [congruence|discriminate]. Qed.
Lemma split_part c s : (forall x, nth_error (split_on c s) 0 = Some x -> exists b, s = (x ++ b)%string) /\ forall k x, nth_error (split_on c s) (S k) = Some x -> exists a b, s = (a ++ String c (x ++ b))%string.
Proof.
  induction s as [|d s [IH0 IH]].
  - split; [intros x E; inversion E; exists EmptyString; reflexivity|]. intros [|k] x E; discriminate.
  - cbn [split_on]. destruct (Ascii.eqb_spec c d) as [->|D].
    + split; [intros x E; inversion E; exists (String d s); reflexivity|]. intros [|k] x E; cbn [nth_error] in E.
      * destruct (IH0 x E) as (b & ->). exists EmptyString, b. reflexivity.
      * destruct (IH k x E) as (a & b & ->). exists (String d a), b. reflexivity.
    + destruct (split_on c s) as [|h t]; [split; [intros x E|intros [|k] x E]; discriminate|]. split.
      * intros x E. cbn in E. inversion E. subst. destruct (IH0 h eq_refl) as (b & ->). exists b. reflexivity.
      * intros k x E. destruct (IH k x E) as (a & b & ->). exists (String d a), b. reflexivity.
Qed.
Lemma split_last c s : exists a, s = (a ++ last (split_on c s) "")%string.
Proof.
  induction s as [|d s (a & E)]; [exists EmptyString; reflexivity|]. cbn [split_on]. destruct (Ascii.eqb c d).
  - exists (String d a). pose proof (split_nonempty c s). destruct (split_on c s) as [|h t]; [congruence|]. cbn [last String.append]. f_equal. exact E.
  - destruct (split_on c s) as [|h t] eqn:ES; [exfalso; apply (split_nonempty c s ES)|]. destruct t as [|h' t].
    + exists EmptyString. cbn [last String.append] in *. f_equal. assert (L : String.length s = (String.length a + String.length h)%nat) by (rewrite E at 1; clear; induction a; cbn; congruence).
      destruct (split_part c s) as [P0 _]. rewrite ES in P0. destruct (P0 h eq_refl) as (b & EB). assert (L2 : String.length s = (String.length h + String.length b)%nat) by (rewrite EB at 1; clear; induction h; cbn; congruence).
      assert (N : forall h s, split_on c s = [h] -> s = h). { clear. intros h s. revert h. induction s as [|d s IH]; intros h ES; [inversion ES; reflexivity|]. cbn [split_on] in ES. destruct (Ascii.eqb c d); [inversion ES; exfalso; apply (split_nonempty c s); congruence|]. destruct (split_on c s) as [|h1 t] eqn:E1; [discriminate|]. inversion ES. subst. f_equal. apply IH. reflexivity. } apply N. exact ES.
    + exists (String d a). cbn [last String.append] in *. f_equal. exact E.
Qed.
Lemma split_free s x : In x (split_on "_" s) -> underscores x = 0.
Proof.
  revert x. induction s as [|d s IH]; intros x I; [destruct I as [<-|[]]; reflexivity|]. cbn [split_on] in I. destruct (Ascii.eqb_spec "_" d) as [D|D]; [destruct I as [<-|I]; [reflexivity|apply IH; exact I]|].
  destruct (split_on "_" s) as [|h t]; [destruct I|]. destruct I as [<-|I]; [|apply IH; right; exact I]. cbn [underscores]. rewrite (IH h) by (left; reflexivity). destruct (Ascii.eqb_spec d "_"); [congruence|reflexivity].
Qed.
Lemma label_occurs name label : source_label name = Ok label -> underscores label = 0 /\ exists a b, name = (a ++ "_" ++ label ++ b)%string.
Proof.
  unfold source_label, basename. rewrite py_index_nonneg by lia. change (Z.to_nat 4) with 4%nat. destruct (nth_error _ 4) as [x|] eqn:E; [|discriminate]. intros Q. inversion Q. subst x. split; [apply (split_free _ _ (nth_error_In _ _ E))|].
  destruct (split_last "/" name) as (a & EN). destruct (proj2 (split_part "_" (last (split_on "/" name) EmptyString)) 3%nat label E) as (a' & b & EB). exists (a ++ a')%string, b. rewrite EN at 1. rewrite EB, sapp_assoc. reflexivity.
Qed.
Lemma single_ops d p a ops : update_single_file d [p] [a] = Ok ops -> exists label, source_label p = Ok label /\
  let c := (comment_prefix d ++ label ++ " retrievals.")%string in ops = [Comment p c; Rename p (without_label label p); Comment a c; Rename a (without_label label a)].
Proof. unfold update_single_file. destruct (source_label p) as [label|]; [|discriminate]. cbn [bind]. intros E. inversion E. exists label. split; reflexivity. Qed.
Lemma present_names isfile l : exists l', filter (present isfile) l = map Some l'.
Proof. induction l as [|[n|] l (l' & IH)]; [exists []; reflexivity| |exists l'; exact IH]. cbn [filter present]. destruct (isfile n); [exists (n :: l'); cbn [map]; rewrite IH; reflexivity|exists l'; exact IH]. Qed.
