(* Common vocabulary: Python exceptions as values, Python indexing, ranges and slices. *)
From Coq Require Export List ZArith Lia Bool Permutation Sorting.Sorted.
From Coq Require Import ZifyBool ZifyNat ZifyN.
Export ListNotations.
Open Scope Z_scope.

Ltac Zify.zify_post_hook ::= Z.div_mod_to_equations.

(* Python exceptions that the modelled code raises (or lets escape). *)
Inductive err : Type :=
| ValueError | IndexError | TypeError | KeyError | NameError | AttributeError
| ZeroDivisionError | IOErrorE | OperationException | ModuleError (* exception raised inside a user module *).

Inductive result (A : Type) : Type :=
| Ok (a : A)
| Err (e : err).
Arguments Ok {A} a.
Arguments Err {A} e.

Definition bind {A B} (r : result A) (f : A -> result B) : result B :=
  match r with Ok a => f a | Err e => Err e end.
Notation "'do' x <- r ; f" := (bind r (fun x => f)) (at level 200, x pattern, r at level 100, f at level 200).

Definition is_ok {A} (r : result A) : bool := match r with Ok _ => true | Err _ => false end.

(* [len l] as an integer. *)
Definition zlen {A} (l : list A) : Z := Z.of_nat (length l).

(* Python sequence indexing l[i]: negative indices count from the end, out of range is IndexError. *)
Definition py_index {A} (l : list A) (i : Z) : result A :=
  let n := zlen l in
  let j := if i <? 0 then i + n else i in
  if (0 <=? j) && (j <? n)
  then match nth_error l (Z.to_nat j) with Some a => Ok a | None => Err IndexError end
  else Err IndexError.

(* Python range(a, b). *)
Definition zrange (a b : Z) : list Z :=
  map (fun k => a + Z.of_nat k) (seq 0 (Z.to_nat (b - a))).

(* Python range(a, b, s) for s > 0: ceil((b-a)/s) items. *)
Definition zrange3 (a b s : Z) : list Z :=
  map (fun k => a + s * Z.of_nat k) (seq 0 (Z.to_nat ((b - a + s - 1) / s))).

(* Python slice l[a:b] for 0 <= a (b beyond the end is cut, b <= a gives []). *)
Definition zslice {A} (l : list A) (a b : Z) : list A :=
  firstn (Z.to_nat (b - a)) (skipn (Z.to_nat a) l).

(* mapM over results: stops at the first exception, as a Python loop does. *)
Fixpoint mapM {A B} (f : A -> result B) (l : list A) : result (list B) :=
  match l with
  | [] => Ok []
  | x :: xs => do y <- f x; do ys <- mapM f xs; Ok (y :: ys)
  end.

Definition sumZ (l : list Z) : Z := fold_right Z.add 0 l.

(* ---- elementary lemmas ---- *)

Lemma zlen_nonneg {A} (l : list A) : 0 <= zlen l.
Proof. unfold zlen; lia. Qed.

Lemma zlen_app {A} (l m : list A) : zlen (l ++ m) = zlen l + zlen m.
Proof. unfold zlen; rewrite app_length; lia. Qed.

Lemma zlen_map {A B} (f : A -> B) l : zlen (map f l) = zlen l.
Proof. unfold zlen; now rewrite map_length. Qed.

Lemma zlen_cons {A} (x : A) l : zlen (x :: l) = 1 + zlen l.
Proof. unfold zlen; cbn [length]; lia. Qed.

Lemma zlen_nil {A} : zlen (@nil A) = 0.
Proof. reflexivity. Qed.

Lemma py_index_nonneg {A} (l : list A) i :
  0 <= i -> py_index l i = match nth_error l (Z.to_nat i) with Some a => Ok a | None => Err IndexError end.
Proof.
  intros Hi. unfold py_index. destruct (i <? 0) eqn:E; [lia|].
  destruct ((0 <=? i) && (i <? zlen l)) eqn:E2; [reflexivity|].
  destruct (nth_error l (Z.to_nat i)) eqn:E3; [|reflexivity].
  assert (nth_error l (Z.to_nat i) <> None) as H by congruence.
  apply nth_error_Some in H. unfold zlen in E2. lia.
Qed.

Lemma zrange_length a b : length (zrange a b) = Z.to_nat (b - a).
Proof. unfold zrange; now rewrite map_length, seq_length. Qed.

Lemma zrange_In a b x : In x (zrange a b) <-> a <= x < b.
Proof.
  unfold zrange. rewrite in_map_iff. split.
  - intros [k [Hk Hin]]. apply in_seq in Hin. lia.
  - intros H. exists (Z.to_nat (x - a)). split; [lia|]. apply in_seq. lia.
Qed.

Lemma seq_as_map a n : seq a n = map (fun k => (a + k)%nat) (seq 0 n).
Proof.
  revert a; induction n as [|n IH]; intros a; cbn; [reflexivity|].
  f_equal; [lia|]. rewrite (IH (S a)), (IH 1%nat), map_map. apply map_ext. intros; lia.
Qed.

Lemma zrange_app a b c : a <= b <= c -> zrange a b ++ zrange b c = zrange a c.
Proof.
  intros H. unfold zrange.
  replace (Z.to_nat (c - a)) with (Z.to_nat (b - a) + Z.to_nat (c - b))%nat by lia.
  rewrite seq_app, map_app. f_equal. rewrite (seq_as_map (0 + Z.to_nat (b - a))%nat), map_map.
  apply map_ext. intros k. lia.
Qed.

Lemma zrange_empty a b : b <= a -> zrange a b = [].
Proof. intros H. unfold zrange. now replace (Z.to_nat (b - a)) with 0%nat by lia. Qed.

Lemma zrange_cons a b : a < b -> zrange a b = a :: zrange (a + 1) b.
Proof.
  intros H. unfold zrange. replace (Z.to_nat (b - a)) with (S (Z.to_nat (b - (a + 1)))) by lia.
  cbn [seq map]. f_equal; [lia|]. rewrite (seq_as_map 1), map_map. apply map_ext; intros; lia.
Qed.

Lemma zrange_snoc a b : a <= b -> zrange a (b + 1) = zrange a b ++ [b].
Proof.
  intros H. rewrite <- (zrange_app a b (b + 1)) by lia. f_equal.
  rewrite zrange_cons by lia. now rewrite zrange_empty by lia.
Qed.

Lemma zrange_NoDup a b : NoDup (zrange a b).
Proof.
  unfold zrange. apply FinFun.Injective_map_NoDup; [|apply seq_NoDup].
  intros x y E. lia.
Qed.

Lemma zrange_shift a b k : zrange (a + k) (b + k) = map (fun x => x + k) (zrange a b).
Proof.
  unfold zrange. rewrite map_map. replace (b + k - (a + k)) with (b - a) by lia.
  apply map_ext; intros; lia.
Qed.

Lemma zlen_zrange a b : a <= b -> zlen (zrange a b) = b - a.
Proof. intros; unfold zlen; rewrite zrange_length; lia. Qed.

Lemma mapM_ok_Forall2 {A B} (f : A -> result B) l r :
  mapM f l = Ok r <-> Forall2 (fun x y => f x = Ok y) l r.
Proof.
  revert r; induction l as [|x xs IH]; intros r; cbn [mapM]; split.
  - intros E; injection E as <-; constructor.
  - intros F; inversion F; reflexivity.
  - destruct (f x) as [y|e] eqn:Ey; cbn [bind]; [|discriminate].
    destruct (mapM f xs) as [ys|e] eqn:Eys; cbn [bind]; [|discriminate].
    intros E; injection E as <-. constructor; [assumption|]. apply IH; reflexivity.
  - intros F; inversion F as [|x' y xs' ys Hxy Hrest]; subst.
    rewrite Hxy; cbn [bind]. apply IH in Hrest. rewrite Hrest; reflexivity.
Qed.

Lemma mapM_length {A B} (f : A -> result B) l r : mapM f l = Ok r -> length r = length l.
Proof. intros E; apply mapM_ok_Forall2 in E. induction E; cbn [length]; congruence. Qed.

Lemma mapM_pure {A B} (g : A -> B) l : mapM (fun x => Ok (g x)) l = Ok (map g l).
Proof. induction l as [|x xs IH]; cbn [mapM map bind]; [reflexivity|]. now rewrite IH. Qed.
