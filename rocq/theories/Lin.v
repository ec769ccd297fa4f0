(* Exact linear algebra over the rationals: sums over an index range, vectors as lists, tables of entries. *)
From Coq Require Import QArith Qcanon.
From Verif Require Import Base Grid_Model.
Local Open Scope nat_scope.
Local Open Scope list_scope.

Definition vec := list Qc.
(* [f 0; ...; f (n-1)] *)
Definition tab {A} (n : nat) (f : nat -> A) : list A := map f (seq 0 n).
(* entry [k], zero outside *)
Definition vnth (v : vec) (k : nat) : Qc := nth k v 0%Qc.
(* f 0 + ... + f (n-1) *)
Fixpoint sumn (n : nat) (f : nat -> Qc) : Qc := match n with O => 0%Qc | S k => (sumn k f + f k)%Qc end.

Lemma sumn_ext n f g : (forall k, k < n -> f k = g k) -> sumn n f = sumn n g.
Proof. induction n as [|n IH]; intros H; [reflexivity|]. cbn. rewrite IH, H; auto. Qed.
Lemma sumn_zero n f : (forall k, k < n -> f k = 0%Qc) -> sumn n f = 0%Qc.
Proof. induction n as [|n IH]; intros H; [reflexivity|]. cbn. rewrite IH, H by auto. ring. Qed.
Lemma sumn_add n f g : sumn n (fun k => f k + g k)%Qc = (sumn n f + sumn n g)%Qc.
Proof. induction n as [|n IH]; [cbn; ring|]. cbn. rewrite IH. ring. Qed.
Lemma sumn_mul_l n c f : sumn n (fun k => c * f k)%Qc = (c * sumn n f)%Qc.
Proof. induction n as [|n IH]; [cbn; ring|]. cbn. rewrite IH. ring. Qed.
Lemma sumn_mul_r n c f : sumn n (fun k => f k * c)%Qc = (sumn n f * c)%Qc.
Proof. induction n as [|n IH]; [cbn; ring|]. cbn. rewrite IH. ring. Qed.
Lemma sumn_plus n m f : sumn (n + m) f = (sumn n f + sumn m (fun k => f (n + k)%nat))%Qc.
Proof.
  induction m as [|m IH]; [rewrite Nat.add_0_r; cbn; ring|].
  rewrite Nat.add_succ_r. cbn. rewrite IH. ring.
Qed.
Lemma sumn_swap n m f : sumn n (fun i => sumn m (fun j => f i j)) = sumn m (fun j => sumn n (fun i => f i j)).
Proof.
  induction n as [|n IH]; [cbn; symmetry; apply sumn_zero; reflexivity|].
  cbn. rewrite IH, <- sumn_add. apply sumn_ext. reflexivity.
Qed.
Lemma sumn_one n k f : k < n -> (forall j, j < n -> j <> k -> f j = 0%Qc) -> sumn n f = f k.
Proof.
  induction n as [|n IH]; intros Hk H; [lia|]. cbn.
  destruct (Nat.eq_dec k n) as [->|Hn].
  - rewrite sumn_zero; [ring|]. intros j Hj. apply H; lia.
  - rewrite IH by (try lia; intros; apply H; lia). rewrite (H n) by lia. ring.
Qed.

Lemma tab_length {A} n (f : nat -> A) : length (tab n f) = n.
Proof. unfold tab. rewrite map_length, seq_length. reflexivity. Qed.
Lemma tab_nth {A} n (f : nat -> A) d k : k < n -> nth k (tab n f) d = f k.
Proof.
  intros H. unfold tab. rewrite (nth_indep _ d (f 0)) by (rewrite map_length, seq_length; exact H).
  rewrite map_nth, seq_nth by exact H. reflexivity.
Qed.
Lemma tab_ext {A} n (f g : nat -> A) : (forall k, k < n -> f k = g k) -> tab n f = tab n g.
Proof. intros H. unfold tab. apply map_ext_in. intros k Hk. apply H. apply in_seq in Hk. lia. Qed.
Lemma tab_of_list {A} (l : list A) d : tab (length l) (fun k => nth k l d) = l.
Proof.
  apply (nth_ext _ _ d d); [apply tab_length|]. intros k Hk. rewrite tab_length in Hk. apply (tab_nth (length l) (fun k => nth k l d) d k Hk).
Qed.
Lemma tab_S {A} n (f : nat -> A) : tab (S n) f = tab n f ++ [f n].
Proof. unfold tab. rewrite seq_S, map_app. reflexivity. Qed.
Lemma tab_inj {A} n (f g : nat -> A) : tab n f = tab n g -> forall k, k < n -> f k = g k.
Proof. intros H k Hk. rewrite <- (tab_nth n f (f 0) k Hk), H. apply tab_nth. exact Hk. Qed.
Lemma vnth_tab n f k : k < n -> vnth (tab n f) k = f k.
Proof. apply tab_nth. Qed.
Lemma vec_ext (a b : vec) : length a = length b -> (forall k, k < length a -> vnth a k = vnth b k) -> a = b.
Proof. intros Hl H. apply (nth_ext _ _ 0%Qc 0%Qc Hl H). Qed.
