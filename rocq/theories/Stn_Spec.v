(* What station data should give. *)
From Coq Require Import QArith Qabs String.
From Verif Require Import Base Stn_Model.
Local Open Scope list_scope.

(* Times closer than the resolution. *)
Definition near (a b : Q) : Prop := (Qabs (a - b) < 5 # 10000)%Q.
(* Point i is the first of the axis near t. *)
Definition row_of (axis : list Q) (t : Q) (i : nat) : Prop :=
  (exists a, nth_error axis i = Some a /\ near a t) /\ forall i' a, (i' < i)%nat -> nth_error axis i' = Some a -> ~ near a t.
(* Station j is the last of this name. *)
Definition column_of (ns : list string) (name : string) (j : nat) : Prop :=
  nth_error ns j = Some name /\ forall j', (j < j')%nat -> nth_error ns j' <> Some name.
(* The last sample of a list for which P holds. *)
Definition last_with {A} (P : A -> Prop) (l : list A) (x : A) : Prop :=
  exists before after, l = before ++ x :: after /\ P x /\ forall y, In y after -> ~ P y.
(* Cell (i, j) of a table. *)
Definition cell (c : cells) (i j : nat) : option (option Q) := match nth_error c i with Some row => nth_error row j | None => None end.
(* Strictly increasing *)
Fixpoint increasing (l : list Q) : Prop :=
  match l with [] => True | x :: r => (forall y, In y r -> (x < y)%Q) /\ increasing r end.
(* The breaks added for one measurement, in order. *)
Definition breaks_of (m : string) (l : list (string * station_break)) : list station_break := map snd (filter (fun x => String.eqb (fst x) m) l).
