(* Specification vocabulary for the merge of files. *)
From Coq Require Import QArith Qcanon Ascii String.
From Verif Require Import Base Grid_Model Merge_Model.
Local Open Scope Z_scope.
Local Open Scope list_scope.

(* The pairs (x, y) of entries of a list with x before y, in the order the correlations are listed: r(1,2), r(1,3), ..., r(2,3), ... *)
Fixpoint pairs_of {A} (l : list A) : list (A * A) := match l with [] => [] | x :: t => map (pair x) t ++ pairs_of t end.
(* The list of the correlations [r i j] of the sources [l]. *)
Definition listed (r : Z -> Z -> Qc) (l : list Z) : list Qc := map (fun p => r (fst p) (snd p)) (pairs_of l).
(* The correlation of any two sources, from those of pairs i < j. *)
Definition correlation (r : Z -> Z -> Qc) (i j : Z) : Qc := if i =? j then 1%Qc else if i <? j then r i j else r j i.
(* Variance of the sum of the errors of sources [l] with standard uncertainties [u]. *)
Definition variance_of_sum (R : Z -> Z -> Qc) (u : Z -> Qc) (l : list Z) : Qc :=
  sumQ (map (fun i => sumQ (map (fun j => R i j * u i * u j)%Qc l)) l).

(* The numbers, from 0, of the files of a list that exist. *)
Definition remaining (isfile : string -> bool) (files : list path) : list Z :=
  filter (fun i => present isfile (nth (Z.to_nat i) files None)) (zrange 0 (zlen files)).

(* The value of a field in cell k, unless it is missing. *)
Definition datum (f : field) (k : nat) : option Qc :=
  match nth_error (data f) k with None => None | Some v => if Qceqb v (fill f) then None else Some v end.
Definition masked (m : option (list bool)) (k : nat) : bool := match m with None => false | Some l => nth k l false end.
(* A field of n cells, masked where a value is missing. *)
Definition well_masked (n : nat) (f : field) : Prop :=
  length (data f) = n /\ (forall m, mask f = Some m -> length m = n) /\ forall k, (k < n)%nat -> masked (mask f) k = true <-> datum f k = None.
Definition no_field : field := {| data := []; mask := None; fill := 0%Qc |}.
Definition source (fields : list field) (i : Z) : field := nth (Z.to_nat i) fields no_field.
Definition has_data (f : field) (k : nat) : bool := match datum f k with Some _ => true | None => false end.
(* The sources with a value in cell k, and the values. *)
Definition contributors (fields : list field) (k : nat) : list Z := filter (fun i => has_data (source fields i) k) (zrange 0 (zlen fields)).
Definition value (fields : list field) (k : nat) (i : Z) : Qc := match datum (source fields i) k with Some v => v | None => 0%Qc end.
(* Either some cells of every field are masked, or in none of them. *)
Definition alike (fields : list field) : Prop := (forall f, In f fields -> mask f = None) \/ (forall f, In f fields -> mask f <> None).

(* The files as they are when a program doing [ops] is interrupted. *)
Definition interrupted (s : store) (ops : list op) (s' : store) : Prop := exists k, foldM exec s (firstn k ops) = Ok s'.
(* The same date and variables: everything but the comment. *)
Definition same_data (f : file) (g : option file) : Prop := exists c, g = Some c /\ day c = day f /\ variables c = variables f.
Definition finished (s : store) (ops : list op) (s' : store) : Prop := foldM exec s ops = Ok s'.
Fixpoint underscores (s : string) : Z := match s with EmptyString => 0 | String c r => (if Ascii.eqb c "_" then 1 else 0) + underscores r end.
(* [p] is not found in [s] *)
Definition free_of (p s : string) : Prop := ~ exists a b, s = (a ++ p ++ b)%string.

(* The fields called [n] of files of the store, in order. *)
Definition fields_of (s : store) (n : string) (files : list string) (fields : list field) : Prop :=
  Forall2 (fun name f => exists c, s name = Some c /\ lookup n (variables c) = Some (Plain f)) files fields.
(* The names of all the variables a merge computes or copies, for sources with these labels. *)
Definition output_names (d : definitions) (labels : list string) : list string :=
  primary_fields d ++ primary_uncertainties d ++ ancillary_fields d ++
  flat_map (fun l => map (fun n => n ++ "_" ++ l)%string (primary_fields d ++ primary_uncertainties d)) labels ++
  flat_map (fun l => map (fun n => n ++ "_" ++ l)%string (ancillary_fields d)) labels.
