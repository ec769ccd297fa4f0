(* What the descriptor of diagnostic operations should say. *)
From Coq Require Import String Ascii.
From Verif Require Import Base Fill_Model Fill_Spec.
Open Scope string_scope.
Open Scope list_scope.
Open Scope Z_scope.

(* The data sets that hold the large scale solution of an iteration: its state and, after the last of [n] iterations, its samples. *)
Definition large_scale_sets (f : filler) (n i : Z) : list string :=
  let large := f_solution_large_scale f in
  numbered large i :: (if i =? n - 1 then [numbered (large ++ "_sample")%string i; numbered (large ++ "_prior_sample")%string i] else []).
(* The data set of the station biases of an iteration, and the place of its file. *)
Definition biases_set (i : Z) : string := numbered "station_biases" i.
Definition biases_path (i : Z) : list string := [biases_set i; (biases_set i ++ ".pickle")%string].
(* An operation done once. *)
Definition once (op : json) : Prop := get [K "step"] op = Ok (JDict [("python_class", JStr "eumopps.catalogue.step.StepOnce")]).
