(* Vocabulary for gridding jobs, daily runs and break point files. *)
From Coq Require Import String Ascii QArith Qcanon.
From Verif Require Import Base Satjob_Model.
Open Scope string_scope.
Open Scope list_scope.
Open Scope Z_scope.

(* A date of the calendar. *)
Definition calendar_date (y m d : Z) : Prop := 1 <= y <= 9999 /\ 1 <= m <= 12 /\ 1 <= d <= Time_Model.days_in_month y m.
(* Bits of a quality word. *)
Definition night_bit (q : Z) : bool := Z.testbit q 0.
Definition rejected (q : Z) : bool := Z.testbit q 1 || Z.testbit q 2.

(* The variable of this name in a file: as long as its only dimension. *)
Definition one_dimensional (f : list variable) (name : string) (values : list Qc) : Prop :=
  exists before v after, f = before ++ v :: after /\ (forall u, In u before -> v_name u <> name) /\ v_name v = name /\
  v_dimensions v = [List.length values] /\ v_values v = values.
