(* What command lines and shipped scripts should say. *)
From Coq Require Import String Ascii.
From Verif Require Import Base Fill_Model Fill_Spec.
Open Scope string_scope.
Open Scope list_scope.
Open Scope Z_scope.

(* The last text given for an option, if it is given. *)
Definition last_given (name : string) (o : list (string * string)) (v : string) : Prop :=
  exists before after, o = before ++ (name, v) :: after /\ forall w, ~ In (name, w) after.
Definition not_given (name : string) (o : list (string * string)) : Prop := forall w, ~ In (name, w) o.

(* Python's truth of a value. *)
Definition truth (j : json) : bool :=
  match j with
  | JNull => false
  | JNum n => negb (n =? 0)
  | JStr s => negb (String.eqb s "")
  | JList l => match l with [] => false | _ => true end
  | JDict d => match d with [] => false | _ => true end
  end.
