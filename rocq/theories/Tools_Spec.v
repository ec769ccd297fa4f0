(* What the properties of specification documents, revisions, station biases and lists of files say. *)
From Coq Require Import QArith Qcanon String Ascii.
From Verif Require Import Base Obs_Model Obs_Spec NcObj_Model Fill_Model Tools_Model.
Local Open Scope Z_scope.
Local Open Scope list_scope.

(* [part] occurs in [whole] *)
Definition occurs (part whole : string) : Prop := exists before after, whole = (before ++ part ++ after)%string.
(* A document: a table [body] between a paragraph with the start marker, the first such, and one with the end marker, or the end. *)
Definition has_table (document : list string) (startmarker endmarker : string) (body : list string) : Prop :=
  exists before start rest, document = before ++ start :: body ++ rest /\
    Forall (fun p => ~ occurs startmarker p) before /\ occurs startmarker start /\ Forall (fun p => ~ occurs endmarker p) body /\
    match rest with [] => True | e :: _ => occurs endmarker e end.
(* one line of a table *)
Definition line (kv : string * string) : string := (fst kv ++ ": " ++ snd kv)%string.
(* the value that counts for a key: the last one *)
Fixpoint value_of {V} (key : string) (table : list (string * V)) : option V :=
  match table with
  | [] => None
  | (k, v) :: r => match value_of key r with Some x => Some x | None => if String.eqb k key then Some v else None end
  end.
(* a variable with its type and metadata in a document *)
Record described := { d_name : string; d_type : string; d_metadata : list (string * string) }.
Definition known_types : list string := ["float32"; "int32"; "int16"; "char"; "uint8"]%string.
Definition type_name (t : string) : string := if String.eqb t "char" then "S1"%string else t.
Definition variable_lines (v : described) : list string := ("Variable: " ++ d_name v ++ " (" ++ d_type v ++ ")")%string :: map line (d_metadata v).
Definition well_described (v : described) : Prop :=
  ~ occurs " " (d_name v) /\ In (d_type v) known_types /\ NoDup (map fst (d_metadata v)) /\
  forall k t, In (k, t) (d_metadata v) -> ~ occurs ": " k /\ k <> "Variable"%string.
(* text that is not a list in brackets *)
Definition plain (t : string) : bool := negb (String.prefix "[" t).

(* a dimension: its length or unlimited *)
Definition dimension_text (n : option Z) : string := match n with None => "UNLIMITED" | Some n => py_str n end.

Definition blank (c : ascii) : Prop := In c [" "; "009"; "010"; "011"; "012"; "013"]%char.
Definition numeral (c : ascii) : Prop := In c ["0"; "1"; "2"; "3"; "4"; "5"; "6"; "7"; "8"; "9"]%char.
Definition NEWLINE : string := String "010"%char EmptyString.
