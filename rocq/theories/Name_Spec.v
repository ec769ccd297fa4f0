(* Specification vocabulary for name patterns. *)
From Coq Require Import String Ascii.
From Verif Require Import Base Time_Model Time_Spec Name_Model.
Local Open Scope Z_scope.
Local Open Scope list_scope.

(* [spelled known pattern d s]: the string s has the form of the pattern, and d lists the fields shown in it, in order.
   Question marks stand for any character, %Y for four numerals, %m %d %H %M %S for two, %A %B %C for any text, unless
   the field is known already: then only for its known text, and %a %b %c for that text in lower case. *)
Inductive spelled (known : fields) : string -> fields -> string -> Prop :=
| sp_end : spelled known "" [] ""
| sp_any c p d s : c <> NEWLINE -> spelled known p d s -> spelled known (String "?" p) d (String c s)
| sp_same c p d s : c <> "?"%char ->
    (forall x q f, c = "%"%char -> p = String x q -> directive x <> Some f) ->
    (forall x q f v, c = "%"%char -> p = String x q -> lower_directive x = Some f -> lookup known f <> Some v) ->
    spelled known p d s -> spelled known (String c p) d (String c s)
| sp_known x f v p d s : directive x = Some f -> lookup known f = Some v ->
    spelled known p d s -> spelled known (String "%" (String x p)) d (v ++ s)
| sp_lower x f v p d s : lower_directive x = Some f -> lookup known f = Some v ->
    spelled known p d s -> spelled known (String "%" (String x p)) d (lower v ++ s)
| sp_numerals x f n v p d s : directive x = Some f -> lookup known f = None -> width f = Some n -> numerals n v ->
    spelled known p d s -> spelled known (String "%" (String x p)) ((f, v) :: d) (v ++ s)
| sp_text x f v p d s : directive x = Some f -> lookup known f = None -> width f = None ->
    (forall a b, v <> (a ++ String NEWLINE b)%string) ->
    spelled known p d s -> spelled known (String "%" (String x p)) ((f, v) :: d) (v ++ s).

(* Directives in a pattern. *)
Definition mentions (pattern : string) (f : field) : Prop :=
  exists x, directive x = Some f /\ occurs (String "%" (String x EmptyString)) pattern.

(* A text without dots. *)
Definition no_dot (v : string) : Prop := forall a b, v <> (a ++ String "." b)%string.
