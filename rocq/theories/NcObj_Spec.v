(* Specification of what a NetCDF catalogue file keeps. *)
From Coq Require Import String Ascii.
From Verif Require Import Base Time_Model Time_Spec NcObj_Model.
Local Open Scope Z_scope.
Local Open Scope list_scope.

(* Values that mean "not there". *)
Definition absent (v : option value) : Prop := v = None \/ v = Some VNone \/ v = Some (VList []).

(* [same v w]: w is what v should be after saving and loading.  Date-times have no fractions of seconds, and members that
   are None, missing or an empty list may come back as any of these. *)
Inductive same : value -> value -> Prop :=
| same_str s : same (VStr s) (VStr s)
| same_int z : same (VInt z) (VInt z)
| same_float b : same (VFloat b) (VFloat b)
| same_time t : same (VTime t) (VTime (to_the_second t))
| same_list l l' : Forall2 same l l' -> same (VList l) (VList l')
| same_obj c ms ms' :
    (forall k, absent (get ms k) -> absent (get ms' k)) ->
    (forall k v, get ms k = Some v -> ~ absent (Some v) -> exists w, get ms' k = Some w /\ same v w) ->
    same (VObj c ms) (VObj c ms').

(* ---- what can be kept *)

Definition no_nul (s : string) : Prop := forall a b, s <> (a ++ String NUL b)%string.

(* A scalar that is not one of the library's reserved values. *)
Definition plain (v : value) : Prop :=
  match v with
  | VStr s => no_nul s
  | VInt z => z <> FILL_INT
  | VFloat b => b <> FILL_FLOAT
  | VTime t => valid_datetime t = true
  | _ => False
  end.

(* A list of scalars of one type; or a list of lists of numbers of one type, not all empty; or a list of lists of strings, all
   of the same length and not all made of empty strings. *)
Inductive flat : list value -> Prop :=
| flat_scalars t l : l <> [] -> Forall (fun v => has_type t v = true /\ plain v) l -> flat l
| flat_numbers t rows : t = TInt \/ t = TFloat -> Forall (Forall (fun v => has_type t v = true /\ plain v)) rows ->
    (exists row, In row rows /\ row <> []) -> flat (map VList rows)
| flat_strings n rows : Forall (fun row => length row = n /\ Forall no_nul row) rows ->
    (exists row s, In row rows /\ In s row /\ s <> EmptyString) -> flat (map (fun row => VList (map VStr row)) rows).

(* Names that do not clash with those made up for the file. *)
Definition good_name (k : string) : Prop :=
  k <> CLASSID /\ k <> CONVENTIONS /\ k <> LIST_COUNT /\ forall s i, 0 <= i -> k <> item_name s i.

(* A table: objects of one class with the same members, each member either missing in all or fit for a list. *)
Definition table (l : list value) : Prop :=
  exists c keys, (forall v, In v l -> exists ms, v = VObj c ms /\ forall k, In k (map fst ms) <-> In k keys) /\
  forall k, In k keys -> exists column, Forall2 (fun v x => exists c ms, v = VObj c ms /\ get ms k = Some x) l column /\
    ((forall x, In x column -> absent (Some x)) \/ flat column).

(* Nothing in the value is of a kind that the file cannot hold. *)
Inductive kept : value -> Prop :=
| kept_plain v : plain v -> kept v
| kept_flat l : flat l -> kept (VList l)
| kept_objects l : l <> [] -> (forall v, In v l -> kept v /\ exists c ms, v = VObj c ms) ->
    (Forall (fun v => is_simple_object v = true) l -> table l) -> kept (VList l)
| kept_obj c ms : NoDup (map fst ms) -> (forall k, In k (map fst ms) -> good_name k) ->
    (forall k v, In (k, v) ms -> absent (Some v) \/ kept v) -> kept (VObj c ms).
