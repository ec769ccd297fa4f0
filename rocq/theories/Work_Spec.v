(* Specification vocabulary for work distribution; uses only the data types of the model. *)
From Coq Require Import String.
From Verif Require Import Base Work_Model.
Local Open Scope Z_scope.
Local Open Scope list_scope.

(* [interleaving threads s]: s is one way of scheduling the given sequential threads to completion. *)
Inductive interleaving {A : Type} : list (list A) -> list A -> Prop :=
| il_done : forall threads, Forall (fun t => t = []) threads -> interleaving threads []
| il_step : forall before x t after s,
    interleaving (before ++ t :: after) s ->
    interleaving (before ++ (x :: t) :: after) (x :: s).

(* [checksummed digest e e']: e' is entry e after its checksum was computed; a file that cannot be read is
   left as it was. *)
Definition checksummed (digest : string -> option (Z * Z)) (e e' : file_entry) : Prop :=
  fe_name e' = fe_name e /\
  match digest (fe_name e) with
  | Some (checksum, size) => fe_checksum e' = Some checksum /\ fe_size e' = Some size
  | None => fe_checksum e' = fe_checksum e /\ fe_size e' = fe_size e
  end.

(* Induction principle for the nested type of parameters. *)
Section ParamInd.
  Variable P : param -> Prop.
  Hypothesis Hlit : forall v, P (PLit v).
  Hypothesis Htime : P PTimeStamp.
  Hypothesis Hid : P PCatalogueID.
  Hypothesis Hlist : forall items, P (PList items).
  Hypothesis Href : forall items, P (PFileRef items).
  Hypothesis Hreflist : forall items, P (PFileListRef items).
  Hypothesis Hnode : forall children, Forall (fun c => P (snd c)) children -> P (PNode children).
  Fixpoint param_ind' (p : param) : P p :=
    match p with
    | PLit v => Hlit v
    | PTimeStamp => Htime
    | PCatalogueID => Hid
    | PList items => Hlist items
    | PFileRef items => Href items
    | PFileListRef items => Hreflist items
    | PNode children => Hnode children
        ((fix all (l : list (string * param)) : Forall (fun c => P (snd c)) l :=
            match l with
            | [] => Forall_nil _
            | c :: rest => Forall_cons c (param_ind' (snd c)) (all rest)
            end) children)
    end.
End ParamInd.

(* A parameter with one value per operation occurs somewhere in p. *)
Inductive mentions_operation : param -> Prop :=
| mo_list items : mentions_operation (PList items)
| mo_ref items : mentions_operation (PFileRef items)
| mo_reflist items : mentions_operation (PFileListRef items)
| mo_node children k c : In (k, c) children -> mentions_operation c -> mentions_operation (PNode children).

(* The flat list of integers is the given list of (dataset, subset, entry) trios. *)
Inductive trios : list Z -> list data_reference -> Prop :=
| trios_nil : trios [] []
| trios_cons d s e l refs :
    trios l refs ->
    trios (d :: s :: e :: l) ({| ref_dataset := d; ref_subset := s; ref_entry := e |} :: refs).

(* What operation number k of the catalogue is run with: every per-operation parameter, each of which has
   exactly n entries, is replaced by entry number k; time stamps and identifiers are filled in; everything
   else is left as it is. *)
Inductive parameters_of (cat : catalogue_file) (n : Z) (k : nat) (timestamp : string) : param -> value -> Prop :=
| po_lit v : parameters_of cat n k timestamp (PLit v) (VLit v)
| po_time : parameters_of cat n k timestamp PTimeStamp (VTimeStamp timestamp)
| po_id : parameters_of cat n k timestamp PCatalogueID (VIdentifier (cf_identifier cat))
| po_list items v :
    zlen items = n -> nth_error items k = Some v ->
    parameters_of cat n k timestamp (PList items) (VLit v)
| po_ref items ints refs q paths :
    zlen items = n -> nth_error items k = Some ints -> trios ints refs ->
    cf_pathnames cat refs = Ok (q :: paths) ->
    parameters_of cat n k timestamp (PFileRef items) (VPath q)
| po_ref_none items ints refs :
    zlen items = n -> nth_error items k = Some ints -> trios ints refs ->
    cf_pathnames cat refs = Ok [] ->
    parameters_of cat n k timestamp (PFileRef items) (VPath None)
| po_reflist items ints refs paths :
    zlen items = n -> nth_error items k = Some ints -> trios ints refs ->
    cf_pathnames cat refs = Ok paths ->
    parameters_of cat n k timestamp (PFileListRef items) (VPaths paths)
| po_node children values :
    Forall2 (fun c v => fst c = fst v /\ parameters_of cat n k timestamp (snd c) (snd v)) children values ->
    parameters_of cat n k timestamp (PNode children) (VNode values).

(* The catalogue holds, under this name, exactly one operation group, and it is this one. *)
Definition stored_under (cat : catalogue_file) (name : string) (op : operation) : Prop :=
  exists before after,
    cf_operations cat = before ++ op :: after /\
    (op_name op = Some name /\ op_class op <> Some name /\ op_function op <> Some name \/
     op_name op <> Some name /\ op_class op = Some name /\ op_function op <> Some name \/
     op_name op <> Some name /\ op_class op <> Some name /\ op_function op = Some name) /\
    Forall (fun g => op_name g <> Some name /\ op_class g <> Some name /\ op_function g <> Some name)
           (before ++ after).

Section Running.
  Variable tc : string -> result (list string).
  Variable uf : value -> result Z.

  (* The operation can be run: stored once, a function, matching versions, parameters available for every index. *)
  Definition runnable cat ts name op (allow : bool) (values : list value) : Prop :=
    stored_under cat name op /\ op_class op = None /\
    (current_runtime_toolchain tc op = Ok (op_toolchain op) \/ (allow = true /\ is_ok (current_runtime_toolchain tc op) = true)) /\
    zlen values = op_count op /\
    (forall k v, nth_error values k = Some v -> parameters_of cat (op_count op) k ts (op_runmodule op) v).

  (* The trace of a list of (index, batch) command lines. *)
  Definition trace_of cat ts name b allow (lines : list (Z * Z)) : list value :=
    flat_map (fun line => ran (commandrun tc uf cat ts name (fst line) (Some b) (Some (snd line)) false allow)) lines.
End Running.
