(* What it means for a file to meet a specification of its format. *)
From Coq Require Import QArith String Ascii.
From Verif Require Import Base Out_Model.
Local Open Scope string_scope.
Local Open Scope list_scope.

Definition attribute_met (ds : dataset) (k : string) (w : wanted) : Prop :=
  match w with
  | Exists => lookup (d_atts ds) k <> None
  | Ignored => True
  | Exactly s => lookup (d_atts ds) k = Some (VStr s)
  end.
Definition metadata_met (atts : list (string * value)) (k : string) (m : meta) : Prop :=
  match m with
  | AnyValue => lookup atts k <> None
  | Is s => lookup atts k = Some (VStr s)
  | Numbers l => lookup atts k = Some (VArr l)
  end.
Definition variable_met (var : ncvar) (v : varspec) : Prop :=
  (forall ty, vs_type v = Some ty -> v_type var = ty) /\ forall k m, In (k, m) (vs_meta v) -> metadata_met (v_atts var) k m.

(* A file meets a specification: its attributes are there, it has at least one of the variables, and those it has are as
   described; its dimensions are there with their sizes. *)
Definition conforms (sp : filespec) (ds : dataset) : Prop :=
  (forall k w, In (k, w) (fs_atts sp) -> attribute_met ds k w) /\
  (exists v, In v (fs_vars sp) /\ lookup (d_vars ds) (vs_name v) <> None) /\
  (forall v var, In v (fs_vars sp) -> lookup (d_vars ds) (vs_name v) = Some var -> variable_met var v) /\
  (forall k size, In (k, size) (fs_dims sp) -> lookup (d_dims ds) k = Some size).

(* Lists of numbers asked for have at least two different numbers, as those of the specifications have. *)
Definition proper (sp : filespec) : Prop :=
  forall v k l, In v (fs_vars sp) -> In (k, Numbers l) (vs_meta v) -> exists x y, In x l /\ In y l /\ x <> y.

(* What a check is about. *)
Definition holds (ds : dataset) (c : check) : Prop :=
  match c with
  | Opens => True
  | AttributeExists k => lookup (d_atts ds) k <> None
  | AttributeValue k s => lookup (d_atts ds) k = Some (VStr s)
  | SomeVariable names => exists n, In n names /\ lookup (d_vars ds) n <> None
  | VariableType n ty => exists var, lookup (d_vars ds) n = Some var /\ v_type var = ty
  | MetadataExists n k => exists var, lookup (d_vars ds) n = Some var /\ lookup (v_atts var) k <> None
  | MetadataValue n k m => exists var, lookup (d_vars ds) n = Some var /\ metadata_met (v_atts var) k m
  | Dimension k size => lookup (d_dims ds) k = Some size
  end.

(* A variable to be written is as a specification describes variables of its name. *)
Definition agrees (sp : filespec) (v : variable) : Prop :=
  forall vs, In vs (fs_vars sp) -> vs_name vs = o_name v ->
    (forall ty, vs_type vs = Some ty -> o_type v = ty) /\
    forall k m, In (k, m) (vs_meta vs) ->
      match m with
      | AnyValue => exists x, In (k, x) (get_metadata v)
      | Is s => In (k, VStr s) (get_metadata v)
      | Numbers l => In (k, VArr l) (get_metadata v)
      end.
(* Its metadata are given once each, and none is the fill value. *)
Definition tidy (v : variable) : Prop := NoDup (map fst (get_metadata v)) /\ ~ In "_FillValue" (map fst (get_metadata v)).

(* What is read of a variable once written: its type, dimensions, data and metadata. *)
Definition stores (ds : dataset) (v : variable) (dims : list string) (values : list Q) : Prop :=
  exists var, lookup (d_vars ds) (o_name v) = Some var /\ v_type var = o_type v /\ v_dims var = dims /\ v_data var = values /\
    (tidy v -> forall k x, k <> "_FillValue" -> In (k, x) (get_metadata v) -> lookup (v_atts var) k = Some (as_read x)).
(* The text of characters given as numbers, up to the first zero. *)
Fixpoint shown (l : list Z) : string :=
  match l with [] => EmptyString | x :: l => if Z.eqb x 0 then EmptyString else String (ascii_of_nat (Z.to_nat x)) (shown l) end.
(* The text of a long name once its fields are given. *)
Fixpoint filled (l : list piece) (g : string -> string) : string :=
  match l with [] => EmptyString | Text s :: l => (s ++ filled l g)%string | Field k :: l => (g k ++ filled l g)%string end.
Definition fields (l : list piece) : list string := flat_map (fun p => match p with Field k => [k] | Text _ => [] end) l.
