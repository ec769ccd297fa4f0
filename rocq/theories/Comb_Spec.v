(* Specification vocabulary for combinations of elements. *)
From Coq Require Import QArith Qcanon.
From Verif Require Import Base Grid_Model Lin Ana_Model Comb_Model.
Local Open Scope nat_scope.
Local Open Scope list_scope.

(* All parameter values from left to right. *)
Fixpoint values (h : hyper) : vec :=
  match h with
  | HCovariate v => [v]
  | HLocal a b => [a; b]
  | HSpaceTime a b c => [a; b; c]
  | HSeasonal vs => vs
  | HCombination hs => flat_map values hs
  end.
(* No combination, however deep inside, is empty, or ends in elements that have no parameters. *)
Fixpoint complete (h : hyper) : Prop :=
  match h with
  | HCombination hs =>
      (fix all (hs : list hyper) : Prop := match hs with [] => True | h :: hs => complete h /\ all hs end) hs /\
      values (last hs (HCombination [])) <> []
  | _ => True
  end.
(* The same structure, the values aside. *)
Fixpoint same_shape (a b : hyper) : Prop :=
  match a, b with
  | HCovariate _, HCovariate _ | HLocal _ _, HLocal _ _ | HSpaceTime _ _ _, HSpaceTime _ _ _ => True
  | HSeasonal x, HSeasonal y => length x = length y
  | HCombination xs, HCombination ys =>
      (fix all (xs ys : list hyper) : Prop :=
         match xs, ys with [], [] => True | x :: xs, y :: ys => same_shape x y /\ all xs ys | _, _ => False end) xs ys
  | _, _ => False
  end.

(* Part [k] of a list of sizes: where it starts, and its share of a vector. *)
Definition start (sizes : list nat) (k : nat) : nat := list_sum (firstn k sizes).
Definition size (sizes : list nat) (k : nat) : nat := nth k sizes 0.
Definition part (sizes : list nat) (k : nat) (x : vec) : vec := tab (size sizes k) (fun j => vnth x (start sizes k + j)).

(* The product of row [i] with a vector. *)
Definition times (A : matrix) (x : vec) (i : nat) : Qc := sumn (m_cols A) (fun j => m_at A i j * vnth x j)%Qc.

(* A design for [m] observations whose methods accept any state of the right length, and its parts. *)
Record design_ok (m : nat) (d : design) (f : bool -> vec -> vec) (J : option vec -> matrix) : Prop := {
  ok_function : forall r x, length x = d_dim d -> d_function2 d x r = Ok (f r x);
  ok_length : forall r x, length (f r x) = m;
  ok_jacobian : forall x, (match x with Some x => length x = d_dim d | None => True end) -> d_jacobian d x = Ok (J x);
  ok_shape : forall x, m_rows (J x) = m /\ m_cols (J x) = d_dim d;
  ok_initial : d_nonlinear d = true -> length (d_initial d) = d_dim d }.

(* The pieces of a combination, and the lengths of their shares of the state. *)
Record piece := { pc_design : design; pc_function : bool -> vec -> vec; pc_jacobian : option vec -> matrix }.
Definition piece_ok (m : nat) (p : piece) : Prop := design_ok m (pc_design p) (pc_function p) (pc_jacobian p).
Definition dims (ps : list piece) : list nat := map (fun p => d_dim (pc_design p)) ps.
(* The numbers of parameters of the elements of a combination. *)
Definition hsizes (hs : list hyper) : list nat := map (fun h => length (values h)) hs.

(* A matrix made of square blocks on the diagonal and zeros elsewhere. *)
Definition is_block_diagonal (blocks : list matrix) (M : matrix) : Prop :=
  let sizes := map m_rows blocks in
  m_rows M = list_sum sizes /\ m_cols M = list_sum sizes /\
  forall k l i j B, nth_error blocks k = Some B -> l < length blocks -> i < size sizes k -> j < size sizes l ->
    m_at M (start sizes k + i) (start sizes l + j) = if k =? l then m_at B i j else 0%Qc.
Definition square (M : matrix) : Prop := m_rows M = m_cols M.

(* Changing parameter [p] of a vector. *)
Definition replaced (x : vec) (p : nat) (t : Qc) : vec := tab (length x) (fun k => if k =? p then t else vnth x k).

(* The functions of time of the seasonal model and the order of harmonic each belongs to. *)
Inductive season := Mean | Sine (order : nat) | Cosine (order : nat).
Definition seasons (include_local_mean : bool) (n : nat) : list season :=
  (if include_local_mean then [Mean] else []) ++ flat_map (fun k => [Sine k; Cosine k]) (seq 1 n).
Definition order_of (s : season) : nat := match s with Mean => 0 | Sine k | Cosine k => k end.
Definition season_value (sine cosine : nat -> Qc) (s : season) : Qc :=
  match s with Mean => 1%Qc | Sine k => sine k | Cosine k => cosine k end.
(* parameters are stored by order, from the lowest order in the model *)
Definition parameter_position (include_local_mean : bool) (s : season) : nat :=
  order_of s - (if include_local_mean then 0 else 1).

(* A notion of differentiation: [isderiv f t d] says that [f] has derivative [d] at [t]. *)
Definition notion_of_derivative (isderiv : (Qc -> Qc) -> Qc -> Qc -> Prop) : Prop :=
  (forall c t, isderiv (fun _ => c) t 0%Qc) /\
  (forall f g t d, (forall u, f u = g u) -> isderiv f t d -> isderiv g t d).
