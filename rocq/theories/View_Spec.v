(* What the properties of views of the mesh mean, stated apart from the code. *)
From Coq Require Import NArith Reals.
From Verif Require Import Base Mesh_Model Spde_Model View_Model.
Local Open Scope nat_scope.
Local Open Scope list_scope.

Definition touches (t : triangle) (j : nat) : Prop := j = t_0 t \/ j = t_1 t \/ j = t_2 t.
(* the corners of triangles are points of the mesh *)
Definition corners_in {P} (m : mesh P) : Prop := Forall (fun t => forall j, touches t j -> j < length (points m)) (triangles m).
(* the triangles with the given numbers *)
Definition chosen {P} (m : mesh P) (rows : list nat) : list triangle := map (fun r => nth r (triangles m) no_triangle) rows.
(* The matrix of a view, M^T A M with the mapping M from the vertices of the mesh to those of the view: the same form on the whole mesh. *)
Definition spread (N : numbers) (v : view) (A : mat N) : mat N :=
  fun i j => nsum N (n_latent_variables v) (fun a => nsum N (n_latent_variables v) (fun b =>
    nmul (nmul (vertex_mappings N v a i) (A a b)) (vertex_mappings N v b j))).

Open Scope R_scope.
Definition total (l : list R) : R := fold_right Rplus 0 l.
Definition mean (l : list R) : R := total l / INR (length l).
(* the views that have vertex [j] *)
Definition covering {A} (views : list (view * A)) (j : nat) : list A := map snd (filter (fun p => mem j (v_vertices (fst p))) views).
(* logarithm of the mean of the exponentials *)
Definition log_mean_exp (l : list R) : R := ln (mean (map exp l)).
(* the same, and what is there without values *)
Definition or_neg_inf (l : list R) : val := match l with [] => NegInf | _ => Fin (log_mean_exp l) end.
Definition or_nan (l : list R) : val := match l with [] => NaN | _ => Fin (log_mean_exp l) end.
(* views of one mesh *)
Definition views_of {P} (m : mesh P) (views : list view) : Prop := Forall (fun v => exists rows, make_view m rows = Ok v) views.
(* all views in turn *)
Fixpoint accumulate_all (views : list (view * (R * R))) (acc : option (list R) * option (list R) * option (list nat)) : result (option (list R) * option (list R) * option (list nat)) :=
  match views with
  | [] => Ok acc
  | (v, (log_sigma, log_rho)) :: views =>
      let '(s, r, c) := acc in
      do new <- accumulate s r c v [log_sigma; log_rho];
      let '(s, r, c) := new in accumulate_all views (Some s, Some r, Some c)
  end.
(* weighted sum over a row *)
Fixpoint weighted (row : nat -> R) (k : nat) (state : list R) : R := match state with [] => 0 | x :: state => row k * x + weighted row (S k) state end.
(* the regions with a file, with their numbers and parameters *)
Fixpoint regions (fs : file_system R) (i : nat) (filenames : list String.string) : list (nat * list R) :=
  match filenames with [] => [] | f :: l => match fs f with Some x => (i, x) :: regions fs (S i) l | None => regions fs (S i) l end end.
(* the parameters of the regions that have a triangle at vertex [j] *)
Definition at_vertex {P} (m : mesh P) (super_level : nat) (rs : list (nat * list R)) (j : nat) : list (list R) :=
  map snd (filter (fun p => existsb (fun t => existsb (Nat.eqb j) (corner_list t)) (chosen m (super_triangle_at_level m super_level (fst p)))) rs).
(* the items with the flag *)
Definition flagged {A} (b : bool) (items : list A) (flags : list bool) : list A := map fst (filter (fun p => Bool.eqb (snd p) b) (combine items flags)).
