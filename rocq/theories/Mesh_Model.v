(* Model of the icosahedral mesh and its subdivision (src/eustace/analysis/mesh/mesh.py), and of the use of its triangle identifiers in
   src/eustace/analysis/advanced_standard/stats/spde/spherical.py.
   Simplifications: points are of an arbitrary type with an arbitrary midpoint function (mesh.py:239-243: mean, projected onto the sphere
   or not); numpy.argsort is an arbitrary function [sort] that sorts by a key (numpy's default is not stable); identifiers are unbounded
   natural numbers, equal to the 64-bit unsigned ones as long as nothing overflows, which needs level <= 29. *)
From Coq Require Import NArith.
From Verif Require Import Base.
Local Open Scope nat_scope.
Local Open Scope list_scope.

(* a row [ point 0, point 1, triangle, clockwise side number ] *)
Record half := { h_from : nat; h_to : nat; h_tri : N; h_side : N }.
(* a row of the edge table *)
Record edge := { e_from : nat; e_to : nat; e_tri0 : N; e_side0 : N; e_tri1 : N; e_side1 : N }.
(* a row of the triangle table *)
Record triangle := { t_id : N; t_0 : nat; t_1 : nat; t_2 : nat }.
Record mesh {P : Type} := { points : list P; triangles : list triangle; edges : list edge; level : nat }.
Arguments mesh P : clear implicits.

(* rows [0::3], [1::3], [2::3] side by side *)
Fixpoint thirds {A} (l : list A) : list (A * A * A) :=
  match l with a :: b :: c :: l => (a, b, c) :: thirds l | _ => [] end.
(* rows [0::2], [1::2] side by side *)
Fixpoint halves {A} (l : list A) : list (A * A) :=
  match l with a :: b :: l => (a, b) :: halves l | _ => [] end.

Definition base_hash_shift : N := 58. (* mesh.py:18 *)

(* mesh.py:99-120 *)
Definition base_rows : list (nat * nat * nat) :=
  [ (4,7,8); (4,9,7); (5,11,6); (5,6,10); (0,3,4); (0,5,3); (2,1,7); (2,6,1); (8,11,0); (8,1,11);
    (9,3,10); (9,10,2); (8,0,4); (11,5,0); (4,3,9); (5,10,3); (7,1,8); (6,11,1); (7,9,2); (6,2,10) ].
(* 123 identifiers are shifted *)
Definition base_triangles : list triangle :=
  map (fun p => let '(i, (a, b, c)) := p in {| t_id := N.shiftl (N.of_nat i) base_hash_shift; t_0 := a; t_1 := b; t_2 := c |})
      (combine (seq 0 20) base_rows).
(* 127-150 three rows per triangle *)
Definition point_pairs (ts : list triangle) : list half :=
  flat_map (fun t => [ {| h_from := t_0 t; h_to := t_1 t; h_tri := t_id t; h_side := 0 |};
                       {| h_from := t_1 t; h_to := t_2 t; h_tri := t_id t; h_side := 1 |};
                       {| h_from := t_2 t; h_to := t_0 t; h_tri := t_id t; h_side := 2 |} ]) ts.
(* 154-157 number of an edge whatever its direction; [n] is the number of points *)
Definition edge_number (n : nat) (h : half) : N :=
  N.of_nat (if h_from h <? h_to h then h_from h * n + h_to h else if h_to h <? h_from h then h_to h * n + h_from h else 0).

Section Subdivision.
Context {P : Type} (mid : P -> P -> P) (nowhere : P).
Context (sort : forall A, (A -> N) -> list A -> list A).

(* 71-176 MeshIcosahedron.build; the coordinates of the 12 points are given *)
Definition icosahedron (base_points : list P) : mesh P :=
  let rows := sort _ (edge_number (length base_points)) (point_pairs base_triangles) in
  {| points := base_points; triangles := base_triangles; level := 0;
     edges := map (fun p => let '(a, b) := p in {| e_from := h_from a; e_to := h_to a; e_tri0 := h_tri a; e_side0 := h_side a; e_tri1 := h_tri b; e_side1 := h_side b |})
                  (halves rows) |}.

(* 262 *)
Definition hash_shift (l : nat) : N := (base_hash_shift - 2 * N.of_nat l)%N.
(* 264-305 the two parts of an edge with mid-point [m] *)
Definition split_edge (h : N) (p : edge * nat) : list edge :=
  let '(e, m) := p in
  [ {| e_from := e_from e; e_to := m;
       e_tri0 := N.lor (e_tri0 e) (N.shiftl (e_side0 e) h); e_side0 := e_side0 e;
       e_tri1 := N.lor (e_tri1 e) (N.shiftl ((e_side1 e + 1) mod 3) h); e_side1 := e_side1 e |};
    {| e_from := m; e_to := e_to e;
       e_tri0 := N.lor (e_tri0 e) (N.shiftl ((e_side0 e + 1) mod 3) h); e_side0 := e_side0 e;
       e_tri1 := N.lor (e_tri1 e) (N.shiftl (e_side1 e) h); e_side1 := e_side1 e |} ].
(* 309-316 rows [ mid-point | parent triangle | side ] *)
Definition midpoint_rows (em : list (edge * nat)) : list (nat * N * N) :=
  map (fun p => (snd p, e_tri0 (fst p), e_side0 (fst p))) em ++ map (fun p => (snd p, e_tri1 (fst p), e_side1 (fst p))) em.
(* 342-364 the three edges that connect the mid-points of a triangle *)
Definition inner_edges (h : N) (p : (nat * N * N) * (nat * N * N) * (nat * N * N)) : list edge :=
  let '((m0, t0, _), (m1, t1, _), (m2, t2, _)) := p in
  [ {| e_from := m0; e_to := m2; e_tri0 := N.lor t0 (N.shiftl 0 h); e_side0 := 1; e_tri1 := N.lor t2 (N.shiftl 3 h); e_side1 := 1 |};
    {| e_from := m1; e_to := m0; e_tri0 := N.lor t1 (N.shiftl 1 h); e_side0 := 2; e_tri1 := N.lor t0 (N.shiftl 3 h); e_side1 := 2 |};
    {| e_from := m2; e_to := m1; e_tri0 := N.lor t2 (N.shiftl 2 h); e_side0 := 0; e_tri1 := N.lor t1 (N.shiftl 3 h); e_side1 := 0 |} ].
(* 367 every edge seen from both of its triangles *)
Definition forward (e : edge) : half := {| h_from := e_from e; h_to := e_to e; h_tri := e_tri0 e; h_side := e_side0 e |}.
Definition backward (e : edge) : half := {| h_from := e_to e; h_to := e_from e; h_tri := e_tri1 e; h_side := e_side1 e |}.
Definition half_edges (es : list edge) : list half := map forward es ++ map backward es.

(* 219-380 subdivide *)
Definition subdivide (parent : mesh P) : mesh P :=
  let n := length (points parent) in
  let l := S (level parent) in
  let h := hash_shift l in
  let em := combine (edges parent) (seq n (length (edges parent))) in
  let midpoints := map (fun e => mid (nth (e_from e) (points parent) nowhere) (nth (e_to e) (points parent) nowhere)) (edges parent) in
  let sorted_midpoints := sort _ (fun r => let '(_, t, s) := r in N.lor t s) (midpoint_rows em) in
  let es := flat_map (split_edge h) em ++ flat_map (inner_edges h) (thirds sorted_midpoints) in
  let sorted_halves := sort _ (fun x => N.lor (h_tri x) (h_side x)) (half_edges es) in
  {| points := points parent ++ midpoints; edges := es; level := l;
     triangles := map (fun p => let '(a, b, c) := p in {| t_id := h_tri a; t_0 := h_from a; t_1 := h_from b; t_2 := h_from c |}) (thirds sorted_halves) |}.

(* 201-216 build *)
Fixpoint build (base_points : list P) (number_of_subdivisions : nat) : mesh P :=
  match number_of_subdivisions with O => icosahedron base_points | S k => subdivide (build base_points k) end.
End Subdivision.

(* spherical.py:31-45 *)
Definition n_triangles_at_level (l : nat) : nat := fold_left (fun n _ => n * 4) (seq 1 l) 20.
(* numpy.where(...)[0] *)
Definition where_ {A} (f : A -> bool) (l : list A) : list nat := map fst (filter (fun p => f (snd p)) (combine (seq 0 (length l)) l)).
(* 550-561 super_triangle_at_level *)
Definition super_triangle_at_level {P} (m : mesh P) (super_level : nat) (index : nat) : list nat :=
  where_ (fun t => N.eqb (N.shiftr (t_id t) (hash_shift super_level)) (N.of_nat index)) (triangles m).
(* 518-548 neighbours_at_level; [coarse] is the mesh at the neighbourhood level *)
Definition has_vertex (t : triangle) (v : nat) : bool := (t_0 t =? v) || (t_1 t =? v) || (t_2 t =? v).
Definition neighbours_at_level {P} (m coarse : mesh P) (centre : nat) : result (list nat) :=
  match nth_error (triangles coarse) centre with
  | None => Err IndexError
  | Some c =>
      let near := filter (fun t => has_vertex t (t_0 c) || has_vertex t (t_1 c) || has_vertex t (t_2 c)) (triangles coarse) in
      let rows := map (fun t => N.shiftr (t_id t) (hash_shift (level coarse))) near in
      Ok (where_ (fun t => existsb (N.eqb (N.shiftr (t_id t) (hash_shift (level coarse)))) rows) (triangles m))
  end.
