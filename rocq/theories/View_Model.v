(* Model of the views of part of the mesh (src/eustace/analysis/advanced_standard/stats/spde/spherical_view.py), of the hyperparameters and
   elements on them (elements/local_view.py), and of their use in examples/example_optimization.py.
   Simplifications: indices of triangles are natural numbers (as given by numpy.where); numbers of the matrices are any ring, as in
   Spde_Model; the other numbers are real numbers instead of doubles, with infinities and nan where a division or logarithm can give
   them; sparse matrices of the merging code are lists of stored entries of each row; printing is left out. *)
From Coq Require Import NArith Reals String Ascii.
From Verif Require Import Base Mesh_Model Loc_Model Spde_Model.
Local Open Scope nat_scope.
Local Open Scope list_scope.

(* numpy.sort, numpy.unique *)
Fixpoint insert_nat (x : nat) (l : list nat) : list nat :=
  match l with [] => [x] | y :: r => if x <=? y then x :: l else y :: insert_nat x r end.
Definition sort_nat (l : list nat) : list nat := fold_right insert_nat [] l.
Fixpoint drop_repeats (l : list nat) : list nat :=
  match l with
  | [] => []
  | x :: r => match r with [] => [x] | y :: _ => if x =? y then drop_repeats r else x :: drop_repeats r end
  end.
Definition unique_nat (l : list nat) : list nat := drop_repeats (sort_nat l).

(* ---- views *)
Definition no_triangle : triangle := {| t_id := 0; t_0 := 0; t_1 := 0; t_2 := 0 |}.
Definition corner_list (t : triangle) : list nat := [t_0 t; t_1 t; t_2 t].
(* the number of points of the mesh, active_triangle_indices, active_vertex_indices *)
Record view := { v_points : nat; v_active : list nat; v_vertices : list nat }.
(* spherical_view.py:29-34 SphereMeshView.__init__, 54-59 get_active_vertex_indices *)
Definition make_view {P} (m : mesh P) (active_triangle_indices : list nat) : result view :=
  let active := sort_nat active_triangle_indices in
  if forallb (fun r => r <? List.length (triangles m)) active
  then Ok {| v_points := List.length (points m); v_active := active;
             v_vertices := sort_nat (unique_nat (flat_map (fun r => corner_list (nth r (triangles m) no_triangle)) active)) |}
  else Err IndexError.
(* 212-218 SphereMeshViewGlobal.__init__ *)
Definition global_view {P} (m : mesh P) : result view := make_view m (seq 0 (List.length (triangles m))).
(* 379-385 SphereMeshViewLocal.__init__; [coarse] is the mesh of the neighbourhood level *)
Definition local_view {P} (m coarse : mesh P) (centre : nat) : result view := do rows <- neighbours_at_level m coarse centre; make_view m rows.
(* 394-400 SphereMeshViewSuperTriangle.__init__ *)
Definition super_triangle_view {P} (m : mesh P) (super_level index : nat) : result view := make_view m (super_triangle_at_level m super_level index).
(* 90-95 n_latent_variables *)
Definition n_latent_variables (v : view) : nat := List.length (v_vertices v).
Definition view_triangles {P} (m : mesh P) (v : view) : list triangle := map (fun r => nth r (triangles m) no_triangle) (v_active v).

Section Matrices.
Variable N : numbers.
Variable inv : N -> N.
(* triangle_area of spherical.py:81-107 *)
Variable area_of : triangle -> N.
Definition corner (t : triangle) (k : nat) : nat := match k with 0 => t_0 t | 1 => t_1 t | _ => t_2 t end.
Definition tri_of (t : triangle) : tri N := {| t_vertex := corner t; t_area := area_of t |}.

(* 61-74 get_vertex_mappings, 76-88 get_triangulation_mappings *)
Definition mapping (indices : list nat) : mat N := fun k j => if (k <? List.length indices) && (nth k indices 0 =? j) then n1 else n0.
Definition vertex_mappings (v : view) : mat N := mapping (v_vertices v).
Definition triangulation_mappings (v : view) : mat N := mapping (v_active v).

(* 105-107 and 128-130 vertex_index_map: assignments, later ones win; an index outside of the range elsewhere *)
Definition vertex_index_map (v : view) : nat -> Z :=
  fold_left (fun map_ p => fun j => if j =? snd p then Z.of_nat (fst p) else map_ j)
            (combine (seq 0 (List.length (v_vertices v))) (v_vertices v)) (fun _ => (- Z.of_nat (v_points v))%Z).

(* scipy.sparse.coo_matrix without shape: the shape is one more than the largest index; exceptions for no entries and for negative indices *)
Definition extent (is : list Z) : nat := fold_right (fun i n => Nat.max (S (Z.to_nat i)) n) 0 is.
Definition coo_matrix (entries : list (Z * Z * N)) : result (nat * nat * mat N) :=
  match entries with
  | [] => Err ValueError
  | _ =>
      if existsb (fun e => (fst (fst e) <? 0)%Z || (snd (fst e) <? 0)%Z) entries then Err ValueError else
      Ok (extent (map (fun e => fst (fst e)) entries), extent (map (fun e => snd (fst e)) entries),
          coo N (map (fun e => (Z.to_nat (fst (fst e)), Z.to_nat (snd (fst e)), snd e)) entries))
  end.
(* 97-116 build_Q_C_tilde *)
Definition view_C_tilde {P} (m : mesh P) (v : view) : result (nat * nat * mat N) :=
  let at_ := vertex_index_map v in
  coo_matrix (flat_map (fun t => map (fun a => (at_ (corner t a), at_ (corner t a), nmul (area_of t) (inv (of_nat N 3)))) (seq 0 3)) (view_triangles m v)).
(* 118-154 build_Q_G *)
Definition view_G {P} (m : mesh P) (coordinates : nat -> pt N) (v : view) : result (nat * nat * mat N) :=
  let at_ := vertex_index_map v in
  coo_matrix (flat_map (fun t => flat_map (fun a => map (fun b =>
    (at_ (corner t a), at_ (corner t b),
     nmul (inv (nmul (of_nat N 4) (area_of t))) (pdot N (Spde_Model.edge N coordinates (tri_of t) a) (Spde_Model.edge N coordinates (tri_of t) b))))
    (seq 0 3)) (seq 0 3)) (view_triangles m v)).
End Matrices.

(* ---- locations *)
(* 162-168 and 189-195 the row of the triangle that contains the location, and the weights of its corners *)
Definition triangle_index (sort : forall A, (A -> N) -> list A -> list A) (level : nat) (latitude longitude : R) : option (nat * (R * R * R)) :=
  match locate (sphere_mesh sort 0) level (polar_to_cartesian latitude longitude) with
  | None => None
  | Some (triangle_id, w) => Some (N.to_nat (N.shiftr triangle_id (base_hash_shift - 2 * N.of_nat level)), w)
  end.
(* numpy.in1d *)
Definition mem (x : nat) (l : list nat) : bool := existsb (Nat.eqb x) l.
(* 156-184 build_A: the row for one location *)
Definition view_A_row (sort : forall A, (A -> N) -> list A -> list A) (level : nat) (v : view) (latitude longitude : R) : option (nat -> R) :=
  match triangle_index sort level latitude longitude with
  | None => None
  | Some (r, (w0, w1, w2)) =>
      let t := nth r (triangles (sphere_mesh sort level)) no_triangle in
      let full := if mem r (v_active v) then fold_left Loc_Model.assign [(t_0 t, w0); (t_1 t, w1); (t_2 t, w2)] (fun _ => 0%R) else (fun _ => 0%R) in
      Some (fun k => full (nth k (v_vertices v) 0))
  end.
(* 186-203 in_domain *)
Definition in_domain (sort : forall A, (A -> N) -> list A -> list A) (level : nat) (v : view) (latitude longitude : R) : option bool :=
  match triangle_index sort level latitude longitude with None => None | Some (r, _) => Some (mem r (v_active v)) end.

(* ---- merging of parameters *)
Open Scope R_scope.
(* a sparse matrix: number of columns and the stored entries of each row *)
Record sparse := { s_cols : nat; s_rows : list (list (nat * R)) }.
Definition s_transpose (A : sparse) : sparse :=
  {| s_cols := List.length (s_rows A);
     s_rows := map (fun j => flat_map (fun ir => map (fun e => (fst ir, snd e)) (filter (fun e => Nat.eqb (fst e) j) (snd ir)))
                                      (combine (seq 0 (List.length (s_rows A))) (s_rows A))) (seq 0 (s_cols A)) |}.
(* product; used where entries of the result do not meet *)
Definition s_mul (A B : sparse) : sparse :=
  {| s_cols := s_cols B; s_rows := map (flat_map (fun e => map (fun f => (fst f, snd e * snd f)) (nth (fst e) (s_rows B) []))) (s_rows A) |}.
Definition row_dot (row : list (nat * R)) (x : list R) : R := fold_right (fun e s => snd e * nth (fst e) x 0 + s) 0 row.
Definition s_dot (A : sparse) (x : list R) : result (list R) :=
  if Nat.eqb (s_cols A) (List.length x) then Ok (map (fun row => row_dot row x) (s_rows A)) else Err ValueError.
(* getnnz(axis = 1) > 0 *)
Definition stored (row : list (nat * R)) : bool := match row with [] => false | _ => true end.
(* scipy.sparse.hstack of two matrices with equal numbers of rows *)
Definition s_beside (A B : sparse) : sparse :=
  {| s_cols := s_cols A + s_cols B; s_rows := map (fun p => fst p ++ map (fun e => ((s_cols A + fst e)%nat, snd e)) (snd p)) (combine (s_rows A) (s_rows B)) |}.
Definition s_hstack (As : list sparse) : result sparse := match As with [] => Err ValueError | A :: As => Ok (fold_left s_beside As A) end.
(* scipy.sparse.eye, an empty dok_matrix *)
Definition s_eye (n : nat) : sparse := {| s_cols := n; s_rows := map (fun i => [(i, 1)]) (seq 0 n) |}.
Definition s_empty (n c : nat) : sparse := {| s_cols := c; s_rows := repeat [] n |}.

(* 61-74 get_vertex_mappings, in this form *)
Definition s_vertex_mappings (v : view) : sparse := {| s_cols := v_points v; s_rows := map (fun j => [(j, 1)]) (v_vertices v) |}.
(* spherical.py:147-165 sigma_design_matrix_stationary, rho_design_matrix_stationary *)
Definition s_sigma_stationary (v : view) : sparse := {| s_cols := 2; s_rows := repeat [(0%nat, 1)] (n_latent_variables v) |}.
Definition s_rho_stationary (v : view) : sparse := {| s_cols := 2; s_rows := repeat [(1%nat, 1)] (n_latent_variables v) |}.

(* doubles that a division or logarithm can give *)
Inductive val := Fin (x : R) | PosInf | NegInf | NaN.
(* x / c for a count c *)
Definition vdiv (x : R) (c : nat) : val :=
  match c with
  | O => if Req_EM_T x 0 then NaN else if Rlt_dec 0 x then PosInf else NegInf
  | S _ => Fin (x / INR c)
  end.
(* numpy.log *)
Definition vln (x : val) : val :=
  match x with
  | Fin x => if Rlt_dec 0 x then Fin (ln x) else if Req_EM_T x 0 then NegInf else NaN
  | PosInf => PosInf
  | NegInf => NaN
  | NaN => NaN
  end.

(* a += b for arrays *)
Definition array_add {A} (f : A -> A -> A) (a b : list A) : result (list A) :=
  if Nat.eqb (List.length a) (List.length b) then Ok (map (fun p => f (fst p) (snd p)) (combine a b)) else Err ValueError.
(* numpy.int64(flags) *)
Definition indicator (rows : list (list (nat * R))) : list nat := map (fun row => if stored row then 1%nat else 0%nat) rows.

(* 220-305 merge_local_parameterisations *)
Inductive merge_method := Direct_average | Exp_average | Other_method.
Record gathered := { g_sigma : list sparse; g_rho : list sparse; g_theta : list (list R); g_sigma_count : list nat; g_rho_count : list nat }.
(* 243-258 the loop *)
Fixpoint gather (views : list (view * list R)) (g : gathered) : result gathered :=
  match views with
  | [] => Ok g
  | (v, theta) :: views =>
      let vertex_map := s_transpose (s_vertex_mappings v) in
      let local_sigma := s_mul vertex_map (s_sigma_stationary v) in
      do sigma_count <- array_add Nat.add (g_sigma_count g) (indicator (s_rows local_sigma));
      let local_rho := s_mul vertex_map (s_rho_stationary v) in
      do rho_count <- array_add Nat.add (g_rho_count g) (indicator (s_rows local_rho));
      gather views {| g_sigma := g_sigma g ++ [local_sigma]; g_rho := g_rho g ++ [local_rho]; g_theta := g_theta g ++ [theta];
                      g_sigma_count := sigma_count; g_rho_count := rho_count |}
  end.
(* numpy.concatenate *)
Definition concatenate {A} (ls : list (list A)) : result (list A) := match ls with [] => Err ValueError | _ => Ok (concat ls) end.
(* scipy.sparse.diags(1.0 / count) times a matrix.  1.0 / 0 is infinite, but such a row has no entries (C135). *)
Definition normalise_rows (count : list nat) (A : sparse) : sparse :=
  {| s_cols := s_cols A; s_rows := map (fun p => map (fun e => (fst e, 1 / INR (fst p) * snd e)) (snd p)) (combine count (s_rows A)) |}.
Definition merge_local_parameterisations (self : view) (views : list view) (hyperparameters : list (list R)) (method : merge_method)
  : result (list val * sparse * sparse) :=
  let n := n_latent_variables self in
  do g <- gather (combine views hyperparameters) {| g_sigma := []; g_rho := []; g_theta := []; g_sigma_count := repeat 0%nat n; g_rho_count := repeat 0%nat n |};
  do theta <- concatenate (g_theta g);
  do sigma_design <- s_hstack (g_sigma g);
  do rho_design <- s_hstack (g_rho g);
  match method with
  | Direct_average =>
      Ok (map Fin theta, normalise_rows (g_sigma_count g) sigma_design, normalise_rows (g_sigma_count g) rho_design)
  | Exp_average =>
      do sigma <- s_dot (normalise_rows (g_sigma_count g) sigma_design) (map exp theta);
      do rho <- s_dot (normalise_rows (g_sigma_count g) rho_design) (map exp theta);
      Ok (map (fun x => vln (Fin x)) sigma ++ map (fun x => vln (Fin x)) rho, s_beside (s_eye n) (s_empty n n), s_beside (s_empty n n) (s_eye n))
  | Other_method => Err ValueError
  end.

(* 307-339 accumulate_local_parameterisations *)
Definition accumulate (sigma_acc rho_acc : option (list R)) (counter : option (list nat)) (v : view) (theta : list R)
  : result (list R * list R * list nat) :=
  let vertex_map := s_transpose (s_vertex_mappings v) in
  let contribution := indicator (s_rows vertex_map) in
  do local_sigma <- s_dot (s_sigma_stationary v) theta;
  do sigma <- s_dot vertex_map (map exp local_sigma);
  do local_rho <- s_dot (s_rho_stationary v) theta;
  do rho <- s_dot vertex_map (map exp local_rho);
  match sigma_acc, rho_acc, counter with
  | Some sigma_acc, Some rho_acc, Some counter =>
      do sigma_acc <- array_add Rplus sigma_acc sigma;
      do rho_acc <- array_add Rplus rho_acc rho;
      do counter <- array_add Nat.add counter contribution;
      Ok (sigma_acc, rho_acc, counter)
  | _, _, _ => Ok (sigma, rho, contribution)
  end.
(* numpy.log(acc / counter) *)
Definition log_mean (acc : list R) (counter : list nat) : result (list val) :=
  if Nat.eqb (List.length acc) (List.length counter) then Ok (map (fun p => vln (vdiv (fst p) (snd p))) (combine acc counter)) else Err ValueError.
(* 341-350 finalise_local_parameterisation_sigma_rho; None / None is a TypeError *)
Definition finalise_sigma_rho (sigma_acc rho_acc : option (list R)) (counter : option (list nat)) : result (list val * list val) :=
  match sigma_acc, rho_acc, counter with
  | Some s, Some r, Some c => do ls <- log_mean s c; do lr <- log_mean r c; Ok (ls, lr)
  | _, _, _ => Err TypeError
  end.
(* 352-368 finalise_local_parameterisation_q *)
Definition finalise_q (sigma_acc rho_acc : list R) (counter : list nat) : result (list val * sparse * sparse) :=
  do ls <- log_mean sigma_acc counter; do lr <- log_mean rho_acc counter;
  let n := List.length sigma_acc in let m := List.length rho_acc in
  if Nat.eqb n m then Ok (ls ++ lr, s_beside (s_eye n) (s_empty m m), s_beside (s_empty n n) (s_eye m)) else Err ValueError.

(* ---- hyperparameters *)
Open Scope nat_scope.
(* local.py:10-33 LocalHyperparameters, local_view.py:159-184 ExpandedLocalHyperparameters *)
Inductive hyper {A : Type} := HLocal (log_sigma log_rho : A) | HExpanded (log_sigma log_rho : list A).
Arguments hyper A : clear implicits.
(* local.py:19-23, local_view.py:162-166 *)
Definition get_array {A} (h : hyper A) : list A := match h with HLocal s r => [s; r] | HExpanded s r => s ++ r end.
(* local.py:25-29, local_view.py:168-172: len(values)/2 is an integer division.  The object afterwards, and the exception if any. *)
Definition set_array {A} (h : hyper A) (values : list A) : hyper A * option err :=
  match h with
  | HLocal s r => match values with s' :: r' :: _ => (HLocal s' r', None) | [s'] => (HLocal s' r, Some IndexError) | [] => (h, Some IndexError) end
  | HExpanded _ _ => let half := List.length values / 2 in (HExpanded (firstn half values) (skipn half values), None)
  end.
(* combination.py:20-53: get_array, get_element_ranges, set_array *)
Definition get_all {A} (hs : list (hyper A)) : result (list A) := match hs with [] => Err ValueError | _ => Ok (flat_map get_array hs) end.
Fixpoint element_ranges {A} (startindex : nat) (hs : list (hyper A)) : list (nat * nat) :=
  match hs with [] => [] | h :: hs => let n := List.length (get_array h) in (startindex, startindex + n) :: element_ranges (startindex + n) hs end.
Fixpoint set_each {A} (hs : list (hyper A)) (ranges : list (nat * nat)) (values : list A) : list (hyper A) * option err :=
  match hs, ranges with
  | h :: hs, (a, b) :: ranges =>
      let (h', e) := set_array h (firstn (b - a) (skipn a values)) in
      match e with Some _ => (h' :: hs, e) | None => let (hs', e') := set_each hs ranges values in (h' :: hs', e') end
  | _, _ => (hs, None)
  end.
Definition set_all {A} (hs : list (hyper A)) (values : list A) : list (hyper A) * option err :=
  let ranges := element_ranges 0 hs in
  match rev ranges with
  | [] => (hs, Some IndexError)
  | (a, b) :: _ => if a =? b then (hs, Some IndexError) (* the last index of an empty range *) else
                   if List.length values =? b then set_each hs ranges values else (hs, Some ValueError)
  end.

(* files of arrays: numpy.save adds the ending .npy where the name does not have it; numpy.load does not *)
Definition file_system (A : Type) := string -> option (list A).
Definition ends_with_npy (name : string) : bool :=
  (4 <=? String.length name) && String.eqb (substring (String.length name - 4) 4 name) ".npy".
Definition saved_name (name : string) : string := if ends_with_npy name then name else append name ".npy".
Definition save {A} (fs : file_system A) (name : string) (values : list A) : file_system A :=
  fun f => if String.eqb f (saved_name name) then Some values else fs f.
(* local_view.py:154-157, 181-184 values_to_npy_savefile and 147-152, 174-179 values_from_npy_savefile *)
Definition values_to_file {A} (fs : file_system A) (name : string) (hs : list (hyper A)) : result (file_system A) :=
  do values <- get_all hs; Ok (save fs name values).
Definition values_from_file {A} (fs : file_system A) (name : string) (hs : list (hyper A)) : list (hyper A) * option err :=
  match fs name with None => (hs, Some IOErrorE) | Some values => set_all hs values end.

(* 186-227 GeneralHyperparameters: a dictionary of arrays; an array is a number or a list of arrays *)
Inductive array {A : Type} := Number (x : A) | Array (items : list array).
Arguments array A : clear implicits.
(* the dictionary, sorted by key *)
Definition general A := list (string * array A).
(* 195-199 get_array: numpy.array of the list of the values *)
Definition general_get {A} (h : general A) : array A := Array (map snd h).
(* 201-209 set_array *)
Fixpoint general_set_from {A} (startindex : nat) (h : general A) (values : array A) : general A * option err :=
  match h with
  | [] => ([], None)
  | (key, value) :: h =>
      match value, values with
      | Array items, Array l =>
          let count := List.length items in
          let (h', e) := general_set_from (startindex + count) h values in
          ((key, Array (firstn count (skipn startindex l))) :: h', e)
      | _, _ => ((key, value) :: h, Some TypeError) (* a number has no length and cannot be sliced *)
      end
  end.
Definition general_set {A} (h : general A) (values : array A) : general A * option err := general_set_from 0 h values.
(* 216-222 init_from_npy_savefile: the class ExpandedHyperparameters does not exist *)
Definition general_init_from_file {A} (fs : string -> option (general A)) (name : string) : result (general A) :=
  match fs name with None => Err IOErrorE | Some _ => Err NameError end.

(* ---- example_optimization.py *)
(* 242-280 merge_local_parameterisations: the loop.  [m] is the mesh of the number of divisions in the setup; the argument
   full_resolution_level is not used.  Files of regions hold real numbers. *)
Fixpoint merge_loop {P} (m : mesh P) (neighbourhood_level : nat) (fs : file_system R) (initial : hyper R) (region_index : nat) (filenames : list string)
  (acc : option (list R) * option (list R) * option (list nat)) : result (option (list R) * option (list R) * option (list nat)) :=
  match filenames with
  | [] => Ok acc
  | f :: filenames =>
      match fs f with
      | None => merge_loop m neighbourhood_level fs initial (S region_index) filenames acc
      | Some values =>
          do v <- super_triangle_view m neighbourhood_level region_index;
          let (hs, e) := values_from_file fs f [initial] in
          match e with
          | Some e => Err e
          | None =>
              do theta <- get_all hs;
              let '(s, r, c) := acc in
              do new <- accumulate s r c v theta;
              let '(s, r, c) := new in
              merge_loop m neighbourhood_level fs initial (S region_index) filenames (Some s, Some r, Some c)
          end
      end
  end.
(* what is saved, and under which name *)
Definition merge_files {P} (m : mesh P) (neighbourhood_level : nat) (fs : file_system R) (initial : hyper R) (filenames : list string) (output_filename : string)
  : result (string * list val) :=
  do acc <- merge_loop m neighbourhood_level fs initial 0 filenames (None, None, None);
  let '(s, r, c) := acc in
  do logs <- finalise_sigma_rho s r c;
  do values <- get_all [HExpanded (fst logs) (snd logs)];
  Ok (saved_name output_filename, values).

(* combination.py:247-270 element_states *)
Fixpoint slices {A} (startindex : nat) (sizes : list nat) (state : list A) : list (list A) :=
  match sizes with [] => [] | n :: sizes => firstn n (skipn startindex state) :: slices (startindex + n) sizes state end.
Definition element_states {A} (sizes : list nat) (state : option (list A)) : list (option (list A)) :=
  match state with None => map (fun _ => None) sizes | Some s => map Some (slices 0 sizes s) end.
(* example_optimization.py:148-157 *)
Definition is_none {A} (x : option A) : bool := match x with None => true | Some _ => false end.
Definition join_states {A} (states : list (option (list A))) : result (option (list A)) :=
  if existsb is_none states then Ok None
  else do s <- concatenate (map (fun x => match x with Some x => x | None => [] end) states); Ok (Some s).
(* 127-159 split_states_time: what is written to the two components; a failed assertion is ModuleError here *)
Definition split_states {A} (sizes : list nat) (flags : list bool) (full_state : option (list A)) : result (option (list A) * option (list A)) :=
  let states := element_states sizes full_state in
  if List.length states =? List.length flags then
    do a <- join_states (map fst (filter snd (combine states flags)));
    do b <- join_states (map fst (filter (fun p => negb (snd p)) (combine states flags)));
    Ok (a, b)
  else Err ModuleError.
(* vector[indices] *)
Definition take_indices {A} (l : list A) (indices : list nat) : result (list A) :=
  mapM (fun i => match nth_error l i with Some x => Ok x | None => Err IndexError end) indices.
(* 161-175 extract_local_view_states_time: what is written to the view component; [None] stands for an element that is not a view *)
Definition extract_view_states {A} (sizes : list nat) (views : list (option view)) (full_state : option (list A)) : result (list A) :=
  let states := element_states sizes full_state in
  do parts <- mapM (fun p : nat * option view =>
      match nth_error states (fst p) with
      | None => Err IndexError
      | Some s =>
          match snd p with
          | None => Ok s
          | Some v => match s with None => Err TypeError | Some s => do x <- take_indices s (v_vertices v); Ok (Some x) end
          end
      end) (combine (seq 0 (List.length views)) views);
  if existsb is_none parts then Err ValueError else concatenate (map (fun x => match x with Some x => x | None => [] end) parts).
