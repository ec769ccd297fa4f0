(* Model of geometry on the sphere, of the rotated icosahedron and of meshes stored as fields:
   src/eustace/analysis/mesh/geometry.py, mesh.py (inter_vertex_angle, rotate_y), irisconnector.py.
   Simplifications: coordinates are real numbers instead of doubles; one vector at a time instead of arrays with one row per vector. *)
From Coq Require Import NArith Reals String.
From Verif Require Import Base Mesh_Model Loc_Model.
Local Open Scope R_scope.
Local Open Scope list_scope.

(* geometry.py:26-29 norm2 *)
Definition norm2 (v : vec) : R := dot v v.
(* 5-24 triangle_circumcentre: vertices 0, 1, 2 *)
Definition circumcentre (p0 p1 p2 : vec) : vec :=
  let c := p0 in
  let a := vsub p1 c in
  let b := vsub p2 c in
  let a_cross_b := cross a b in
  let numerator := cross (vsub (vscale (norm2 a) b) (vscale (norm2 b) a)) a_cross_b in
  let denominator := 2 * norm2 a_cross_b in
  vadd c (vdivide numerator denominator).

(* numpy.arctan2, without negative zeros *)
Definition arctan2 (y x : R) : R :=
  if Rlt_dec 0 x then atan (y / x)
  else if Rlt_dec x 0 then (if Rle_dec 0 y then atan (y / x) + PI else atan (y / x) - PI)
  else if Rlt_dec 0 y then PI / 2 else if Rlt_dec y 0 then - (PI / 2) else 0.
(* numpy.degrees *)
Definition degrees (r : R) : R := r * 180 / PI.
(* 132-140 cartesian_to_polar2d: latitude and longitude *)
Definition cartesian_to_polar (v : vec) : R * R :=
  let radius := norm v in
  (degrees (asin (cz v / radius)), degrees (arctan2 (cy v) (cx v))).
(* 151-158 vector_angle *)
Definition vector_angle (a b : vec) : R := degrees (acos (dot a b / sqrt (dot a a * dot b b))).

(* mesh.py:56-69 inter_vertex_angle *)
Definition inter_vertex_angle : R :=
  let one_minus_inverse_ratio := 1 - basis_b / basis_a in
  asin (1 / sqrt (1 + one_minus_inverse_ratio * one_minus_inverse_ratio)).
(* 178-189 rotate_y: rows times the transposed matrix *)
Definition rotate_y (theta : R) (p : vec) : vec :=
  let c := cos theta in let s := sin theta in
  {| cx := c * cx p - s * cz p; cy := cy p; cz := s * cx p + c * cz p |}.
(* 201-216 build with face_centre_at_poles *)
Definition polar_mesh (sort : forall A, (A -> N) -> list A -> list A) (level : nat) : mesh vec :=
  build mid_sphere nowhere sort (map (rotate_y inter_vertex_angle) base_points) level.

(* ---- irisconnector.py *)

Local Open Scope Z_scope.
(* numpy conversions of 64-bit unsigned integers to 32-bit signed ones and back *)
Definition to_int32 (z : Z) : Z := (z + 2 ^ 31) mod 2 ^ 32 - 2 ^ 31.
Definition to_uint64 (z : Z) : Z := z mod 2 ^ 64.
(* the data of a field: numbers, or rows of whole numbers *)
Inductive data := Reals (values : list R) | Rows (values : list (list Z)) | Nothing.
Record field := { var_name : string; contents : data }.

Definition triangle_row (t : triangle) : list Z := [Z.of_N (t_id t); Z.of_nat (t_0 t); Z.of_nat (t_1 t); Z.of_nat (t_2 t)].
Definition edge_row (e : edge) : list Z := [Z.of_nat (e_from e); Z.of_nat (e_to e); Z.of_N (e_tri0 e); Z.of_N (e_side0 e); Z.of_N (e_tri1 e); Z.of_N (e_side1 e)].

(* 12-78 MeshToIrisCubeList.  Attributes, among them the level, are left out: nothing reads them. *)
Definition mesh_fields (m : mesh vec) : list field :=
  let polarcoords := map cartesian_to_polar (points m) in
  [ {| var_name := "Mesh2"; contents := Nothing |};
    {| var_name := "Mesh2_node_x"; contents := Reals (map snd polarcoords) |};
    {| var_name := "Mesh2_node_y"; contents := Reals (map fst polarcoords) |};
    {| var_name := "Mesh2_EUSTACE_trianglenumbers"; contents := Rows (map (fun t => map to_uint64 (firstn 1 (triangle_row t))) (triangles m)) |};
    {| var_name := "Mesh2_face_nodes"; contents := Rows (map (fun t => map to_int32 (skipn 1 (triangle_row t))) (triangles m)) |};
    {| var_name := "Mesh2_edge_nodes"; contents := Rows (map (fun e => map to_int32 (firstn 2 (edge_row e))) (edges m)) |};
    {| var_name := "Mesh2_EUSTACE_edge_triangle_map"; contents := Rows (map (fun e => map to_uint64 (skipn 2 (edge_row e))) (edges m)) |} ]%string.

(* next(field for field in ...): without such a field StopIteration, here KeyError *)
Definition find_field (name : string) (fields : list field) : result data :=
  match find (fun f => String.eqb (var_name f) name) fields with Some f => Ok (contents f) | None => Err KeyError end.
Definition reals (d : data) : result (list R) := match d with Reals l => Ok l | _ => Err ValueError end.
Definition rows (d : data) : result (list (list Z)) := match d with Rows l => Ok l | _ => Err ValueError end.
(* numpy.vstack((a.T, b.T)).T: rows side by side, of arrays with the same number of rows *)
Definition side_by_side {A} (a b : list (list A)) : result (list (list A)) :=
  if Nat.eqb (List.length a) (List.length b) then Ok (map (fun p => fst p ++ snd p) (combine a b)) else Err ValueError.

(* what is read: points, rows of triangles and rows of edges *)
Record stored := { st_points : list vec; st_triangles : list (list Z); st_edges : list (list Z) }.
(* 81-110 IrisCubeListToMesh *)
Definition read_mesh (fields : list field) : result stored :=
  do latitudes <- bind (find_field "Mesh2_node_y" fields) reals;
  do longitudes <- bind (find_field "Mesh2_node_x" fields) reals;
  if negb (Nat.eqb (List.length latitudes) (List.length longitudes)) then Err ValueError else
  let cartesian := map (fun p => polar_to_cartesian (fst p) (snd p)) (combine latitudes longitudes) in
  do trianglenumbers <- bind (find_field "Mesh2_EUSTACE_trianglenumbers" fields) rows;
  do face_nodes <- bind (find_field "Mesh2_face_nodes" fields) rows;
  do ts <- side_by_side trianglenumbers (map (map to_uint64) face_nodes);
  do edge_nodes <- bind (find_field "Mesh2_edge_nodes" fields) rows;
  do edge_triangle_map <- bind (find_field "Mesh2_EUSTACE_edge_triangle_map" fields) rows;
  do es <- side_by_side (map (map to_uint64) edge_nodes) edge_triangle_map;
  Ok {| st_points := cartesian; st_triangles := ts; st_edges := es |}.

(* ---- src/cpp/eustace/analysis/fileio/mesh.cpp *)

(* 42-62 GetDimensions: the lengths of the dimensions of a field *)
Definition dimensions (d : data) : list nat :=
  match d with Reals l => [List.length l] | Rows l => [List.length l; match l with r :: _ => List.length r | [] => 0%nat end] | Nothing => [] end.
(* nc_inq_varid, with its error code ignored (46, 67): the number of the field of that name, or 0 *)
Fixpoint varid_from (i : nat) (name : string) (fields : list field) : nat :=
  match fields with [] => 0%nat | f :: r => if String.eqb (var_name f) name then i else varid_from (S i) name r end.
Definition varid (name : string) (fields : list field) : nat := varid_from 0 name fields.
Definition variable (name : string) (fields : list field) : result data :=
  match nth_error fields (varid name fields) with Some f => Ok (contents f) | None => Err IOErrorE end.
(* 81-138 MeshReader::Read: coordinates of the points one after the other, and corners of the triangles one after the other.
   MeshReaderException is OperationException here; where C++ leaves the result undefined (reads beyond a buffer or of other types) it is ValueError. *)
Definition cpp_read_mesh (fields : list field) : result (list R * list Z) :=
  do x <- variable "Mesh2_node_x" fields;
  do y <- variable "Mesh2_node_y" fields;
  match dimensions x, dimensions y with
  | [npoints], [ny] =>
      do t <- variable "Mesh2_face_nodes" fields;
      match x, y, t with
      | Reals longitude, Reals latitude, Rows triangles =>
          if negb (Nat.eqb npoints ny) then Err ValueError else
          if negb (forallb (fun r => Nat.eqb (List.length r) 3) triangles) then Err ValueError else
          let points := flat_map (fun p =>
            let latitude_radians := (fst p * PI / 180)%R in
            let longitude_radians := (snd p * PI / 180)%R in
            let z := sin latitude_radians in
            let minor_r := cos latitude_radians in
            [cos longitude_radians * minor_r; sin longitude_radians * minor_r; z]%R) (combine latitude longitude) in
          Ok (points, concat triangles)
      | _, _, _ => Err ValueError
      end
  | _, _ => Err OperationException
  end.
