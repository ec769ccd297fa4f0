(* C163: meshes stored as fields *)
From Coq Require Import NArith Reals Lra Psatz String Permutation.
From Verif Require Import Base Mesh_Model Mesh_Spec Mesh_Proofs Mesh_Props Loc_Model Loc_Spec Loc_Proofs Loc_Props Geo_Model Geo_Spec Geo_Proofs Geo_Props.
Local Open Scope R_scope.
Local Open Scope list_scope.

Lemma to_int32_small z : (0 <= z < 2 ^ 31)%Z -> to_int32 z = z.
Proof. intros H. unfold to_int32. rewrite Z.mod_small by lia. lia. Qed.
Lemma to_uint64_small z : (0 <= z < 2 ^ 64)%Z -> to_uint64 z = z.
Proof. intros H. unfold to_uint64. now apply Z.mod_small. Qed.
Lemma of_N_bound n : (n < 2 ^ 64)%N -> (0 <= Z.of_N n < 2 ^ 64)%Z.
Proof. intros H. split; [lia|]. change (2 ^ 64)%Z with (Z.of_N (2 ^ 64)). now apply N2Z.inj_lt. Qed.
Lemma side_maps {A B} (f g h : A -> list B) l : (forall x, In x l -> f x ++ g x = h x) -> side_by_side (map f l) (map g l) = Ok (map h l).
Proof.
  intros H. unfold side_by_side. rewrite !map_length, Nat.eqb_refl. f_equal. induction l as [|x l IH]; [reflexivity|]. cbn [map combine fst snd]. rewrite H by now left. f_equal. apply IH. intros y I. apply H. now right.
Qed.
Lemma combine_halves {A B} (l : list (A * B)) : combine (map fst l) (map snd l) = l.
Proof. induction l as [|[a b] l IH]; [reflexivity|]. cbn [map combine fst snd]. now rewrite IH. Qed.
Lemma find_perm (name : string) l l' : NoDup (map var_name l) -> Permutation l l' -> find (fun f => String.eqb (var_name f) name) l' = find (fun f => String.eqb (var_name f) name) l.
Proof.
  intros N P. revert N. induction P as [|x l l' P IH|x y l|l l' l'' P IH P' IH']; intros N; [reflexivity| | |].
  - cbn [find]. destruct (String.eqb _ _); [reflexivity|]. apply IH. now inversion N.
  - cbn [find]. destruct (String.eqb_spec (var_name x) name) as [X|X]; destruct (String.eqb_spec (var_name y) name) as [Y|Y]; try reflexivity. exfalso. cbn [map] in N. inversion N as [|? ? M _]. apply M. left. congruence.
  - rewrite IH'; [now apply IH|]. eapply Permutation_NoDup; [apply Permutation_map; exact P|exact N].
Qed.
Lemma read_perm m fields : Permutation (mesh_fields m) fields -> read_mesh fields = read_mesh (mesh_fields m).
Proof.
  intros P. assert (F : forall name, find_field name fields = find_field name (mesh_fields m)).
  { intros name. unfold find_field. rewrite (find_perm name (mesh_fields m) fields); [reflexivity| |exact P].
    cbn [mesh_fields map var_name]. repeat (constructor; [cbn [In]; intros H; repeat (destruct H as [H|H]; [discriminate H|]); exact H|]). constructor. }
  unfold read_mesh. now rewrite !F.
Qed.
Lemma read_own m : fits_file m ->
  read_mesh (mesh_fields m) = Ok {| st_points := map (fun p => polar_to_cartesian (fst (cartesian_to_polar p)) (snd (cartesian_to_polar p))) (points m);
                                    st_triangles := map triangle_row (triangles m); st_edges := map edge_row (edges m) |}.
Proof.
  intros [T E]. unfold read_mesh. change (find_field "Mesh2_node_y" (mesh_fields m)) with (Ok (Reals (map fst (map cartesian_to_polar (points m))))).
  change (find_field "Mesh2_node_x" (mesh_fields m)) with (Ok (Reals (map snd (map cartesian_to_polar (points m))))). cbn [bind reals]. rewrite !map_length, Nat.eqb_refl. cbn [negb].
  change (find_field "Mesh2_EUSTACE_trianglenumbers" (mesh_fields m)) with (Ok (Rows (map (fun t => map to_uint64 (firstn 1 (triangle_row t))) (triangles m)))).
  change (find_field "Mesh2_face_nodes" (mesh_fields m)) with (Ok (Rows (map (fun t => map to_int32 (skipn 1 (triangle_row t))) (triangles m)))).
  change (find_field "Mesh2_edge_nodes" (mesh_fields m)) with (Ok (Rows (map (fun e => map to_int32 (firstn 2 (edge_row e))) (edges m)))).
  change (find_field "Mesh2_EUSTACE_edge_triangle_map" (mesh_fields m)) with (Ok (Rows (map (fun e => map to_uint64 (skipn 2 (edge_row e))) (edges m)))). cbn [bind rows].
  rewrite !(map_map _ (map to_uint64)). rewrite (side_maps _ _ triangle_row).
  - cbn [bind]. rewrite (side_maps _ _ edge_row).
    + cbn [bind]. f_equal. f_equal. rewrite combine_halves. apply map_map.
    + intros e I. destruct (E e I) as (A & B & C & D & F & G). cbn [edge_row firstn skipn map app]. apply of_N_bound in C, D, F, G. rewrite !(to_int32_small (Z.of_nat _)) by lia. rewrite !to_uint64_small by lia. reflexivity.
  - intros t I. destruct (T t I) as (A & B & C & D). cbn [triangle_row firstn skipn map app]. apply of_N_bound in A. rewrite !(to_int32_small (Z.of_nat _)) by lia. rewrite !to_uint64_small by lia. reflexivity.
Qed.

(* A mesh on the unit sphere is read back as it was stored, whatever the order of the fields. *)
Theorem C163_round_trip : forall m fields, fits_file m -> (forall p, In p (points m) -> norm p = 1) -> Permutation (mesh_fields m) fields ->
  read_mesh fields = Ok {| st_points := points m; st_triangles := map triangle_row (triangles m); st_edges := map edge_row (edges m) |}.
Proof.
  intros m fields F U P. rewrite (read_perm m fields P), (read_own m F). do 2 f_equal. rewrite <- (map_id (points m)) at 2. apply map_ext_in. intros p I. specialize (U p I).
  assert (N : p <> nowhere) by (intros ->; unfold norm, dot, nowhere in U; cbn in U; replace (0 * 0 + 0 * 0 + 0 * 0) with 0 in U by ring; rewrite sqrt_0 in U; lra).
  pose proof (C162_to_polar p N) as H. destruct (cartesian_to_polar p) as [lat lon]. cbn [fst snd]. destruct H as [H _]. rewrite H. now apply normalise_unit.
Qed.
Print Assumptions C163_round_trip.
(* The triangles and edges tell the tables apart. *)
Theorem C163_rows : (forall t t', triangle_row t = triangle_row t' -> t = t') /\ (forall e e', edge_row e = edge_row e' -> e = e').
Proof.
  split.
  - intros [a b c d] [a' b' c' d'] H. unfold triangle_row in H. cbn in H. injection H as A B C D. apply N2Z.inj in A. apply Nat2Z.inj in B, C, D. now subst.
  - intros [a b c d e f] [a' b' c' d' e' f'] H. unfold edge_row in H. cbn in H. injection H as A B C D E F. apply N2Z.inj in C, D, E, F. apply Nat2Z.inj in A, B. now subst.
Qed.
Print Assumptions C163_rows.

(* The meshes of the analysis are such meshes, up to 13 subdivisions. *)
Lemma det_antipodal p0 p1 p2 : det (p0, p1, p2) < 0 -> vadd p0 p1 <> nowhere /\ vadd p1 p2 <> nowhere /\ vadd p2 p0 <> nowhere.
Proof.
  intros D. assert (Z : forall a b, vadd a b = nowhere -> a = vscale (-1) b). { intros a b H. apply vec_eq; [apply (f_equal cx) in H|apply (f_equal cy) in H|apply (f_equal cz) in H]; cbn in *; lra. }
  split; [|split]; intros H; apply Z in H; subst; unfold det, dot, cross, vscale in D; cbn in D; nra.
Qed.
Lemma mid_unit a b : vadd a b <> nowhere -> norm (mid_sphere a b) = 1.
Proof. intros H. unfold mid_sphere. apply norm_normalise. intros Z. apply H. apply vec_eq; [apply (f_equal cx) in Z|apply (f_equal cy) in Z|apply (f_equal cz) in Z]; cbn in *; lra. Qed.
Lemma sphere_points_unit sort : sorts sort -> forall n, (n <= 28)%nat -> forall p, In p (points (sphere_mesh sort n)) -> norm p = 1.
Proof.
  intros Hs. induction n as [|n IH]; intros H p I.
  - unfold sphere_mesh in I. cbn [build icosahedron points] in I. pose proof base_points_unit as F. rewrite Forall_forall in F. now apply F.
  - unfold sphere_mesh in I. cbn [build] in I. fold (sphere_mesh sort n) in I. unfold subdivide in I. cbn [points] in I. apply in_app_iff in I. destruct I as [I|I]; [apply IH; [lia|exact I]|].
    apply in_map_iff in I. destruct I as (e & <- & I). apply mid_unit.
    destruct (C46_two_triangles vec mid_sphere nowhere sort base_points Hs eq_refl n ltac:(lia) e I) as (t & _ & T & _ & S & _). fold (sphere_mesh sort n) in T.
    apply In_nth with (d := t) in T. destruct T as (r & Hr & T). destruct (C44_sizes vec mid_sphere nowhere sort base_points Hs eq_refl n ltac:(lia)) as (_ & _ & L). unfold sphere_mesh in Hr. cbv zeta in L. rewrite L in Hr.
    pose proof (C84_sphere sort n r t Hs ltac:(lia) Hr) as G. rewrite T in G. destruct (corners (sphere_mesh sort n) nowhere t) as [[p0 p1] p2] eqn:K. destruct G as [D _]. apply det_antipodal in D.
    unfold corners in K. injection K as K0 K1 K2. unfold sides, first_view in S. cbn [In] in S.
    destruct S as [S|[S|[S|[]]]]; injection S as S1 S2 _ _; rewrite <- S1, <- S2, ?K0, ?K1, ?K2; tauto.
Qed.
Lemma four_pow n : (n <= 13)%nat -> (Z.of_nat (10 * 4 ^ n + 2) < 2 ^ 31)%Z.
Proof.
  intros H. pose proof (Nat.pow_le_mono_r 4 n 13 ltac:(lia) H) as P. assert (Z.of_nat (4 ^ n) <= 67108864)%Z.
  { apply inj_le in P. rewrite !Nat2Z.inj_pow in *. exact P. }
  rewrite Nat2Z.inj_add, Nat2Z.inj_mul. cbn [Z.of_nat Pos.of_succ_nat Pos.succ]. lia.
Qed.
Lemma sphere_fits sort n : sorts sort -> (n <= 13)%nat -> fits_file (sphere_mesh sort n).
Proof.
  intros Hs H. pose proof (four_pow n H) as B. destruct (C44_sizes vec mid_sphere nowhere sort base_points Hs eq_refl n ltac:(lia)) as (LP & _ & LT).
  destruct (C46_points vec mid_sphere nowhere sort base_points Hs eq_refl n ltac:(lia)) as (PE & PT). fold (sphere_mesh sort n) in *.
  assert (ID : forall t, In t (triangles (sphere_mesh sort n)) -> (t_id t < 2 ^ 64)%N).
  { intros t I. apply In_nth with (d := t) in I. destruct I as (r & Hr & E). rewrite LT in Hr. destruct (C45_row_identifier vec mid_sphere nowhere sort base_points Hs eq_refl n ltac:(lia) r t Hr) as (_ & _ & F). cbv zeta in F. fold (sphere_mesh sort n) in F. rewrite E in F. eapply N.lt_trans; [exact F|reflexivity]. }
  split.
  - intros t I. destruct (PT t I) as (A0 & A1 & A2 & _). rewrite LP in A0, A1, A2. split; [now apply ID|]. lia.
  - intros e I. destruct (PE e I) as (A0 & A1 & _). rewrite LP in A0, A1. split; [lia|]. split; [lia|].
    destruct (C46_two_triangles vec mid_sphere nowhere sort base_points Hs eq_refl n ltac:(lia) e I) as (t & t' & T & T' & S & S' & _). fold (sphere_mesh sort n) in T, T'. apply ID in T, T'.
    unfold sides, first_view in S. unfold sides, second_view in S'. cbn [In] in S, S'.
    assert (X : e_tri0 e = t_id t /\ (e_side0 e < 2 ^ 64)%N) by (destruct S as [S|[S|[S|[]]]]; injection S as _ _ <- <-; (split; [reflexivity|reflexivity])).
    assert (Y : e_tri1 e = t_id t' /\ (e_side1 e < 2 ^ 64)%N) by (destruct S' as [S'|[S'|[S'|[]]]]; injection S' as _ _ <- <-; (split; [reflexivity|reflexivity])).
    destruct X as [-> X], Y as [-> Y]. tauto.
Qed.
(* The meshes that the analysis builds come back as they were, with up to 13 subdivisions, rotated or not. *)
Theorem C163_subdivisions : forall sort n m fields, sorts sort -> (n <= 13)%nat -> m = sphere_mesh sort n \/ m = polar_mesh sort n -> Permutation (mesh_fields m) fields ->
  read_mesh fields = Ok {| st_points := points m; st_triangles := map triangle_row (triangles m); st_edges := map edge_row (edges m) |}.
Proof.
  intros sort n m fields Hs H Hm P. pose proof (sphere_fits sort n Hs H) as F. pose proof (sphere_points_unit sort Hs n ltac:(lia)) as U.
  apply C163_round_trip; [| |exact P]; destruct Hm as [->| ->]; try assumption; destruct (C162_rotated_mesh sort n) as (A & B & _ & L & D); cbv zeta in *.
  - unfold fits_file. rewrite A, B. exact F.
  - intros p I. apply In_nth with (d := nowhere) in I. destruct I as (i & Hi & <-). unfold norm. rewrite D. rewrite L in Hi. specialize (U (nth i (points (sphere_mesh sort n)) nowhere) (nth_In _ _ Hi)). exact U.
Qed.
Print Assumptions C163_subdivisions.
Example C163_nonvacuous : sorts insertion_sort /\ (3 <= 13)%nat /\ List.length (points (sphere_mesh insertion_sort 3)) = 642%nat.
Proof. split; [exact insertion_sorts|]. split; [lia|]. destruct (C44_sizes vec mid_sphere nowhere insertion_sort base_points insertion_sorts eq_refl 3 ltac:(lia)) as (L & _). exact L. Qed.

(* A file without one of the six fields is refused. *)
Definition needed_fields : list string := ["Mesh2_node_x"; "Mesh2_node_y"; "Mesh2_EUSTACE_trianglenumbers"; "Mesh2_face_nodes"; "Mesh2_edge_nodes"; "Mesh2_EUSTACE_edge_triangle_map"]%string.
Theorem C163_missing_field : forall name fields, In name needed_fields -> (forall f, In f fields -> var_name f <> name) -> exists e, read_mesh fields = Err e.
Proof.
  intros name fields I N. assert (F : find_field name fields = Err KeyError).
  { unfold find_field. destruct (find _ fields) as [f|] eqn:E; [|reflexivity]. apply find_some in E. destruct E as [E G]. apply String.eqb_eq in G. now apply N in E. }
  unfold read_mesh. destruct I as [<-|[<-|[<-|[<-|[<-|[<-|[]]]]]]]; rewrite F; cbn [bind];
  repeat match goal with |- exists e, bind ?x _ = Err e => destruct x; cbn [bind]; [|eexists; reflexivity] end; try (eexists; reflexivity);
  (destruct (negb _); [eexists; reflexivity|]);
  repeat match goal with |- exists e, bind ?x _ = Err e => destruct x; cbn [bind]; [|eexists; reflexivity] end; eexists; reflexivity.
Qed.
Print Assumptions C163_missing_field.
Example C163_missing_nonvacuous : In "Mesh2_node_x"%string needed_fields /\ forall f, In f [{| var_name := "Mesh2"; contents := Nothing |}] -> var_name f <> "Mesh2_node_x"%string.
Proof. split; [now left|]. intros f [<-|[]]. discriminate. Qed.

(* Points off the unit sphere are not read as they were: only their directions are stored. *)
Theorem C163_off_sphere_refuted : forall m, fits_file m -> (forall p, In p (points m) -> p <> nowhere) ->
  exists s, read_mesh (mesh_fields m) = Ok s /\ st_points s = map normalise (points m) /\ (forall p, In p (st_points s) -> norm p = 1).
Proof.
  intros m F N. eexists. split; [now apply read_own|]. cbn [st_points].
  assert (E : map (fun p => polar_to_cartesian (fst (cartesian_to_polar p)) (snd (cartesian_to_polar p))) (points m) = map normalise (points m)).
  { apply map_ext_in. intros p I. pose proof (C162_to_polar p (N p I)) as H. destruct (cartesian_to_polar p) as [lat lon]. now destruct H as [H _]. }
  rewrite E. split; [reflexivity|]. intros p I. apply in_map_iff in I. destruct I as (q & <- & I). apply norm_normalise. now apply N.
Qed.
Print Assumptions C163_off_sphere_refuted.
Example C163_off_sphere_nonvacuous : exists m, fits_file m /\ (forall p, In p (points m) -> p <> nowhere) /\ exists p, In p (points m) /\ norm p <> 1.
Proof.
  exists {| level := 0; points := [{| cx := 2; cy := 0; cz := 0 |}]; edges := []; triangles := [] |}. split; [split; intros x []|]. split.
  - intros p [<-|[]] H. apply (f_equal cx) in H. cbn in H. lra.
  - eexists. split; [now left|]. unfold norm, dot. cbn. replace (2 * 2 + 0 * 0 + 0 * 0) with (2 * 2) by ring. rewrite sqrt_square by lra. lra.
Qed.

Lemma sides_fixed k : (2 ^ 31 <= k < 2 ^ 32)%Z -> to_uint64 (to_int32 k) = (k + 2 ^ 64 - 2 ^ 32)%Z.
Proof.
  intros H. unfold to_uint64, to_int32. assert (E : ((k + 2 ^ 31) mod 2 ^ 32 = k - 2 ^ 31)%Z). { symmetry. apply Z.mod_unique with 1%Z; lia. }
  rewrite E. symmetry. apply Z.mod_unique with (-1)%Z; lia.
Qed.
Lemma side_maps_any {A B} (f g : A -> list B) l : side_by_side (map f l) (map g l) = Ok (map (fun x => f x ++ g x) l).
Proof. now apply side_maps. Qed.
Lemma read_any m : exists s, read_mesh (mesh_fields m) = Ok s /\ st_triangles s = map (fun t => map to_uint64 (firstn 1 (triangle_row t)) ++ map to_uint64 (map to_int32 (skipn 1 (triangle_row t)))) (triangles m).
Proof.
  unfold read_mesh. change (find_field "Mesh2_node_y" (mesh_fields m)) with (Ok (Reals (map fst (map cartesian_to_polar (points m))))).
  change (find_field "Mesh2_node_x" (mesh_fields m)) with (Ok (Reals (map snd (map cartesian_to_polar (points m))))). cbn [bind reals]. rewrite !map_length, Nat.eqb_refl. cbn [negb].
  change (find_field "Mesh2_EUSTACE_trianglenumbers" (mesh_fields m)) with (Ok (Rows (map (fun t => map to_uint64 (firstn 1 (triangle_row t))) (triangles m)))).
  change (find_field "Mesh2_face_nodes" (mesh_fields m)) with (Ok (Rows (map (fun t => map to_int32 (skipn 1 (triangle_row t))) (triangles m)))).
  change (find_field "Mesh2_edge_nodes" (mesh_fields m)) with (Ok (Rows (map (fun e => map to_int32 (firstn 2 (edge_row e))) (edges m)))).
  change (find_field "Mesh2_EUSTACE_edge_triangle_map" (mesh_fields m)) with (Ok (Rows (map (fun e => map to_uint64 (skipn 2 (edge_row e))) (edges m)))). cbn [bind rows].
  rewrite !(map_map _ (map to_uint64)). rewrite side_maps_any. cbn [bind]. rewrite side_maps_any. cbn [bind]. eexists. split; reflexivity.
Qed.
(* Numbers of points from 2^31 on (there are such with 14 subdivisions) are stored as negative numbers and read as enormous ones. *)
Theorem C163_large_numbers_refuted : forall m i t, nth_error (triangles m) i = Some t -> (2 ^ 31 <= Z.of_nat (t_0 t) < 2 ^ 32)%Z ->
  exists s row, read_mesh (mesh_fields m) = Ok s /\ nth_error (st_triangles s) i = Some row /\ nth 1 row 0%Z = (Z.of_nat (t_0 t) + 2 ^ 64 - 2 ^ 32)%Z.
Proof.
  intros m i t I H. destruct (read_any m) as (s & R & E). exists s. eexists. split; [exact R|]. rewrite E, nth_error_map, I. split; [reflexivity|]. cbn [triangle_row firstn skipn map app nth]. now apply sides_fixed.
Qed.
Print Assumptions C163_large_numbers_refuted.
Example C163_large_numbers_nonvacuous : exists m i t, nth_error (@triangles vec m) i = Some t /\ (2 ^ 31 <= Z.of_nat (t_0 t) < 2 ^ 32)%Z.
Proof.
  exists {| level := 14; points := []; edges := []; triangles := [{| t_id := 0; t_0 := Z.to_nat (2 ^ 31); t_1 := 0; t_2 := 1 |}] |}, 0%nat. eexists. split; [reflexivity|]. cbn [t_0]. rewrite Z2Nat.id by lia. lia.
Qed.

(* ---- reading by the library in C++ *)
Lemma varid_spec name fields i f : nth_error fields (varid_from i name fields - i) = Some f -> (exists g, In g fields /\ var_name g = name) -> find_field name fields = Ok (contents f) /\ (i <= varid_from i name fields)%nat.
Proof.
  revert i. induction fields as [|g l IH]; intros i H (g' & G & N); [destruct G|]. cbn [varid_from] in *. unfold find_field. cbn [find]. destruct (String.eqb_spec (var_name g) name) as [E|E].
  - rewrite Nat.sub_diag in H. cbn [nth_error] in H. injection H as ->. split; [reflexivity|lia].
  - destruct G as [->|G]; [contradiction|].
    assert (B : (S i <= varid_from (S i) name l)%nat).
    { clear -G N. revert i. induction l as [|h l IH]; intros i; [destruct G|]. cbn [varid_from]. destruct (String.eqb_spec (var_name h) name); [lia|]. destruct G as [->|G]; [contradiction|]. specialize (IH G (S i)). lia. }
    replace (varid_from (S i) name l - i)%nat with (S (varid_from (S i) name l - S i)) in H by lia. cbn [nth_error] in H.
    destruct (IH (S i) H (ex_intro _ g' (conj G N))) as [A _]. split; [exact A|lia].
Qed.
Lemma varid_here name fields : (exists g, In g fields /\ var_name g = name) -> exists f, nth_error fields (varid_from 0 name fields) = Some f.
Proof.
  intros (g & G & N). assert (B : forall i, (i <= varid_from i name fields < i + List.length fields)%nat).
  { revert G. induction fields as [|h l IH]; intros G i; [destruct G|]. cbn [varid_from List.length]. destruct (String.eqb_spec (var_name h) name); [lia|]. destruct G as [->|G]; [contradiction|]. specialize (IH G (S i)). lia. }
  specialize (B 0%nat). destruct (nth_error fields (varid_from 0 name fields)) as [f|] eqn:E; [now exists f|]. apply nth_error_None in E. lia.
Qed.
Lemma variable_found name fields d : find_field name fields = Ok d -> variable name fields = Ok d.
Proof.
  intros H. assert (X : exists g, In g fields /\ var_name g = name).
  { unfold find_field in H. destruct (find _ fields) as [g|] eqn:E; [|discriminate]. apply find_some in E. destruct E as [E G]. apply String.eqb_eq in G. now exists g. }
  destruct (varid_here name fields X) as (f & F). unfold variable, varid. rewrite F. pose proof (varid_spec name fields 0 f) as S. rewrite Nat.sub_0_r in S. destruct (S F X) as [S' _]. congruence.
Qed.
(* The points one after the other, and the corners of the triangles, are those of the mesh. *)
Theorem C163_cpp_reader : forall m fields, fits_file m -> (forall p, In p (points m) -> norm p = 1) -> Permutation (mesh_fields m) fields ->
  cpp_read_mesh fields = Ok (flat_map (fun p => [cx p; cy p; cz p]) (points m), flat_map (fun t => [Z.of_nat (t_0 t); Z.of_nat (t_1 t); Z.of_nat (t_2 t)]) (triangles m)).
Proof.
  intros m fields [T E] U P.
  assert (F : forall name, find_field name fields = find_field name (mesh_fields m)).
  { intros name. unfold find_field. rewrite (find_perm name (mesh_fields m) fields); [reflexivity| |exact P].
    cbn [mesh_fields map var_name]. repeat (constructor; [cbn [In]; intros H; repeat (destruct H as [H|H]; [discriminate H|]); exact H|]). constructor. }
  unfold cpp_read_mesh. rewrite (variable_found "Mesh2_node_x" fields (Reals (map snd (map cartesian_to_polar (points m))))) by (rewrite F; reflexivity).
  rewrite (variable_found "Mesh2_node_y" fields (Reals (map fst (map cartesian_to_polar (points m))))) by (rewrite F; reflexivity).
  rewrite (variable_found "Mesh2_face_nodes" fields (Rows (map (fun t => map to_int32 (skipn 1 (triangle_row t))) (triangles m)))) by (rewrite F; reflexivity).
  cbn [bind dimensions]. rewrite !map_length, Nat.eqb_refl. cbn [negb].
  replace (forallb _ _) with true by (symmetry; apply forallb_forall; intros r I; apply in_map_iff in I; destruct I as (t & <- & _); reflexivity). cbn [negb]. cbv zeta. do 2 f_equal.
  - rewrite combine_halves. rewrite flat_map_concat_map, map_map. rewrite flat_map_concat_map. f_equal. apply map_ext_in. intros p I. specialize (U p I).
    assert (N : p <> nowhere) by (intros ->; unfold norm, dot, nowhere in U; cbn in U; replace (0 * 0 + 0 * 0 + 0 * 0) with 0 in U by ring; rewrite sqrt_0 in U; lra).
    pose proof (C162_to_polar p N) as H. destruct (cartesian_to_polar p) as [lat lon]. cbn [fst snd]. destruct H as [H _]. rewrite normalise_unit in H by exact U. rewrite <- H. reflexivity.
  - rewrite flat_map_concat_map. f_equal. apply map_ext_in. intros t I. destruct (T t I) as (_ & A & B & C). cbn [triangle_row skipn map]. rewrite !to_int32_small by lia. reflexivity.
Qed.
Print Assumptions C163_cpp_reader.
(* Finding: this reader does not notice that a field is missing and takes the first field of the file instead, here the longitudes for the latitudes. *)
Theorem C163_cpp_missing_refuted : forall m, fits_file m ->
  let fields := filter (fun f => negb (String.eqb (var_name f) "Mesh2_node_y")) (tl (mesh_fields m)) in
  (forall f, In f fields -> var_name f <> "Mesh2_node_y"%string) /\
  cpp_read_mesh fields = Ok (flat_map (fun p => let lon := snd (cartesian_to_polar p) in let q := polar_to_cartesian lon lon in [cx q; cy q; cz q]) (points m),
                             flat_map (fun t => [Z.of_nat (t_0 t); Z.of_nat (t_1 t); Z.of_nat (t_2 t)]) (triangles m)).
Proof.
  intros m [T E] fields. split.
  - intros f I. apply filter_In in I. destruct I as [_ I]. intros N. rewrite N in I. discriminate I.
  - unfold cpp_read_mesh. change (variable "Mesh2_node_x" fields) with (Ok (Reals (map snd (map cartesian_to_polar (points m))))). change (variable "Mesh2_node_y" fields) with (Ok (Reals (map snd (map cartesian_to_polar (points m))))).
    change (variable "Mesh2_face_nodes" fields) with (Ok (Rows (map (fun t => map to_int32 (skipn 1 (triangle_row t))) (triangles m)))).
    cbn [bind dimensions]. rewrite Nat.eqb_refl. cbn [negb].
    replace (forallb _ _) with true by (symmetry; apply forallb_forall; intros r I; apply in_map_iff in I; destruct I as (t & <- & _); reflexivity). cbn [negb]. cbv zeta. do 2 f_equal.
    + induction (points m) as [|p l IH]; [reflexivity|]. cbn [map combine flat_map]. rewrite IH. reflexivity.
    + rewrite flat_map_concat_map. f_equal. apply map_ext_in. intros t I. destruct (T t I) as (_ & A & B & C). cbn [triangle_row skipn map]. rewrite !to_int32_small by lia. reflexivity.
Qed.
Print Assumptions C163_cpp_missing_refuted.
Example C163_cpp_nonvacuous : fits_file (sphere_mesh insertion_sort 5) /\ forall p, In p (points (sphere_mesh insertion_sort 5)) -> norm p = 1.
Proof. split; [apply sphere_fits; [exact insertion_sorts|lia]|]. apply sphere_points_unit; [exact insertion_sorts|lia]. Qed.
