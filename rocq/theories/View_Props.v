(* Properties of views of the mesh: C133-C138. *)
From Coq Require Import NArith Reals Lra String Ascii.
From Verif Require Import Base Mesh_Model Mesh_Spec Mesh_Proofs Mesh_Props Loc_Model Loc_Spec Loc_Proofs Spde_Model Spde_Spec View_Model View_Spec View_Proofs View_Proofs2 View_Proofs3 View_Proofs4.
Local Open Scope nat_scope.
Local Open Scope list_scope.

(* ---- C133 *)
(* The variables of a view are the corners of its triangles, each once and in increasing order; triangles that the mesh does not have are an IndexError. *)
Theorem C133_vertices : forall P (m : mesh P) rows,
  (Forall (fun r => r < length (triangles m)) rows -> exists v, make_view m rows = Ok v /\ StronglySorted lt (v_vertices v) /\ n_latent_variables v = length (v_vertices v) /\
    (forall j, In j (v_vertices v) <-> exists t, In t (chosen m rows) /\ touches t j) /\ StronglySorted le (v_active v) /\ Permutation (v_active v) rows) /\
  (~ Forall (fun r => r < length (triangles m)) rows -> make_view m rows = Err IndexError).
Proof.
  intros P m rows. split; [|apply make_view_bad]. intros F. destruct (make_view_ok m rows F) as (v & E). exists v. split; [exact E|]. destruct (make_view_inv m rows v E) as (_ & A & _ & S & V).
  split; [exact S|]. split; [reflexivity|]. split; [exact V|]. rewrite A. split; [apply sort_nat_sorted|apply sort_nat_perm].
Qed.
Print Assumptions C133_vertices.
(* The matrices of a view are square, of the number of its variables, and hold exactly what the triangles of the view put into those of the mesh; they are zero
   elsewhere. *)
Theorem C133_matrices : forall (N : numbers) inv area_of P (m : mesh P) coordinates rows v, is_ring N -> make_view m rows = Ok v -> rows <> [] ->
  exists C G, view_C_tilde N inv area_of m v = Ok (n_latent_variables v, n_latent_variables v, C) /\
    view_G N inv area_of m coordinates v = Ok (n_latent_variables v, n_latent_variables v, G) /\
    (forall a b, a < n_latent_variables v -> b < n_latent_variables v ->
      C a b = C_tilde N inv (map (tri_of N area_of) (chosen m rows)) (nth a (v_vertices v) 0) (nth b (v_vertices v) 0) /\
      G a b = G_matrix N inv coordinates (map (tri_of N area_of) (chosen m rows)) (nth a (v_vertices v) 0) (nth b (v_vertices v) 0)) /\
    (forall i j, ~ In i (v_vertices v) \/ ~ In j (v_vertices v) ->
      C_tilde N inv (map (tri_of N area_of) (chosen m rows)) i j = n0 /\ G_matrix N inv coordinates (map (tri_of N area_of) (chosen m rows)) i j = n0).
Proof.
  intros N inv area_of P m co rows v RT E NE.
  destruct (view_matrix m N RT (C_ent N inv area_of) (C_ent_in N inv area_of) (C_ent_rows N inv area_of) rows v E NE) as (C & HC & VC).
  destruct (view_matrix m N RT (G_ent N inv area_of co) (G_ent_in N inv area_of co) (G_ent_rows N inv area_of co) rows v E NE) as (G & HG & VG).
  exists C, G. rewrite C_view, G_view. split; [exact HC|]. split; [exact HG|]. split.
  - intros a b A B. rewrite C_full, G_full. split; [apply VC|apply VG]; assumption.
  - intros i j O. rewrite C_full, G_full. split; [apply (assembled_outside m N RT _ (C_ent_in N inv area_of) rows v)|apply (assembled_outside m N RT _ (G_ent_in N inv area_of co) rows v)]; assumption.
Qed.
Print Assumptions C133_matrices.
(* Matrices of views whose triangles make up the mesh, brought back to the vertices of the mesh by the vertex mappings, add up to those of the mesh. *)
Theorem C133_sum : forall (N : numbers) inv area_of P (m : mesh P) coordinates parts views, is_ring N ->
  Permutation (concat parts) (seq 0 (length (triangles m))) -> Forall (fun rows => rows <> []) parts -> Forall2 (fun rows v => make_view m rows = Ok v) parts views ->
  exists Cs Gs, Forall2 (fun v C => view_C_tilde N inv area_of m v = Ok (n_latent_variables v, n_latent_variables v, C)) views Cs /\
    Forall2 (fun v G => view_G N inv area_of m coordinates v = Ok (n_latent_variables v, n_latent_variables v, G)) views Gs /\
    forall i j, nlist N (map (fun p => spread N (fst p) (snd p) i j) (combine views Cs)) = C_tilde N inv (map (tri_of N area_of) (triangles m)) i j /\
                nlist N (map (fun p => spread N (fst p) (snd p) i j) (combine views Gs)) = G_matrix N inv coordinates (map (tri_of N area_of) (triangles m)) i j.
Proof.
  intros N inv area_of P m co parts views RT Q NE F.
  assert (G : forall ent, (forall t e, In e (ent t) -> touches t (fst (fst e)) /\ touches t (snd (fst e))) ->
    (forall t j, touches t j -> (exists e : nat * nat * N, In e (ent t) /\ fst (fst e) = j) /\ (exists e, In e (ent t) /\ snd (fst e) = j)) ->
    exists As, Forall2 (fun v A => coo_matrix N (renumbered m N ent v) = Ok (n_latent_variables v, n_latent_variables v, A)) views As /\
      forall i j, map (fun p => spread N (fst p) (snd p) i j) (combine views As) = map (fun rows => assembled N ent (chosen m rows) i j) parts).
  { intros ent H1 H2. clear Q. induction F as [|rows v parts views E F IH]; [exists []; split; [constructor|reflexivity]|]. inversion NE as [|? ? NE0 NE']; subst. destruct (IH NE') as (As & I1 & I2).
    destruct (view_matrix m N RT ent H1 H2 rows v E NE0) as (A & HA & VA). exists (A :: As). split; [constructor; assumption|]. intros i j. cbn [combine map fst snd]. f_equal; [|apply I2].
    apply (spread_matrix m N RT inv ent H1 H2 rows v A E VA). }
  destruct (G _ (C_ent_in N inv area_of) (C_ent_rows N inv area_of)) as (Cs & C1 & C2). destruct (G _ (G_ent_in N inv area_of co) (G_ent_rows N inv area_of co)) as (Gs & G1 & G2).
  exists Cs, Gs. split; [eapply Forall2_weaken; [|exact C1]; intros v A X; rewrite C_view; exact X|]. split; [eapply Forall2_weaken; [|exact G1]; intros v A X; rewrite G_view; exact X|].
  intros i j. rewrite C2, G2, C_full, G_full. split; apply (sum_of_parts m N RT); exact Q.
Qed.
Print Assumptions C133_sum.
(* The views of the triangles of a coarser level do: their matrices add up to those of the mesh. *)
Theorem C133_super_triangles : forall (N : numbers) inv area_of P mid origin sort (pts : list P) n k coordinates, is_ring N -> sorts sort -> length pts = 12 -> k <= n -> n <= 28 ->
  let m := build mid origin sort pts n in
  exists views Cs Gs, Forall2 (fun i v => super_triangle_view m k i = Ok v) (seq 0 (20 * 4 ^ k)) views /\
    Forall2 (fun v C => view_C_tilde N inv area_of m v = Ok (n_latent_variables v, n_latent_variables v, C)) views Cs /\
    Forall2 (fun v G => view_G N inv area_of m coordinates v = Ok (n_latent_variables v, n_latent_variables v, G)) views Gs /\
    forall i j, nlist N (map (fun p => spread N (fst p) (snd p) i j) (combine views Cs)) = C_tilde N inv (map (tri_of N area_of) (triangles m)) i j /\
                nlist N (map (fun p => spread N (fst p) (snd p) i j) (combine views Gs)) = G_matrix N inv coordinates (map (tri_of N area_of) (triangles m)) i j.
Proof.
  intros N inv area_of P mid origin sort pts n k co RT Hs L K H m.
  assert (V : exists views, Forall2 (fun i v => super_triangle_view m k i = Ok v) (seq 0 (20 * 4 ^ k)) views).
  { generalize (seq 0 (20 * 4 ^ k)) as is. induction is as [|i is (views & IH)]; [exists []; constructor|]. destruct (super_view mid origin sort pts L n k i H) as (v & E). exists (v :: views). constructor; assumption. }
  destruct V as (views & V). destruct (C133_sum N inv area_of P m co (map (super_triangle_at_level m k) (seq 0 (20 * 4 ^ k))) views RT) as (Cs & Gs & C1 & G1 & S).
  - unfold m. rewrite (super_parts mid origin sort Hs pts L n k K H). reflexivity.
  - apply Forall_forall. intros rows I. apply in_map_iff in I. destruct I as (i & <- & I). apply in_seq in I. unfold m. rewrite (super_block mid origin sort Hs pts L n k i) by lia.
    pose proof (Nat.pow_nonzero 4 (n - k) ltac:(lia)). destruct (4 ^ (n - k)) as [|q]; [lia|]. discriminate.
  - clear -V. induction V; constructor; assumption.
  - exists views, Cs, Gs. tauto.
Qed.
Print Assumptions C133_super_triangles.
(* At a vertex all of whose triangles are in the view, the rows of the matrices of the view are those of the mesh; the view truncates at its boundary only. *)
Theorem C133_interior : forall (N : numbers) inv area_of P (m : mesh P) coordinates rows v, is_ring N -> make_view m rows = Ok v -> rows <> [] -> NoDup rows ->
  exists C G, view_C_tilde N inv area_of m v = Ok (n_latent_variables v, n_latent_variables v, C) /\
    view_G N inv area_of m coordinates v = Ok (n_latent_variables v, n_latent_variables v, G) /\
    forall a, a < n_latent_variables v ->
      (forall r, r < length (triangles m) -> touches (nth r (triangles m) no_triangle) (nth a (v_vertices v) 0) -> In r rows) ->
      (forall b, b < n_latent_variables v ->
        C a b = C_tilde N inv (map (tri_of N area_of) (triangles m)) (nth a (v_vertices v) 0) (nth b (v_vertices v) 0) /\
        G a b = G_matrix N inv coordinates (map (tri_of N area_of) (triangles m)) (nth a (v_vertices v) 0) (nth b (v_vertices v) 0)) /\
      (forall j, ~ In j (v_vertices v) -> G_matrix N inv coordinates (map (tri_of N area_of) (triangles m)) (nth a (v_vertices v) 0) j = n0).
Proof.
  intros N inv area_of P m co rows v RT E NE D. destruct (C133_matrices N inv area_of P m co rows v RT E NE) as (C & G & HC & HG & V & Z). exists C, G. split; [exact HC|]. split; [exact HG|].
  destruct (make_view_inv m rows v E) as (_ & _ & F & _ & _). intros a A I. split.
  - intros b B. destruct (V a b A B) as [-> ->]. rewrite !C_full, !G_full. split; [apply (assembled_interior m N RT _ (C_ent_in N inv area_of) (C_ent_rows N inv area_of))|apply (assembled_interior m N RT _ (G_ent_in N inv area_of co) (G_ent_rows N inv area_of co))]; assumption.
  - intros j J. rewrite G_full, <- (assembled_interior m N RT _ (G_ent_in N inv area_of co) (G_ent_rows N inv area_of co) rows _ j D F I), <- G_full. apply Z. right. exact J.
Qed.
Print Assumptions C133_interior.
(* The view of all triangles is the mesh: all vertices in their order, and the same matrices. *)
Theorem C133_global : forall (N : numbers) inv area_of P mid origin sort (pts : list P) n coordinates, is_ring N -> sorts sort -> length pts = 12 -> n <= 28 ->
  let m := build mid origin sort pts n in
  exists v C G, global_view m = Ok v /\ v_vertices v = seq 0 (length (points m)) /\ n_latent_variables v = length (points m) /\
    view_C_tilde N inv area_of m v = Ok (length (points m), length (points m), C) /\ view_G N inv area_of m coordinates v = Ok (length (points m), length (points m), G) /\
    forall i j, i < length (points m) -> j < length (points m) ->
      C i j = C_tilde N inv (map (tri_of N area_of) (triangles m)) i j /\ G i j = G_matrix N inv coordinates (map (tri_of N area_of) (triangles m)) i j.
Proof.
  intros N inv area_of P mid origin sort pts n co RT Hs L H m.
  destruct (make_view_ok m (seq 0 (length (triangles m)))) as (v & E); [apply Forall_forall; intros r I; apply in_seq in I; lia|].
  destruct (global_vertices mid origin sort Hs pts L n v H E) as [V K]. fold m in V, K.
  assert (NE : seq 0 (length (triangles m)) <> []).
  { destruct (built_counts mid origin sort Hs pts L n H) as (_ & _ & T). fold m in T. rewrite T. pose proof (Nat.pow_nonzero 4 n ltac:(lia)). destruct (20 * 4 ^ n) as [|q] eqn:Q; [lia|]. discriminate. }
  destruct (C133_matrices N inv area_of P m co _ v RT E NE) as (C & G & HC & HG & VM & _). exists v, C, G. rewrite K in *. split; [exact E|]. split; [exact V|]. split; [reflexivity|]. split; [exact HC|]. split; [exact HG|].
  intros i j I J. destruct (VM i j I J) as [-> ->]. rewrite V, !seq_nth by assumption. rewrite chosen_all. split; reflexivity.
Qed.
Print Assumptions C133_global.
(* The local view of a triangle of a coarser level has the triangles of the mesh inside of it and of the triangles that have a corner in common with it. *)
Theorem C133_local : forall P mid origin sort (pts : list P) n k c, sorts sort -> length pts = 12 -> k <= n -> n <= 28 ->
  let m := build mid origin sort pts n in let coarse := build mid origin sort pts k in
  (c < length (triangles coarse) -> exists v, local_view m coarse c = Ok v /\ forall r, In r (v_active v) <-> r < length (triangles m) /\
    exists j, touches (nth c (triangles coarse) no_triangle) j /\ touches (nth (r / 4 ^ (n - k)) (triangles coarse) no_triangle) j) /\
  (length (triangles coarse) <= c -> local_view m coarse c = Err IndexError).
Proof.
  intros P mid origin sort pts n k c Hs L K H m coarse.
  destruct (built_counts mid origin sort Hs pts L n H) as (_ & _ & T). destruct (built_counts mid origin sort Hs pts L k ltac:(lia)) as (_ & _ & T'). fold m in T. fold coarse in T'. split.
  - intros Hc. rewrite T' in Hc. destruct (C83_neighbours P mid origin sort pts Hs L n k c no_triangle H K Hc) as (rows & E & _ & R). fold m coarse in E, R.
    destruct (make_view_ok m rows) as (v & V); [apply Forall_forall; intros r I; apply R in I; rewrite T; lia|]. exists v. unfold local_view. rewrite E. cbn [bind]. split; [exact V|].
    intros r. destruct (make_view_inv m rows v V) as (_ & A & _). rewrite A, T. transitivity (In r rows); [split; intros I; [rewrite <- (sort_nat_perm rows)|rewrite (sort_nat_perm rows)]; exact I|]. apply R.
  - intros Hc. unfold local_view, neighbours_at_level. rewrite (proj2 (nth_error_None _ _) Hc). reflexivity.
Qed.
Print Assumptions C133_local.
(* A view without triangles can be made, but its matrices cannot. *)
Theorem C133_empty : forall (N : numbers) inv area_of P (m : mesh P) coordinates,
  exists v, make_view m [] = Ok v /\ n_latent_variables v = 0 /\ view_C_tilde N inv area_of m v = Err ValueError /\ view_G N inv area_of m coordinates v = Err ValueError.
Proof. intros N inv area_of P m co. eexists. split; [reflexivity|]. repeat split; reflexivity. Qed.
Print Assumptions C133_empty.
(* two triangles of the icosahedron *)
Example C133_nonvacuous :
  let m := build (fun a _ : nat => a) 0 insertion_sort (seq 0 12) 0 in
  (exists v, make_view m [1; 0] = Ok v /\ v_vertices v = [4; 7; 8; 9] /\ v_active v = [0; 1]) /\
  (exists v, super_triangle_view (build (fun a _ : nat => a) 0 insertion_sort (seq 0 12) 1) 0 3 = Ok v /\ n_latent_variables v = 6 /\ v_active v = [12; 13; 14; 15]) /\
  make_view m [20] = Err IndexError.
Proof. cbv zeta. split; [eexists; split; [vm_compute; reflexivity|split; reflexivity]|]. split; [eexists; split; [vm_compute; reflexivity|split; reflexivity]|reflexivity]. Qed.

(* ---- C134 *)
Local Open Scope R_scope.
(* A location has one triangle.  If the view has it, the row of the design matrix is the row of the mesh at the vertices of the view, and no weight is lost; otherwise
   the location is outside of the domain and the row is zero. *)
Theorem C134_row : forall sort level latitude longitude rows v, sorts sort -> (level <= 28)%nat -> make_view (sphere_mesh sort level) rows = Ok v ->
  exists r w full inside row, (r < length (triangles (sphere_mesh sort level)))%nat /\
    weights (triangle_corners (sphere_mesh sort level) (nth r (triangles (sphere_mesh sort level)) no_triangle)) (polar_to_cartesian latitude longitude) w /\
    build_A_row sort level latitude longitude = Some full /\ in_domain sort level v latitude longitude = Some inside /\ view_A_row sort level v latitude longitude = Some row /\
    (inside = true <-> In r rows) /\
    (inside = true -> (forall k, (k < n_latent_variables v)%nat -> row k = full (nth k (v_vertices v) 0%nat)) /\ (forall j, ~ In j (v_vertices v) -> full j = 0)) /\
    (inside = false -> forall k, row k = 0).
Proof.
  intros sort level lat lon rows v Hs H E. destruct (triangle_located sort Hs level H lat lon) as (r & w0 & w1 & w2 & Hr & T & W & B).
  destruct (make_view_inv _ rows v E) as (_ & A & F & S & V). exists r, (w0, w1, w2). eexists. exists (mem r (v_active v)). eexists.
  split; [exact Hr|]. split; [exact W|]. split; [exact B|]. unfold in_domain, view_A_row. rewrite T. split; [reflexivity|]. split; [reflexivity|].
  assert (I : mem r (v_active v) = true <-> In r rows) by (rewrite mem_in, A; split; intros I; [rewrite <- (sort_nat_perm rows)|rewrite (sort_nat_perm rows)]; exact I).
  split; [exact I|]. split.
  - intros M. rewrite M. split; [reflexivity|]. intros j J. apply assign_outside. intros Q. apply J, V. exists (nth r (triangles (sphere_mesh sort level)) no_triangle). split; [|exact Q].
    apply in_map_iff. exists r. split; [reflexivity|apply I, M].
  - intros ->. reflexivity.
Qed.
Print Assumptions C134_row.
(* So the prediction from the part of a state that belongs to the view is that from the whole state, inside of the domain, and zero outside. *)
Theorem C134_value : forall sort level latitude longitude rows v state, sorts sort -> (level <= 28)%nat -> make_view (sphere_mesh sort level) rows = Ok v ->
  length state = length (points (sphere_mesh sort level)) ->
  exists full inside row part, build_A_row sort level latitude longitude = Some full /\ in_domain sort level v latitude longitude = Some inside /\
    view_A_row sort level v latitude longitude = Some row /\ take_indices state (v_vertices v) = Ok part /\
    weighted row 0 part = if inside then weighted full 0 state else 0.
Proof.
  intros sort level lat lon rows v state Hs H E L. destruct (C134_row sort level lat lon rows v Hs H E) as (r & w & full & inside & row & Hr & W & B & D & R & I & T & F).
  destruct (make_view_inv _ rows v E) as (_ & _ & _ & S & _). pose proof (make_view_below _ rows v (built_corners_in mid_sphere nowhere sort Hs base_points eq_refl level H) E) as Bl. fold (sphere_mesh sort level) in Bl. rewrite <- L in Bl.
  exists full, inside, row. eexists. split; [exact B|]. split; [exact D|]. split; [exact R|]. split; [apply (take_ok state 0 _ Bl)|]. destruct inside.
  - destruct (T eq_refl) as [T1 T2]. rewrite <- (weighted_restricted full (v_vertices v) state S Bl T2). apply weighted_ext. intros k K. apply T1. rewrite map_length in K. unfold n_latent_variables. lia.
  - apply weighted_zero, F. reflexivity.
Qed.
Print Assumptions C134_value.
(* Every location is in exactly one of the views of the triangles of a coarser level. *)
Theorem C134_one_view : forall sort level k latitude longitude, sorts sort -> (k <= level)%nat -> (level <= 28)%nat ->
  exists i, (i < 20 * 4 ^ k)%nat /\ forall i' v, (i' < 20 * 4 ^ k)%nat -> super_triangle_view (sphere_mesh sort level) k i' = Ok v ->
    in_domain sort level v latitude longitude = Some (Nat.eqb i' i).
Proof.
  intros sort level k lat lon Hs K H. destruct (triangle_located sort Hs level H lat lon) as (r & w0 & w1 & w2 & Hr & T & W & B).
  set (b := (4 ^ (level - k))%nat). assert (Hb : b <> 0%nat) by (apply Nat.pow_nonzero; lia).
  destruct (built_counts mid_sphere nowhere sort Hs base_points eq_refl level H) as (_ & _ & Tc). fold (sphere_mesh sort level) in Tc. rewrite Tc in Hr.
  assert (Hq : (20 * 4 ^ level = b * (20 * 4 ^ k))%nat).
  { unfold b. replace (4 ^ (level - k) * (20 * 4 ^ k))%nat with (20 * (4 ^ k * 4 ^ (level - k)))%nat by lia. rewrite <- Nat.pow_add_r. do 2 f_equal. lia. }
  exists (r / b)%nat. split; [apply Nat.div_lt_upper_bound; lia|]. intros i' v Hi E. unfold in_domain. rewrite T. f_equal. unfold super_triangle_view in E.
  destruct (make_view_inv _ _ v E) as (_ & A & _). unfold sphere_mesh in A. rewrite (super_block mid_sphere nowhere sort Hs base_points eq_refl level k i' K H Hi) in A.
  apply Bool.eq_true_iff_eq. rewrite mem_in, A, Nat.eqb_eq. fold b.
  assert (I : In r (sort_nat (seq (b * i') b)) <-> In r (seq (b * i') b)) by (split; intros I; [rewrite <- (sort_nat_perm _)|rewrite (sort_nat_perm _)]; exact I).
  rewrite I, in_seq. pose proof (Nat.div_mod r b Hb). pose proof (Nat.mod_upper_bound r b Hb). split; intros Q; nia.
Qed.
Print Assumptions C134_one_view.
Example C134_nonvacuous : sorts insertion_sort /\ exists v, make_view (sphere_mesh insertion_sort 0) [0; 5]%nat = Ok v /\ v_vertices v = [0; 3; 4; 5; 7; 8]%nat.
Proof. split; [apply insertion_sorts|]. exists {| v_points := 12; v_active := [0; 5]%nat; v_vertices := [0; 3; 4; 5; 7; 8]%nat |}. split; [|reflexivity]. unfold sphere_mesh. rewrite (make_view_tables _ _ _ (build_tables mid_sphere nowhere (fun a _ : nat => a) 0%nat insertion_sort base_points (seq 0 12) 0 eq_refl)). vm_compute. reflexivity. Qed.

(* ---- C135 *)
Lemma views_proper {P} (m : mesh P) (views : list (view * (R * R))) : corners_in m -> views_of m (map fst views) -> Forall (fun p => proper (length (points m)) (fst p)) views.
Proof.
  intros C F. apply Forall_forall. intros p I. unfold views_of in F. rewrite Forall_forall in F. destruct (F (fst p) (in_map fst _ _ I)) as (rows & E).
  destruct (make_view_inv m rows _ E) as (A & _ & _ & S & _). split; [exact A|]. split; [exact S|apply (make_view_below m rows _ C E)].
Qed.
(* Accumulating the parameters of the views one by one and finishing gives, at every vertex, the logarithm of the mean of the exponentials of the parameters of the views
   that have the vertex, and nan where no view has it.  The second form returns the same values, with designs that select them. *)
Theorem C135_accumulated : forall P (m : mesh P) views, corners_in m -> views_of m (map fst views) -> views <> [] ->
  exists s r c, accumulate_all views (None, None, None) = Ok (Some s, Some r, Some c) /\
    let log_sigma := map (fun j => or_nan (map fst (covering views j))) (seq 0 (length (points m))) in
    let log_rho := map (fun j => or_nan (map snd (covering views j))) (seq 0 (length (points m))) in
    finalise_sigma_rho (Some s) (Some r) (Some c) = Ok (log_sigma, log_rho) /\
    exists sd rd, finalise_q s r c = Ok (log_sigma ++ log_rho, sd, rd) /\
      forall x y, length x = length (points m) -> length y = length (points m) -> s_dot sd (x ++ y) = Ok x /\ s_dot rd (x ++ y) = Ok y.
Proof.
  intros P m views C V NE. destruct (finalised (length (points m)) views None None None (or_introl eq_refl) (views_proper m views C V) NE) as (s & r & c & A & _ & _ & _ & B & Q).
  exists s, r, c. split; [exact A|]. cbv zeta. split; [exact B|]. do 2 eexists. split; [exact Q|]. intros x y Lx Ly. split; [apply select_first|apply select_second]; assumption.
Qed.
Print Assumptions C135_accumulated.
(* The order of the views does not matter. *)
Theorem C135_order : forall P (m : mesh P) views views', corners_in m -> views_of m (map fst views) -> views <> [] -> Permutation views views' ->
  exists s r c s' r' c', accumulate_all views (None, None, None) = Ok (Some s, Some r, Some c) /\ accumulate_all views' (None, None, None) = Ok (Some s', Some r', Some c') /\
    finalise_sigma_rho (Some s) (Some r) (Some c) = finalise_sigma_rho (Some s') (Some r') (Some c').
Proof.
  intros P m views views' C V NE Q. assert (V' : views_of m (map fst views')).
  { unfold views_of in *. rewrite <- Q. exact V. }
  assert (NE' : views' <> []) by (intros ->; apply Permutation_sym, Permutation_nil in Q; congruence).
  destruct (C135_accumulated P m views C V NE) as (s & r & c & A & B & _). destruct (C135_accumulated P m views' C V' NE') as (s' & r' & c' & A' & B' & _).
  exists s, r, c, s', r', c'. split; [exact A|]. split; [exact A'|]. cbv zeta in B, B'. rewrite B, B'. do 2 f_equal; apply map_ext; intros j; apply or_nan_perm, Permutation_map, covering_perm, Q.
Qed.
Print Assumptions C135_order.
(* The value at a vertex is between those of the views, so it is theirs when they agree; it is not less than their mean. *)
Theorem C135_between : forall l a b, l <> [] -> Forall (fun x => a <= x <= b) l -> a <= log_mean_exp l <= b /\ mean l <= log_mean_exp l.
Proof.
  intros l a b NE F. assert (L : 0 < INR (length l)) by (apply lt_0_INR; destruct l; [congruence|cbn; lia]).
  assert (E : exp (log_mean_exp l) = mean (map exp l)).
  { unfold log_mean_exp. apply exp_ln, mean_exp_positive, NE. }
  assert (Bd : forall c, (forall x, In x l -> c <= exp x) -> c <= mean (map exp l)).
  { intros c Hc. unfold mean. rewrite map_length. apply Rmult_le_reg_r with (INR (length l)); [exact L|]. unfold Rdiv. rewrite Rmult_assoc, Rinv_l, Rmult_1_r by lra. clear -Hc.
    induction l as [|x l IH]; [cbn; lra|]. change (View_Spec.total (map exp (x :: l))) with (exp x + View_Spec.total (map exp l)). pose proof (Hc x (or_introl eq_refl)). specialize (IH (fun y Y => Hc y (or_intror Y))). cbn [length]. rewrite S_INR. lra. }
  assert (Bu : forall c, (forall x, In x l -> exp x <= c) -> mean (map exp l) <= c).
  { intros c Hc. unfold mean. rewrite map_length. apply Rmult_le_reg_r with (INR (length l)); [exact L|]. unfold Rdiv. rewrite Rmult_assoc, Rinv_l, Rmult_1_r by lra. clear -Hc.
    induction l as [|x l IH]; [cbn; lra|]. change (View_Spec.total (map exp (x :: l))) with (exp x + View_Spec.total (map exp l)). pose proof (Hc x (or_introl eq_refl)). specialize (IH (fun y Y => Hc y (or_intror Y))). cbn [length]. rewrite S_INR. lra. }
  assert (Mono : forall x y, x <= y -> exp x <= exp y) by (intros x y [Q|Q]; [left; apply exp_increasing, Q|subst; apply Rle_refl]).
  assert (Back : forall x y, exp x <= exp y -> x <= y) by (intros x y Q; apply Rnot_lt_le; intros Q'; apply exp_increasing in Q'; lra).
  rewrite Forall_forall in F. split; [split|]; apply Back; rewrite E.
  - apply Bd. intros x X. apply Mono, F, X.
  - apply Bu. intros x X. apply Mono, F, X.
  - set (u := mean l). assert (T : INR (length l) * exp u <= View_Spec.total (map exp l)).
    { assert (G : forall l', exp u * (INR (length l') + (View_Spec.total l' - INR (length l') * u)) <= View_Spec.total (map exp l')).
      { induction l' as [|x l' IH]; [cbn; lra|]. change (View_Spec.total (map exp (x :: l'))) with (exp x + View_Spec.total (map exp l')). change (View_Spec.total (x :: l')) with (x + View_Spec.total l'). cbn [length]. rewrite S_INR.
        assert (X : exp u * (1 + (x - u)) <= exp x).
        { replace (exp x) with (exp u * exp (x - u)) by (rewrite <- exp_plus; f_equal; ring). apply Rmult_le_compat_l; [left; apply exp_pos|]. destruct (Req_dec (x - u) 0) as [Z|Z]; [rewrite Z, exp_0; lra|]. left. apply exp_ineq1, Z. }
        replace (exp u * (INR (length l') + 1 + (x + View_Spec.total l' - (INR (length l') + 1) * u))) with (exp u * (1 + (x - u)) + exp u * (INR (length l') + (View_Spec.total l' - INR (length l') * u))) by ring. lra. }
      specialize (G l). replace (View_Spec.total l - INR (length l) * u) with 0 in G by (unfold u, mean; field; lra). lra. }
    unfold mean. rewrite map_length. apply Rmult_le_reg_r with (INR (length l)); [exact L|]. unfold Rdiv. rewrite Rmult_assoc, Rinv_l, Rmult_1_r by lra. lra.
Qed.
Print Assumptions C135_between.
(* Merging all at once with 'exp_average' gives the same at vertices that a view has, and minus infinity elsewhere. *)
Theorem C135_exp_average : forall P (m : mesh P) self views, corners_in m -> views_of m (map fst views) -> views <> [] -> n_latent_variables self = length (points m) ->
  exists sd rd, merge_local_parameterisations self (map fst views) (map (fun p => [fst (snd p); snd (snd p)]) views) Exp_average =
    Ok (map (fun j => or_neg_inf (map fst (covering views j))) (seq 0 (length (points m))) ++ map (fun j => or_neg_inf (map snd (covering views j))) (seq 0 (length (points m))), sd, rd) /\
    forall x y, length x = length (points m) -> length y = length (points m) -> s_dot sd (x ++ y) = Ok x /\ s_dot rd (x ++ y) = Ok y.
Proof.
  intros P m self views C V NE Ns. do 2 eexists. split; [apply (exp_average_values self views (length (points m)) Ns (views_proper m views C V) NE)|].
  intros x y Lx Ly. split; [apply select_first|apply select_second]; assumption.
Qed.
Print Assumptions C135_exp_average.
(* 'direct_average' returns the parameters of the views as they are, with designs that give at every vertex the mean of those of the views that have it, and 0, so that sigma
   and rho are 1, elsewhere. *)
Theorem C135_direct_average : forall P (m : mesh P) self views, corners_in m -> views_of m (map fst views) -> views <> [] -> n_latent_variables self = length (points m) ->
  exists sd rd, let theta := flat_map (fun p => [fst (snd p); snd (snd p)]) views in
    merge_local_parameterisations self (map fst views) (map (fun p => [fst (snd p); snd (snd p)]) views) Direct_average = Ok (map Fin theta, sd, rd) /\
    s_dot sd theta = Ok (map (fun j => match covering views j with [] => 0 | l => mean (map fst l) end) (seq 0 (length (points m)))) /\
    s_dot rd theta = Ok (map (fun j => match covering views j with [] => 0 | l => mean (map snd l) end) (seq 0 (length (points m)))).
Proof.
  intros P m self views C V NE Ns. destruct (direct_rows self views (length (points m)) Ns (views_proper m views C V) NE) as (sd & rd & A & B & D). exists sd, rd.
  assert (T : flat_map (fun p : view * (R * R) => [fst (snd p); snd (snd p)]) views = flatten (map snd views)) by (unfold flatten; rewrite flat_map_map; reflexivity).
  cbv zeta. rewrite T. split; [exact A|]. rewrite B, D. split; f_equal; apply map_ext; intros j; destruct (covering views j); try reflexivity; apply mean_nil.
Qed.
Print Assumptions C135_direct_average.
(* The two ways are meant to be the same, but differ at vertices that no view has. *)
Theorem C135_same_refuted : exists (m : mesh nat) self views s r c ls lr x sd rd, corners_in m /\ global_view m = Ok self /\ views_of m (map fst views) /\ views <> [] /\
  accumulate_all views (None, None, None) = Ok (Some s, Some r, Some c) /\ finalise_sigma_rho (Some s) (Some r) (Some c) = Ok (ls, lr) /\
  merge_local_parameterisations self (map fst views) (map (fun p => [fst (snd p); snd (snd p)]) views) Exp_average = Ok (x, sd, rd) /\
  nth_error ls 0 = Some NaN /\ nth_error x 0 = Some NegInf.
Proof.
  set (m := build (fun a _ : nat => a) 0%nat insertion_sort (seq 0 12) 0). set (self := {| v_points := 12; v_active := seq 0 20; v_vertices := seq 0 12 |}). set (v := {| v_points := 12; v_active := [0%nat]; v_vertices := [4; 7; 8]%nat |}).
  assert (C : corners_in m) by (apply built_corners_in; [apply insertion_sorts|reflexivity|lia]).
  assert (V : views_of m (map fst [(v, (0, 0))])) by (constructor; [exists [0%nat]; vm_compute; reflexivity|constructor]).
  destruct (C135_accumulated nat m [(v, (0, 0))] C V ltac:(discriminate)) as (s & r & c & A & B & _).
  destruct (C135_exp_average nat m self [(v, (0, 0))] C V ltac:(discriminate) eq_refl) as (sd & rd & D & _).
  exists m, self, [(v, (0, 0))], s, r, c. do 5 eexists. split; [exact C|]. split; [vm_compute; reflexivity|]. split; [exact V|]. split; [discriminate|]. split; [exact A|]. split; [exact B|]. split; [exact D|].
  split; reflexivity.
Qed.
Print Assumptions C135_same_refuted.
(* They are the same if every vertex has a view. *)
Theorem C135_same_covered : forall P (m : mesh P) self views, corners_in m -> views_of m (map fst views) -> views <> [] -> n_latent_variables self = length (points m) ->
  (forall j, (j < length (points m))%nat -> covering views j <> []) ->
  exists s r c x sd rd, accumulate_all views (None, None, None) = Ok (Some s, Some r, Some c) /\ finalise_q s r c = Ok (x, sd, rd) /\
    merge_local_parameterisations self (map fst views) (map (fun p => [fst (snd p); snd (snd p)]) views) Exp_average = Ok (x, sd, rd) /\
    forall j, (j < length x)%nat -> exists z, nth_error x j = Some (Fin z).
Proof.
  intros P m self views C V NE Ns Cov. set (n := length (points m)) in *. destruct (finalised n views None None None (or_introl eq_refl) (views_proper m views C V) NE) as (s & r & c & A & _ & _ & _ & _ & Q).
  exists s, r, c. do 3 eexists. split; [exact A|]. split; [exact Q|]. rewrite (exp_average_values self views n Ns (views_proper m views C V) NE).
  assert (G : forall f : R * R -> R, map (fun j => or_neg_inf (map f (covering views j))) (seq 0 n) = map (fun j => or_nan (map f (covering views j))) (seq 0 n)).
  { intros f. apply map_ext_in. intros j J. apply in_seq in J. specialize (Cov j ltac:(lia)). destruct (covering views j); [congruence|reflexivity]. }
  rewrite !G. split; [reflexivity|]. intros j J.
  assert (F : Forall (fun x => exists z, x = Fin z) (map (fun j => or_nan (map fst (covering views j))) (seq 0 n) ++ map (fun j => or_nan (map snd (covering views j))) (seq 0 n))).
  { apply Forall_app. split; apply Forall_forall; intros x X; apply in_map_iff in X; destruct X as (i & <- & I); apply in_seq in I; specialize (Cov i ltac:(lia)); destruct (covering views i); try congruence; eexists; reflexivity. }
  rewrite Forall_forall in F. destruct (nth_error _ j) as [x|] eqn:E; [|apply nth_error_None in E; lia]. destruct (F x (nth_error_In _ _ E)) as (z & ->). exists z. reflexivity.
Qed.
Print Assumptions C135_same_covered.
(* Unknown methods and empty lists of views are errors, and so is adding to accumulators of another size; if one accumulator is missing all start again. *)
Theorem C135_errors : forall P (m : mesh P) self views, corners_in m -> views_of m (map fst views) -> n_latent_variables self = length (points m) ->
  merge_local_parameterisations self (map fst views) (map (fun p => [fst (snd p); snd (snd p)]) views) Other_method = Err ValueError /\
  (forall method, merge_local_parameterisations self [] [] method = Err ValueError) /\
  (forall v theta s r c, In (v, theta) views -> length s <> length (points m) -> accumulate (Some s) (Some r) (Some c) v [fst theta; snd theta] = Err ValueError) /\
  (forall v theta s r c, In (v, theta) views -> s = None \/ r = None \/ c = None -> accumulate s r c v [fst theta; snd theta] = accumulate None None None v [fst theta; snd theta]) /\
  finalise_sigma_rho None None None = Err TypeError.
Proof.
  intros P m self views C V Ns. pose proof (views_proper m views C V) as F. split.
  { destruct views as [|p views]; [reflexivity|]. rewrite (merge_start self (p :: views) _ Ns F ltac:(discriminate)). reflexivity. }
  split; [intros method; reflexivity|]. rewrite Forall_forall in F. split; [|split; [|reflexivity]].
  - intros v theta s r c I L. specialize (F _ I). cbn [fst] in F. unfold accumulate, s_sigma_stationary, s_rho_stationary. rewrite !stationary_dot by lia. cbn [bind]. rewrite !map_repeat, !(mapped_constant _ v _ F). cbn [bind].
    unfold array_add at 1. rewrite map_length, seq_length. destruct (Nat.eqb_spec (length s) (length (points m))); [congruence|reflexivity].
  - intros v theta s r c I O. specialize (F _ I). cbn [fst] in F. rewrite (accumulate_new _ v (fst theta) (snd theta) s r c F O), (accumulate_new _ v (fst theta) (snd theta) None None None F (or_introl eq_refl)). reflexivity.
Qed.
Print Assumptions C135_errors.
Example C135_nonvacuous : let m := build (fun a _ : nat => a) 0%nat insertion_sort (seq 0 12) 0 in
  exists v w, make_view m [0%nat] = Ok v /\ make_view m [1%nat] = Ok w /\ corners_in m /\ covering [(v, (1, 2)); (w, (3, 4))] 4 = [(1, 2); (3, 4)] /\ covering [(v, (1, 2)); (w, (3, 4))] 9 = [(3, 4)] /\
    covering [(v, (1, 2)); (w, (3, 4))] 0 = [].
Proof.
  cbv zeta. do 2 eexists. split; [vm_compute; reflexivity|]. split; [vm_compute; reflexivity|]. split; [apply built_corners_in; [apply insertion_sorts|reflexivity|lia]|]. repeat split; reflexivity.
Qed.

(* ---- C136 *)
(* Merging the files of regions: the parameters saved for a vertex are the logarithms of the means over the regions with a file whose large triangle has the vertex. *)
Theorem C136_merged : forall P mid origin sort (pts : list P) n k fs s0 r0 filenames output, sorts sort -> length pts = 12%nat -> (n <= 28)%nat ->
  let m := build mid origin sort pts n in
  Forall (fun p => length (snd p) = 2%nat) (regions fs 0 filenames) -> regions fs 0 filenames <> [] ->
  merge_files m k fs (HLocal s0 r0) filenames output =
  Ok (saved_name output, map (fun j => or_nan (map (fun x => nth 0 x 0) (at_vertex m k (regions fs 0 filenames) j))) (seq 0 (length (points m))) ++
                         map (fun j => or_nan (map (fun x => nth 1 x 0) (at_vertex m k (regions fs 0 filenames) j))) (seq 0 (length (points m)))).
Proof.
  intros P mid origin sort pts n k fs s0 r0 filenames output Hs L H m F NE. apply merged_files; [apply built_corners_in; assumption|intros i; apply super_view; assumption|exact F|exact NE].
Qed.
Print Assumptions C136_merged.
(* If all regions of the level have their file, every parameter is a number, between the smallest and the largest of the regions. *)
Theorem C136_complete : forall P mid origin sort (pts : list P) n k fs s0 r0 filenames output a b, sorts sort -> length pts = 12%nat -> (k <= n)%nat -> (n <= 28)%nat ->
  let m := build mid origin sort pts n in
  length filenames = (20 * 4 ^ k)%nat -> Forall (fun f => exists ls lr, fs f = Some [ls; lr] /\ a <= ls <= b /\ a <= lr <= b) filenames ->
  exists values, merge_files m k fs (HLocal s0 r0) filenames output = Ok (saved_name output, values) /\ length values = (2 * length (points m))%nat /\
    Forall (fun x => exists z, x = Fin z /\ a <= z <= b) values.
Proof.
  intros P mid origin sort pts n k fs s0 r0 filenames output a b Hs L K H m Lf F.
  assert (R1 : forall fl i, Forall (fun f => exists ls lr, fs f = Some [ls; lr] /\ a <= ls <= b /\ a <= lr <= b) fl -> Forall (fun p => exists ls lr, snd p = [ls; lr] /\ a <= ls <= b /\ a <= lr <= b) (regions fs i fl) /\ map fst (regions fs i fl) = seq i (length fl)).
  { induction fl as [|f fl IH]; intros i Q; [split; [constructor|reflexivity]|]. inversion Q as [|? ? (ls & lr & E & B) Q']; subst. cbn [regions]. rewrite E. destruct (IH (S i) Q') as [I1 I2]. split; [constructor; [exists ls, lr; split; [reflexivity|exact B]|exact I1]|]. cbn [map fst length seq]. f_equal. exact I2. }
  destruct (R1 filenames 0%nat F) as [B1 B2]. rewrite Lf in B2.
  assert (NE : regions fs 0 filenames <> []).
  { intros Q. rewrite Q in B2. cbn [map] in B2. pose proof (Nat.pow_nonzero 4 k ltac:(lia)). destruct (20 * 4 ^ k)%nat eqn:Z; [lia|discriminate]. }
  assert (F2 : Forall (fun p : nat * list R => length (snd p) = 2%nat) (regions fs 0 filenames)) by (eapply Forall_impl; [|exact B1]; cbn; intros p (ls & lr & -> & _); reflexivity).
  eexists. split; [apply (C136_merged P mid origin sort pts n k fs s0 r0 filenames output Hs L H F2 NE)|]. fold m. rewrite app_length, !map_length, seq_length. split; [lia|].
  assert (Cov : forall j, (j < length (points m))%nat -> at_vertex m k (regions fs 0 filenames) j <> []).
  { intros j J. destruct (built_touched mid origin sort Hs pts L n H j J) as (t & I & T). fold m in I. destruct (In_nth _ _ no_triangle I) as (r & Hr & Et).
    assert (Ir : In r (concat (map (super_triangle_at_level m k) (seq 0 (20 * 4 ^ k))))) by (unfold m in *; rewrite (super_parts mid origin sort Hs pts L n k K H); apply in_seq; lia).
    rewrite <- B2, map_map in Ir. apply in_concat in Ir. destruct Ir as (rows & Ix & Iy). apply in_map_iff in Ix. destruct Ix as (p & <- & Ip). unfold at_vertex. intros Q. apply map_eq_nil in Q.
    assert (X : In p (filter (fun p => existsb (fun t => existsb (Nat.eqb j) (corner_list t)) (chosen m (super_triangle_at_level m k (fst p)))) (regions fs 0 filenames))).
    { apply filter_In. split; [exact Ip|]. apply existsb_exists. exists t. split; [unfold chosen; apply in_map_iff; exists r; split; assumption|]. apply existsb_exists. exists j. split; [apply corner_list_in, T|apply Nat.eqb_refl]. }
    rewrite Q in X. exact X. }
  assert (In2 : forall j x, In x (at_vertex m k (regions fs 0 filenames) j) -> exists ls lr, x = [ls; lr] /\ a <= ls <= b /\ a <= lr <= b).
  { intros j x X. unfold at_vertex in X. apply in_map_iff in X. destruct X as (p & <- & Ip). apply filter_In in Ip. rewrite Forall_forall in B1. apply B1, Ip. }
  assert (G : forall c, (c < 2)%nat -> Forall (fun x => exists z, x = Fin z /\ a <= z <= b) (map (fun j => or_nan (map (fun x => nth c x 0) (at_vertex m k (regions fs 0 filenames) j))) (seq 0 (length (points m))))).
  { intros c Hc. apply Forall_forall. intros x X. apply in_map_iff in X. destruct X as (j & <- & J). apply in_seq in J. specialize (Cov j ltac:(lia)). specialize (In2 j).
    destruct (at_vertex m k (regions fs 0 filenames) j) as [|y l] eqn:E; [congruence|]. rewrite <- E in *. exists (log_mean_exp (map (fun x => nth c x 0) (at_vertex m k (regions fs 0 filenames) j))). split; [unfold or_nan; rewrite E; reflexivity|].
    refine (proj1 (C135_between _ a b _ _)); [rewrite E; discriminate|]. apply Forall_forall. intros w W. apply in_map_iff in W. destruct W as (q & <- & Q). destruct (In2 q Q) as (ls & lr & -> & B3 & B4). destruct c as [|[|c]]; [exact B3|exact B4|lia]. }
  apply Forall_app. split; apply G; lia.
Qed.
Print Assumptions C136_complete.
(* Files that are not there are left out without an error.  With one region missing the file is written all the same, and has nan in it. *)
Theorem C136_missing_refuted : exists fs filenames values, length filenames = (20 * 4 ^ 0)%nat /\ (forall f, In f filenames -> f <> "r00"%string -> fs f = Some [1; 1]) /\
  merge_files (sphere_mesh insertion_sort 2) 0 fs (HLocal 0 0) filenames "out.npy" = Ok ("out.npy"%string, values) /\ nth_error values 102 = Some NaN.
Proof.
  set (names := ["r00"; "r01"; "r02"; "r03"; "r04"; "r05"; "r06"; "r07"; "r08"; "r09"; "r10"; "r11"; "r12"; "r13"; "r14"; "r15"; "r16"; "r17"; "r18"; "r19"]%string).
  set (fs := fun f => if String.eqb f "r00" then None else Some [1; 1]).
  assert (E : regions fs 0 names = map (fun i => (i, [1; 1])) (seq 1 19)) by reflexivity.
  exists fs, names. eexists. split; [reflexivity|]. split.
  { intros f _ N. unfold fs. destruct (String.eqb_spec f "r00") as [Q|_]; [congruence|reflexivity]. }
  split.
  { unfold sphere_mesh. rewrite C136_merged; [|apply insertion_sorts|reflexivity|lia| |rewrite E; discriminate].
    - reflexivity.
    - rewrite E. apply Forall_forall. intros p I. apply in_map_iff in I. destruct I as (i & <- & _). reflexivity. }
  pose proof (build_tables mid_sphere nowhere (fun a _ : nat => a) 0%nat insertion_sort base_points (seq 0 12) 2 eq_refl) as (T & _ & _ & Lp).
  rewrite nth_error_app1 by (rewrite map_length, seq_length, Lp; apply Nat.ltb_lt; vm_compute; reflexivity).
  rewrite nth_error_map. assert (S : nth_error (seq 0 (length (points (build mid_sphere nowhere insertion_sort base_points 2)))) 102 = Some 102%nat) by (rewrite Lp; vm_compute; reflexivity).
  rewrite S. cbn [option_map]. rewrite E, untouched_none; [reflexivity|]. rewrite T. vm_compute. reflexivity.
Qed.
Print Assumptions C136_missing_refuted.
(* Without any file it is a TypeError, with a file that does not have two values a ValueError; nothing is saved. *)
Theorem C136_errors : forall P mid origin sort (pts : list P) n k fs s0 r0 filenames output, sorts sort -> length pts = 12%nat -> (n <= 28)%nat ->
  let m := build mid origin sort pts n in
  ((forall f, In f filenames -> fs f = None) -> merge_files m k fs (HLocal s0 r0) filenames output = Err TypeError) /\
  (forall f values, In f filenames -> fs f = Some values -> length values <> 2%nat -> merge_files m k fs (HLocal s0 r0) filenames output = Err ValueError).
Proof.
  intros P mid origin sort pts n k fs s0 r0 filenames output Hs L H m. split.
  - intros F. apply merge_none. generalize 0%nat. induction filenames as [|f fl IH]; intros i; [reflexivity|]. cbn [regions]. rewrite (F f (or_introl eq_refl)). apply IH. intros g G. apply F. right. exact G.
  - intros f values I E Lv. apply merge_bad; [apply built_corners_in; assumption|intros i; apply super_view; assumption|]. enough (G : forall i, ~ Forall (fun p => length (snd p) = 2%nat) (regions fs i filenames)) by apply G. induction filenames as [|g fl IH]; intros i Q; [contradiction|]. cbn [regions] in Q. destruct I as [-> | I].
    + rewrite E in Q. apply Forall_inv in Q. apply Lv. exact Q.
    + destruct (fs g); [apply Forall_inv_tail in Q|]; exact (IH I _ Q).
Qed.
Print Assumptions C136_errors.
Example C136_nonvacuous : let fs := fun f : string => if String.eqb f "b" then Some [1; 2] else None in
  regions fs 0 ["a"; "b"]%string = [(1%nat, [1; 2])] /\ at_vertex (build (fun a _ : nat => a) 0%nat insertion_sort (seq 0 12) 0) 0 (regions fs 0 ["a"; "b"]%string) 9 = [[1; 2]].
Proof. split; reflexivity. Qed.

(* ---- C137 *)
Local Open Scope nat_scope.
(* What is set is what is got; a wrong number of values is an exception, and the parameters stay. *)
Theorem C137_set_get : forall A (hs : list (hyper A)) h values, get_array h <> [] ->
  (length values = length (flat_map get_array (hs ++ [h])) ->
   exists hs', set_all (hs ++ [h]) values = (hs', None) /\ get_all hs' = Ok values /\ map (fun h => length (get_array h)) hs' = map (fun h => length (get_array h)) (hs ++ [h])) /\
  (length values <> length (flat_map get_array (hs ++ [h])) -> set_all (hs ++ [h]) values = (hs ++ [h], Some ValueError)).
Proof. intros A hs h values NE. split; intros L; [apply set_all_ok|apply set_all_wrong]; assumption. Qed.
Print Assumptions C137_set_get.
(* Setting what was got changes nothing as long as the log_rho of expanded parameters are as many as the log_sigma, or one more; else the division between the two moves. *)
Theorem C137_get_set : forall A,
  (forall (hs : list (hyper A)) h values, get_array h <> [] ->
    Forall (fun h => match h with HLocal _ _ => True | HExpanded s r => length r = length s \/ length r = S (length s) end) (hs ++ [h]) ->
    get_all (hs ++ [h]) = Ok values -> set_all (hs ++ [h]) values = (hs ++ [h], None)) /\
  (forall s r : list A, set_array (HExpanded s r) (get_array (HExpanded s r)) = (HExpanded s r, None) <-> length r = length s \/ length r = S (length s)).
Proof. intros A. split; [intros hs h values NE F G; apply set_all_same; assumption|intros s r; apply get_set_expanded]. Qed.
Print Assumptions C137_get_set.
(* Parameters saved under a name that ends in .npy are found there again by an object of the same sizes. *)
Theorem C137_saved : forall A (fs : file_system A) name (hs : list (hyper A)) values hs2 h2, get_all hs = Ok values -> ends_with_npy name = true -> get_array h2 <> [] ->
  length values = length (flat_map get_array (hs2 ++ [h2])) ->
  exists fs' hs', values_to_file fs name hs = Ok fs' /\ values_from_file fs' name (hs2 ++ [h2]) = (hs', None) /\ get_all hs' = Ok values /\ (forall f, f <> name -> fs' f = fs f).
Proof.
  intros A fs name hs values hs2 h2 G E NE L. destruct (load_saved fs name hs values (hs2 ++ [h2]) G E) as (fs' & S & F). destruct (set_all_ok hs2 h2 values NE L) as (hs' & Q & G' & _).
  exists fs', hs'. split; [exact S|]. split; [rewrite F; exact Q|]. split; [exact G'|]. intros f N. unfold values_to_file in S. rewrite G in S. cbn [bind] in S. injection S as <-. unfold save. rewrite (saved_npy name E). destruct (String.eqb_spec f name); [congruence|reflexivity].
Qed.
Print Assumptions C137_saved.
(* Under any other name they are not: the file has the ending .npy added, and reading the name gives what was there before, an IOError if nothing was. *)
Theorem C137_saved_refuted : forall A (fs : file_system A) name (hs : list (hyper A)) values, get_all hs = Ok values -> ends_with_npy name = false ->
  exists fs', values_to_file fs name hs = Ok fs' /\ fs' (append name ".npy") = Some values /\ fs' name = fs name /\
    (fs name = None -> forall hs2, values_from_file fs' name hs2 = (hs2, Some IOErrorE)).
Proof.
  intros A fs name hs values G E. destruct (load_other fs name hs values hs G E) as (fs' & S & _ & F). exists fs'. split; [exact S|]. split; [exact F|].
  assert (Q : fs' name = fs name).
  { unfold values_to_file in S. rewrite G in S. cbn [bind] in S. injection S as <-. unfold save. destruct (String.eqb_spec name (saved_name name)) as [Q|_]; [|reflexivity]. exfalso. apply (saved_other name E). symmetry. exact Q. }
  split; [exact Q|]. intros N hs2. unfold values_from_file. rewrite Q, N. reflexivity.
Qed.
Print Assumptions C137_saved_refuted.
(* The general class does not keep its parameters: setting what was got puts an array around the first, and it cannot be read from a file. *)
Theorem C137_general_refuted : forall A key (x : A) items, let value := Array (map Number (x :: items)) in
  general_set [(key, value)] (general_get [(key, value)]) = ([(key, Array [value])], None) /\ Array [value] <> value /\
  general_set [(key, Number x)] (general_get [(key, Number x)]) = ([(key, Number x)], Some TypeError) /\
  (forall fs name, general_init_from_file fs name = @Err (general A) IOErrorE \/ general_init_from_file fs name = @Err (general A) NameError).
Proof.
  intros A key x items value. split.
  - unfold general_set, general_get, value. cbn [map snd general_set_from length firstn skipn]. rewrite firstn_nil. reflexivity.
  - split; [discriminate|]. split; [reflexivity|]. intros fs name. unfold general_init_from_file. destruct (fs name); [right|left]; reflexivity.
Qed.
Print Assumptions C137_general_refuted.
Example C137_nonvacuous : get_all [HExpanded [1; 2] [3; 4; 5]; HLocal 6 7] = Ok [1; 2; 3; 4; 5; 6; 7] /\
  set_all [HExpanded [1; 2] [3; 4; 5]; HLocal 6 7] [11; 12; 13; 14; 15; 16; 17] = ([HExpanded [11; 12] [13; 14; 15]; HLocal 16 17], None) /\
  ends_with_npy "a.npy" = true /\ ends_with_npy "a" = false.
Proof. repeat split; reflexivity. Qed.

(* ---- C138 *)
(* The state of a component is divided into the states of its elements; those with the flag make up the first part and the others the second. *)
Theorem C138_split : forall A (parts : list (list A)) flags, length flags = length parts -> In true flags -> In false flags ->
  split_states (map (@length A) parts) flags (Some (concat parts)) = Ok (Some (concat (flagged true parts flags)), Some (concat (flagged false parts flags))) /\
  Permutation (concat parts) (concat (flagged true parts flags) ++ concat (flagged false parts flags)) /\
  @split_states A (map (@length A) parts) flags None = Ok (None, None).
Proof.
  intros A parts flags L T F. split; [apply split_ok; assumption|]. split.
  - rewrite <- concat_app. clear T F. unfold flagged. revert flags L. induction parts as [|p parts IH]; intros [|f flags] L; try discriminate; [reflexivity|]. cbn [length] in L. specialize (IH flags ltac:(lia)). cbn [concat combine filter snd].
    destruct f; cbn [Bool.eqb map fst app concat]; [apply Permutation_app_head, IH|]. rewrite concat_app. cbn [concat]. rewrite IH, concat_app, !app_assoc. apply Permutation_app_tail, Permutation_app_comm.
  - unfold split_states. cbn [element_states]. rewrite !map_length, L, Nat.eqb_refl, filter_true, filter_false, !flagged_none by (rewrite map_length; exact L).
    replace (existsb (Bool.eqb true) flags) with true by (symmetry; apply existsb_exists; exists true; split; [exact T|reflexivity]).
    replace (existsb (Bool.eqb false) flags) with true by (symmetry; apply existsb_exists; exists false; split; [exact F|reflexivity]). reflexivity.
Qed.
Print Assumptions C138_split.
(* If all elements have the flag, or none has, nothing is written: it is a ValueError. *)
Theorem C138_one_kind_refuted : forall A (sizes : list nat) flags (state : option (list A)) b, length flags = length sizes -> Forall (fun f => f = b) flags ->
  split_states sizes flags state = Err ValueError.
Proof.
  intros A sizes flags state b L F. apply (split_one_kind sizes flags state b L F).
Qed.
Print Assumptions C138_one_kind_refuted.
(* The state of a view component: elements without a view whole, those with a view at the vertices of the view, in order. *)
Theorem C138_extracted : forall A d (parts : list (list A)) views, parts <> [] -> length views = length parts ->
  Forall (fun p : list A * option view => match snd p with None => True | Some v => Forall (fun j => j < length (fst p)) (v_vertices v) end) (combine parts views) ->
  extract_view_states (map (@length A) parts) views (Some (concat parts)) =
  Ok (concat (map (fun p : list A * option view => match snd p with None => fst p | Some v => map (fun j => nth j (fst p) d) (v_vertices v) end) (combine parts views))).
Proof. intros A d parts views NE L F. apply (extract_ok d parts views NE L F). Qed.
Print Assumptions C138_extracted.
Example C138_nonvacuous : split_states [2; 1; 2] [true; false; true] (Some [1; 2; 3; 4; 5]) = Ok (Some [1; 2; 4; 5], Some [3]) /\
  extract_view_states [3; 1] [Some {| v_points := 3; v_active := [0]; v_vertices := [0; 2] |}; None] (Some [7; 8; 9; 5]) = Ok [7; 9; 5].
Proof. split; reflexivity. Qed.
