(* Properties of lattices of nodes, their design matrices and the interpolation of geographical covariates. *)
From Coq Require Import QArith Qcanon.
From Verif Require Import Base Grid_Model Grid_Proofs Lin Spde_Model Lat_Model Lat_Spec Lat_Proofs.
Local Open Scope nat_scope.
Local Open Scope list_scope.

(* a latitude like dimension and a longitude like one *)
Definition ex_ds : list dimension :=
  [ {| d_lo := qz 0; d_hi := qz 6; d_n := 4; d_wrap := false |}; {| d_lo := qz 0; d_hi := qz 360; d_n := 6; d_wrap := true |} ].
Lemma ex_proper : Forall proper ex_ds.
Proof. repeat constructor; cbn; lia. Qed.

(* ---- C43 Node numbers and index tuples are in bijection, and the coordinates follow the numbering. *)
Theorem C43_numbering : forall ds,
  (forall is, is_node ds is -> number 1 (sizes ds) is < length (nodes ds) /\ nth (number 1 (sizes ds) is) (nodes ds) [] = coordinates ds is) /\
  (forall is js, is_node ds is -> is_node ds js -> number 1 (sizes ds) is = number 1 (sizes ds) js -> is = js) /\
  (forall k, k < length (nodes ds) -> exists is, is_node ds is /\ number 1 (sizes ds) is = k) /\
  length (nodes ds) = fold_right Nat.mul 1 (map d_n ds).
Proof.
  intros ds. split; [|split; [|split]].
  - intros is H. rewrite number_F, nodes_length. split; [apply ravel_F_lt, H|apply nth_nodes, H].
  - intros is js H K. rewrite !number_F. apply ravel_F_inj; assumption.
  - intros k H. rewrite nodes_length in H. apply node_of_number, H.
  - apply nodes_length.
Qed.
Print Assumptions C43_numbering.
(* Nodes are evenly spaced from the lower bound; a dimension that does not wrap ends at its upper bound, one that wraps a spacing before. *)
Theorem C43_coordinates : forall d, proper d ->
  (forall i, coordinate d i = d_lo d + qn i * spacing d)%Qc /\ (0 < spacing d)%Qc /\
  (d_wrap d = false -> coordinate d (d_n d - 1) = d_hi d) /\ (d_wrap d = true -> coordinate d (d_n d) = d_hi d).
Proof.
  intros d P. split; [intros i; apply coordinate_spaced, P|]. split; [apply spacing_pos, P|].
  pose proof (spacing_span d P) as S. unfold wrap_one in S. pose proof P as [_ P2].
  split; intros W; rewrite W in S; rewrite (coordinate_spaced d _ P).
  - assert (E : qn (d_n d - 1) = (qn (d_n d) - 1)%Qc) by (replace (d_n d) with (Datatypes.S (d_n d - 1)) at 2 by lia; rewrite qn_S; ring).
    rewrite E. transitivity (d_lo d + spacing d * (qn (d_n d) + 0 - 1))%Qc; [ring|]. rewrite S. ring.
  - transitivity (d_lo d + spacing d * (qn (d_n d) + 1 - 1))%Qc; [ring|]. rewrite S. ring.
Qed.
Print Assumptions C43_coordinates.
(* The search returns numbers of nodes of the lattice only, and misses no node that is strictly within the span in every dimension. *)
Theorem C43_search : forall ds spans x, length spans = length ds -> length x = length ds ->
  (forall k, In k (nearby ds spans x) -> k < length (nodes ds)) /\
  (Forall proper ds -> forall is, is_node ds is -> within spans (displacements ds x (coordinates ds is)) -> In (number 1 (sizes ds) is) (nearby ds spans x)).
Proof.
  intros ds spans x Hs Hx. split.
  - intros k H. destruct (in_nearby ds spans x k H Hs Hx) as (is & K & ->). rewrite nodes_length. apply ravel_F_lt, K.
  - intros P is K W. apply nearby_all; assumption.
Qed.
Print Assumptions C43_search.
Example C43_nonvacuous :
  length (nodes ex_ds) = 24 /\ nth 23 (nodes ex_ds) [] = [qz 6; qz 300] /\ nth 1 (nodes ex_ds) [] = [qz 2; qz 0] /\
  nearby ex_ds [qz 2; qz 60] [qz 1; qz 350] = [20; 0; 4; 21; 1; 5; 22; 2; 6].
Proof.
  split; [vm_compute; reflexivity|]. split; [|split; [|vm_compute; reflexivity]].
  - destruct (C43_numbering ex_ds) as (H & _). destruct (H [3; 5]) as [_ E]; [repeat constructor|]. change (number 1 (sizes ex_ds) [3; 5]) with 23 in E. rewrite E.
    cbn [coordinates ex_ds]. vm_compute; reflexivity.
  - destruct (C43_numbering ex_ds) as (H & _). destruct (H [1; 0]) as [_ E]; [repeat constructor; lia|]. change (number 1 (sizes ex_ds) [1; 0]) with 1 in E. rewrite E.
    cbn [coordinates ex_ds]. vm_compute; reflexivity.
Qed.

(* ---- C80 The design matrix has, for every location and every node, the value of the basis function at the displacement between them. *)
Theorem C80_entries : forall basis ds spans x, Forall proper ds -> length spans = length ds -> length x = length ds -> compact basis spans ->
  forall is, is_node ds is -> build_A_row basis ds spans x (number 1 (sizes ds) is) = basis (displacements ds x (coordinates ds is)).
Proof. intros basis ds spans x P Hs Hx C is K. rewrite number_F. apply row_entry; assumption. Qed.
Print Assumptions C80_entries.
(* The displacement in a dimension that wraps is the difference to the nearest image of the node, never more than half a period. *)
Theorem C80_displacement : forall d x c, proper d ->
  (d_wrap d = false -> displacement d x c = (x - c)%Qc) /\
  (d_wrap d = true ->
    (exists k : Z, displacement d x c = x - c + qz k * period d)%Qc /\ (- period d < displacement d x c + displacement d x c)%Qc /\ (displacement d x c + displacement d x c <= period d)%Qc).
Proof.
  intros d x c P. split; [apply displacement_plain|]. intros W. destruct (displacement_wrapped d x c P W) as (k & E & L & U).
  split; [exists k; exact E|]. pose proof (half (period d)) as H. rewrite <- H. set (h := (period d / qz 2)%Qc) in *. clearbody h. split; qc.
Qed.
Print Assumptions C80_displacement.
(* Locations a whole number of periods apart in the dimensions that wrap have the same row of displacements, hence of the design matrix. *)
Theorem C80_periodic : forall basis ds spans x ks, Forall proper ds -> length spans = length ds -> length x = length ds -> length ks = length ds -> compact basis spans ->
  forall k, k < length (nodes ds) ->
  build_A_row basis ds spans (map (fun p => let '(d, (a, t)) := p in if d_wrap d then a + qz t * period d else a)%Qc (combine ds (combine x ks))) k = build_A_row basis ds spans x k.
Proof.
  intros basis ds spans x ks P Hs Hx Hk C k H. destruct (C43_numbering ds) as (_ & _ & N & _). destruct (N k H) as (is & I & <-).
  rewrite !C80_entries; try assumption; [rewrite displacements_periodic by assumption; reflexivity|].
  rewrite map_length, !combine_length. lia.
Qed.
Print Assumptions C80_periodic.
Example C80_nonvacuous : compact (piecewise_linear [qz 2; qz 60]) [qz 2; qz 60] /\
  build_A_row (piecewise_linear [qz 2; qz 60]) ex_ds [qz 2; qz 60] [qz 1; qz 350] 1 = (qz 5 / qz 12)%Qc /\
  build_A_row (piecewise_linear [qz 2; qz 60]) ex_ds [qz 2; qz 60] [qz 1; qz (-10)] 1 = (qz 5 / qz 12)%Qc.
Proof.
  split; [apply pl_compact; repeat constructor|]. split; apply Qc_is_canon; vm_compute; reflexivity.
Qed.

(* ---- C81 With piecewise linear functions as wide as the node spacing, the design matrix interpolates. *)
Theorem C81_interpolation : forall ds x cell values, Forall proper ds -> in_cells ds x cell ->
  sumn (length (nodes ds)) (fun k => build_A_row (piecewise_linear (map spacing ds)) ds (map spacing ds) x k * values k)%Qc
  = multilinear ds cell (fun is => values (number 1 (sizes ds) is)).
Proof.
  intros ds x cell v P C. rewrite nodes_length, (row_sum ds x cell v P C). apply multilinear_ext. intros is. rewrite number_F. reflexivity.
Qed.
Print Assumptions C81_interpolation.
(* Every location inside the lattice lies in a cell. *)
Theorem C81_cells : forall ds x, Forall proper ds -> Forall2 (fun d a => d_wrap d = true \/ (d_lo d <= a /\ a <= d_hi d)%Qc) ds x -> exists cell, in_cells ds x cell.
Proof. intros ds x P. apply cells_exist, P. Qed.
Print Assumptions C81_cells.
(* The weights of a row are between 0 and 1 and sum to 1, and reproduce the location itself in a dimension that does not wrap. *)
Theorem C81_weights : forall ds x, Forall proper ds -> Forall2 (fun d a => d_wrap d = true \/ (d_lo d <= a /\ a <= d_hi d)%Qc) ds x ->
  let A := build_A_row (piecewise_linear (map spacing ds)) ds (map spacing ds) x in
  (forall k, k < length (nodes ds) -> (0 <= A k)%Qc /\ (A k <= 1)%Qc) /\ sumn (length (nodes ds)) A = 1%Qc /\
  (forall m, m < length ds -> d_wrap (nth m ds {| d_lo := 0; d_hi := 0; d_n := 0; d_wrap := false |}) = false ->
    sumn (length (nodes ds)) (fun k => A k * nth m (nth k (nodes ds) []) 0)%Qc = nth m x 0%Qc).
Proof.
  intros ds x P H A. destruct (C81_cells ds x P H) as (cell & C). split; [|split].
  - intros k K. destruct (C43_numbering ds) as (_ & _ & N & _). destruct (N k K) as (is & I & <-). unfold A.
    rewrite C80_entries; try assumption; [apply pl_range|apply map_length|symmetry; eapply Spde_Proofs.Forall2_length, H|apply pl_compact, spacings_pos, P].
  - transitivity (sumn (length (nodes ds)) (fun k => A k * (fun _ => 1%Qc) k)%Qc); [apply sumn_ext; intros; ring|]. unfold A.
    rewrite (C81_interpolation ds x cell _ P C). apply (multilinear_const ds cell x), C.
  - intros m Hm W. unfold A. rewrite nodes_length. rewrite (row_sum ds x cell (fun k => nth m (nth k (nodes ds) []) 0%Qc) P C).
    rewrite <- (multilinear_coordinate ds cell x m P C Hm W). 
    rewrite <- !(grid_sum ds x cell _ P C). f_equal. apply map_ext_in. intros is I. rewrite nth_nodes by (apply in_indices, I). reflexivity.
Qed.
Print Assumptions C81_weights.
(* At a node only that node counts. *)
Theorem C81_nodes : forall ds is js, Forall proper ds -> is_node ds is -> is_node ds js ->
  build_A_row (piecewise_linear (map spacing ds)) ds (map spacing ds) (coordinates ds is) (number 1 (sizes ds) js) = if list_eq_dec Nat.eq_dec js is then 1%Qc else 0%Qc.
Proof.
  intros ds is js P I J. rewrite C80_entries; try assumption; [apply pl_nodes; assumption|apply map_length| |apply pl_compact, spacings_pos, P].
  clear J P. induction I; cbn; congruence.
Qed.
Print Assumptions C81_nodes.
Example C81_nonvacuous : in_cells ex_ds [qz 1; qz (-10)] [(0, (qz 1 / qz 2)%Qc); (5, (qz 5 / qz 6)%Qc)].
Proof.
  cbn [in_cells ex_ds]. split; [|split; [|exact I]].
  - split; [discriminate|]. split; [discriminate|]. cbn [d_wrap d_n]. split; [lia|]. apply Qc_is_canon; vm_compute; reflexivity.
  - split; [discriminate|]. split; [discriminate|]. cbn [d_wrap d_n]. split; [lia|]. exists (-1)%Z. apply Qc_is_canon; vm_compute; reflexivity.
Qed.

(* ---- C82 Covariates given on a regular grid are interpolated bilinearly, around the globe in longitude. *)
Theorem C82_bilinear : forall a b s rows cols c i j f g, (0 < s)%Qc -> round2 s = s -> 2 <= rows -> 2 <= cols -> S i < rows -> j < cols ->
  (0 <= f)%Qc -> (f <= 1)%Qc -> (0 <= g)%Qc -> (g <= 1)%Qc ->
  bilinear (regular a s rows) (regular b s cols) c (a + (qn i + f) * s)%Qc (b + (qn j + g) * s)%Qc =
  Ok ((1 - f) * ((1 - g) * c i j + g * c i (east cols j)) + f * ((1 - g) * c (S i) j + g * c (S i) (east cols j)))%Qc.
Proof.
  intros a b s rows cols c i j f g Sp R Hr Hc Hi Hj F0 F1 G0 G1.
  replace (a + (qn i + f) * s)%Qc with (a - s + (qn (S i) + f) * s)%Qc by (rewrite qn_S; ring).
  replace (b + (qn j + g) * s)%Qc with (b - s + (qn (S j) + g) * s)%Qc by (rewrite qn_S; ring).
  rewrite bilinear_extended by (assumption || lia). cbv zeta. rewrite (extended_inside rows cols c i j), (extended_inside rows cols c (S i) j), !extended_next by lia. reflexivity.
Qed.
Print Assumptions C82_bilinear.
(* In particular the covariate itself at every point of the grid. *)
Theorem C82_grid_points : forall a b s rows cols c i j, (0 < s)%Qc -> round2 s = s -> 2 <= rows -> 2 <= cols -> i < rows -> j < cols ->
  bilinear (regular a s rows) (regular b s cols) c (nth i (regular a s rows) 0%Qc) (nth j (regular b s cols) 0%Qc) = Ok (c i j).
Proof.
  intros a b s rows cols c i j Sp R Hr Hc Hi Hj.
  assert (E : forall a n k, k < n -> nth k (regular a s n) 0%Qc = (a + (qn k + 0) * s)%Qc).
  { intros a0 n k K. rewrite Qcplus_0_r. unfold regular. rewrite (nth_indep _ _ ((fun i => a0 + qn i * s)%Qc 0)) by (rewrite map_length, seq_length; exact K).
    rewrite (map_nth (fun i => a0 + qn i * s)%Qc), seq_nth by exact K. reflexivity. }
  rewrite !E by assumption.
  replace (a + (qn i + 0) * s)%Qc with (a - s + (qn (S i) + 0) * s)%Qc by (rewrite qn_S; ring).
  replace (b + (qn j + 0) * s)%Qc with (b - s + (qn (S j) + 0) * s)%Qc by (rewrite qn_S; ring).
  rewrite bilinear_extended; try assumption; try lia; try discriminate. cbv zeta. rewrite (extended_inside rows cols c i j) by lia. f_equal. ring.
Qed.
Print Assumptions C82_grid_points.
(* West of the first column the values continue from the last one, as east of the last column. *)
Theorem C82_seam : forall a b s rows cols c i f g, (0 < s)%Qc -> round2 s = s -> 2 <= rows -> 2 <= cols -> S i < rows ->
  (0 <= f)%Qc -> (f <= 1)%Qc -> (0 <= g)%Qc -> (g <= 1)%Qc ->
  bilinear (regular a s rows) (regular b s cols) c (a + (qn i + f) * s)%Qc (b + (qn (cols - 1) + g) * s)%Qc =
  bilinear (regular a s rows) (regular b s cols) c (a + (qn i + f) * s)%Qc (b + (qn (cols - 1) + g) * s - qn cols * s)%Qc.
Proof.
  intros a b s rows cols c i f g Sp R Hr Hc Hi F0 F1 G0 G1. rewrite C82_bilinear by (assumption || lia).
  replace (b + (qn (cols - 1) + g) * s - qn cols * s)%Qc with (b - s + (qn 0 + g) * s)%Qc.
  - replace (a + (qn i + f) * s)%Qc with (a - s + (qn (S i) + f) * s)%Qc by (rewrite qn_S; ring).
    rewrite bilinear_extended by (assumption || lia). cbv zeta. rewrite !extended_west, !extended_inside by lia.
    unfold east. replace (S (cols - 1) =? cols) with true by (symmetry; apply Nat.eqb_eq; lia). reflexivity.
  - rewrite qn_0. replace (qn cols) with (qn (cols - 1) + 1)%Qc by (rewrite <- qn_S; f_equal; lia). ring.
Qed.
Print Assumptions C82_seam.
(* Towards the pole beyond the last row the values tend to a mean of that row in which the first and last column count twice. *)
Theorem C82_pole : forall a b s rows cols c j g, (0 < s)%Qc -> round2 s = s -> 2 <= rows -> 2 <= cols -> j < cols -> (0 <= g)%Qc -> (g <= 1)%Qc ->
  bilinear (regular a s rows) (regular b s cols) c (a + qn rows * s)%Qc (b + (qn j + g) * s)%Qc =
  Ok ((sumn cols (c (rows - 1)%nat) + c (rows - 1)%nat 0%nat + c (rows - 1)%nat (cols - 1)%nat) / qn (cols + 2))%Qc.
Proof.
  intros a b s rows cols c j g Sp R Hr Hc Hj G0 G1.
  replace (a + qn rows * s)%Qc with (a - s + (qn rows + 1) * s)%Qc by ring.
  replace (b + (qn j + g) * s)%Qc with (b - s + (qn (S j) + g) * s)%Qc by (rewrite qn_S; ring).
  rewrite bilinear_extended; try assumption; try lia; try discriminate. cbv zeta. f_equal.
  assert (E : forall q, extended rows cols c (S rows) q = ((sumn cols (c (rows - 1)%nat) + c (rows - 1)%nat 0%nat + c (rows - 1)%nat (cols - 1)%nat) / qn (cols + 2))%Qc).
  { intros q. unfold extended, extend_rows. destruct (Nat.eqb_spec (S rows) 0); [lia|]. destruct (Nat.eqb_spec (S rows) (rows + 1)); [|lia]. apply mean_row. lia. }
  rewrite !E. ring.
Qed.
Print Assumptions C82_pole.
Lemma pole_first a b s rows cols c : (0 < s)%Qc -> round2 s = s -> 2 <= rows -> 2 <= cols ->
  bilinear (regular a s rows) (regular b s cols) c (a + qn rows * s)%Qc b =
  Ok ((sumn cols (c (rows - 1)%nat) + c (rows - 1)%nat 0%nat + c (rows - 1)%nat (cols - 1)%nat) / qn (cols + 2))%Qc.
Proof.
  intros Sp R Hr Hc. rewrite <- (C82_pole a b s rows cols c 0 0) by (assumption || lia || discriminate). f_equal. rewrite qn_0. ring.
Qed.
(* so that it is not the mean over the row *)
Theorem C82_pole_mean_refuted : exists a b s rows cols c, (0 < s)%Qc /\ round2 s = s /\ 2 <= rows /\ 2 <= cols /\
  bilinear (regular a s rows) (regular b s cols) c (a + qn rows * s)%Qc b <> Ok (sumn cols (c (rows - 1)%nat) / qn cols)%Qc.
Proof.
  exists 0%Qc, 0%Qc, 1%Qc, 2, 3, (fun i j => if j =? 1 then 0%Qc else 1%Qc). split; [reflexivity|]. split; [apply Qc_is_canon; vm_compute; reflexivity|]. split; [lia|]. split; [lia|].
  rewrite (pole_first 0 0 1 2 3); try lia; [|reflexivity|apply Qc_is_canon; vm_compute; reflexivity].
  intros E. discriminate E.
Qed.
Print Assumptions C82_pole_mean_refuted.
(* The order of the latitudes is not looked at: the rows are taken to run from the smallest latitude to the largest.  For a grid that
   starts in the north the covariate is therefore mirrored. *)
Theorem C82_order_ignored : forall lats lats' lons c x y, Permutation lats lats' -> bilinear lats lons c x y = bilinear lats' lons c x y.
Proof. intros. apply bilinear_perm. assumption. Qed.
Print Assumptions C82_order_ignored.
Theorem C82_north_first_refuted : forall a b s rows cols c i j, (0 < s)%Qc -> round2 s = s -> 2 <= rows -> 2 <= cols -> i < rows -> j < cols ->
  let lats := rev (regular a s rows) in
  bilinear lats (regular b s cols) c (nth i lats 0%Qc) (nth j (regular b s cols) 0%Qc) = Ok (c (rows - 1 - i) j).
Proof.
  intros a b s rows cols c i j Sp R Hr Hc Hi Hj lats. unfold lats.
  rewrite (bilinear_perm _ (regular a s rows)) by (apply Permutation_sym, Permutation_rev).
  rewrite rev_nth by (rewrite regular_length; exact Hi). rewrite regular_length. replace (rows - S i) with (rows - 1 - i) by lia.
  apply C82_grid_points; assumption || lia.
Qed.
Print Assumptions C82_north_first_refuted.
(* Different spacings in latitude and longitude are refused. *)
Theorem C82_spacing_checked : forall a b s t rows cols c x y, (0 < s)%Qc -> (0 < t)%Qc -> 2 <= rows -> 2 <= cols -> round2 s <> round2 t ->
  bilinear (regular a s rows) (regular b t cols) c x y = Err ValueError.
Proof.
  intros. unfold bilinear. rewrite !regular_spacing by assumption. destruct (Qc_eq_dec (round2 s) (round2 t)); [contradiction|reflexivity].
Qed.
Print Assumptions C82_spacing_checked.
Example C82_nonvacuous : (0 < qz 1 / qz 4)%Qc /\ round2 (qz 1 / qz 4) = (qz 1 / qz 4)%Qc /\ round2 (qz 1 / qz 4) <> round2 (qz 1 / qz 2) /\ round2 (qz 1 / qz 3) <> (qz 1 / qz 3)%Qc.
Proof.
  split; [reflexivity|]. split; [apply Qc_is_canon; vm_compute; reflexivity|].
  split; intros E; apply (f_equal this) in E; vm_compute in E; discriminate.
Qed.
