(* Properties of values of a component on a grid: C55, C97, C98, C99. *)
From Coq Require Import QArith Qcanon String Permutation Sorted.
From Verif Require Import Base Grid_Model Grid_Proofs Proj_Model Proj_Spec Proj_Proofs.
Local Open Scope Z_scope.
Local Open Scope list_scope.

(* ------------------------------------------------------------------ examples *)
Definition q (n : Z) (d : positive) : Qc := Q2Qc (n # d).
(* a positive weight that falls with the distance from the equator, in place of the cosine *)
Definition ex_cosine (x : Qc) : Qc := (1 - x * x / qz 8100)%Qc.
(* two components: one with a state for each time, and one with a single state *)
Definition ex_kind (c : bool) : storage := if c then Time_indexed else Index_free.
Definition ex_row (c : bool) (t : Z) (p : Qc * Qc) : list Qc := if c then [1; fst p; snd p]%Qc else [1; fst p; qz t]%Qc.
Definition ex_state_at (c : bool) (t : Z) : option (list Qc) := if t <? 0 then None else Some [qz t; 1; 1]%Qc.
Definition ex_whole_state (c : bool) : option (list Qc) := Some [1; q 1 2; 1]%Qc.
Definition ex_samples : list (list Qc) := [[1; q 1 2; 1]; [1; q 3 2; 1]]%Qc.
Definition ex_grid : grid := {| latitudes := [qz 10; qz 20; qz 30]; longitudes := [qz 0; qz 5]; resolution := (qz 10, qz 5); sampling := (2, 3) |}.
Definition ex_run := run bool ex_row ex_cosine ex_kind ex_state_at (fun _ _ => Some ex_samples) (fun _ _ => None) ex_whole_state (fun _ => Some ex_samples) (fun _ => None) ex_grid.

(* ------------------------------------------------------------------ C55: blocks of rows *)
Section Samples.
Variable component : Type.

(* C55: with no more blocks than outputs, the spread computed by blocks is, for every output and in order, that of its values for all samples. *)
Theorem C55_std blocking (p : projector component) (prior : bool) samples x m :
  (if prior then prior_samples _ p else state_samples _ p) = Some samples -> samples <> [] -> state_solution _ p = Some x -> design_matrix _ p = Some m -> 1 <= blocking <= zlen m ->
  project_sample_std component blocking p prior = Ok (Some (map (fun r => spread (map (inner r) samples)) m)).
Proof.
  intros S N X M B. unfold project_sample_std. rewrite S, X, M, blocked_all by exact B. cbn [bind]. do 2 f_equal. apply map_ext. intros r.
  rewrite variance_spread by (destruct samples; [easy|discriminate]). f_equal. apply map_ext. intros s. apply dot_inner.
Qed.
(* C55: likewise the mean of the squares. *)
Theorem C55_deviation blocking (p : projector component) (prior : bool) samples x m :
  (if prior then prior_samples _ p else state_samples _ p) = Some samples -> samples <> [] -> state_solution _ p = Some x -> design_matrix _ p = Some m -> 1 <= blocking <= zlen m ->
  project_sample_deviation component blocking p prior = Ok (Some (map (fun r => second_moment (map (inner r) samples)) m)).
Proof.
  intros S N X M B. unfold project_sample_deviation. assert (E : (if prior then Ok tt else match state_samples _ p, state_solution _ p with Some _, Some _ => Ok tt | _, _ => Err AttributeError end) = Ok tt).
  { destruct prior; [reflexivity|]. now rewrite S, X. }
  rewrite E. cbn [bind]. rewrite S, M, blocked_all by exact B. cbn [bind]. do 2 f_equal. apply map_ext. intros r. unfold mean_square, second_moment, mean, average. rewrite (map_ext (dot r) (inner r)) by (intros s; apply dot_inner). reflexivity.
Qed.
(* C55: the number of blocks does not matter, as long as it is not greater than the number of outputs. *)
Theorem C55_any_blocking b1 b2 (p : projector component) (prior : bool) m : design_matrix _ p = Some m -> 1 <= b1 <= zlen m -> 1 <= b2 <= zlen m ->
  project_sample_std component b1 p prior = project_sample_std component b2 p prior /\ project_sample_deviation component b1 p prior = project_sample_deviation component b2 p prior.
Proof. intros M B1 B2. unfold project_sample_std, project_sample_deviation. rewrite M. split; destruct (if prior then prior_samples _ p else state_samples _ p) as [s|]; now rewrite ?(blocked_all _ b1), ?(blocked_all _ b2). Qed.
(* C55, finding: with more blocks than outputs both raise a division error. *)
Theorem C55_few_outputs_refuted blocking (p : projector component) (prior : bool) samples x m :
  (if prior then prior_samples _ p else state_samples _ p) = Some samples -> state_solution _ p = Some x -> design_matrix _ p = Some m -> zlen m < blocking ->
  project_sample_std component blocking p prior = Err ZeroDivisionError /\ project_sample_deviation component blocking p prior = Err ZeroDivisionError.
Proof.
  intros S X M B. unfold project_sample_std, project_sample_deviation. rewrite S, X, M, !blocked_few by exact B. split; [reflexivity|]. destruct prior; [reflexivity|]. rewrite S. reflexivity.
Qed.
(* C55, finding: without posterior samples the spread is None, and the deviation raises an exception instead. *)
Theorem C55_no_samples_refuted blocking (p : projector component) : state_samples _ p = None ->
  project_sample_std component blocking p false = Ok None /\ project_sample_deviation component blocking p false = Err AttributeError.
Proof. intros S. unfold project_sample_std, project_sample_deviation. now rewrite S. Qed.
End Samples.
(* C55: blocks of latitudes. Whatever the order of the latitudes, the blocks are consecutive parts of them, none empty, none longer than asked for, and the result is that of the blocks one after the other. *)
Theorem C55_latitude_blocks argsort cosine r field s : 1 <= blocking r -> cell_latitudes r <> [] -> exists blocks,
  concat blocks = cell_latitudes r /\ Forall (fun b => b <> [] /\ zlen b <= blocking r) blocks /\
  compute_gridded_expected_value argsort cosine r field s = do vs <- mapM (compute_blocked argsort cosine r field s) blocks; Ok (concat vs).
Proof. apply gridded_blocks. Qed.
(* C55: for latitudes in ascending order, regridding in blocks of any lengths gives the same. *)
Theorem C55_any_latitude_blocks argsort cosine r r' field s : sorts argsort -> ascending (cell_latitudes r) -> cell_latitudes r <> [] -> cell_longitudes r <> [] -> 1 <= points_lat r -> 1 <= points_lon r ->
  1 <= blocking r -> 1 <= blocking r' -> r' = {| cell_latitudes := cell_latitudes r; cell_longitudes := cell_longitudes r; points_lat := points_lat r; points_lon := points_lon r; blocking := blocking r';
    latitude_spacing := latitude_spacing r; longitude_spacing := longitude_spacing r |} ->
  compute_gridded_expected_value argsort cosine r' field s = compute_gridded_expected_value argsort cosine r field s.
Proof.
  intros G A N1 N2 H1 H2 B B' E. rewrite E. clear E. set (b := blocking r') in *. destruct (solution_field field s) as [f|e] eqn:F.
  - rewrite !(gridded_spec argsort cosine _ field s f); cbn [cell_latitudes cell_longitudes points_lat points_lon blocking latitude_spacing longitude_spacing]; auto.
  - assert (X : field <> "MAP"%string /\ field <> "post_STD"%string /\ field <> "prior_STD"%string) by (repeat split; intros ->; discriminate F). destruct X as (X & Y & Z).
    rewrite !field_unknown; cbn [cell_latitudes cell_longitudes points_lat points_lon blocking latitude_spacing longitude_spacing]; auto.
Qed.
Print Assumptions C55_std.
Print Assumptions C55_deviation.
Print Assumptions C55_any_blocking.
Print Assumptions C55_few_outputs_refuted.
Print Assumptions C55_no_samples_refuted.
Print Assumptions C55_latitude_blocks.
Print Assumptions C55_any_latitude_blocks.
Definition shown {A} (r : result (option (list A))) : list A := match r with Ok (Some l) => l | _ => [] end.
(* six outputs, in four blocks of one row and a last of ... : block length 1; in 1 block; and in 7 blocks *)
Example C55_nonvacuous : exists p, ex_run 0 [Set_component bool false false; Evaluate bool] = Ok p /\
  option_map zlen (design_matrix _ p) = Some 6 /\ project_sample_std bool 4 p false = project_sample_std bool 1 p false /\ zlen (shown (project_sample_std bool 4 p false)) = 6 /\
  nth 0 (shown (project_sample_std bool 4 p false)) 0%Qc <> nth 4 (shown (project_sample_std bool 4 p false)) 0%Qc /\ project_sample_std bool 7 p false = Err ZeroDivisionError.
Proof. eexists. split; [vm_compute; reflexivity|]. split; [reflexivity|]. split; [vm_compute; reflexivity|]. split; [vm_compute; reflexivity|]. split; [vm_compute; discriminate|]. vm_compute. reflexivity. Qed.
(* three latitudes in blocks of two *)
Definition ex_solution : solution := {| expected_value := fun p => (fst p * snd p)%Qc; expected_uncertainties := fun p => (fst p * fst p)%Qc; prior_uncertainties := fun _ => 1%Qc |}.
Definition ex_regridder (b : Z) : regridder := {| cell_latitudes := [qz 10; qz 20; qz 30]; cell_longitudes := [qz 0; qz 5]; points_lat := 2; points_lon := 3; blocking := b; latitude_spacing := qz 10; longitude_spacing := qz 5 |}.
Example C55_blocks_nonvacuous : sorts some_argsort /\ ascending (cell_latitudes (ex_regridder 2)) /\
  is_ok (compute_gridded_expected_value some_argsort ex_cosine (ex_regridder 2) "MAP" ex_solution) = true /\
  compute_gridded_expected_value some_argsort ex_cosine (ex_regridder 2) "MAP" ex_solution = compute_gridded_expected_value some_argsort ex_cosine (ex_regridder 100) "MAP" ex_solution.
Proof. split; [apply some_argsort_sorts|]. split; [repeat constructor; vm_compute; discriminate|]. split; vm_compute; reflexivity. Qed.

(* ------------------------------------------------------------------ C97: samples within cells *)
Section Cells.
Variable component : Type.
Variable row : component -> Z -> Qc * Qc -> list Qc.
Variable cosine : Qc -> Qc.

(* C97: the values a state gives on the grid are the area-weighted means, over the sample points of each cell, of the values it gives at the points; the cells are in order, latitude by latitude. *)
Theorem C97_cell_means g c t d : (forall p, length (row c t p) = d) -> 1 <= fst (sampling g) -> 1 <= snd (sampling g) ->
  (forall k, In k (cells (latitudes g) (longitudes g)) -> sumQ (map (area cosine) (parts (resolution g) (sampling g) k)) <> 0%Qc) ->
  exists m, evaluate component row cosine g c t = Ok m /\ length m = (length (latitudes g) * length (longitudes g))%nat /\
    forall x, apply m x = map (cell_mean cosine (resolution g) (sampling g) (fun p => inner (row c t p) x)) (cells (latitudes g) (longitudes g)).
Proof. intros D A B _. destruct (evaluate_spec row cosine g c t d D A B) as (m & E & L & H). exists m. rewrite cells_length in L. auto. Qed.
(* C97: with one sample per cell the values are those at the centres. *)
Theorem C97_one_sample g c t d : (forall p, length (row c t p) = d) -> sampling g = (1, 1) -> (forall lat, In lat (latitudes g) -> cosine lat <> 0%Qc) ->
  exists m, evaluate component row cosine g c t = Ok m /\ forall x, apply m x = map (fun k => inner (row c t k) x) (cells (latitudes g) (longitudes g)).
Proof.
  intros D S W. destruct (evaluate_spec row cosine g c t d D ltac:(rewrite S; cbn; lia) ltac:(rewrite S; cbn; lia)) as (m & E & _ & H). exists m. split; [exact E|]. intros x. rewrite H. apply map_ext_in. intros [a b] I.
  apply cells_in in I. assert (X : parts (resolution g) (1, 1) (a, b) = [(a, b)]).
  { assert (M : forall c w, midpoint c w 1 0 = c) by (intros c0 w; unfold midpoint; replace (qz (2 * 0 + 1) / qz (2 * 1) - Q2Qc (1 # 2))%Qc with 0%Qc by (apply Qc_is_canon; vm_compute; reflexivity); ring).
    unfold parts. cbn [fst snd]. change (zrange 0 1) with [0]. cbn [map cells app]. now rewrite !M. }
  unfold cell_mean. rewrite S, X. apply weighted_mean_const; [intros p [<-|[]]; reflexivity|]. cbn [map]. rewrite sumQ_cons. change (sumQ []) with 0%Qc. rewrite Qcplus_0_r. apply W, I.
Qed.
(* C97: no samples along an axis is an error. *)
Theorem C97_no_sample g c t : fst (sampling g) = 0 \/ snd (sampling g) = 0 -> evaluate component row cosine g c t = Err ZeroDivisionError.
Proof. intros [H|H]; unfold evaluate; rewrite H; [reflexivity|]. now rewrite orb_true_r. Qed.
End Cells.
(* C97: the points of a cell are inside it, at equal distances along each axis, and their mean is the centre. *)
Theorem C97_points width n cell p : (0 < fst width)%Qc -> (0 < snd width)%Qc -> In p (parts width n cell) ->
  ((fst cell - fst width / qz 2 < fst p)%Qc /\ (fst p < fst cell + fst width / qz 2)%Qc) /\ ((snd cell - snd width / qz 2 < snd p)%Qc /\ (snd p < snd cell + snd width / qz 2)%Qc).
Proof.
  intros W1 W2 I. destruct p as [a b]. unfold parts in I. apply cells_in in I. destruct I as [A B]. apply in_map_iff in A, B. destruct A as (i & <- & A), B as (j & <- & B).
  apply zrange_In in A, B. split; apply midpoint_inside; assumption.
Qed.
Theorem C97_spacing centre width n i : 1 <= n -> (midpoint centre width n (i + 1) - midpoint centre width n i = width / qz n)%Qc /\ average (map (midpoint centre width n) (zrange 0 n)) = centre.
Proof. intros N. split; [now apply midpoint_step|now apply midpoint_mean]. Qed.
(* C97: a constant keeps its value, and the mean lies between bounds of the values at the points (also for regridding, C98). *)
Theorem C97_constant cosine width n f cell k : (forall p, In p (parts width n cell) -> f p = k) -> sumQ (map (area cosine) (parts width n cell)) <> 0%Qc -> cell_mean cosine width n f cell = k.
Proof. apply weighted_mean_const. Qed.
Theorem C97_bounds cosine width n f cell lo hi : 1 <= fst n -> 1 <= snd n -> (forall p, In p (parts width n cell) -> (0 < area cosine p)%Qc) -> (forall p, In p (parts width n cell) -> (lo <= f p)%Qc /\ (f p <= hi)%Qc) ->
  (lo <= cell_mean cosine width n f cell)%Qc /\ (cell_mean cosine width n f cell <= hi)%Qc.
Proof.
  intros A B. apply weighted_mean_bounds. unfold parts. rewrite (zrange_cons 0 (fst n)), (zrange_cons 0 (snd n)) by lia. discriminate.
Qed.
Print Assumptions C97_cell_means.
Print Assumptions C97_one_sample.
Print Assumptions C97_no_sample.
Print Assumptions C97_points.
Print Assumptions C97_spacing.
Print Assumptions C97_constant.
Print Assumptions C97_bounds.
Example C97_nonvacuous : (forall p, length (ex_row true 3 p) = 3%nat) /\ sampling ex_grid = (2, 3) /\ length (cells (latitudes ex_grid) (longitudes ex_grid)) = 6%nat /\
  (forall k p, In k (cells (latitudes ex_grid) (longitudes ex_grid)) -> In p (parts (resolution ex_grid) (sampling ex_grid) k) -> (0 < area ex_cosine p)%Qc) /\
  parts (resolution ex_grid) (sampling ex_grid) (qz 10, qz 0) = [(q 15 2, q (-5) 3); (q 15 2, qz 0); (q 15 2, q 5 3); (q 25 2, q (-5) 3); (q 25 2, qz 0); (q 25 2, q 5 3)].
Proof.
  split; [reflexivity|]. split; [reflexivity|]. split; [reflexivity|]. split.
  2:{ unfold parts. change (zrange 0 (fst (sampling ex_grid))) with [0; 1]. change (zrange 0 (snd (sampling ex_grid))) with [0; 1; 2]. cbn [map cells app].
      repeat match goal with |- _ :: _ = _ :: _ => apply f_equal2 | |- (_, _) = (_, _) => apply f_equal2 | |- [] = [] => reflexivity end; apply Qc_is_canon; vm_compute; reflexivity. }
  assert (H : forallb (fun k => forallb (fun p => Qclt_bool 0 (area ex_cosine p)) (parts (resolution ex_grid) (sampling ex_grid) k)) (cells (latitudes ex_grid) (longitudes ex_grid)) = true) by (vm_compute; reflexivity).
  rewrite forallb_forall in H. intros k p K P. apply H in K. rewrite forallb_forall in K. now apply Qclt_bool_iff, K.
Qed.

(* ------------------------------------------------------------------ C98: regridding *)
(* C98: for latitudes in ascending order (and longitudes in any order) the result has, for each cell, latitude by latitude, the area-weighted mean of the field asked for over the points of the cell; however equal keys are sorted. *)
Theorem C98_cell_means argsort cosine r field s : sorts argsort -> 1 <= blocking r -> 1 <= points_lat r -> 1 <= points_lon r -> ascending (cell_latitudes r) -> cell_latitudes r <> [] -> cell_longitudes r <> [] ->
  In field ["MAP"; "post_STD"; "prior_STD"]%string ->
  (forall k, In k (cells (cell_latitudes r) (cell_longitudes r)) -> sumQ (map (area cosine) (parts (latitude_spacing r, longitude_spacing r) (points_lat r, points_lon r) k)) <> 0%Qc) ->
  compute_gridded_expected_value argsort cosine r field s
  = Ok (map (cell_mean cosine (latitude_spacing r, longitude_spacing r) (points_lat r, points_lon r)
       (if String.eqb field "MAP" then expected_value s else if String.eqb field "post_STD" then expected_uncertainties s else prior_uncertainties s)) (cells (cell_latitudes r) (cell_longitudes r))).
Proof. intros G B H1 H2 A N1 N2 F _. apply gridded_spec; try assumption. destruct F as [<-|[<-|[<-|[]]]]; reflexivity. Qed.
(* C98: any other field is refused. *)
Theorem C98_unknown_field argsort cosine r field s : sorts argsort -> ascending (cell_latitudes r) -> cell_latitudes r <> [] -> 1 <= blocking r -> 1 <= points_lat r -> 1 <= points_lon r ->
  ~ In field ["MAP"; "post_STD"; "prior_STD"]%string -> compute_gridded_expected_value argsort cosine r field s = Err ValueError.
Proof. intros G A N B H1 H2 F. apply field_unknown; auto; intros ->; apply F; cbn; auto. Qed.
(* C98: the width of the cells is the distance of the first two centres, rounded to three decimals: exact if it is a whole number of thousandths. *)
Theorem C98_spacing a0 a1 la b0 b1 lo nlat nlon blk i j : (a1 - a0 = qz i / qz 1000)%Qc -> (b1 - b0 = qz j / qz 1000)%Qc ->
  exists r, new_regridder (a0 :: a1 :: la) (b0 :: b1 :: lo) nlat nlon blk = Ok r /\ latitude_spacing r = (a1 - a0)%Qc /\ longitude_spacing r = (b1 - b0)%Qc /\
    cell_latitudes r = a0 :: a1 :: la /\ cell_longitudes r = b0 :: b1 :: lo /\ points_lat r = nlat /\ points_lon r = nlon /\ blocking r = blk.
Proof.
  intros E F. unfold new_regridder. rewrite !py_index_first, !py_index_second. cbn [bind]. eexists. split; [reflexivity|]. cbn. rewrite E, F, !round3_exact. repeat split.
Qed.
(* C98: what happens for other orders of the latitudes: within each block the values are listed for the latitudes in ascending order. *)
Theorem C98_block_order argsort cosine r field s f b b' : sorts argsort -> 1 <= points_lat r -> 1 <= points_lon r -> cell_longitudes r <> [] -> solution_field field s = Ok f ->
  b <> [] -> Permutation b b' -> ascending b' ->
  compute_blocked argsort cosine r field s b = Ok (map (cell_mean cosine (latitude_spacing r, longitude_spacing r) (points_lat r, points_lon r) f) (cells b' (cell_longitudes r))).
Proof. intros G H1 H2 N E Nb P A. now apply (blocked_spec argsort cosine G (points_lat r) (points_lon r) (latitude_spacing r) (longitude_spacing r) H1 H2 field s f b b' (cell_longitudes r)). Qed.
(* C98, finding: from north to south the values are not those of the cells. *)
Definition ex_descending : regridder := {| cell_latitudes := [qz 20; qz 10]; cell_longitudes := [qz 0]; points_lat := 1; points_lon := 1; blocking := 2; latitude_spacing := qz (-10); longitude_spacing := qz 5 |}.
Definition ex_latitude : solution := {| expected_value := fst; expected_uncertainties := fst; prior_uncertainties := fst |}.
Theorem C98_descending_refuted argsort cosine : sorts argsort -> cosine (qz 10) <> 0%Qc -> cosine (qz 20) <> 0%Qc ->
  compute_gridded_expected_value argsort cosine ex_descending "MAP" ex_latitude = Ok [qz 10; qz 20] /\
  map (cell_mean cosine (qz (-10), qz 5) (1, 1) (expected_value ex_latitude)) (cells (cell_latitudes ex_descending) (cell_longitudes ex_descending)) = [qz 20; qz 10].
Proof.
  intros G C1 C2. assert (M : forall c w, midpoint c w 1 0 = c) by (intros c w; unfold midpoint; replace (qz (2 * 0 + 1) / qz (2 * 1) - Q2Qc (1 # 2))%Qc with 0%Qc by (apply Qc_is_canon; vm_compute; reflexivity); ring).
  assert (V : forall c, cosine c <> 0%Qc -> cell_mean cosine (qz (-10), qz 5) (1, 1) fst (c, qz 0) = c).
  { intros c Cc. assert (X : parts (qz (-10), qz 5) (1, 1) (c, qz 0) = [(c, qz 0)]) by (unfold parts; cbn [fst snd]; change (zrange 0 1) with [0]; cbn [map cells app]; now rewrite !M).
    unfold cell_mean. rewrite X. apply weighted_mean_const; [intros p [<-|[]]; reflexivity|]. cbn [map]. rewrite sumQ_cons. change (sumQ []) with 0%Qc. rewrite Qcplus_0_r. exact Cc. }
  split; [|cbn [map cells app cell_latitudes cell_longitudes ex_descending expected_value ex_latitude]; now rewrite !V].
  assert (X := blocked_spec argsort cosine G 1 1 (qz (-10)) (qz 5) ltac:(lia) ltac:(lia) "MAP" ex_latitude fst [qz 20; qz 10] [qz 10; qz 20] [qz 0] (perm_swap _ _ _)
     ltac:(repeat constructor; vm_compute; discriminate) ltac:(discriminate) ltac:(discriminate) eq_refl ex_descending eq_refl eq_refl eq_refl eq_refl eq_refl).
  unfold compute_gridded_expected_value. change (zslice (cell_latitudes ex_descending)) with (zslice [qz 20; qz 10]). change (zlen (cell_latitudes ex_descending)) with 2. cbn [blocking ex_descending].
  change (zrange 0 (2 / (if 2 >? 2 then 2 else 2))) with [0]. change (2 mod (if 2 >? 2 then 2 else 2)) with 0. change (if 2 >? 2 then 2 else 2) with 2. cbn [foldM Z.eqb].
  change (zslice [qz 20; qz 10] (0 * 2) ((0 + 1) * 2)) with [qz 20; qz 10]. rewrite X. cbn [bind fst app map cells]. now rewrite !V.
Qed.
Print Assumptions C98_cell_means.
Print Assumptions C98_unknown_field.
Print Assumptions C98_spacing.
Print Assumptions C98_block_order.
Print Assumptions C98_descending_refuted.
Definition numbers (r : result (list Qc)) : list Q := match r with Ok l => map this l | Err _ => [] end.
Example C98_nonvacuous : sorts some_argsort /\ ascending (cell_latitudes (ex_regridder 2)) /\
  match new_regridder [qz 10; qz 20; qz 30] [qz 0; qz 5] 2 3 2 with Ok r => this (latitude_spacing r) = 10%Q /\ this (longitude_spacing r) = 5%Q | Err _ => False end /\
  numbers (compute_gridded_expected_value some_argsort ex_cosine (ex_regridder 2) "post_STD" ex_solution)
  = map (fun k => this (cell_mean ex_cosine (qz 10, qz 5) (2, 3) (fun p => fst p * fst p)%Qc k)) (cells [qz 10; qz 20; qz 30] [qz 0; qz 5]).
Proof.
  split; [apply some_argsort_sorts|]. split; [repeat constructor; vm_compute; discriminate|]. split; [split; vm_compute; reflexivity|]. vm_compute. reflexivity.
Qed.

(* ------------------------------------------------------------------ C99: histories of a projector *)
Section Uses.
Variable component : Type.
Variable row : component -> Z -> Qc * Qc -> list Qc.
Variable cosine : Qc -> Qc.
Variable kind : component -> storage.
Variable state_at : component -> Z -> option (list Qc).
Variables samples_at prior_at : component -> Z -> option (list (list Qc)).
Variable whole_state : component -> option (list Qc).
Variables whole_samples whole_prior : component -> option (list (list Qc)).
Variable g : grid.
Let run := run component row cosine kind state_at samples_at prior_at whole_state whole_samples whole_prior g.
(* the values on the grid that a state of component c gives at time t *)
Let on_grid (c : component) (t : Z) (x : list Qc) : list Qc := map (cell_mean cosine (resolution g) (sampling g) (fun p => inner (row c t p) x)) (cells (latitudes g) (longitudes g)).

(* C99: which histories raise exceptions. *)
Theorem C99_exceptions d t0 h : (forall c t p, length (row c t p) = d c) -> 1 <= fst (sampling g) -> 1 <= snd (sampling g) -> is_ok (run t0 h) = allowed kind false h.
Proof. intros D A B. exact (history_allowed row cosine kind state_at samples_at prior_at whole_state whole_samples whole_prior g d D A B h (new_projector component t0)). Qed.
(* C99: after any history, the time and the component are those set last; the states are those of the component set last, for the time when it was set, and none after the projector was saved and loaded. *)
Theorem C99_state t0 h p : run t0 h = Ok p ->
  time_index _ p = time_after t0 h /\ current _ p = component_after None h /\
  match loaded_after t0 None h with
  | None => state_solution _ p = None /\ state_samples _ p = None /\ prior_samples _ p = None
  | Some (c, t) => state_solution _ p = stored kind state_at whole_state c t /\ state_samples _ p = stored kind samples_at whole_samples c t /\ prior_samples _ p = stored kind prior_at whole_prior c t
  end.
Proof.
  intros R. destruct (run_state row cosine kind state_at samples_at prior_at whole_state whole_samples whole_prior g t0 h p R) as (A & B & C). split; [exact A|]. split; [exact B|].
  cbv zeta in C. destruct (loaded_after t0 None h) as [[c t]|]; exact C.
Qed.
(* C99: if no call asked to keep it, the design matrix, if there is one, is that of the present component and time; with a state read for that component and time, the projection is right or there is none. *)
Theorem C99_design d t0 h p : (forall c t q, length (row c t q) = d c) -> 1 <= fst (sampling g) -> 1 <= snd (sampling g) ->
  (forall u, In u h -> keeps u = false) -> run t0 h = Ok p -> forall c, loaded_after t0 None h = Some (c, time_after t0 h) ->
  project_expected_value _ p = Err AttributeError \/ project_expected_value _ p = Ok (option_map (on_grid c (time_after t0 h)) (stored kind state_at whole_state c (time_after t0 h))).
Proof.
  intros D A B K R c L. destruct (run_state row cosine kind state_at samples_at prior_at whole_state whole_samples whole_prior g t0 h p R) as (T & C & S & _). rewrite L in S. cbn [loads] in S.
  assert (Ds := run_design row cosine kind state_at samples_at prior_at whole_state whole_samples whole_prior g t0 h p K R).
  assert (Cc : component_after None h = Some c).
  { clear - L. assert (G : forall (h : list (use component)) t l c0 c1 t1, loaded_after t l h = Some (c1, t1) -> match l with None => True | Some (c', _) => c0 = Some c' end -> component_after c0 h = Some c1).
    { clear. induction h as [|u h IH]; intros t l c0 c1 t1 L H; cbn in *; [subst l; exact H|]. destruct u as [c k|t' k| |]; cbn in L.
      - exact (IH _ _ _ _ _ L eq_refl). - exact (IH _ _ _ _ _ L H). - exact (IH _ _ _ _ _ L H). - exact (IH _ _ _ _ _ L I). }
    exact (G h t0 None None c _ L I). }
  unfold project_expected_value. rewrite S. destruct (stored kind state_at whole_state c (time_after t0 h)) as [x|] eqn:X; [|right; reflexivity].
  destruct (design_matrix _ p) as [m|] eqn:M; [|left; reflexivity]. right. cbn [option_map]. do 2 f_equal. destruct (Ds m M) as (c' & C' & E). rewrite C, Cc in C'. injection C' as <-. rewrite T in E.
  destruct (evaluate_spec row cosine g c (time_after t0 h) (d c) (fun q => D c _ q) A B) as (m' & E' & _ & H). rewrite E in E'. injection E' as <-. apply H.
Qed.
(* C99: after any history, setting the time, then the component, and evaluating gives the values of that component at that time, whatever was kept before; likewise the samples. *)
Theorem C99_projection d t0 h p0 t c k1 k2 : (forall q, length (row c t q) = d) -> 1 <= fst (sampling g) -> 1 <= snd (sampling g) -> kind c <> Unrecognised -> run t0 h = Ok p0 ->
  exists p, run t0 (h ++ [Update_time component t k1; Set_component component c k2; Evaluate component]) = Ok p /\
    project_expected_value _ p = Ok (option_map (on_grid c t) (stored kind state_at whole_state c t)) /\
    project_sample_values _ p None = Ok (option_map (map (on_grid c t)) (stored kind samples_at whole_samples c t)).
Proof.
  intros D A B K R. destruct (evaluate_spec row cosine g c t d D A B) as (m & E & _ & H).
  unfold run. rewrite (run_app row cosine kind state_at samples_at prior_at whole_state whole_samples whole_prior g t0 h _ p0 R). cbn [foldM]. cbn [step bind]. unfold set_component. rewrite !read_ok by exact K. cbn [bind].
  cbn [step]. unfold evaluate_design_matrix. cbn [current time_index update_time_index]. rewrite E. cbn [bind]. eexists. split; [reflexivity|]. unfold project_expected_value, project_sample_values. cbn [state_solution state_samples design_matrix]. split.
  - destruct (stored kind state_at whole_state c t) as [x|]; [|reflexivity]. cbn [option_map]. now rewrite H.
  - destruct (stored kind samples_at whole_samples c t) as [x|]; [|reflexivity]. cbn [option_map bind]. do 2 f_equal. apply map_ext. exact H.
Qed.
(* C99: the design matrix can be kept for other times and components, as the processing of local components does, if they have the same rows. *)
Theorem C99_kept d t0 h p0 t c k1 k2 l t1 c1 : (forall q, length (row c t q) = d) -> 1 <= fst (sampling g) -> 1 <= snd (sampling g) -> kind c <> Unrecognised -> run t0 h = Ok p0 ->
  (forall ct, In ct l -> kind (fst ct) <> Unrecognised) -> kind c1 <> Unrecognised -> (forall q, row c1 t1 q = row c t q) ->
  exists p, run t0 ((h ++ [Update_time component t k1; Set_component component c k2; Evaluate component]) ++
      flat_map (fun ct => [Update_time component (snd ct) true; Set_component component (fst ct) true]) (l ++ [(c1, t1)])) = Ok p /\
    project_expected_value _ p = Ok (option_map (on_grid c1 t1) (stored kind state_at whole_state c1 t1)) /\
    project_sample_values _ p None = Ok (option_map (map (on_grid c1 t1)) (stored kind samples_at whole_samples c1 t1)).
Proof.
  intros D A B K R Kl K1 Same. destruct (evaluate_spec row cosine g c t d D A B) as (m & E & _ & H).
  assert (H' : forall x, apply m x = on_grid c1 t1 x).
  { intros x. rewrite H. unfold on_grid. apply map_ext. intros k. unfold cell_mean, weighted_mean. do 2 f_equal. apply map_ext. intros q0. now rewrite Same. }
  assert (R2 : exists p, run t0 (h ++ [Update_time component t k1; Set_component component c k2; Evaluate component]) = Ok p /\ design_matrix _ p = Some m).
  { unfold run. rewrite (run_app row cosine kind state_at samples_at prior_at whole_state whole_samples whole_prior g t0 h _ p0 R). cbn [foldM]. cbn [step bind]. unfold set_component. rewrite !read_ok by exact K. cbn [bind].
    cbn [step]. unfold evaluate_design_matrix. cbn [current time_index update_time_index]. rewrite E. cbn [bind]. eexists. split; reflexivity. }
  destruct R2 as (p & R2 & M). unfold run. rewrite (run_app row cosine kind state_at samples_at prior_at whole_state whole_samples whole_prior g t0 _ _ p R2).
  rewrite (reuse_fold row cosine kind state_at samples_at prior_at whole_state whole_samples whole_prior g c t (l ++ [(c1, t1)]) p);
    [|intros ct I; apply in_app_iff in I; destruct I as [I|[<-|[]]]; [now apply Kl|exact K1]|destruct l; discriminate].
  rewrite last_last. cbv zeta. eexists. split; [reflexivity|]. unfold project_expected_value, project_sample_values. cbn [state_solution state_samples design_matrix fst snd]. rewrite M. split.
  - destruct (stored kind state_at whole_state c1 t1) as [x|]; [|reflexivity]. cbn [option_map]. now rewrite H'.
  - destruct (stored kind samples_at whole_samples c1 t1) as [x|]; [|reflexivity]. cbn [option_map bind]. do 2 f_equal. apply map_ext. exact H'.
Qed.
(* C99: a projector that was saved and loaded gives no values until a component is set. *)
Theorem C99_saved t0 h p : run t0 (h ++ [Save_and_load component]) = Ok p -> project_expected_value _ p = Ok None /\ project_sample_values _ p None = Ok None /\ project_sample_std _ 1 p false = Ok None.
Proof.
  intros R. destruct (run t0 h) as [p0|e] eqn:R0.
  - unfold run in R. rewrite (run_app row cosine kind state_at samples_at prior_at whole_state whole_samples whole_prior g t0 h _ p0 R0) in R. cbn [foldM step bind] in R. injection R as <-. repeat split; reflexivity.
  - unfold run, Proj_Model.run in *. rewrite foldM_app, R0 in R. discriminate R.
Qed.
End Uses.
(* C99, finding: moving a projector to another time after its component was set combines the state of the old time with the design matrix of the new one. *)
Theorem C99_stale_state_refuted : exists p, ex_run 3 [Set_component bool true false; Update_time bool 7 false; Evaluate bool] = Ok p /\ current _ p = Some true /\ time_index _ p = 7 /\
  project_expected_value _ p <> Ok (option_map (fun x => map (cell_mean ex_cosine (resolution ex_grid) (sampling ex_grid) (fun k => inner (ex_row true 7 k) x)) (cells (latitudes ex_grid) (longitudes ex_grid))) (ex_state_at true 7)).
Proof.
  eexists. split; [vm_compute; reflexivity|]. split; [reflexivity|]. split; [reflexivity|].
  intros E. apply (f_equal (fun r => match r with Ok (Some (x :: _)) => Some (this x) | _ => None end)) in E. vm_compute in E. discriminate E.
Qed.
(* C99, finding: keeping the design matrix of a component whose rows depend on the time gives values of the old time. *)
Theorem C99_kept_time_refuted : exists p, ex_run 3 [Set_component bool false false; Evaluate bool; Update_time bool 7 true; Set_component bool false true] = Ok p /\ current _ p = Some false /\ time_index _ p = 7 /\
  project_expected_value _ p <> Ok (option_map (fun x => map (cell_mean ex_cosine (resolution ex_grid) (sampling ex_grid) (fun k => inner (ex_row false 7 k) x)) (cells (latitudes ex_grid) (longitudes ex_grid))) (ex_whole_state false)).
Proof.
  eexists. split; [vm_compute; reflexivity|]. split; [reflexivity|]. split; [reflexivity|].
  intros E. apply (f_equal (fun r => match r with Ok (Some (x :: _)) => Some (this x) | _ => None end)) in E. vm_compute in E. discriminate E.
Qed.
Print Assumptions C99_exceptions.
Print Assumptions C99_state.
Print Assumptions C99_design.
Print Assumptions C99_projection.
Print Assumptions C99_kept.
Print Assumptions C99_saved.
Print Assumptions C99_stale_state_refuted.
Print Assumptions C99_kept_time_refuted.
Example C99_nonvacuous : is_ok (ex_run 0 [Set_component bool false true; Evaluate bool; Save_and_load bool; Update_time bool 5 true]) = true /\
  allowed ex_kind false [Set_component bool false true; Evaluate bool; Save_and_load bool; Update_time bool 5 true] = true /\ (forall c t p, length (ex_row c t p) = 3%nat) /\
  (forall p, ex_row true 5 p = ex_row true 9 p) /\ ex_state_at true 9 <> None /\ is_ok (ex_run 0 [Evaluate bool]) = false /\
  loaded_after 0 None [Set_component bool false false; Update_time bool 5 false; Set_component bool true false; Evaluate bool] = Some (true, 5).
Proof. split; [vm_compute; reflexivity|]. split; [reflexivity|]. split; [intros [] t p; reflexivity|]. split; [reflexivity|]. split; [discriminate|]. split; reflexivity. Qed.
