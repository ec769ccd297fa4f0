(* Spatial checks: C52, C53, C89-C92. *)
From Coq Require Import QArith Qcanon Permutation Sorted.
From Verif Require Import Base Time_Model Time_Spec Grid_Model Grid_Proofs Flag_Model Flag_Spec Win_Model Win_Spec Win_Proofs.
Local Open Scope Z_scope.
Local Open Scope list_scope.

(* ------------------------------------------------------------------ C52 *)
(* On a grid of at least ten rows and columns the blocked window mean is, in every cell, the mean of the values within r rows and s columns. *)
Theorem C52_mean : forall image r s, 10 <= rows image -> 10 <= cols image -> 0 <= r <= rows image - 1 -> 0 <= s ->
  exists out, compute_window_mean image (2 * r + 1) (2 * s + 1) = Ok out /\ same_shape_as out image /\
    forall i j, inside image i j -> at_ out i j = average (window image r s i j).
Proof. exact window_mean_spec. Qed.
Print Assumptions C52_mean.
(* The blocked quartiles and median are, in every cell, those of the values within r rows and s columns; here any grid will do. *)
Theorem C52_quartiles : forall image r s, 1 <= rows image -> 1 <= cols image -> 0 <= r <= rows image - 1 -> 0 <= s ->
  exists out, compute_window_median_quartiles image (2 * r + 1) (2 * s + 1) = Ok out /\ same_shape_as out image /\
    forall i j, inside image i j -> is_percentile 25 (window image r s i j) (lower (at_ out i j)) /\
      is_percentile 50 (window image r s i j) (median (at_ out i j)) /\ is_percentile 75 (window image r s i j) (upper (at_ out i j)).
Proof.
  intros image r s R C RR S. destruct (window_quartiles_spec image r s R C RR S) as (out & E & SH & P). exists out. split; [exact E|]. split; [exact SH|]. intros i j I. rewrite P by exact I. apply quartiles_are, window_nonempty; lia.
Qed.
Print Assumptions C52_quartiles.
(* Every row and column is in exactly one block: of n / 10 blocks for the mean, of n / 10 rounded up for the quartiles. *)
Theorem C52_once : forall n i, 0 <= i < n ->
  (10 <= n -> exists! step, 0 <= step < n / 10 /\ (let (a, b) := slice_range n (block_slice 10 (n / 10) step) in a <= i < b)) /\
  (exists! step, 0 <= step < - (- n / 10) /\ (let (a, b) := slice_range n (block_slice 10 (- (- n / 10)) step) in a <= i < b)).
Proof. intros n i I. split; [intros N|]; apply one_slice; lia. Qed.
Print Assumptions C52_once.
(* A window of an even size fails. *)
Theorem C52_even_window : forall image wl wo, 1 <= rows image -> 1 <= cols image -> 0 <= wl -> 0 <= wo -> Z.even wl = true \/ Z.even wo = true ->
  compute_window_median_quartiles image wl wo = Err ValueError /\ (10 <= rows image -> 10 <= cols image -> compute_window_mean image wl wo = Err ValueError).
Proof. exact window_even. Qed.
Print Assumptions C52_even_window.
(* With fewer than ten rows or columns the window mean is zero everywhere, whatever the values. *)
Theorem C52_small_mean_refuted :
  (forall image wl wo, 1 <= rows image -> 1 <= cols image -> 0 <= wl -> 0 <= wo -> rows image < 10 \/ cols image < 10 ->
     exists out, compute_window_mean image wl wo = Ok out /\ forall i j, inside image i j -> at_ out i j = 0%Qc) /\
  (exists image, 1 <= rows image /\ 1 <= cols image /\ exists out, compute_window_mean image 1 1 = Ok out /\ exists i j, inside image i j /\ at_ out i j <> average (window image 0 0 i j)).
Proof.
  assert (K : forall image wl wo, 1 <= rows image -> 1 <= cols image -> 0 <= wl -> 0 <= wo -> rows image < 10 \/ cols image < 10 ->
     exists out, compute_window_mean image wl wo = Ok out /\ forall i j, inside image i j -> at_ out i j = 0%Qc) by (intros; eexists; split; [apply window_mean_small; assumption|reflexivity]).
  split; [exact K|]. exists (filled 9 20 1%Qc). split; [cbn; lia|]. split; [cbn; lia|].
  destruct (K (filled 9 20 1%Qc) 1 1) as (out & E & Z0); try (cbn; lia). exists out. split; [exact E|]. exists 0, 0. assert (I : inside (filled 9 20 1%Qc) 0 0) by (split; cbn; lia). split; [exact I|]. rewrite Z0 by exact I. vm_compute. discriminate.
Qed.
Print Assumptions C52_small_mean_refuted.
Definition ramp (r c : Z) : array Qc := {| rows := r; cols := c; at_ := fun i j => qz (7 * i + 3 * j) |}.
Definition read {A} (r : result (array A)) (i j : Z) : option A := match r with Ok a => Some (at_ a i j) | Err _ => None end.
Example C52_nonvacuous : 10 <= rows (ramp 13 21) /\ 10 <= cols (ramp 13 21) /\
  window (ramp 13 21) 1 1 0 20 = map qz [64; 67; 7; 57; 60; 0; 64; 67; 7] /\
  option_map this (read (compute_window_mean (ramp 13 21) 3 3) 0 20) = Some (131 # 3)%Q /\
  option_map this (read (compute_window_mean (ramp 13 21) 3 3) 12 13) = Some (355 # 3)%Q /\
  option_map (fun s => (this (lower s), this (median s), this (upper s))) (read (compute_window_median_quartiles (ramp 13 21) 3 3) 0 20) = Some (7 # 1, 60 # 1, 64 # 1)%Q /\
  read (compute_window_mean (ramp 13 21) 4 3) 0 0 = None.
Proof. vm_compute. repeat (split; [discriminate || reflexivity|]). reflexivity. Qed.

(* ------------------------------------------------------------------ C53 *)
(* In the rows of complete blocks the statistics are those of the window of the whole field, of the width of the block; the others stay undefined. *)
Theorem C53_blocks : forall lat_cells max_lat max_lon size lon_cells data, 1 <= size -> 0 <= Z.min lat_cells max_lat <= rows data - 1 -> (forall k, 0 <= Z.min (lon_cells k) max_lon) -> 1 <= cols data ->
  exists out, block_iqr_by_range lat_cells lon_cells max_lat max_lon size data = Ok out /\ same_shape_as out data /\
    forall i j, inside data i j -> match at_ out i j with
      | Some q => let w := window data (Z.min lat_cells max_lat) (Z.min (lon_cells (i / size)) max_lon) i j in
          i < rows data / size * size /\ is_percentile 25 w (lower q) /\ is_percentile 50 w (median q) /\ is_percentile 75 w (upper q)
      | None => rows data / size * size <= i end.
Proof.
  intros lc ml mo size lo data S R L C. destruct (block_iqr_spec lc ml mo size lo data S R L C) as (out & E & SH & P). exists out. split; [exact E|]. split; [exact SH|]. intros i j I. rewrite P by exact I.
  destruct (i <? rows data / size * size) eqn:B; [|lia]. cbv zeta. split; [lia|]. apply quartiles_are, window_nonempty; [lia|apply L].
Qed.
Print Assumptions C53_blocks.
(* So every row has statistics when the block size divides the number of rows, as it does in the global product ... *)
Theorem C53_multiple : forall lat_cells max_lat max_lon size lon_cells data, 1 <= size -> 0 <= Z.min lat_cells max_lat <= rows data - 1 -> (forall k, 0 <= Z.min (lon_cells k) max_lon) -> 1 <= cols data ->
  (size | rows data) -> exists out, block_iqr_by_range lat_cells lon_cells max_lat max_lon size data = Ok out /\ forall i j, inside data i j -> at_ out i j <> None.
Proof.
  intros lc ml mo size lo data S R L C D. destruct (block_iqr_spec lc ml mo size lo data S R L C) as (out & E & SH & P). exists out. split; [exact E|]. intros i j I. rewrite P by exact I. destruct D as (k & D). rewrite D, Z.div_mul by lia. destruct I as [I _]. replace (i <? k * size) with true by lia. discriminate.
Qed.
Print Assumptions C53_multiple.
Theorem C53_global : (LATITUDE_BLOCK_SIZE | GLOBAL_ROWS).
Proof. exists 36. reflexivity. Qed.
Print Assumptions C53_global.
(* ... and the rows of an incomplete last block never have any. *)
Theorem C53_trailing_refuted : forall lat_cells max_lat max_lon size lon_cells data, 1 <= size -> 0 <= Z.min lat_cells max_lat <= rows data - 1 -> (forall k, 0 <= Z.min (lon_cells k) max_lon) -> 1 <= cols data ->
  ~ (size | rows data) -> exists out i, block_iqr_by_range lat_cells lon_cells max_lat max_lon size data = Ok out /\ 0 <= i < rows data /\ forall j, 0 <= j < cols data -> at_ out i j = None.
Proof.
  intros lc ml mo size lo data S R L C D. destruct (block_iqr_spec lc ml mo size lo data S R L C) as (out & E & SH & P). exists out, (rows data - 1). split; [exact E|]. split; [lia|]. intros j J. rewrite P by (split; lia).
  assert (rows data / size * size <> rows data) by (intros X; apply D; exists (rows data / size); lia). pose proof (Z.mul_div_le (rows data) size ltac:(lia)). replace (rows data - 1 <? rows data / size * size) with false by lia. reflexivity.
Qed.
Print Assumptions C53_trailing_refuted.
Example C53_nonvacuous : let out := block_iqr_by_range 2 (fun k => k + 1) 50 1 5 (ramp 12 7) in
  0 <= Z.min 2 50 <= rows (ramp 12 7) - 1 /\ ~ (5 | 12) /\
  option_map (option_map (fun s => (this (lower s), this (median s), this (upper s)))) (read out 6 3) = Some (Some (85 # 2, 51 # 1, 119 # 2)%Q) /\ option_map (option_map lower) (read out 10 3) = Some None.
Proof. cbv zeta. split; [vm_compute; split; discriminate|]. split; [intros (k & H); lia|]. vm_compute. split; reflexivity. Qed.

(* ------------------------------------------------------------------ C89 *)
Theorem C89_percentile : forall q l x, l <> [] -> 0 <= q <= 100 -> is_percentile q l x <-> x = percentile q l.
Proof. intros q l x N Q. split; [intros P; exact (is_percentile_unique q l _ _ P (percentile_is q l N Q))|intros ->; apply percentile_is; assumption]. Qed.
Print Assumptions C89_percentile.
Theorem C89_ordered : forall l, l <> [] -> (lower (percentiles l) <= median (percentiles l))%Qc /\ (median (percentiles l) <= upper (percentiles l))%Qc.
Proof. intros l N. split; apply percentile_monotone; lia || exact N. Qed.
Print Assumptions C89_ordered.
Theorem C89_between : forall q l, l <> [] -> 0 <= q <= 100 -> exists a b, In a l /\ In b l /\ (a <= percentile q l)%Qc /\ (percentile q l <= b)%Qc.
Proof. exact percentile_between. Qed.
Print Assumptions C89_between.
Theorem C89_extremes : forall l x, In x l -> (percentile 0 l <= x)%Qc /\ (x <= percentile 100 l)%Qc.
Proof. exact percentile_extremes. Qed.
Print Assumptions C89_extremes.
Theorem C89_constant : forall q l c, l <> [] -> 0 <= q <= 100 -> (forall x, In x l -> x = c) -> percentile q l = c.
Proof. exact percentile_constant. Qed.
Print Assumptions C89_constant.
Theorem C89_any_order : forall q l l', l <> [] -> 0 <= q <= 100 -> Permutation l l' -> percentile q l = percentile q l'.
Proof.
  intros q l l' N Q P. apply C89_percentile; [|exact Q|]. { intros ->. apply Permutation_sym, Permutation_nil in P. contradiction. } apply (is_percentile_perm q l l'); [exact P|apply percentile_is; assumption].
Qed.
Print Assumptions C89_any_order.
Theorem C89_shift : forall q l c, l <> [] -> 0 <= q <= 100 -> percentile q (map (fun v => v + c)%Qc l) = (percentile q l + c)%Qc.
Proof. intros q l c N Q. symmetry. apply C89_percentile; [destruct l; [contradiction|discriminate]|exact Q|]. apply is_percentile_shift, percentile_is; assumption. Qed.
Print Assumptions C89_shift.
Example C89_nonvacuous : map (fun q => this (percentile q (map qz [30; 10; 40; 20]))) [0; 25; 50; 75; 100] = [10 # 1; 35 # 2; 25 # 1; 65 # 2; 40 # 1]%Q.
Proof. vm_compute. reflexivity. Qed.

(* ------------------------------------------------------------------ C90 *)
(* The flags of a date: areal outliers among the values around them, reduced to sea level, and extremes, all spread to two cells in each direction. *)
Theorem C90_flags : forall lat_cells lon_cells altitude a, global a -> global altitude -> 0 <= lat_cells -> (forall k, 0 <= lon_cells k) ->
  exists out, outlier_flags lat_cells lon_cells altitude (Some a) = Ok out /\ global out /\ forall i j b, inside a i j -> flag (at_ out i j) b <->
    let around i' j' := window (sea_level altitude a) (Z.min lat_cells 50) (Z.min (lon_cells (i' / 20)) 50) i' j' in
    (b = 7 /\ nearby a 2 2 i j (fun i' j' => far_below (qz 4) (around i' j') (at_ (sea_level altitude a) i' j'))) \/
    (b = 8 /\ nearby a 2 2 i j (fun i' j' => far_above (qz 4) (around i' j') (at_ (sea_level altitude a) i' j'))) \/
    (b = 9 /\ nearby a 2 2 i j (fun i' j' => (at_ a i' j' < Q2Qc (19315 # 100))%Qc)) \/
    (b = 10 /\ nearby a 2 2 i j (fun i' j' => (Q2Qc (33315 # 100) < at_ a i' j')%Qc)).
Proof.
  intros lc lo alt a G GA L S. unfold outlier_flags. destruct (areal_spec lc lo alt a QUARTILE_LIMIT G GA L S) as (f & EF & GF & PF). destruct (extremes_spec a EXTREME_LOWER_LIMIT EXTREME_UPPER_LIMIT G) as (e & EE & GE & PE). rewrite EF. cbn [bind]. rewrite EE. cbn [bind].
  destruct (zip_lor f e GF GE) as (o & EO & GO & PO). exists o. split; [exact EO|]. split; [exact GO|]. intros i j b I. cbv zeta. rewrite PO, PF, PE by exact I. cbv zeta. unfold QUARTILE_LIMIT, EXTREME_LOWER_LIMIT, EXTREME_UPPER_LIMIT. tauto.
Qed.
Print Assumptions C90_flags.
(* A day whose file cannot be read fails. *)
Theorem C90_unreadable : forall lat_cells lon_cells altitude, outlier_flags lat_cells lon_cells altitude None = Err NameError.
Proof. reflexivity. Qed.
Print Assumptions C90_unreadable.
(* No value is far below and far above the same values. *)
Theorem C90_exclusive : forall limit l v, (0 <= limit)%Qc -> far_below limit l v -> ~ far_above limit l v.
Proof. exact far_exclusive. Qed.
Print Assumptions C90_exclusive.
(* A field that is uniform at sea level has no areal outliers. *)
Theorem C90_uniform : forall lat_cells lon_cells altitude a limit c, global a -> global altitude -> 0 <= lat_cells -> (forall k, 0 <= lon_cells k) ->
  (forall i j, inside a i j -> at_ (sea_level altitude a) i j = c) ->
  exists out, areal_checks lat_cells lon_cells altitude (Some a) limit = Ok out /\ forall i j b, inside a i j -> ~ flag (at_ out i j) b.
Proof. exact areal_uniform. Qed.
Print Assumptions C90_uniform.
(* Adding the same amount to all temperatures does not change the areal flags. *)
Theorem C90_shift : forall lat_cells lon_cells altitude a limit c, global a -> global altitude -> 0 <= lat_cells -> (forall k, 0 <= lon_cells k) ->
  exists out out', areal_checks lat_cells lon_cells altitude (Some a) limit = Ok out /\ areal_checks lat_cells lon_cells altitude (Some (amap (fun v => v + c)%Qc a)) limit = Ok out' /\
    forall i j b, inside a i j -> flag (at_ out i j) b <-> flag (at_ out' i j) b.
Proof. exact areal_shift. Qed.
Print Assumptions C90_shift.
Definition spiked (r c : Z) (i0 j0 v : Z) : array Qc := {| rows := r; cols := c; at_ := fun i j => if (i =? i0) && (j =? j0) then qz v else qz 288 |}.
Example C90_nonvacuous : let f := outlier_flags 1 (fun _ => 1) (filled 720 1440 0%Qc) (Some (spiked 720 1440 100 1439 150)) in
  global (spiked 720 1440 100 1439 150) /\ (read f 101 0, read f 102 1, read f 103 0) = (Some 640, Some 640, Some 0).
Proof. cbv zeta. split; [split; reflexivity|]. vm_compute. reflexivity. Qed.

(* ------------------------------------------------------------------ C91 *)
Theorem C91_flags : forall climatology large_scale influence coast climatology_limit largescale_limit threshold, global climatology -> global large_scale -> global influence -> global coast ->
  exists out, threshold_flags (Some climatology) (Some large_scale) (Some influence) coast climatology_limit largescale_limit threshold = Ok out /\ global out /\
    forall i j b, inside climatology i j -> flag (at_ out i j) b <->
      (b = 5 /\ (climatology_limit < average (window climatology 6 6 i j))%Qc) \/ (b = 6 /\ (largescale_limit < average (window large_scale 8 8 i j))%Qc) \/
      (b = 0 /\ (average (window influence 2 2 i j) < threshold)%Qc) \/ (b = 12 /\ sea coast i j).
Proof. exact threshold_spec. Qed.
Print Assumptions C91_flags.
(* The day fails unless its three fields can be read. *)
Theorem C91_unreadable : forall climatology large_scale influence coast l1 l2 l3 out, threshold_flags climatology large_scale influence coast l1 l2 l3 = Ok out ->
  climatology <> None /\ large_scale <> None /\ influence <> None.
Proof.
  intros c l f coast l1 l2 l3 out E. unfold threshold_flags in E. destruct c as [c|]; [|discriminate]. destruct (climatology_uncertainty_checks (Some c) l1); [|discriminate]. cbn [bind] in E.
  destruct l as [l|]; [|discriminate]. destruct (large_scale_uncertainty_checks (Some l) l2); [|discriminate]. cbn [bind] in E. destruct f as [f|]; [|discriminate]. repeat split; discriminate.
Qed.
Print Assumptions C91_unreadable.
Example C91_nonvacuous : let f := threshold_flags (Some (filled 720 1440 1%Qc)) (Some (filled 720 1440 (qz 5))) (Some (spiked 720 1440 300 700 0)) (filled 720 1440 (qz 100)) (qz 2) (qz 4) (qz 280) in
  global (filled 720 1440 1%Qc) /\ (read f 0 0, read f 302 698, read f 719 0) = (Some 64, Some (64 + 1 + 4096), Some (64 + 4096)).
Proof. cbv zeta. split; [split; reflexivity|]. vm_compute. reflexivity. Qed.

(* ------------------------------------------------------------------ C92 *)
Theorem C92_flags : forall a stats, global a -> global stats -> exists out, location_threshold_checks (Some a) stats = Ok out /\ global out /\ forall i j b, flag (at_ out i j) b <->
  let s := at_ stats i j in (b = 13 /\ (at_ a i j < median s - qz 8 * (median s - lower s))%Qc) \/ (b = 14 /\ (median s + qz 8 * (upper s - median s) < at_ a i j)%Qc).
Proof. exact location_spec. Qed.
Print Assumptions C92_flags.
(* The twelve monthly batches process every calendar day of a leap year exactly once, in order. *)
Theorem C92_batches : exists batches, mapM month_days (zrange 1 13) = Ok batches /\ concat batches = zrange 0 366.
Proof. eexists. split; vm_compute; reflexivity. Qed.
Print Assumptions C92_batches.
(* The percentiles needed by the check of any date are written by exactly one calendar day, of the batch of the date's month. *)
Theorem C92_every_date : forall t, exists! c, (exists l, month_days (dt_month t) = Ok l /\ In c l) /\ percentile_file c = Ok (dt_month t, dt_day t).
Proof. intros t. pose proof (Time_Proofs.date_fields t) as (M & D & _). pose proof (days_leap (dt_year t) (dt_month t)). apply month_days_all; lia. Qed.
Print Assumptions C92_every_date.
(* A calendar day is computed from this day of each year, 29 February from 28 February in the other years. *)
Theorem C92_training : forall first last c m d, 0 <= c <= 365 -> 1 <= first -> last <= 9999 -> percentile_file c = Ok (m, d) ->
  exists l, dates_to_load first last c = Ok l /\ map date_of l = map (fun y => (y, m, Z.min d (days_in_month y m))) (zrange first (last + 1)).
Proof. exact training_dates. Qed.
Print Assumptions C92_training.
Example C92_nonvacuous : percentile_file 59 = Ok (2, 29) /\ (do l <- dates_to_load 1999 2001 59; Ok (map date_of l)) = Ok [(1999, 2, 28); (2000, 2, 29); (2001, 2, 28)] /\
  read (location_threshold_checks (Some (spiked 720 1440 3 4 500)) (filled 720 1440 {| lower := qz 280; median := qz 288; upper := qz 290 |})) 3 4 = Some 16384.
Proof. vm_compute. repeat split. Qed.
