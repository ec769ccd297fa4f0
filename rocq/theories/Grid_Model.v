(* Model of the two programs that bin satellite observations onto a grid: src/eustace/satgrid (with aggregate.c) and
   src/eustace/satgrid_iris (with its Cython operations).
   Simplifications: real numbers are exact rationals, so the rounding of 32-bit floats and the range of 32-bit integers are not
   modelled; the square roots of the uncertainty fields are not taken (the model holds the squares); an axis with zero
   increment is an error; arrays over the grid are functions of the flat cell number. *)
From Coq Require Import QArith Qcanon.
From Verif Require Import Base.
Local Open Scope Z_scope.
Local Open Scope list_scope.

(* astype(numpy.int32): truncation toward zero *)
Definition trunc (q : Qc) : Z := Z.quot (Qnum q) (Zpos (Qden q)).
Definition qz (z : Z) : Qc := Q2Qc (inject_Z z).

(* ---- src/eustace/satgrid/grid.py *)

(* 9-16 GridAxis *)
Record axis := { a_start : Qc; a_increment : Qc; a_length : Z; a_wrap : bool }.

(* 18-28 GridAxis.compute_indices, for one value *)
Definition axis_index (a : axis) (v : Qc) : result Z :=
  if Qc_eq_bool (a_increment a) 0%Qc then Err ZeroDivisionError else
  let i := trunc ((v - a_start a) / a_increment a)%Qc in
  let i := if a_wrap a && (i =? a_length a) then 0 else i in
  if i <? 0 then Err ValueError else if i >=? a_length a then Err ValueError else Ok i.
(* 18-28 for an array *)
Definition axis_indices (a : axis) (vs : list Qc) : result (list Z) := mapM (axis_index a) vs.

(* 34-36 GridAxis.get_centres *)
Definition axis_centre (a : axis) (i : Z) : Qc := (qz i * a_increment a + (a_start a + (1 / qz 2) * a_increment a))%Qc.

(* 39-53 GridLatLon *)
Record grid := { g_lat : axis; g_lon : axis }.
Definition grid_indices (g : grid) (lats lons : list Qc) : result (list Z) :=
  do is <- axis_indices (g_lat g) lats;
  do js <- axis_indices (g_lon g) lons;
  Ok (map (fun ij => fst ij * a_length (g_lon g) + snd ij) (combine is js)).

(* ---- src/eustace/satgrid/aggregate.c *)

Definition upd {A} (f : Z -> A) (i : Z) (a : A) : Z -> A := fun j => if j =? i then a else f j.

(* 50-78 *)
Definition aggregate_sum (bins : Z -> Qc) (values : list Qc) (indices : list Z) : Z -> Qc :=
  fold_left (fun b iv => upd b (fst iv) (b (fst iv) + snd iv)%Qc) (combine indices values) bins.

(* 80-131: count, sum, minimum, maximum *)
Record binned := { b_count : Z -> Z; b_sum : Z -> Qc; b_min : Z -> Qc; b_max : Z -> Qc }.
Definition Qclt_bool (a b : Qc) : bool := negb (Qle_bool b a).
Definition bin_one (b : binned) (iv : Z * Qc) : binned :=
  let (i, v) := iv in
  {| b_count := upd (b_count b) i (b_count b i + 1);
     b_sum := upd (b_sum b) i (b_sum b i + v)%Qc;
     b_min := if Qclt_bool v (b_min b i) then upd (b_min b) i v else b_min b;
     b_max := if Qclt_bool (b_max b i) v then upd (b_max b) i v else b_max b |}.
Definition aggregate_count_sum_min_max (b : binned) (values : list Qc) (indices : list Z) : binned :=
  fold_left bin_one (combine indices values) b.

(* 133-159 *)
Definition aggregate_constant (bins : Z -> Qc) (k : Qc) (indices : list Z) : Z -> Qc :=
  fold_left (fun b i => upd b i (b i + k)%Qc) indices bins.
(* 161-185 *)
Definition aggregate_count (bins : Z -> Z) (indices : list Z) : Z -> Z :=
  fold_left (fun b i => upd b i (b i + 1)) indices bins.
(* 187-223 *)
Definition aggregate_sum_dev_sq (bins mean : Z -> Qc) (values : list Qc) (indices : list Z) : Z -> Qc :=
  fold_left (fun b iv => let dev := (snd iv - mean (fst iv))%Qc in upd b (fst iv) (b (fst iv) + dev * dev)%Qc) (combine indices values) bins.

(* ---- src/eustace/satgrid/satellite_file.py *)

(* One pixel of a file: quality flags, position, observation and its uncertainties. *)
Record pixel := { px_qc : Z; px_lat : Qc; px_lon : Qc; px_value : Qc; px_ran : Qc; px_atm : Qc; px_sfc : Qc;
                  px_masked : bool (* in the mask of the observation; used only by satgrid_iris *) }.
Record satfile := { sf_pixels : list pixel; sf_sys : Qc }.

(* 72-81 find_qc_flag_indices *)
Definition find_qc_flag_indices (qc : list Z) (qc_mask qc_filter : Z) : list Z :=
  map fst (filter (fun iq => Z.land (snd iq) qc_mask =? qc_filter) (combine (zrange 0 (zlen qc)) qc)).

(* 67-70 get_variable_at_indices *)
Definition at_indices {A} (values : list A) (indices : list Z) : list A :=
  flat_map (fun i => match nth_error values (Z.to_nat i) with Some v => [v] | None => [] end) indices.

(* ---- src/eustace/satgrid/aggregate_grid.py and file_aggregate_grid.py *)

Definition FLAG_INVALID : Qc := qz (-1).           (* file_aggregate_grid.py:14-17 *)
Definition FLT_MAX : Qc := qz (2 ^ 128 - 2 ^ 104). (* numpy.finfo('f').max *)

(* aggregate_grid.py:199-220 AggregateGridCountSumMinMax, 16-27 AggregateGridCount, 72-83 AggregateGridSumDevSq *)
Record sums := { s_bins : binned; s_sq : Z -> Qc; s_ran : Z -> Qc; s_atm : Z -> Qc; s_sfc : Z -> Qc; s_sys : Z -> Qc;
                 s_obs : Z -> Z }.
Definition no_sums : sums :=
  {| s_bins := {| b_count := fun _ => 0; b_sum := fun _ => 0%Qc; b_min := fun _ => FLT_MAX; b_max := fun _ => (- FLT_MAX)%Qc |};
     s_sq := fun _ => 0%Qc; s_ran := fun _ => 0%Qc; s_atm := fun _ => 0%Qc; s_sfc := fun _ => 0%Qc; s_sys := fun _ => 0%Qc;
     s_obs := fun _ => 0 |}.

(* file_aggregate_grid.py:47-63: the choice of observations *)
Record choice := { qc_mask_obs : Z; qc_filter_obs : Z; qc_mask_valid : Z; qc_filter_valid : Z }.

Definition get (f : satfile) (field : pixel -> Qc) (indices : list Z) : list Qc := at_indices (map field (sf_pixels f)) indices.
Definition sq (x : Qc) : Qc := (x * x)%Qc.

(* file_aggregate_grid.py:65-89 aggregate_file with aggregate_grid.py:222-233 *)
Definition aggregate_file (g : grid) (ch : choice) (s : sums) (f : satfile) : result sums :=
  let qc := map px_qc (sf_pixels f) in
  let valid := find_qc_flag_indices qc (qc_mask_valid ch) (qc_filter_valid ch) in
  do indices <- grid_indices g (get f px_lat valid) (get f px_lon valid);
  let obs := find_qc_flag_indices qc (qc_mask_obs ch) (qc_filter_obs ch) in
  do obs_indices <- grid_indices g (get f px_lat obs) (get f px_lon obs);
  Ok {| s_bins := aggregate_count_sum_min_max (s_bins s) (get f px_value valid) indices;
        s_sq := aggregate_sum (s_sq s) (map sq (get f px_value valid)) indices;
        s_ran := aggregate_sum (s_ran s) (map sq (get f px_ran valid)) indices;
        s_atm := aggregate_sum (s_atm s) (map sq (get f px_atm valid)) indices;
        s_sfc := aggregate_sum (s_sfc s) (map sq (get f px_sfc valid)) indices;
        s_sys := aggregate_constant (s_sys s) (sq (sf_sys f)) indices;
        s_obs := aggregate_count (s_obs s) obs_indices |}.

(* The output fields at one cell; uncertainties and sampling uncertainty are squares. *)
Record fields := { f_number : Z -> Z; f_mean : Z -> Qc; f_min : Z -> Qc; f_max : Z -> Qc; f_ran2 : Z -> Qc; f_atm2 : Z -> Qc;
                   f_sfc2 : Z -> Qc; f_sys2 : Z -> Qc; f_total : Z -> Z; f_variance : Z -> Qc; f_spl2 : Z -> Qc }.

Definition where_counted (n : Z) (v : Qc) : Qc := if n =? 0 then FLAG_INVALID else v.

(* aggregate_grid.py:256-258 *)
Definition mean_field (s : sums) (c : Z) : Qc := where_counted (b_count (s_bins s) c) (b_sum (s_bins s) c / qz (b_count (s_bins s) c))%Qc.

(* file_aggregate_grid.py:91-100 aggregate_file_second_order *)
Definition aggregate_file_second_order (g : grid) (ch : choice) (mean : Z -> Qc) (devsq : Z -> Qc) (f : satfile) : result (Z -> Qc) :=
  let valid := find_qc_flag_indices (map px_qc (sf_pixels f)) (qc_mask_valid ch) (qc_filter_valid ch) in
  do indices <- grid_indices g (get f px_lat valid) (get f px_lon valid);
  Ok (aggregate_sum_dev_sq devsq mean (get f px_value valid) indices).

(* aggregate_grid.py:235-282, file_aggregate_grid.py:102-136.  A cell with one observation of interest and several valid ones
   would have an infinite sampling uncertainty: here division by zero gives zero. *)
Definition compute_fields (s : sums) (devsq : Z -> Qc) : fields :=
  let n := b_count (s_bins s) in
  {| f_number := n;
     f_mean := mean_field s;
     f_min := fun c => where_counted (n c) (b_min (s_bins s) c);
     f_max := fun c => where_counted (n c) (b_max (s_bins s) c);
     f_ran2 := fun c => where_counted (n c) (s_ran s c / qz (n c * n c))%Qc;
     f_atm2 := fun c => where_counted (n c) (s_atm s c / qz (n c))%Qc;
     f_sfc2 := fun c => where_counted (n c) (s_sfc s c / qz (n c))%Qc;
     f_sys2 := fun c => where_counted (n c) (s_sys s c / qz (n c))%Qc;
     f_total := s_obs s;
     f_variance := fun c => if n c >? 1 then (devsq c / qz (n c - 1))%Qc else FLAG_INVALID;
     f_spl2 := fun c => if n c >? 1 then (sq (qz (s_obs s c - n c)) * (devsq c / qz (n c - 1)) / sq (qz (s_obs s c - 1)))%Qc else FLAG_INVALID |}.

Fixpoint foldM {A B} (f : A -> B -> result A) (a : A) (l : list B) : result A :=
  match l with [] => Ok a | b :: l' => do a' <- f a b; foldM f a' l' end.

(* file_aggregate_grid.py:138-201 run: the files that are there and load; None if there are none *)
Definition run (g : grid) (ch : choice) (files : list satfile) : result (option fields) :=
  match files with
  | [] => Ok None
  | _ => do s <- foldM (aggregate_file g ch) no_sums files;
         do devsq <- foldM (aggregate_file_second_order g ch (mean_field s)) (fun _ => 0%Qc) files;
         Ok (Some (compute_fields s devsq))
  end.

(* ---- aggregate_grid.py:86-143 AggregateGridArray (observations only): slots per cell in one flat array *)
Record slots := { sl_max : Z; sl_cells : Z; sl_count : Z -> Z; sl_values : Z -> Qc }.
Definition no_slots (cells max : Z) : slots := {| sl_max := max; sl_cells := cells; sl_count := fun _ => 0; sl_values := fun _ => 0%Qc |}.
Definition slot_one (s : slots) (iv : Z * Qc) : result slots :=
  let (i, v) := iv in
  let at_ := i * sl_max s + sl_count s i in
  if at_ <? sl_cells s * sl_max s
  then Ok {| sl_max := sl_max s; sl_cells := sl_cells s; sl_count := upd (sl_count s) i (sl_count s i + 1); sl_values := upd (sl_values s) at_ v |}
  else Err IndexError.
Definition slots_aggregate (s : slots) (indices : list Z) (values : list Qc) : result slots := foldM slot_one s (combine indices values).
(* 169 tsmean *)
Definition sumQ (l : list Qc) : Qc := fold_right Qcplus 0%Qc l.
Definition slots_mean (s : slots) (c : Z) : Qc :=
  where_counted (sl_count s c) (sumQ (map (fun k => sl_values s (c * sl_max s + k)) (zrange 0 (sl_max s))) / qz (sl_count s c))%Qc.
(* 165-175 tsmax: values equal to zero are masked; None where every value is *)
Definition max2 (a b : Qc) : Qc := if Qclt_bool a b then b else a.
Definition slots_max (s : slots) (c : Z) : option Qc :=
  fold_left (fun m v => if Qc_eq_bool v 0%Qc then m else match m with None => Some v | Some x => Some (max2 x v) end)
            (map (fun k => sl_values s (c * sl_max s + k)) (zrange 0 (sl_max s))) None.

(* ---- src/eustace/satgrid_iris *)

(* gridbin/gridfieldlist.py:29-47, with pipeline.py:100-106: the axis starts half a step before *)
Record field_axis := { fa_zeroth : Qc; fa_step : Qc; fa_count : Z; fa_circular : bool }.
Definition field_axis_index (a : field_axis) (v : Qc) : result Z :=
  if Qc_eq_bool (fa_step a) 0%Qc then Err ZeroDivisionError else
  let i := trunc ((v - fa_zeroth a) / fa_step a - 1 / qz 2)%Qc in
  let i := if fa_circular a && (i =? fa_count a) then 0 else i in
  if i <? 0 then Err ValueError else if i >=? fa_count a then Err ValueError else Ok i.
Definition iris_axis (a : axis) : field_axis :=
  {| fa_zeroth := (a_start a - (1 / qz 2) * a_increment a)%Qc; fa_step := a_increment a; fa_count := a_length a; fa_circular := a_wrap a |}.

(* satellite.py:16 *)
Definition ERRORVALUE : Qc := qz (-32768).
(* satellite.py:173-183 generate_safety_mask *)
Definition safety (p : pixel) : bool := Qc_eq_bool (px_lat p) ERRORVALUE || Qc_eq_bool (px_lon p) ERRORVALUE.
(* satellite.py:185-198 get_filter_from_qc_flags: true where the pixel is left out *)
Definition qc_left_out (mask filter : Z) (p : pixel) : bool := negb (Z.land (px_qc p) mask =? filter) || safety p.

(* gridbin.py:56-81 compute_input_map: positions of the pixels kept, and their cells *)
Definition compute_input_map (lat lon : field_axis) (ps : list pixel) (left_out : pixel -> bool) : result (list Z * list Z) :=
  let from := map fst (filter (fun ip => negb (left_out (snd ip))) (combine (zrange 0 (zlen ps)) ps)) in
  do is <- mapM (field_axis_index lat) (at_indices (map px_lat ps) from);
  do js <- mapM (field_axis_index lon) (at_indices (map px_lon ps) from);
  Ok (from, map (fun ij => fst ij * fa_count lon + snd ij) (combine is js)).

(* operation/count.pyx:24-30 *)
Definition op_count (bins : Z -> Z) (to : list Z) : Z -> Z := fold_left (fun b i => upd b i (b i + 1)) to bins.
(* operation/sumcountmaxmin.pyx:47-56 *)
Definition pymin (a b : Qc) : Qc := if Qclt_bool b a then b else a.
Definition pymax (a b : Qc) : Qc := if Qclt_bool a b then b else a.
Definition op_sum_count (b : binned) (to : list Z) (values : list Qc) : binned :=
  fold_left (fun b iv => let (i, v) := (iv : Z * Qc) in
     {| b_count := upd (b_count b) i (b_count b i + 1); b_sum := upd (b_sum b) i (b_sum b i + v)%Qc;
        b_min := upd (b_min b) i (pymin (b_min b i) v); b_max := upd (b_max b) i (pymax (b_max b i) v) |}) (combine to values) b.
(* operation/sumsq.pyx:25-37 and 52-67 *)
Definition op_sum_sq (bins : Z -> Qc) (to : list Z) (values : list Qc) : Z -> Qc :=
  fold_left (fun b iv => upd b (fst iv) (b (fst iv) + snd iv * snd iv)%Qc) (combine to values) bins.
Definition op_sum_const_sq (bins : Z -> Qc) (to : list Z) (k : Qc) : Z -> Qc :=
  let s := (k * k)%Qc in fold_left (fun b i => upd b i (b i + s)%Qc) to bins.
(* operation/sumsqdev.pyx:26-38 *)
Definition op_sum_sq_dev (bins mean : Z -> Qc) (to : list Z) (values : list Qc) : Z -> Qc :=
  fold_left (fun b iv => let dev := (snd iv - mean (fst iv))%Qc in upd b (fst iv) (b (fst iv) + dev * dev)%Qc) (combine to values) bins.

Definition INITIAL : Qc := qz (10 ^ 20).   (* pipeline.py:147-148 *)
Definition iris_no_sums : sums :=
  {| s_bins := {| b_count := fun _ => 0; b_sum := fun _ => 0%Qc; b_min := fun _ => INITIAL; b_max := fun _ => (- INITIAL)%Qc |};
     s_sq := fun _ => 0%Qc; s_ran := fun _ => 0%Qc; s_atm := fun _ => 0%Qc; s_sfc := fun _ => 0%Qc; s_sys := fun _ => 0%Qc;
     s_obs := fun _ => 0 |}.

Definition iris_obs_map (g : grid) (ch : choice) (ps : list pixel) :=
  compute_input_map (iris_axis (g_lat g)) (iris_axis (g_lon g)) ps (qc_left_out (qc_mask_obs ch) (qc_filter_obs ch)).
Definition iris_input_map (g : grid) (ch : choice) (ps : list pixel) :=
  compute_input_map (iris_axis (g_lat g)) (iris_axis (g_lon g)) ps (fun p => px_masked p || qc_left_out (qc_mask_valid ch) (qc_filter_valid ch) p).

(* pipeline.py:252-288: the first pass over one file *)
Definition iris_file (g : grid) (ch : choice) (s : sums) (f : satfile) : result sums :=
  do obs <- iris_obs_map g ch (sf_pixels f);
  do input <- iris_input_map g ch (sf_pixels f);
  let (from, to) := (input : list Z * list Z) in
  Ok {| s_bins := op_sum_count (s_bins s) to (get f px_value from);
        s_sq := s_sq s;
        s_ran := op_sum_sq (s_ran s) to (get f px_ran from);
        s_atm := op_sum_sq (s_atm s) to (get f px_atm from);
        s_sfc := op_sum_sq (s_sfc s) to (get f px_sfc from);
        s_sys := op_sum_const_sq (s_sys s) to (sf_sys f);
        s_obs := op_count (s_obs s) (snd obs) |}.

(* pipeline.py:300-323: the second pass over one file *)
Definition iris_file_second (g : grid) (ch : choice) (mean devsq : Z -> Qc) (f : satfile) : result (Z -> Qc) :=
  do input <- iris_input_map g ch (sf_pixels f);
  Ok (op_sum_sq_dev devsq mean (snd input) (get f px_value (fst input))).

(* pipeline.py:35-91: post-processing; None where the result is masked (nothing binned there, or division by zero) *)
Record iris_fields := { i_number : Z -> Z; i_mean : Z -> option Qc; i_min : Z -> option Qc; i_max : Z -> option Qc; i_ran2 : Z -> option Qc;
                        i_atm2 : Z -> option Qc; i_sfc2 : Z -> option Qc; i_sys2 : Z -> option Qc; i_total : Z -> Z;
                        i_variance : Z -> option Qc; i_spl2 : Z -> option Qc }.
Definition if_binned (n : Z) (v : Qc) : option Qc := if n =? 0 then None else Some v.
Definition over (a : option Qc) (z : Z) : option Qc := match a with Some v => if z =? 0 then None else Some (v / qz z)%Qc | None => None end.
Definition iris_mean (s : sums) (c : Z) : option Qc :=
  over (if_binned (b_count (s_bins s) c) (b_sum (s_bins s) c)) (b_count (s_bins s) c).
Definition iris_compute (s : sums) (devsq : Z -> Qc) : iris_fields :=
  let n := b_count (s_bins s) in
  let variance := fun c => over (if_binned (n c) (devsq c)) (n c - 1) in
  {| i_number := n;
     i_mean := iris_mean s;
     i_min := fun c => if_binned (n c) (b_min (s_bins s) c);
     i_max := fun c => if_binned (n c) (b_max (s_bins s) c);
     i_ran2 := fun c => over (if_binned (n c) (s_ran s c)) (n c * n c);
     i_atm2 := fun c => over (if_binned (n c) (s_atm s c)) (n c);
     i_sfc2 := fun c => over (if_binned (n c) (s_sfc s c)) (n c);
     i_sys2 := fun c => over (if_binned (n c) (s_sys s c)) (n c);
     i_total := s_obs s;
     i_variance := variance;
     i_spl2 := fun c => match variance c with
                        | Some v => if s_obs s c - 1 =? 0 then None else Some (sq (qz (s_obs s c - n c)) * v / sq (qz (s_obs s c - 1)))%Qc
                        | None => None
                        end |}.

(* pipeline.py:118-357 run *)
Definition iris_run (g : grid) (ch : choice) (files : list satfile) : result (option iris_fields) :=
  match files with
  | [] => Ok None
  | _ => do s <- foldM (iris_file g ch) iris_no_sums files;
         let mean := fun c => match iris_mean s c with Some v => v | None => 0%Qc end in
         do devsq <- foldM (iris_file_second g ch mean) (fun _ => 0%Qc) files;
         Ok (Some (iris_compute s devsq))
  end.
