(* What binning observations onto a grid means, said without the loops of the programs. *)
From Coq Require Import QArith Qcanon.
From Verif Require Import Base Grid_Model.
Local Open Scope Z_scope.
Local Open Scope list_scope.

(* v lies in the i-th interval of the axis: from start + i*increment (included) to start + (i+1)*increment (excluded). *)
Definition within (a : axis) (i : Z) (v : Qc) : Prop :=
  exists t, (0 <= t)%Qc /\ (t < 1)%Qc /\ v = (a_start a + (qz i + t) * a_increment a)%Qc.
(* v lies less than one interval before the start of the axis *)
Definition just_before (a : axis) (v : Qc) : Prop :=
  exists t, (0 < t)%Qc /\ (t < 1)%Qc /\ v = (a_start a - t * a_increment a)%Qc.

(* The flat cell number of a pixel, if it has a row and a column (which those are is the subject of C22). *)
Definition cell (g : grid) (p : pixel) : option Z :=
  match axis_index (g_lat g) (px_lat p), axis_index (g_lon g) (px_lon p) with
  | Ok i, Ok j => Some (i * a_length (g_lon g) + j)
  | _, _ => None
  end.
Definition in_cell (g : grid) (c : Z) (p : pixel) : bool := match cell g p with Some d => d =? c | None => false end.
Definition on_grid (g : grid) (p : pixel) : Prop := cell g p <> None.

(* The quality test *)
Definition passes (mask filter : Z) (p : pixel) : bool := Z.land (px_qc p) mask =? filter.
Definition valid (ch : choice) : pixel -> bool := passes (qc_mask_valid ch) (qc_filter_valid ch).
Definition of_interest (ch : choice) : pixel -> bool := passes (qc_mask_obs ch) (qc_filter_obs ch).

(* Every pixel of every file, with the systematic uncertainty of its file. *)
Definition all_pixels (files : list satfile) : list (pixel * Qc) :=
  flat_map (fun f => map (fun p => (p, sf_sys f)) (sf_pixels f)) files.
Definition chosen (g : grid) (test : pixel -> bool) (files : list satfile) (c : Z) : list (pixel * Qc) :=
  filter (fun ps => test (fst ps) && in_cell g c (fst ps)) (all_pixels files).

Definition total (f : pixel * Qc -> Qc) (l : list (pixel * Qc)) : Qc := sumQ (map f l).
Definition value_of (ps : pixel * Qc) : Qc := px_value (fst ps).

Definition is_min (m : Qc) (l : list Qc) : Prop := In m l /\ forall x, In x l -> (m <= x)%Qc.
Definition is_max (m : Qc) (l : list Qc) : Prop := In m l /\ forall x, In x l -> (x <= m)%Qc.

Definition mean (l : list Qc) : Qc := (sumQ l / qz (zlen l))%Qc.
Definition sample_variance (l : list Qc) : Qc := (sumQ (map (fun x => (x - mean l) * (x - mean l))%Qc l) / qz (zlen l - 1))%Qc.
(* The same by differences between pairs, with no mean. *)
Definition pair_variance (l : list Qc) : Qc :=
  (sumQ (map (fun x => sumQ (map (fun y => (x - y) * (x - y)) l)) l) / (qz 2 * qz (zlen l) * qz (zlen l - 1)))%Qc.

(* Two sets of fields are the same at every cell. *)
Definition same_fields (F G : fields) : Prop :=
  forall c, f_number F c = f_number G c /\ f_mean F c = f_mean G c /\ f_min F c = f_min G c /\ f_max F c = f_max G c /\
            f_ran2 F c = f_ran2 G c /\ f_atm2 F c = f_atm2 G c /\ f_sfc2 F c = f_sfc2 G c /\ f_sys2 F c = f_sys2 G c /\
            f_total F c = f_total G c /\ f_variance F c = f_variance G c /\ f_spl2 F c = f_spl2 G c.

(* The first program marks empty cells by -1, the second by a mask. *)
Definition flagged (v : option Qc) : Qc := match v with Some x => x | None => FLAG_INVALID end.
