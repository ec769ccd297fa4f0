(* Specification vocabulary for the quality flags. *)
From Coq Require Import String.
From Coq Require Import QArith Qcanon.
From Verif Require Import Base Time_Model Flag_Model.
Local Open Scope Z_scope.
Local Open Scope list_scope.

(* The flag with number [b] is set in word [q]. *)
Definition flag (q b : Z) : Prop := Z.testbit q b = true.
(* All flags of [target] are set in [q]. *)
Definition all_set (target q : Z) : Prop := forall b, flag target b -> flag q b.
(* A flag word of 16 bits. *)
Definition word (q : Z) : Prop := 0 <= q < 65536.

(* Fewer than [m] days satisfy [P]. *)
Definition fewer_than (m : Z) (P : Z -> Prop) : Prop := exists l : list Z, Z.of_nat (length l) < m /\ forall d, P d -> In d l.
Definition at_least (m : Z) (P : Z -> Prop) : Prop := exists l : list Z, NoDup l /\ m <= Z.of_nat (length l) /\ forall d, In d l -> P d.

(* The file of day [d] can be read and at cell [k] not all flags of [target] are set: the cell is constrained by observations. *)
Definition constrained (load : Z -> option (list Z)) (target : Z) (k : nat) (d : Z) : Prop :=
  exists f, load d = Some f /\ ~ all_set target (nth k f 0).
(* The file of day [d] can be read and at cell [k] one of the flags numbered in [bits] is set. *)
Definition flagged (load : Z -> option (list Z)) (bits : list Z) (k : nat) (d : Z) : Prop :=
  exists f b, load d = Some f /\ In b bits /\ flag (nth k f 0) b.
(* All files have [n] cells. *)
Definition same_shape (load : Z -> option (list Z)) (n : nat) : Prop := forall d f, load d = Some f -> length f = n.

(* The numbers of the flags and what they stand for (flags.py:22-50 and the head of that file). *)
Definition flag_names : list (Z * string) :=
  [ (0, "day_constraint"); (1, "prior_window_constraint"); (2, "post_window_constraint"); (3, "prior_calendar_constraint"); (4, "post_calendar_constraint");
    (5, "climatology_uncertainty_qc"); (6, "large_scale_uncertainty_qc"); (7, "areal_low_value_qc"); (8, "areal_high_value_qc"); (9, "extreme_low_value_qc");
    (10, "extreme_high_value_qc"); (11, "persistent_outlier_qc"); (12, "marine_location_flag"); (13, "location_low_value_qc"); (14, "location_high_value_qc");
    (15, "unconstrained_calendar_day_qc") ]%string.

(* Cell (i, j) of the coastal influence counts as sea: the last row does, the first (unless it is the last) does not, and in other rows the value, in
   percent, is above 95. The first and the last column take the value of the column beside them. *)
Definition column_beside (width j : nat) : nat := if Nat.eqb j 0 then 1 else if Nat.eqb j (width - 1) then width - 2 else j.
Definition marine (coast : list (list Qc)) (i j : nat) : Prop :=
  let row := nth i coast [] in
  i = (length coast - 1)%nat \/ (i <> 0%nat /\ (Q2Qc 95 < nth (column_beside (length row) j) row 0)%Qc).
(* A grid of h rows with w cells each. *)
Definition shape {A} (g : list (list A)) (h w : nat) : Prop := length g = h /\ forall row, In row g -> length row = w.
(* The day (ordinal) of year [y] with the month and day of the date of [t]; 28 February stands for 29 February in years without one. *)
Definition day_in_year (t y : Z) : Z := ymd2ord y (dt_month t) (Z.min (dt_day t) (days_in_month y (dt_month t))).
(* [out] has the values of [orig] except where [mask] is true; there it is masked. *)
Definition hides {V} (mask : list bool) (orig : list V) (out : list (option V)) : Prop :=
  length out = length orig /\ length mask = length orig /\ forall k v, nth_error orig k = Some v -> nth_error out k = Some (if nth k mask false then None else Some v).
(* All days of the window exist as dates. *)
Definition window_dates (ref w : Z) : Prop := forall d, - w <= d <= w -> valid_datetime (ref + d * DAY) = true.

Section Outputs.
Context {V : Type}.
(* Flag [b] is set at cell [k] in the flag file of the day, or in the file of the second directory. *)
Definition raised (d : day_data V) (k : nat) (b : Z) : Prop :=
  (exists f, d_flags V d = Some f /\ flag (nth k f 0) b) \/ (exists f, d_flags2 V d = Some (Some f) /\ flag (nth k f 0) b).
(* The flag files of the day can be read and have [n] cells. *)
Definition flags_of_size (d : day_data V) (n : nat) : Prop :=
  (exists f, d_flags V d = Some f /\ length f = n) /\ (d_flags2 V d = None \/ exists f, d_flags2 V d = Some (Some f) /\ length f = n).
Definition analysis_of (c : component V) : list V := fst (fst c).
Definition uncertainty_of (c : component V) : list V := snd (fst c).
Definition influence_of (c : component V) : list V := snd c.
(* [orig] is the field read for variable [v] of output file [name]. *)
Definition source (d : day_data V) (name : outfile) (v : variable) (orig : list V) : Prop :=
  exists c, match name with
            | Global _ _ => exists members, d_analysis V d = Some (c, members) /\ match v with TASENSEMBLE _ => exists number, In (Some number, orig) members | _ => True end
            | Climatology => d_climatology V d = Some c | LargeScale => d_large_scale V d = Some c | Local => d_local V d = Some c end /\
    match v with
    | TAS | TASPERTURBATION => orig = analysis_of c | TASUNCERTAINTY => orig = uncertainty_of c | TAS_OBSERVATION_INFLUENCE => orig = influence_of c
    | TASENSEMBLE _ => match name with Global _ _ => True | _ => False end end.
End Outputs.
