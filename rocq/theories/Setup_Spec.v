(* What the properties of the settings, elements and monthly data say, without reference to how they are computed. *)
From Coq Require Import QArith Qcanon String.
From Verif Require Import Base Time_Model Grid_Model Comb_Model Lat_Model Setup_Model.
Local Open Scope Z_scope.
Local Open Scope list_scope.

Definition multiple_of (step x : Qc) : Prop := exists k : Z, (x = qz k * step)%Qc.

(* the first moment of a month; months are numbered from January of the year 0 *)
Definition month_begins (n : Z) : Z := ymd2ord (n / 12) (n mod 12 + 1) 1 * DAY.

(* the hyperparameters that the prior of an element reads *)
Definition fits (e : element) (h : hyper) : Prop :=
  match e, h with
  | EGrandMean, HCovariate _ | EBias _ _, HCovariate _ | EInsituLand _, HCovariate _ | ECovariate _, HCovariate _
  | ELatitude _, HLocal _ _ | ELocal _, HLocal _ _ | ESpatialBias _ _, HLocal _ _
  | EKronecker _ _, HSpaceTime _ _ _ | EAnnual _ _, HSpaceTime _ _ _ => True
  | _, _ => False
  end.
Definition hyper_size (e : element) : nat :=
  match e with
  | EGrandMean | EBias _ _ | EInsituLand _ | ECovariate _ => 1
  | ELatitude _ | ELocal _ | ESpatialBias _ _ => 2
  | EKronecker _ _ | EAnnual _ _ => 3
  | ENonStationary _ => 0
  end.

(* the satellite sources with biases: number of biases of the mean, and whether there is a bias that varies in space *)
Definition satellite_biases (group : string) : option (nat * bool) :=
  match find (fun p => String.eqb (fst p) group)
             [("surfaceairmodel_land_global", (1%nat, true)); ("surfaceairmodel_ocean_global", (1%nat, false)); ("surfaceairmodel_ice_global", (2%nat, true))]%string with
  | Some (_, b) => Some b
  | None => None
  end.

(* a variable with a time axis of middles of months, from January of the year of the epoch on, in days since the epoch *)
Definition monthly_axis (epoch : Z) (v : variable) : Prop :=
  List.length (v_fields v) = List.length (v_times v) /\
  forall k x, nth_error (v_times v) k = Some x ->
    (x * qz (2 * DAY) = qz (month_begins (12 * dt_year epoch + Z.of_nat k) + month_begins (12 * dt_year epoch + Z.of_nat k + 1) - 2 * epoch))%Qc.
(* standard error of two independent ones; errors below a thousandth count as missing *)
Definition error_of (root : Qc -> Qc) (a b : Qc) : Qc := if Qclt_le_dec (root (a * a + b * b)%Qc) (1 / qz 1000) then root (1 / qz 10)%Qc else root (a * a + b * b)%Qc.
