(* What a reader expects of the surface-air temperatures over ice.  The record of inputs, the names of the observables and of
   the two kinds of ice, and the bundle of operations on the output numbers come from Ice_Model; nothing else does. *)
From Coq Require Import String QArith Qabs.
From Verif Require Import Base Ice_Model.
Open Scope Z_scope.

(* ---- quality control *)

Definition land_ice (x : ice_inputs) (i j : Z) : Prop := land_mask x i j = 1 \/ land_mask x i j = 4.
Definition frozen_sea (x : ice_inputs) (i j : Z) : Prop := exists f, sea_ice_fraction x i j = Some f /\ (3#10 <= f)%Q.
Definition over_ice (x : ice_inputs) (i j : Z) : Prop := land_ice x i j \/ frozen_sea x i j.

Fixpoint total (l : list Q) : Q := match l with [] => 0 | a :: l => a + total l end%Q.
Definition average (l : list Q) (m : Q) : Prop := l <> [] /\ (m * inject_Z (zlen l) == total l)%Q.
(* [known v bins l]: l lists the known values among those of the bins *)
Inductive known (v : Z -> option Q) : list Z -> list Q -> Prop :=
| known_nil : known v [] []
| known_some b bins a l : v b = Some a -> known v bins l -> known v (b :: bins) (a :: l)
| known_none b bins l : v b = None -> known v bins l -> known v (b :: bins) l.
Definition day_bins : list Z := [2; 3; 4; 5].
Definition night_bins : list Z := [0; 1; 6; 7].
Definition all_bins : list Z := [0; 1; 2; 3; 4; 5; 6; 7].
Definition observed (x : ice_inputs) (bins : list Z) (i j : Z) : Prop :=
  forall l, known (fun b => Nobs3d x b i j) bins l -> ~ (total l == 0)%Q.
(* a temperature is within d of the mean of the bins, as far as both are known *)
Definition near_bins (x : ice_inputs) (t : option Q) (bins : list Z) (d : Q) (i j : Z) : Prop :=
  forall a l m, t = Some a -> known (fun b => surface_temperature_3d x b i j) bins l -> average l m -> (Qabs (a - m) <= d)%Q.

Definition temperature (x : ice_inputs) (o : observable) (i j : Z) : option Q :=
  match o with
  | TAS => surface_temperature x i j
  | TASMIN => surface_temperature_min x i j
  | TASMAX => surface_temperature_max x i j
  end.
Definition steady (x : ice_inputs) (i j : Z) : Prop := forall s, surface_temperature_std x i j = Some s -> (s <= 707#100)%Q.
Definition cold_enough (x : ice_inputs) (i j : Z) : Prop := forall t, surface_temperature x i j = Some t -> (t <= 27815#100)%Q.
(* the tests that look at one cell only *)
Definition plausible (x : ice_inputs) (o : observable) (i j : Z) : Prop :=
  steady x i j /\ cold_enough x i j /\
  match o with
  | TAS => observed x day_bins i j /\ observed x night_bins i j /\ near_bins x (surface_temperature x i j) all_bins 10 i j
  | TASMIN => observed x night_bins i j
  | TASMAX => observed x day_bins i j /\ near_bins x (surface_temperature_max x i j) day_bins 20 i j
  end.
Definition of_kind (x : ice_inputs) (p : part) (i j : Z) : Prop :=
  match p with LAND_ICE => land_ice x i j | SEA_ICE => frozen_sea x i j end.
Definition usable (x : ice_inputs) (o : observable) (p : part) (i j : Z) (t : Q) : Prop :=
  temperature x o i j = Some t /\ plausible x o i j /\ of_kind x p i j.
Definition neighbour (i j a b : Z) : Prop := Z.abs (a - i) <= 2 /\ Z.abs (b - j) <= 2 /\ (a, b) <> (i, j).
(* a cell away from the border that is more than ten degrees colder than the mean of its usable neighbours *)
Definition cloudy (x : ice_inputs) (o : observable) (p : part) (i j : Z) : Prop :=
  2 <= i < zlen (latitude x) - 2 /\ 2 <= j < zlen (longitude x) - 2 /\
  exists t (cells : list (Z * Z)) (values : list Q) m,
    usable x o p i j t /\ NoDup cells /\
    (forall a b, In (a, b) cells <-> neighbour i j a b /\ exists v, usable x o p a b v) /\
    Forall2 (fun c v => temperature x o (fst c) (snd c) = Some v) cells values /\
    (2 <= length cells)%nat /\ average values m /\ (10 < m - t)%Q.
Definition accepted (x : ice_inputs) (o : observable) (i j : Z) (t : Q) : Prop :=
  temperature x o i j = Some t /\ over_ice x i j /\ plausible x o i j /\
  ~ cloudy x o LAND_ICE i j /\ ~ cloudy x o SEA_ICE i j.

Definition in_grid (x : ice_inputs) (i j : Z) : Prop := 0 <= i < zlen (latitude x) /\ 0 <= j < zlen (longitude x).

(* ---- the model *)

(* a cell for which everything needed is known: temperature, three uncertainties *)
Definition ready (x : ice_inputs) (o : observable) (i j : Z) (t u s l : Q) : Prop :=
  accepted x o i j t /\ uncorrelated_uncertainty x i j = Some u /\ synoptically_correlated_uncertainty x i j = Some s /\
  large_scale_correlated_uncertainty x i j = Some l.
(* land ice takes precedence *)
Definition kind_at (x : ice_inputs) (i j : Z) (p : part) : Prop :=
  match p with LAND_ICE => land_ice x i j | SEA_ICE => ~ land_ice x i j /\ frozen_sea x i j end.
Definition in_hemisphere (x : ice_inputs) (h : hemisphere_name) : Prop :=
  exists l0 rest, latitude x = l0 :: rest /\ match h with Northern => (0 < l0)%Q | Southern => (l0 <= 0)%Q end.

Inductive quantity := Temperature | Total | WithoutCloud | Random | Local | Systematic | Cloud.
Definition output_name (o : observable) (q : quantity) : string :=
  ((match o with TAS => "tas" | TASMIN => "tasmin" | TASMAX => "tasmax" end) ++
   (match q with Temperature => "" | Total => "uncertainty" | WithoutCloud => "_unc_no_cloud" | Random => "_unc_rand"
               | Local => "_unc_corr_local" | Systematic => "_unc_sys" | Cloud => "_unc_cloud" end))%string.

Section Formulas.
Variable A : arithmetic.
Local Notation "a +' b" := (add A a b) (at level 50, left associativity).
Local Notation "a *' b" := (mul A a b) (at level 40, left associativity).
Definition phase (day : Z) : num A := quot A (of_Q A 2 *' pi A *' of_Q A (inject_Z day - 18262)%Q) (of_Q A (3652425#10000)).
Definition sampling (h : hemisphere_name) (p : part) (o : observable) : Q :=
  match h, p with
  | Northern, LAND_ICE => match o with TAS => 16#10 | TASMIN => 22#10 | TASMAX => 21#10 end
  | Northern, SEA_ICE => match o with TAS => 0 | TASMIN => 29#10 | TASMAX => 20#10 end
  | Southern, LAND_ICE => match o with TAS => 16#10 | TASMIN => 15#10 | TASMAX => 38#10 end
  | Southern, SEA_ICE => match o with TAS => 17#10 | TASMIN => 57#10 | TASMAX => 29#10 end
  end.
Definition relation (p : part) (o : observable) : Q :=
  match p with
  | LAND_ICE => match o with TAS => 15#10 | TASMIN => 18#10 | TASMAX => 20#10 end
  | SEA_ICE => match o with TAS => 17#10 | TASMIN => 18#10 | TASMAX => 21#10 end
  end.
Definition extra_cloud (o : observable) : Q := match o with TASMIN => 2 | TAS | TASMAX => 0 end.
Definition air (c0 c1 c2 c3 : num A) (day : Z) (t : Q) : num A :=
  c1 *' of_Q A (t - (27315#100))%Q +' (c0 +' c2 *' cosine A (phase day) +' c3 *' sine A (phase day)) +' of_Q A (27315#100).
Definition random (c1 : num A) (h : hemisphere_name) (p : part) (o : observable) (u : Q) : num A :=
  root A (of_Q A u *' of_Q A u +' of_Q A (sampling h p o) *' of_Q A (sampling h p o)) *' c1.
Definition local (c1 : num A) (p : part) (o : observable) (s : Q) : num A :=
  root A ((of_Q A s *' c1) *' (of_Q A s *' c1) +' of_Q A (relation p o) *' of_Q A (relation p o)).
Definition systematic (c1 : num A) : num A := c1 *' of_Q A (2#10).
Definition cloud (c1 : num A) (o : observable) (l : Q) : num A := c1 *' of_Q A (l - (2#10) + extra_cloud o)%Q.
Definition without_cloud (c1 : num A) (h : hemisphere_name) (p : part) (o : observable) (u s : Q) : num A :=
  root A (random c1 h p o u *' random c1 h p o u +' local c1 p o s *' local c1 p o s +' systematic c1 *' systematic c1).
Definition with_cloud (c1 : num A) (h : hemisphere_name) (p : part) (o : observable) (u s l : Q) : num A :=
  root A (random c1 h p o u *' random c1 h p o u +' local c1 p o s *' local c1 p o s +' systematic c1 *' systematic c1 +'
          cloud c1 o l *' cloud c1 o l).

Definition expected (c : num A * num A * num A * num A) (day : Z) (h : hemisphere_name) (p : part) (o : observable) (q : quantity)
    (t u s l : Q) : num A :=
  let '(c0, c1, c2, c3) := c in
  match q with
  | Temperature => air c0 c1 c2 c3 day t
  | Total => with_cloud c1 h p o u s l
  | WithoutCloud => without_cloud c1 h p o u s
  | Random => random c1 h p o u
  | Local => local c1 p o s
  | Systematic => systematic c1
  | Cloud => cloud c1 o l
  end.
End Formulas.

(* exactly one field of that name *)
Definition the_field {F} (d : list (string * F)) (name : string) (f : F) : Prop :=
  In (name, f) d /\ forall g, In (name, g) d -> g = f.

(* ---- axes *)

(* the n latitudes a, a + r, a + 2 r, ... *)
Definition regular (l : list Q) (a r : Q) (n : Z) : Prop :=
  zlen l = n /\ forall i q, nth_error l (Z.to_nat i) = Some q -> 0 <= i -> (q == a + inject_Z i * r)%Q.
