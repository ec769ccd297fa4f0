(* Specification vocabulary for values of a component on a grid. *)
From Coq Require Import QArith Qcanon String Permutation Sorted.
From Verif Require Import Base Grid_Model Proj_Model.
Local Open Scope Z_scope.
Local Open Scope list_scope.

(* The value r_1 s_1 + r_2 s_2 + ... that a row of a design matrix gives a state. *)
Fixpoint inner (r s : list Qc) : Qc := match r, s with a :: r', b :: s' => (a * b + inner r' s')%Qc | _, _ => 0%Qc end.
(* Mean of the squares, and variance: mean of the squares less the square of the mean. *)
Definition average (l : list Qc) : Qc := (sumQ l / qz (zlen l))%Qc.
Definition second_moment (l : list Qc) : Qc := average (map (fun x => x * x)%Qc l).
Definition spread (l : list Qc) : Qc := (second_moment l - average l * average l)%Qc.

(* The cells of a grid, latitude by latitude. *)
Fixpoint cells (latitudes longitudes : list Qc) : list (Qc * Qc) :=
  match latitudes with [] => [] | lat :: rest => map (fun lon => (lat, lon)) longitudes ++ cells rest longitudes end.
(* The midpoint of part i (from 0) of n equal parts of a cell of the given centre and width. *)
Definition midpoint (centre width : Qc) (n i : Z) : Qc := (centre + width * (qz (2 * i + 1) / qz (2 * n) - Q2Qc (1 # 2)))%Qc.
(* The midpoints of the nlat times nlon parts of a cell. *)
Definition parts (width : Qc * Qc) (n : Z * Z) (cell : Qc * Qc) : list (Qc * Qc) :=
  cells (map (midpoint (fst cell) (fst width) (fst n)) (zrange 0 (fst n))) (map (midpoint (snd cell) (snd width) (snd n)) (zrange 0 (snd n))).
(* Mean of f over points, with weights. *)
Definition weighted_mean (w f : Qc * Qc -> Qc) (points : list (Qc * Qc)) : Qc := (sumQ (map (fun p => w p * f p)%Qc points) / sumQ (map w points))%Qc.
(* The weight of a point: the cosine of its latitude. *)
Definition area (cosine : Qc -> Qc) (p : Qc * Qc) : Qc := cosine (fst p).
Definition cell_mean (cosine : Qc -> Qc) (width : Qc * Qc) (n : Z * Z) (f : Qc * Qc -> Qc) (cell : Qc * Qc) : Qc := weighted_mean (area cosine) f (parts width n cell).

Definition ascending (l : list Qc) : Prop := StronglySorted Qcle l.
(* What numpy.argsort guarantees: positions, each once, that list the keys in ascending order. *)
Definition sorts (argsort : list Qc -> list nat) : Prop :=
  forall l, Permutation (argsort l) (seq 0 (length l)) /\ ascending (map (fun i => nth i l 0%Qc) (argsort l)).

(* ------------------------------------------------------------------ histories of a projector *)
Section History.
Context {component : Type}.
(* No call of the history keeps the design matrix. *)
Definition keeps (u : use component) : bool := match u with Set_component _ _ k => k | Update_time _ _ k => k | _ => false end.
(* The time of the projector after a history, the component set last, and the time when it was set, unless the projector was saved and loaded since. *)
Fixpoint time_after (t : Z) (h : list (use component)) : Z := match h with [] => t | Update_time _ t' _ :: r => time_after t' r | _ :: r => time_after t r end.
Fixpoint component_after (c : option component) (h : list (use component)) : option component :=
  match h with [] => c | Set_component _ c' _ :: r => component_after (Some c') r | _ :: r => component_after c r end.
Fixpoint loaded_after (t : Z) (l : option (component * Z)) (h : list (use component)) : option (component * Z) :=
  match h with
  | [] => l
  | Set_component _ c _ :: r => loaded_after t (Some (c, t)) r
  | Update_time _ t' _ :: r => loaded_after t' l r
  | Save_and_load _ :: r => loaded_after t None r
  | Evaluate _ :: r => loaded_after t l r
  end.
End History.
(* What a storage holds for a component at a time. *)
Definition stored {component A} (kind : component -> storage) (by_time : component -> Z -> option A) (whole : component -> option A) (c : component) (t : Z) : option A :=
  match kind c with Time_indexed => by_time c t | Index_free => whole c | Unrecognised => None end.
(* A history that raises no exception: components of known kinds, and one is set before the first evaluation. *)
Fixpoint allowed {component} (kind : component -> storage) (set : bool) (h : list (use component)) : bool :=
  match h with
  | [] => true
  | Set_component _ c _ :: r => match kind c with Unrecognised => false | _ => allowed kind true r end
  | Evaluate _ :: r => set && allowed kind set r
  | _ :: r => allowed kind set r
  end.
