(* A workflow of separate processes that iterates an analysis, and what its files should hold. *)
From Coq Require Import QArith Qcanon String.
From Verif Require Import Base Grid_Model Lin Ana_Model Ana_Spec Dist_Model.
Local Open Scope nat_scope.
Local Open Scope list_scope.

(* The files of a workflow: the state of component [j] found by iteration [k]; the state of component [j] for time [t] found by
   iteration [k]; the measurement of time [t] for component [j] in iteration [k].  Iterations are counted from 1. *)
Inductive slot := SState (k j : nat) | SLocal (k j : nat) (t : Z) | SMeasurement (k j : nat) (t : Z).

Section Workflow.
Variable name : slot -> string.
Variable solve : table -> vec -> vec.
Variable components : list component.
Variable loaders : list loader.
Variable times : list Z.

(* The storage of component [j] in an operation on component [i] in iteration [k]: the newest state is read (that of this
   iteration for components before [i], else that of the previous one, else none), and only component [i] is written. *)
Definition newest (k i j : nat) : nat := if j <? i then k else k - 1.
Definition reads (k i j : nat) (f : nat -> slot) : option string :=
  match newest k i j with O => None | S _ => Some (name (f (newest k i j))) end.
Definition spatial_storage (k i j : nat) (t : Z) : storage :=
  SpatialFiles {| pf_time := Some t; pf_state_read := reads k i j (fun k => SLocal k j t);
                  pf_state_write := if j =? i then Some (name (SLocal k j t)) else None |}.
Definition measuring_storage (k i j : nat) (t : Z) : storage :=
  SpaceTimeFiles {| sf_state_read := reads k i j (fun k => SState k j); sf_state_write := None;
                    sf_time := if j =? i then Some t else None;
                    sf_meas_write := if j =? i then Some (name (SMeasurement k j t)) else None; sf_meas_list := None |}.
Definition solving_storage (k i j : nat) : storage :=
  SpaceTimeFiles {| sf_state_read := reads k i j (fun k => SState k j);
                    sf_state_write := if j =? i then Some (name (SState k j)) else None;
                    sf_time := None; sf_meas_write := None;
                    sf_meas_list := if j =? i then Some (map (fun t => name (SMeasurement k j t)) times) else None |}.

Definition with_storages (f : nat -> component -> storage) : fsystem :=
  map (fun jc => (snd jc, f (fst jc) (snd jc))) (combine (seq 0 (length components)) components).
Definition measuring (k i : nat) (t : Z) : fsystem :=
  with_storages (fun j c => match c_kind c with Spatial => spatial_storage k i j t | _ => measuring_storage k i j t end).
Definition solving (k i : nat) : fsystem :=
  with_storages (fun j c => match c_kind c with
                            | Spatial => SpatialFiles {| pf_time := None; pf_state_read := None; pf_state_write := None |}
                            | _ => solving_storage k i j
                            end).

(* The operations of [n] iterations: for each component the operations of all times, then (for space-time components) that
   which solves. *)
Definition operations_for (k i : nat) : list (program unit) :=
  map (fun t => update_component_time_f solve (measuring k i t) loaders i t) times ++
  match nth_error components i with
  | Some c => match c_kind c with SpaceTime => [update_component_solution_f solve (solving k i) i] | _ => [] end
  | None => []
  end.
Definition operations (n : nat) : list (program unit) :=
  flat_map (fun k => flat_map (operations_for k) (seq 0 (length components))) (seq 1 n).

(* The same analysis in the memory of one process: the system after [k] sweeps over all components, from nothing. *)
Definition empty_store : store := {| s_state := None; s_meas := []; s_part := [] |}.
Fixpoint in_memory (k : nat) : result system :=
  match k with
  | O => Ok (map (fun c => (c, empty_store)) components)
  | S k => do sys <- in_memory k; update solve sys loaders times
  end.

(* What the file of a slot should hold: what the in-memory analysis holds after that iteration. *)
Definition held (sl : slot) : option content :=
  let at_store k j (f : store -> option content) :=
    match in_memory k with
    | Ok sys => match nth_error sys j with Some (_, s) => f s | None => None end
    | Err _ => None
    end in
  match sl with
  | SState k j => at_store k j (fun s => option_map PState (s_state s))
  | SLocal k j t => at_store k j (fun s => option_map PState (assoc Z.eqb (s_part s) t))
  | SMeasurement k j t => at_store k j (fun s => option_map PMeasurement (assoc okey_eqb (s_meas s) (Some t)))
  end.

(* A file is absent, damaged, or complete and right. *)
Definition sound (d : disk) (sl : slot) : Prop :=
  d (name sl) = None \/ d (name sl) = Some Damaged \/ d (name sl) = held sl.

(* The analysis can be run: different slots have different names; linear components, spatial or space-time, of matching
   shapes; different times, each with observations of that time. *)
Definition runnable : Prop :=
  (forall a b, name a = name b -> a = b) /\
  Forall (fun c => wf_element (c_element c) /\ el_nonlinear (c_element c) = false /\ c_kind c <> Delayed) components /\
  NoDup times /\ times <> [] /\ forall t, In t times -> wf_loaders loaders t /\ inputs loaders t <> [].
End Workflow.
