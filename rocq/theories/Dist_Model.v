(* Model of the analysis run as separate processes that communicate by files
   (src/eustace/analysis/advanced_standard: components/storage_files.py, examples/moving_climatology.py).  Each operation is a
   program that reads and writes files; the processes of several operations interleave file access by file access, and may be
   killed and started again at any point.
   Simplifications: a file holds a state, a measurement (both by cPickle) or a damaged pickle; the disk never fails or fills;
   directories exist once needed; observations come from loaders as in Ana_Model; no uncertainties or samples are asked for
   (compute_uncertainties, compute_sample and compute_prior_sample are false); the storages are the two classes below, used
   with the component of their kind. *)
From Coq Require Import QArith Qcanon String.
From Verif Require Import Base Grid_Model Lin Ana_Model.
Local Open Scope nat_scope.
Local Open Scope list_scope.

(* What a file holds. *)
Inductive content := PState (v : vec) | PMeasurement (m : option info) | Damaged.
Definition disk := string -> option content.
Definition put (d : disk) (f : string) (c : content) : disk := fun g => if String.eqb g f then Some c else d g.

(* A program: its remaining file accesses. *)
Inductive program (A : Type) : Type :=
| Ret (r : result A)
| Read (f : string) (k : option content -> program A)
| Write (f : string) (c : content) (p : program A).
Arguments Ret {A} r.
Arguments Read {A} f k.
Arguments Write {A} f c p.
Fixpoint andthen {A B} (p : program A) (q : A -> program B) : program B :=
  match p with
  | Ret (Ok a) => q a
  | Ret (Err e) => Ret (Err e)
  | Read f k => Read f (fun c => andthen (k c) q)
  | Write f c p => Write f c (andthen p q)
  end.
Notation "'run' x <- p ; q" := (andthen p (fun x => q)) (at level 200, x pattern, p at level 100, q at level 200).
Fixpoint foldP {A B} (f : A -> B -> program A) (a : A) (l : list B) : program A :=
  match l with [] => Ret (Ok a) | b :: l => run a <- f a b; foldP f a l end.

(* storage_files.py:11-14 writepickle: opening for writing empties the file, then the pickle is dumped *)
Definition writepickle (c : content) (f : string) : program unit := Write f Damaged (Write f c (Ret (Ok tt))).
(* 16-18 readpickle: no file is an IOError, an incomplete pickle an EOFError or UnpicklingError (one error here) *)
Definition readpickle (f : string) : program content :=
  Read f (fun c => Ret (match c with None => Err IOErrorE | Some Damaged => Err ValueError | Some c => Ok c end)).
(* An object of the other type makes the first use of it fail; here the reading already does. *)
Definition readstate (f : string) : program vec :=
  run c <- readpickle f; Ret (match c with PState v => Ok v | _ => Err TypeError end).
Definition readmeasurement (f : string) : program (option info) :=
  run c <- readpickle f; Ret (match c with PMeasurement m => Ok m | _ => Err AttributeError end).

(* storage_files.py:20-49 and 131-155: the two storage classes, as configured for one operation *)
Record spacetime_files := { sf_state_read : option string; sf_state_write : option string;
                            sf_time : option Z; sf_meas_write : option string; sf_meas_list : option (list string) }.
Record spatial_files := { pf_time : option Z; pf_state_read : option string; pf_state_write : option string }.
Inductive storage := SpaceTimeFiles (s : spacetime_files) | SpatialFiles (s : spatial_files).

(* 51-56 *)
Definition state_write (s : spacetime_files) (v : vec) : program unit :=
  match sf_state_write s with None => Ret (Err ValueError) | Some f => writepickle (PState v) f end.
(* 79-84 *)
Definition state_read (s : spacetime_files) : program (option vec) :=
  match sf_state_read s with None => Ret (Ok None) | Some f => run v <- readstate f; Ret (Ok (Some v)) end.
(* 107-115 *)
Definition measurement_write (s : spacetime_files) (m : option info) (t : option Z) : program unit :=
  match sf_meas_write s with
  | None => Ret (Err ValueError)
  | Some f => if negb (okey_eqb (sf_time s) t) then Ret (Err ValueError) else writepickle (PMeasurement m) f
  end.
(* 117-125 *)
Definition measurement_read (s : spacetime_files) (k : Z) : program (option info) :=
  match sf_meas_list s with
  | None => Ret (Err ValueError)
  | Some fs => if ((k <? 0) || (zlen fs <=? k))%Z then Ret (Err ValueError)
               else match nth_error fs (Z.to_nat k) with Some f => readmeasurement f | None => Ret (Err IndexError) end
  end.
(* 127-129 *)
Definition timeindices_read (s : spacetime_files) : option (list Z) :=
  match sf_meas_list s with None | Some [] => None | Some fs => Some (zrange 0 (zlen fs)) end.
(* 157-165 *)
Definition partial_state_write (s : spatial_files) (v : vec) (t : option Z) : program unit :=
  match pf_state_write s with
  | None => Ret (Err ValueError)
  | Some f => if negb (okey_eqb (pf_time s) t) then Ret (Err ValueError) else writepickle (PState v) f
  end.
(* 197-204 *)
Definition partial_state_read (s : spatial_files) (t : option Z) : program (option vec) :=
  match pf_state_read s with
  | None => Ret (Ok None)
  | Some f => if negb (okey_eqb (pf_time s) t) then Ret (Err ValueError) else run v <- readstate f; Ret (Ok (Some v))
  end.

(* The components with their storages; component and storage of different kinds lack each other's methods. *)
Definition fsystem := list (component * storage).

(* spacetime.py:259-284, spatial.py:151-167 *)
Definition expected_value_f (c : component) (s : storage) (o : observations) : program vec :=
  let e := c_element c in
  match c_kind c, s with
  | SpaceTime, SpaceTimeFiles s =>
      run x <- state_read s;
      Ret (Ok (match x with
               | None => if el_nonlinear e then el_function e o (el_initial e o) else zeros (length (o_vector o))
               | Some x => el_function e o x
               end))
  | Spatial, SpatialFiles s =>
      run x <- partial_state_read s (Some (o_time o));
      Ret (Ok (match x with None => zeros (length (o_vector o)) | Some x => el_function e o x end))
  | _, _ => Ret (Err AttributeError)
  end.

(* A component solution under construction: measurement (or local system) so far, and its time index *)
Definition fsolution := (option info * option Z)%type.

(* spacetime.py:107-120: the current state, stored when it is the initial one of a nonlinear element *)
Definition linearisation_f (c : component) (s : storage) (o : observations) : program (option vec) :=
  let e := c_element c in
  match c_kind c, s with
  | SpaceTime, SpaceTimeFiles s =>
      run x <- state_read s;
      if el_nonlinear e then
        match x with
        | None => let x := el_initial e o in run _ <- state_write s x; Ret (Ok (Some x))
        | Some x => Ret (Ok (Some x))
        end
      else Ret (Ok x)
  | Spatial, SpatialFiles _ => Ret (Ok None)
  | _, _ => Ret (Err AttributeError)
  end.

(* process_observations: spacetime.py:100-144, spatial.py:87-113 (order of the checks as in Ana_Model) *)
Definition process_observations_f (c : component) (s : storage) (so : fsolution) (o : observations) (offset : vec) : program fsolution :=
  let e := c_element c in
  run t <- Ret (match snd so with None => Ok (o_time o) | Some t => if (t =? o_time o)%Z then Ok t else Err ValueError end);
  run relative <- Ret (vsub (o_vector o) offset);
  run current <- linearisation_f c s o;
  run relative <- Ret (match c_kind c, el_nonlinear e, current with
                       | Spatial, _, _ | _, false, _ | _, true, None => Ok relative
                       | _, true, Some x => vsub relative (el_function e o x)
                       end);
  run update <- Ret (create_from_system_observations (el_jacobian e o current) (o_precision o) relative);
  run m <- Ret (match fst so with
                | None => match c_kind c with
                          | Spatial => append_measurement_update (create_blank (el_dim e)) update
                          | _ => Ok update
                          end
                | Some m => append_measurement_update m update
                end);
  Ret (Ok (Some m, Some t)).

Section Solving.
Variable solve : table -> vec -> vec.

(* update_time_step: spacetime.py:146-150, spatial.py:115-143 *)
Definition update_time_step_f (c : component) (s : storage) (so : fsolution) : program unit :=
  match c_kind c, s with
  | SpaceTime, SpaceTimeFiles s => measurement_write s (fst so) (snd so)
  | Spatial, SpatialFiles s =>
      match so with
      | (Some u, Some t) =>
          run x <- Ret (maximum_a_posteriori solve (el_prior (c_element c)) u);
          partial_state_write s x (Some t)
      | _ => Ret (Ok tt)
      end
  | _, _ => Ret (Err AttributeError)
  end.

(* update: spacetime.py:152-237 (posterior branch), spatial.py:145-149.  [for t in None] is a TypeError, a stored None an
   AttributeError. *)
Definition update_solution_f (c : component) (s : storage) : program unit :=
  let e := c_element c in
  match c_kind c, s with
  | SpaceTime, SpaceTimeFiles s =>
      run u <- (match timeindices_read s with
                | None => Ret (Err TypeError)
                | Some ks => foldP (fun u k => run m <- measurement_read s k;
                                               Ret (match m with Some m => append_measurement_update u m | None => Err AttributeError end))
                                   (create_blank (el_dim e)) ks
                end);
      run x <- Ret (maximum_a_posteriori solve (el_prior e) u);
      run x <- (if el_nonlinear e then
                  run old <- state_read s;
                  Ret (match old with None => Err TypeError | Some old => vadd x old end)
                else Ret (Ok x));
      state_write s x
  | Spatial, SpatialFiles _ => Ret (Ok tt)
  | _, _ => Ret (Err AttributeError)
  end.

(* analysissystem.py:90-109 *)
Definition subtract_offset_f (sys : fsystem) (i : nat) (o : observations) : program vec :=
  foldP (fun acc kcs => let '(k, (c, s)) := kcs in
                        if negb (k =? i) then run v <- expected_value_f c s o; Ret (vadd acc v) else Ret (Ok acc))
        (zeros (length (o_vector o))) (combine (seq 0 (length sys)) sys).
(* 81-112 *)
Definition process_inputs_f (sys : fsystem) (i : nat) (c : component) (s : storage) (so : fsolution) (o : observations) : program fsolution :=
  if 0 <? length (o_vector o) then
    run offset <- subtract_offset_f sys i o;
    process_observations_f c s so o offset
  else Ret (Ok so).
(* 65-115 update_component_time, called by moving_climatology.py:73-89 process_inputs *)
Definition update_component_time_f (sys : fsystem) (loaders : list loader) (i : nat) (t : Z) : program unit :=
  if length loaders =? 0 then Ret (Err IndexError) else
  match nth_error sys i with
  | None => Ret (Err IndexError)
  | Some (c, s) =>
      run so <- foldP (fun so l => process_inputs_f sys i c s so (l t)) (None, None) loaders;
      update_time_step_f c s so
  end.
(* 187-191 update_component_solution, called by moving_climatology.py:144-156 solve *)
Definition update_component_solution_f (sys : fsystem) (i : nat) : program unit :=
  match nth_error sys i with
  | None => Ret (Err IndexError)
  | Some (c, s) => update_solution_f c s
  end.
End Solving.

(* ---- processes *)

(* The disk and the live processes, at most one for each operation of a workflow. *)
Record world := { w_disk : disk; w_live : nat -> option (program unit) }.
Definition set_live (w : world) (k : nat) (p : option (program unit)) : world :=
  {| w_disk := w_disk w; w_live := fun j => if j =? k then p else w_live w j |}.
(* [Start k] also ends a process of the same operation that is still live; [Stop k] is a crash, a kill or a normal end. *)
Inductive event := Start (k : nat) | Stop (k : nat) | Step (k : nat).
Definition happen (ops : list (program unit)) (w : world) (e : event) : world :=
  match e with
  | Start k => set_live w k (nth_error ops k)
  | Stop k => set_live w k None
  | Step k =>
      match w_live w k with
      | None => w
      | Some (Ret _) => set_live w k None
      | Some (Read f p) => set_live w k (Some (p (w_disk w f)))
      | Some (Write f c p) => {| w_disk := put (w_disk w) f c; w_live := fun j => if j =? k then Some p else w_live w j |}
      end
  end.
Definition history (ops : list (program unit)) (w : world) (es : list event) : world := fold_left (happen ops) es w.

(* One process alone, from start to end: the disk afterwards and the outcome. *)
Fixpoint execute {A} (p : program A) (d : disk) : disk * result A :=
  match p with
  | Ret r => (d, r)
  | Read f k => execute (k (d f)) d
  | Write f c p => execute p (put d f c)
  end.
(* Operations one after another: the disk afterwards and the outcomes. *)
Fixpoint execute_all (ps : list (program unit)) (d : disk) : disk * list (result unit) :=
  match ps with
  | [] => (d, [])
  | p :: ps => let (d, r) := execute p d in let (d, rs) := execute_all ps d in (d, r :: rs)
  end.
