(* Model of the analysis system (src/eustace/analysis/advanced_standard): components fitted in turn to the residuals of the
   others, the accumulation of measurement information, the in-memory and file storages.
   Simplifications: numbers are exact rationals; sparse and dense arrays are tables of entries; numpy's broadcasting of
   one-element arrays is refused as any other mismatch of lengths; the factorisation of the posterior precision is a given
   function [solve] of precision and information vector; marginal deviations and random samples are only modelled as stored
   values; logging, memory statistics and dates printed for information are left out. *)
From Coq Require Import QArith Qcanon.
From Verif Require Import Base Grid_Model Lin.
Local Open Scope nat_scope.
Local Open Scope list_scope.

(* numpy a + b and a - b on vectors *)
Definition zip_with (f : Qc -> Qc -> Qc) (a b : vec) : result vec :=
  if length a =? length b then Ok (map (fun ab => f (fst ab) (snd ab)) (combine a b)) else Err ValueError.
Definition vadd : vec -> vec -> result vec := zip_with Qcplus.
Definition vsub : vec -> vec -> result vec := zip_with Qcminus.
Definition zeros (n : nat) : vec := repeat 0%Qc n.

Definition table := list vec.
(* matrix addition, row by row *)
Fixpoint zip_rows (a b : table) : result table :=
  match a, b with
  | [], [] => Ok []
  | r :: a, s :: b => do x <- vadd r s; do y <- zip_rows a b; Ok (x :: y)
  | _, _ => Err ValueError
  end.

(* A matrix given by its shape and entries. *)
Record matrix := { m_rows : nat; m_cols : nat; m_at : nat -> nat -> Qc }.

(* ---- linalg/linearsystem.py *)

(* 8-34 MeasurementUpdate *)
Record info := { i_precision : table; i_vector : vec }.

(* 10-16 create_blank *)
Definition create_blank (n : nat) : info := {| i_precision := repeat (zeros n) n; i_vector := zeros n |}.

(* 18-28 create_from_system_observations *)
Definition create_from_system_observations (J P : matrix) (r : vec) : result info :=
  if negb (m_rows J =? m_rows P) then Err ValueError else
  let JtP := fun i l => sumn (m_rows J) (fun k => m_at J k i * m_at P k l)%Qc in
  if negb (m_cols P =? m_rows J) then Err ValueError else
  if negb (m_cols P =? length r) then Err ValueError else
  Ok {| i_precision := tab (m_cols J) (fun i => tab (m_cols J) (fun j => sumn (m_cols P) (fun l => JtP i l * m_at J l j)%Qc));
        i_vector := tab (m_cols J) (fun i => sumn (m_cols P) (fun l => JtP i l * vnth r l)%Qc) |}.

(* 36-40 append_measurement_update *)
Definition append_measurement_update (u new : info) : result info :=
  do p <- zip_rows (i_precision u) (i_precision new);
  do v <- vadd (i_vector u) (i_vector new);
  Ok {| i_precision := p; i_vector := v |}.

(* ---- observations and elements *)

(* One observation structure: its time index, observation_vector, observation_precision, and a label standing for
   everything else (locations, covariates).  number_of_observations() is the length of the vector. *)
Record observations := { o_time : Z; o_vector : vec; o_precision : matrix; o_label : Z }.

(* elements/element.py:10-180.  [el_jacobian], [el_function] and [el_initial] are the methods of the ElementDesign built for
   a structure; [el_prior] and [el_dim] those of the ElementPrior for the stored hyperparameters. *)
Record element := { el_nonlinear : bool; el_dim : nat; el_prior : table;
                    el_jacobian : observations -> option vec -> matrix;
                    el_function : observations -> vec -> vec;
                    el_initial : observations -> vec }.

(* ---- components *)

(* components/spatial.py, components/spacetime.py, components/spatialdelayed.py *)
Inductive kind := Spatial | SpaceTime | Delayed.
Record component := { c_kind : kind; c_element : element }.

(* storage_inmemory.py:22-73 and 77-154: one record for both storages.  A measurement object of the dictionary is only ever
   held by one entry, so it is identified with the entry here; [heap] below has the objects explicitly. *)
Record store := { s_state : option vec; s_meas : list (option Z * option info); s_part : list (Z * vec) }.

Definition okey_eqb (a b : option Z) : bool :=
  match a, b with None, None => true | Some x, Some y => (x =? y)%Z | _, _ => false end.
(* dictionary lookup and assignment; the order of keys is that of first insertion (CPython's order is arbitrary: the
   theorems hold for every order) *)
Fixpoint assoc {K V} (eqb : K -> K -> bool) (d : list (K * V)) (k : K) : option V :=
  match d with [] => None | (k', v) :: d => if eqb k k' then Some v else assoc eqb d k end.
Fixpoint assign {K V} (eqb : K -> K -> bool) (d : list (K * V)) (k : K) (v : V) : list (K * V) :=
  match d with [] => [(k, v)] | (k', w) :: d => if eqb k k' then (k', v) :: d else (k', w) :: assign eqb d k v end.

Definition with_state (s : store) x := {| s_state := x; s_meas := s_meas s; s_part := s_part s |}.
Definition with_meas (s : store) x := {| s_state := s_state s; s_meas := x; s_part := s_part s |}.
Definition with_part (s : store) x := {| s_state := s_state s; s_meas := s_meas s; s_part := x |}.

(* A ComponentSolution object under construction: its storage, the measurement (or local system) accumulated so far, and the
   time index it belongs to.  spacetime.py:88-98, spatial.py:71-85, spatialdelayed.py:54-63 *)
Record solution := { so_store : store; so_meas : option info; so_time : option Z }.
Definition component_solution (s : store) : solution := {| so_store := s; so_meas := None; so_time := None |}.

(* The time index check: spacetime.py:131-136, spatialdelayed.py:67-76, spatial.py:99-110 *)
Definition check_time (so : solution) (o : observations) : result Z :=
  match so_time so with
  | None => Ok (o_time o)
  | Some t => if (t =? o_time o)%Z then Ok t else Err ValueError
  end.

(* The state at which a nonlinear element is linearised, stored when it is the initial one:
   spacetime.py:107-120, spatialdelayed.py:85-98 *)
Definition linearisation (c : component) (t : Z) (s : store) (o : observations) : option vec * store :=
  let e := c_element c in
  match c_kind c with
  | SpaceTime =>
      if el_nonlinear e then
        match s_state s with
        | None => let x := el_initial e o in (Some x, with_state s (Some x))
        | Some x => (Some x, s)
        end
      else (s_state s, s)
  | Delayed =>
      let current := assoc Z.eqb (s_part s) t in
      if el_nonlinear e then
        match current with
        | None => let x := el_initial e o in (Some x, with_part s (assign Z.eqb (s_part s) t x))
        | Some x => (Some x, s)
        end
      else (current, s)
  | Spatial => (None, s)
  end.

(* process_observations: spacetime.py:100-144, spatialdelayed.py:65-113, spatial.py:87-113.  The check of the time index comes
   after the computation of the update in spacetime.py and spatial.py; both orders give the same outcome unless both fail. *)
Definition process_observations (c : component) (so : solution) (o : observations) (offset : vec) : result solution :=
  let e := c_element c in
  do t <- check_time so o;
  do relative <- vsub (o_vector o) offset;
  let (current, s) := linearisation c t (so_store so) o in
  do relative <- (match c_kind c, el_nonlinear e, current with
                  | Spatial, _, _ | _, false, _ | _, true, None => Ok relative
                  | _, true, Some x => vsub relative (el_function e o x)
                  end);
  do update <- create_from_system_observations (el_jacobian e o current) (o_precision o) relative;
  do m <- (match so_meas so with
           | None => match c_kind c with
                     | Spatial => append_measurement_update (create_blank (el_dim e)) update
                     | _ => Ok update
                     end
           | Some m => append_measurement_update m update
           end);
  Ok {| so_store := s; so_meas := Some m; so_time := Some t |}.

Section Solving.
(* LinearSystemSolution_Cholesky.maximum_a_posteriori, linearsystem.py:85-104: the solution for a posterior precision and an
   information vector *)
Variable solve : table -> vec -> vec.

(* linearsystem.py:94-104 *)
Definition maximum_a_posteriori (prior : table) (u : info) : result vec :=
  do p <- zip_rows prior (i_precision u); Ok (solve p (i_vector u)).

(* update_time_step: spacetime.py:146-150 (inherited by spatialdelayed.py), spatial.py:115-143 *)
Definition update_time_step (c : component) (so : solution) : result solution :=
  match c_kind c with
  | Spatial =>
      match so_meas so, so_time so with
      | Some u, Some t =>
          do x <- maximum_a_posteriori (el_prior (c_element c)) u;
          Ok (component_solution (with_part (so_store so) (assign Z.eqb (s_part (so_store so)) t x)))
      | _, _ => Ok (component_solution (so_store so))
      end
  | _ => Ok (component_solution (with_meas (so_store so) (assign okey_eqb (s_meas (so_store so)) (so_time so) (so_meas so))))
  end.

(* spacetime.py:177-186: append each stored measurement to the system *)
Fixpoint append_all (u : info) (ms : list (option Z * option info)) : result info :=
  match ms with
  | [] => Ok u
  | (_, None) :: _ => Err AttributeError
  | (_, Some m) :: ms => do u <- append_measurement_update u m; append_all u ms
  end.

(* update: spacetime.py:152-237 (posterior branch), spatialdelayed.py:115-161, spatial.py:145-149 *)
Definition update_delayed (e : element) (s : store) (tm : option Z * option info) : result store :=
  match tm with
  | (_, None) => Err AttributeError
  | (t, Some m) =>
      do u <- append_measurement_update (create_blank (el_dim e)) m;
      do x <- maximum_a_posteriori (el_prior e) u;
      if el_nonlinear e then Err TypeError (* partial_state_read() without its argument: spatialdelayed.py:141 *)
      else match t with Some t => Ok (with_part s (assign Z.eqb (s_part s) t x)) | None => Ok s end
  end.
Definition update_solution (c : component) (s : store) : result store :=
  let e := c_element c in
  match c_kind c with
  | Spatial => Ok s
  | SpaceTime =>
      do u <- append_all (create_blank (el_dim e)) (s_meas s);
      do x <- maximum_a_posteriori (el_prior e) u;
      if el_nonlinear e then
        match s_state s with
        | None => Err TypeError
        | Some old => do y <- vadd x old; Ok (with_state s (Some y))
        end
      else Ok (with_state s (Some x))
  | Delayed => foldM (update_delayed e) s (s_meas s)
  end.

(* solution_observation_expected_value: spacetime.py:259-284, spatial.py:151-167, spatialdelayed.py:163-179 *)
Definition expected_value (c : component) (s : store) (o : observations) : vec :=
  let e := c_element c in
  match c_kind c with
  | SpaceTime =>
      match s_state s with
      | None => if el_nonlinear e then el_function e o (el_initial e o) else zeros (length (o_vector o))
      | Some x => el_function e o x
      end
  | _ =>
      match assoc Z.eqb (s_part s) (o_time o) with
      | None => zeros (length (o_vector o))
      | Some x => el_function e o x
      end
  end.

(* ---- analysissystem.py *)

(* 31-43: the components, each with its storage *)
Definition system := list (component * store).

(* 90-109 and 152-171: the sum of the expected values of the components other than [i] *)
Definition subtract_offset (sys : system) (i : nat) (o : observations) : result vec :=
  foldM (fun acc kcs => let '(k, (c, s)) := kcs in
                        if negb (k =? i) then vadd acc (expected_value c s o) else Ok acc)
        (zeros (length (o_vector o))) (combine (seq 0 (length sys)) sys).

(* 81-112 and 144-174: the body of the loop over input loaders.  The component solution shares its storage with the system,
   but only the storage of component [i] can change, and it is not consulted for the offset. *)
Definition process_inputs (sys : system) (i : nat) (c : component) (so : solution) (o : observations) : result solution :=
  if 0 <? length (o_vector o) then
    do offset <- subtract_offset sys i o;
    process_observations c so o offset
  else Ok so.

Definition component_at (sys : system) (i : nat) : result (component * store) :=
  match nth_error sys i with Some cs => Ok cs | None => Err IndexError end.
Definition set_store (sys : system) (i : nat) (s : store) : system :=
  map (fun kcs => let '(k, (c, s')) := kcs in (c, if k =? i then s else s')) (combine (seq 0 (length sys)) sys).

(* An AnalysisSystemInputLoader: load_observation_structure for the observable at a time index *)
Definition loader := Z -> observations.

(* 65-115 update_component_time *)
Definition update_component_time (sys : system) (loaders : list loader) (i : nat) (t : Z) : result system :=
  if length loaders =? 0 then Err IndexError else
  do (c, s) <- component_at sys i;
  do so <- foldM (fun so l => process_inputs sys i c so (l t)) (component_solution s) loaders;
  do so <- update_time_step c so;
  Ok (set_store sys i (so_store so)).

(* 187-191 update_component_solution *)
Definition update_component_solution (sys : system) (i : nat) : result system :=
  do (c, s) <- component_at sys i;
  do s <- update_solution c s;
  Ok (set_store sys i s).

(* 55-63 update_component *)
Definition update_component (sys : system) (loaders : list loader) (i : nat) (times : list Z) : result system :=
  do sys <- foldM (fun sys t => update_component_time sys loaders i t) sys times;
  update_component_solution sys i.

(* 45-53 update *)
Definition update (sys : system) (loaders : list loader) (times : list Z) : result system :=
  foldM (fun sys i => update_component sys loaders i times) sys (seq 0 (length sys)).

(* 117-185 update_component_times.  142 sets measurement_time_index, which is not the attribute a spatial solution uses. *)
Definition reset_time (c : component) (so : solution) : solution :=
  match c_kind c with
  | Spatial => so
  | _ => {| so_store := so_store so; so_meas := so_meas so; so_time := None |}
  end.
Definition update_component_times (sys : system) (loaders : list (list loader)) (i : nat) (times : list Z) : result system :=
  do (c, s) <- component_at sys i;
  do so <- foldM (fun so tl => let '(t, ls) := tl in
                    if length ls =? 0 then Err IndexError else
                    do so <- foldM (fun so l => process_inputs sys i c so (l t)) (reset_time c so) ls;
                    match c_kind c with Spatial => update_time_step c so | _ => Ok so end)
                 (component_solution s) (combine times loaders);
  do so <- (match c_kind c with Spatial => Ok so | _ => update_time_step c so end);
  Ok (set_store sys i (so_store so)).

(* 243-278 evaluate_pointwise_expected_value for the field 'MAP' *)
Definition evaluate_pointwise (sys : system) (o : observations) : result vec :=
  foldM (fun acc cs => vadd acc (expected_value (fst cs) (snd cs) o)) (zeros (length (o_vector o))) sys.
End Solving.

(* ---- merge_updates with the measurement objects explicit (spacetime.py:240-256) *)

(* The objects by address. *)
Definition heap := list info.
Definition heap_set (h : heap) (a : nat) (u : info) : heap :=
  map (fun kx => if fst kx =? a then u else snd kx) (combine (seq 0 (length h)) h).
(* newupdate appended to the object at [a]: its attributes are replaced *)
Definition heap_append (h : heap) (a b : nat) : result heap :=
  match nth_error h a, nth_error h b with
  | Some u, Some v => do w <- append_measurement_update u v; Ok (heap_set h a w)
  | _, _ => Err AttributeError
  end.
(* A storage as far as merging sees it: the sequence of measurement_read results.  [InMemory]: storage_inmemory.py:66-68
   returns the stored object itself; [OnFile]: storage_files.py:117-125 and storage_files_batch.py:218-223 unpickle a new
   object on each read. *)
Inductive measurement_store := InMemory (objects : list nat) | OnFile (contents : list info).
Definition read_objects (h : heap) (m : measurement_store) : heap * list nat :=
  match m with
  | InMemory objects => (h, objects)
  | OnFile contents => (h ++ contents, seq (length h) (length contents))
  end.
Definition merge_objects (h : heap) (objects : list nat) : result (heap * option nat) :=
  match objects with
  | [] => Ok (h, None)
  | a :: rest => do h <- foldM (fun h b => heap_append h a b) h rest; Ok (h, Some a)
  end.
(* All reads are done before the first append here; in the code each read precedes its own append, which gives the same
   objects because appending changes only the object read first. *)
Definition merge_updates (h : heap) (m : measurement_store) : result (heap * option nat) :=
  let (h, objects) := read_objects h m in merge_objects h objects.
(* merging again and again: the value returned each time, at the time it is returned *)
Fixpoint merge_repeatedly (k : nat) (h : heap) (m : measurement_store) : result (list (option info)) :=
  match k with
  | O => Ok []
  | S k => do (h, r) <- merge_updates h m;
           do rest <- merge_repeatedly k h m;
           Ok ((match r with Some a => nth_error h a | None => None end) :: rest)
  end.

(* ---- storages under sequences of calls *)

(* The four state-like quantities a storage keeps. *)
Inductive quantity := State | MarginalStd | Sample | PriorSample.
Definition quantity_eqb (a b : quantity) : bool :=
  match a, b with
  | State, State | MarginalStd, MarginalStd | Sample, Sample | PriorSample, PriorSample => true
  | _, _ => false
  end.

(* storage_inmemory.py:77-154 SpatialComponentSolutionStorage_InMemory *)
Record memory := { me_state : list (Z * vec); me_std : list (Z * vec); me_sample : list (Z * vec); me_prior : list (Z * vec);
                   me_measurement : list (Z * vec) }.
Definition empty_memory : memory :=
  {| me_state := []; me_std := []; me_sample := []; me_prior := []; me_measurement := [] |}.
(* 88-90, 102-104, 116-118, 130-132: partial_..._write *)
Definition memory_write (m : memory) (q : quantity) (t : Z) (v : vec) : memory :=
  let '(Build_memory a b c d x) := m in
  match q with
  | State => Build_memory (assign Z.eqb a t v) b c d x
  | MarginalStd => Build_memory a (assign Z.eqb b t v) c d x
  | Sample => Build_memory a b (assign Z.eqb c t v) d x
  | PriorSample => Build_memory a b c (assign Z.eqb d t v) x
  end.
(* 92-100, 106-114, 120-128, 134-142: partial_..._read *)
Definition memory_read (m : memory) (q : quantity) (t : Z) : option vec :=
  match q with
  | State => assoc Z.eqb (me_state m) t
  | MarginalStd => assoc Z.eqb (me_std m) t
  | Sample => assoc Z.eqb (me_sample m) t
  | PriorSample => assoc Z.eqb (me_prior m) t
  end.
(* 144-154 *)
Definition memory_measurement_write (m : memory) (t : Z) (v : vec) : memory :=
  {| me_state := me_state m; me_std := me_std m; me_sample := me_sample m; me_prior := me_prior m;
     me_measurement := assign Z.eqb (me_measurement m) t v |}.
Definition memory_measurement_read (m : memory) (t : Z) : result vec :=
  match assoc Z.eqb (me_measurement m) t with Some v => Ok v | None => Err KeyError end.
Definition memory_timeindices (m : memory) : list Z := map fst (me_measurement m).

(* A file system: contents by file name.  Pickled contents are the values themselves. *)
Definition filename := Z.
Definition files := list (filename * vec).
(* storage_files_batch.py:10-18 *)
Definition writepickle (fs : files) (f : filename) (v : vec) : files := assign Z.eqb fs f v.
Definition readpickle (fs : files) (f : filename) : result vec :=
  match assoc Z.eqb fs f with Some v => Ok v | None => Err IOErrorE end.

(* storage_files_batch.py:20-226 SpatialComponentSolutionStorageIndexed_Files.  [None] is a list not given. *)
Record indexed := { ix_read : quantity -> option (list filename); ix_write : quantity -> option (list filename);
                    ix_mread : option (list filename); ix_mwrite : option (list filename); ix_times : option (list Z) }.

(* 62-76 *)
Definition number_of_substeps (x : indexed) : nat :=
  match ix_times x, ix_read x State, ix_write x State, ix_mread x, ix_mwrite x with
  | Some ts, _, _, _, _ => length ts
  | None, Some l, _, _, _ | None, None, Some l, _, _ | None, None, None, Some l, _ | None, None, None, None, Some l => length l
  | None, None, None, None, None => 0
  end.
(* dict(zip(keys, range(len(keys)))): assignments from left to right, so that the last one stays *)
Definition dict_of (keys : list Z) : list (Z * nat) :=
  fold_left (fun d kv => assign Z.eqb d (fst kv) (snd kv)) (combine keys (seq 0 (length keys))) [].
(* 78-87 make_file_lookup; the lists of the object never change, so the table is the same whenever it is built *)
Definition file_lookup (x : indexed) : list (Z * nat) :=
  match ix_times x with
  | Some ts => dict_of ts
  | None => let n := number_of_substeps x in dict_of (map Z.of_nat (seq 0 n))
  end.
(* 92-111 *)
Definition file_write (x : indexed) (fs : files) (v : vec) (l : list filename) (key : Z) : result files :=
  match assoc Z.eqb (file_lookup x) key with
  | None => Err ValueError
  | Some i => match nth_error l i with Some f => Ok (writepickle fs f v) | None => Err IndexError end
  end.
(* 113-129 *)
Definition file_read (x : indexed) (fs : files) (l : list filename) (key : Z) : result vec :=
  match assoc Z.eqb (file_lookup x) key with
  | None => Err ValueError
  | Some i => match nth_error l i with Some f => readpickle fs f | None => Err IndexError end
  end.
(* 134-181 *)
Definition indexed_write (x : indexed) (fs : files) (q : quantity) (key : Z) (v : vec) : result files :=
  match ix_write x q with None => Err ValueError | Some l => file_write x fs v l key end.
(* 131-152, 183-209 *)
Definition indexed_read (x : indexed) (fs : files) (q : quantity) (key : Z) : result (option vec) :=
  match ix_read x q with None => Ok None | Some l => do v <- file_read x fs l key; Ok (Some v) end.

(* storage_files_batch.py:229-380 SpaceTimeComponentSolutionStorageBatched_Files *)
Record batched := { bt_read : quantity -> option filename; bt_write : quantity -> option filename; bt_keep : bool }.
(* 263-266: the copies kept in memory *)
Definition kept := list (quantity * vec).
(* 268-306 *)
Definition batched_write (b : batched) (fs : files) (k : kept) (q : quantity) (v : vec) : result (files * kept) :=
  match bt_write b q with
  | None => Err ValueError
  | Some f => Ok (writepickle fs f v, if bt_keep b then assign quantity_eqb k q v else k)
  end.
(* 308-354 *)
Definition batched_read (b : batched) (fs : files) (k : kept) (q : quantity) : result (option vec * kept) :=
  match bt_read b q with
  | None => Ok (None, k)
  | Some f =>
      if bt_keep b then
        match assoc quantity_eqb k q with
        | Some v => Ok (Some v, k)
        | None => do v <- readpickle fs f; Ok (Some v, assign quantity_eqb k q v)
        end
      else do v <- readpickle fs f; Ok (Some v, k)
  end.
(* 367-376: measurementfilename_read is not an attribute of the object *)
Definition batched_measurement_read (mread : option (list filename)) : result vec :=
  match mread with None => Err ValueError | Some _ => Err AttributeError end.
