(* Model of work distribution and command running:
   src/eumopps/catalogue/dataset.py, commandrun.py, multiplecommandsrun.py, commandcount.py,
   operation.py, operationparameters.py, fileio/formatnetcdf.py, jinja/batches.py,
   src/roses/fullstace/advanced_standard/lsf_submission.py, lsf_submission_group.py,
   lsf_commandrun.sh, lsf_commandrun_group.sh. *)
From Coq Require Import String.
From Verif Require Import Base.
Local Open Scope Z_scope.
Local Open Scope list_scope.

(* ---------------------------------------------------------------- checksum threads *)

(* Python  l[-1] = f(l[-1]) : IndexError on the empty list. *)
Fixpoint set_last {A} (f : A -> A) (l : list A) : result (list A) :=
  match l with
  | [] => Err IndexError
  | [x] => Ok [f x]
  | x :: xs => do ys <- set_last f xs; Ok (x :: ys)
  end.

(* dataset.py:81-91 CatalogueDataSubset.compute_checksum_thread_indices.
   Python 2 integer division is Z.div. *)
Definition compute_checksum_thread_indices (total_matches numthreads : Z) : result (list (Z * Z)) :=
  if total_matches =? 0 then Ok []
  else if numthreads =? 0 then Err ZeroDivisionError
  else
    let step := total_matches / numthreads in
    let step := if step <? 1 then 1 else step in
    let thread_indices := map (fun start => (start, start + step))
                              (zrange3 0 ((total_matches / step) * step) step) in
    set_last (fun p => (fst p, total_matches)) thread_indices.

(* dataset.py:15 *)
Definition CHECKSUM_NUM_THREADS : Z := 64.

(* dataset.py:134-149 CatalogueFileEntry, restricted to the fields used by checksumming
   (time and tags are not touched by it and omitted). *)
Record file_entry := { fe_name : string; fe_checksum : option Z; fe_size : option Z }.

(* dataset.py:171-183 CatalogueFileEntry.compute_checksum; [digest] is the checksum program run on
   the file of the given name (None: any exception, which is silently ignored). *)
Definition entry_compute_checksum (digest : string -> option (Z * Z)) (e : file_entry) : file_entry :=
  match digest (fe_name e) with
  | Some (c, s) => {| fe_name := fe_name e; fe_checksum := Some c; fe_size := Some s |}
  | None => e
  end.

(* dataset.py:198-202 ChecksumThread.run: the sequence of indices the thread updates. *)
Definition thread_run_indices (range : Z * Z) : list Z := zrange (fst range) (snd range).

Fixpoint update_nth {A} (n : nat) (f : A -> A) (l : list A) : list A :=
  match l, n with
  | [], _ => []
  | x :: xs, O => f x :: xs
  | x :: xs, S n' => x :: update_nth n' f xs
  end.

(* One step of some thread: matches[index].compute_checksum(...).  Each such step is taken as atomic:
   the theorems show that no two threads ever touch the same entry. *)
Definition checksum_step (digest : string -> option (Z * Z)) (matches : list file_entry) (index : Z)
  : list file_entry := update_nth (Z.to_nat index) (entry_compute_checksum digest) matches.

(* dataset.py:93-104 compute_checksum under a schedule: the order in which the steps of the threads happen. *)
Definition run_schedule (digest : string -> option (Z * Z)) (matches : list file_entry) (schedule : list Z)
  : list file_entry := fold_left (checksum_step digest) schedule matches.

(* ---------------------------------------------------------------- operations in a catalogue *)

(* operationparameters.py:6-78: the values that may occur in a runmodule stored in a catalogue.
   Members of classes, dictionaries and lists (operation.py:143-182 updatewalk) are all PNode;
   literal values are represented by an integer tag. *)
Inductive param : Type :=
| PLit (v : Z)
| PTimeStamp
| PCatalogueID
| PList (items : list Z)                (* OperationParameterList *)
| PFileRef (items : list (list Z))      (* OperationFileReference *)
| PFileListRef (items : list (list Z))  (* OperationFileListReference *)
| PNode (children : list (string * param)).

(* Value after resolve_single_operation. *)
Inductive value : Type :=
| VLit (v : Z)
| VTimeStamp (t : string)
| VIdentifier (s : string)
| VPath (p : option string)
| VPaths (p : list (option string))
| VNode (children : list (string * value)).

(* datareference.py:3-24 *)
Record data_reference := { ref_dataset : Z; ref_subset : Z; ref_entry : Z }.

Definition reference_list_to_integers (reflist : list data_reference) : list Z :=
  flat_map (fun r => [ref_dataset r; ref_subset r; ref_entry r]) reflist.

(* datareference.py:22-24: range(0, len, 3) with direct indexing, IndexError on an incomplete trio. *)
Fixpoint reference_integers_to_list (l : list Z) : result (list data_reference) :=
  match l with
  | [] => Ok []
  | a :: b :: c :: rest =>
      do rs <- reference_integers_to_list rest;
      Ok ({| ref_dataset := a; ref_subset := b; ref_entry := c |} :: rs)
  | _ => Err IndexError
  end.

Record operation := {
  op_name : option string;        (* attribute 'name' *)
  op_class : option string;       (* runmodule.python_class: the runmodule is a class instance *)
  op_function : option string;    (* runmodule.python_function *)
  op_count : Z;                   (* attribute 'count' *)
  op_toolchain : list string;     (* as stored in the catalogue *)
  op_runmodule : param
}.

Record catalogue_file := {
  cf_identifier : string;
  cf_operations : list operation;
  (* formatnetcdf.py:102-123 load_data_pathnames on this file, as an oracle *)
  cf_pathnames : list data_reference -> result (list (option string))
}.

Definition opt_string_eqb (o : option string) (s : string) : bool :=
  match o with Some t => String.eqb t s | None => false end.

(* formatnetcdf.py:44-71 findoperation *)
Definition findoperation (ops : list operation) (modulename : string) : result (option operation) :=
  let discovered :=
    flat_map (fun g =>
      (if opt_string_eqb (op_name g) modulename then [g] else []) ++
      (if opt_string_eqb (op_class g) modulename then [g] else []) ++
      (if opt_string_eqb (op_function g) modulename then [g] else [])) ops in
  match discovered with
  | [] => Ok None
  | [g] => Ok (Some g)
  | _ => Err ValueError
  end.

(* formatnetcdf.py:86-91: batch count arithmetic, for batchsize <> 0. *)
Definition batch_count (record_count batchsize : Z) : Z :=
  let c := record_count / batchsize in
  if negb (record_count mod batchsize =? 0) then c + 1 else c.

(* formatnetcdf.py:73-91 operationcount (batchsize 0 is not modelled further than an exception). *)
Definition operationcount (cat : catalogue_file) (modulename : string) (batchsize : Z) : result Z :=
  do group <- findoperation (cf_operations cat) modulename;
  let record_count := match group with Some g => op_count g | None => 0 end in
  if batchsize =? 0 then Err ZeroDivisionError else Ok (batch_count record_count batchsize).

(* formatnetcdf.py:93-100 load_operation; load_object(None) raises AttributeError
   (netcdfobjects.py:124 group.ncattrs()). *)
Definition load_operation (cat : catalogue_file) (modulename : string) : result operation :=
  do group <- findoperation (cf_operations cat) modulename;
  match group with Some g => Ok g | None => Err AttributeError end.

(* operation.py:143-182 updatewalk with operation.py:238-270 OperationResolveSingleOperation.process
   and operationparameters.py:28-78.  Python dictionaries are walked in the order of the list here;
   the order only influences which exception is reported first. *)
Fixpoint resolve_single (cat : catalogue_file) (check_count operationindex : Z) (timestamp : string)
         (p : param) : result value :=
  match p with
  | PLit v => Ok (VLit v)
  | PTimeStamp => Ok (VTimeStamp timestamp)
  | PCatalogueID => Ok (VIdentifier (cf_identifier cat))
  | PList items =>
      if negb (check_count =? zlen items) then Err ValueError
      else do v <- py_index items operationindex; Ok (VLit v)
  | PFileRef items =>
      if negb (check_count =? zlen items) then Err ValueError
      else do ints <- py_index items operationindex;
           do refs <- reference_integers_to_list ints;
           do paths <- cf_pathnames cat refs;
           Ok (VPath (match paths with q :: _ => q | [] => None end))
  | PFileListRef items =>
      if negb (check_count =? zlen items) then Err ValueError
      else do ints <- py_index items operationindex;
           do refs <- reference_integers_to_list ints;
           do paths <- cf_pathnames cat refs;
           Ok (VPaths paths)
  | PNode children =>
      do vs <- (fix walk (l : list (string * param)) : result (list (string * value)) :=
                  match l with
                  | [] => Ok []
                  | (k, c) :: rest =>
                      do v <- resolve_single cat check_count operationindex timestamp c;
                      do vs <- walk rest;
                      Ok ((k, v) :: vs)
                  end) children;
      Ok (VNode vs)
  end.

(* What a call does: the parameter sets with which user functions were run, in order, and what it returns. *)
Record outcome (R : Type) := { ran : list value; ret : result R }.
Arguments ran {R} _.
Arguments ret {R} _.
Definition fails {R} (e : err) : outcome R := {| ran := []; ret := Err e |}.

Section Running.
  (* The toolchain of the running system for a module name (operation.py:56-72), and the user function. *)
  Variable runtime_toolchain_of : string -> result (list string).
  Variable user_function : value -> result Z.

  (* operation.py:56-72 current_runtime_toolchain: keyed on the class's module or the function name. *)
  Definition current_runtime_toolchain (op : operation) : result (list string) :=
    match op_class op, op_function op with
    | Some c, _ => runtime_toolchain_of c
    | None, Some f => runtime_toolchain_of f
    | None, None => Err KeyError
    end.

  (* operation.py:36-54 run: for a class instance the code says runmodule.run() instead of
     self.runmodule.run(), which is a NameError. *)
  Definition operation_run (op : operation) (resolved : value) : outcome (option Z) :=
    match op_class op with
    | Some _ => fails NameError
    | None => {| ran := [resolved];
                 ret := do r <- user_function resolved; Ok (Some r) |}
    end.

  Definition string_list_eqb (a b : list string) : bool :=
    if list_eq_dec string_dec a b then true else false.

  (* commandrun.py:33-76, once the operation index is known. *)
  Definition commandrun_at (cat : catalogue_file) (timestamp operationname : string)
             (operationindex : Z) (justlist allow_toolchain_mismatch : bool) : outcome (option Z) :=
    match load_operation cat operationname with
    | Err e => fails e
    | Ok op =>
      match current_runtime_toolchain op with
      | Err e => fails e
      | Ok runtime =>
        match resolve_single cat (op_count op) operationindex timestamp (op_runmodule op) with
        | Err e => fails (match e with IndexError => ValueError | _ => e end)
        | Ok v =>
          if justlist then {| ran := []; ret := Ok None |}
          else if negb (string_list_eqb runtime (op_toolchain op)) && negb allow_toolchain_mismatch
               then fails ValueError
               else operation_run op v
        end
      end
    end.

  (* commandrun.py:13-85 commandrun.  use_batch_size and batch are optional integers; Python truth of an
     optional integer is "present and not zero".  The branch operation is None (78-85) is unreachable
     because load_operation raises first. *)
  Definition truthy (o : option Z) : bool := match o with Some z => negb (z =? 0) | None => false end.

  Definition commandrun (cat : catalogue_file) (timestamp operationname : string) (index : Z)
             (use_batch_size batch : option Z) (justlist allow_toolchain_mismatch : bool)
    : outcome (option Z) :=
    if truthy use_batch_size then
      match batch with
      | None => fails ValueError
      | Some b =>
          let size := match use_batch_size with Some s => s | None => 0 end in
          commandrun_at cat timestamp operationname (b * size + index) justlist allow_toolchain_mismatch
      end
    else if truthy batch then fails ValueError
    else commandrun_at cat timestamp operationname index justlist allow_toolchain_mismatch.

  (* The loop of multiplecommandsrun.py:29-31: run the inner commands until the first exception. *)
  Fixpoint run_inner (run : Z -> outcome (option Z)) (indices : list Z) : outcome (list (option Z)) :=
    match indices with
    | [] => {| ran := []; ret := Ok [] |}
    | i :: rest =>
        let o := run i in
        match ret o with
        | Err e => {| ran := ran o; ret := Err e |}
        | Ok r =>
            let o' := run_inner run rest in
            {| ran := ran o ++ ran o';
               ret := do rs <- ret o'; Ok (r :: rs) |}
        end
    end.

  (* multiplecommandsrun.py:14-36.  The result also says with which list the outer function was called. *)
  Definition multiple_commands_run (cat : catalogue_file) (timestamp inneroperationname : string)
             (batch_size batch : Z) (allow_toolchain_mismatch justlist : bool)
    : outcome (option (list (option Z))) :=
    if batch_size =? 0 then fails ValueError
    else
      let inner := run_inner (fun operationindex =>
                     commandrun cat timestamp inneroperationname operationindex
                                (Some batch_size) (Some batch) false allow_toolchain_mismatch)
                   (zrange 0 batch_size) in
      {| ran := ran inner;
         ret := do l <- ret inner; Ok (if justlist then None else Some l) |}.
End Running.

(* ---------------------------------------------------------------- LSF submission *)

(* lsf_submission.py:70-130 (same code in lsf_submission_group.py:74-134): the loop over batches;
   state is submitted_tasks, output the list of (batchnumber, batchstart, batchend). *)
Fixpoint submit_loop (commandcount batchcount batchsize submitted : Z) (batchnumbers : list Z)
  : list (Z * Z * Z) :=
  match batchnumbers with
  | [] => []
  | b :: rest =>
      let tasks := if b =? batchcount - 1 then commandcount - submitted else batchsize in
      let batchstart := submitted + 1 in
      let batchend := batchstart + tasks - 1 in
      (b, batchstart, batchend) :: submit_loop commandcount batchcount batchsize (submitted + tasks) rest
  end.

(* lsf_submission.py:52-130 submit_eumopps_jobs; commandcount and batchcount come from operationcount. *)
Definition submit_eumopps_jobs (record_count batchsize : Z) : result (list (Z * Z * Z)) :=
  if batchsize =? 0 then Err ZeroDivisionError
  else
    let commandcount := batch_count record_count 1 in
    let batchcount := batch_count record_count batchsize in
    if commandcount =? 0 then Err ValueError
    else Ok (submit_loop commandcount batchcount batchsize 0 (zrange 0 batchcount)).

(* lsf_submission_group.py:137-241 submit_eumopps_jobs_grouped: the same loop, in jobs. *)
Definition submit_eumopps_jobs_grouped (record_count jobs_per_lsfbatch tasks_per_job : Z)
  : result (list (Z * Z * Z)) :=
  let eumopps_batchsize := tasks_per_job * jobs_per_lsfbatch in
  if (eumopps_batchsize =? 0) || (tasks_per_job =? 0) then Err ZeroDivisionError
  else
    let commandcount := batch_count record_count 1 in
    let batchcount := batch_count record_count eumopps_batchsize in
    let jobcount := batch_count record_count tasks_per_job in
    if commandcount =? 0 then Err ValueError
    else Ok (submit_loop jobcount batchcount jobs_per_lsfbatch 0 (zrange 0 batchcount)).

(* lsf_commandrun.sh:12-19: the command line (index, batch) run for array element LSB_JOBINDEX. *)
Definition lsf_commandrun (batchsize batchnumber jobindex : Z) : Z * Z :=
  let commandindex := jobindex - 1 in
  (commandindex mod batchsize, batchnumber).

(* All command lines run for the submitted arrays: (index, batch) pairs. *)
Definition lsf_command_lines (batchsize : Z) (arrays : list (Z * Z * Z)) : list (Z * Z) :=
  flat_map (fun '(b, s, e) => map (lsf_commandrun batchsize b) (zrange s (e + 1))) arrays.

(* lsf_commandrun_group.sh:12-38: the tasks run for one array element; the loop breaks at the first
   command index beyond the command count. *)
Fixpoint group_tasks (commandcount batchnumber batchsize subindex ntasks : Z) (taskindices : list Z)
  : list (Z * Z) :=
  match taskindices with
  | [] => []
  | t :: rest =>
      let inner := subindex * ntasks + t in
      let command := batchnumber * batchsize + inner in
      if commandcount <=? command then []
      else (inner, batchnumber) :: group_tasks commandcount batchnumber batchsize subindex ntasks rest
  end.

Definition lsf_commandrun_group (commandcount njobs ntasks batchnumber jobindex : Z) : list (Z * Z) :=
  let batchsize := ntasks * njobs in
  let subindex := (jobindex - 1) mod njobs in
  group_tasks commandcount batchnumber batchsize subindex ntasks (zrange 0 ntasks).

Definition lsf_group_command_lines (commandcount njobs ntasks : Z) (arrays : list (Z * Z * Z)) : list (Z * Z) :=
  flat_map (fun '(b, s, e) => flat_map (lsf_commandrun_group commandcount njobs ntasks b) (zrange s (e + 1))) arrays.

(* commandrun.py:20: operation index addressed by the command line (index, batch). *)
Definition addressed (batchsize : Z) (line : Z * Z) : Z := snd line * batchsize + fst line.

(* ---------------------------------------------------------------- cylc batches *)

(* jinja/batches.py:22-59: cycle points 0..cycle_points_required()-1 ('R/P1/n-1' runs from the initial
   cycle point 0), subtask indices 0..batchsize-1; each runs commandrun with --batch <cycle point>.
   jinja/batches.py:20,25 call CatalogueReaderNetCDF().quickcount which does not exist in
   formatnetcdf.py; the model uses the existing operationcount with the same meaning. *)
Definition cylc_command_lines (record_count batchsize : Z) : list (Z * Z) :=
  flat_map (fun batch => map (fun index => (index, batch)) (zrange 0 batchsize))
           (zrange 0 (batch_count record_count batchsize)).
