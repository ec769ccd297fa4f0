(* Model of the submission of chains of batch jobs, of directories and searches for files, and of the storage of gridded satellite data:
   src/roses/fullstace/advanced_standard/runlsf.sh, runlsf_solver.sh, runlsf_iterations.sh, lsf_commandrun_solver.sh,
   src/roses/fullstace/rawbinary/runlsf_rawbinary.sh, lsf_rawbinary.sh, src/eustace/postprocess/lsf (all submit_*.sh and *_job*.sh),
   src/eustace/outputformats/ensuredirectory.py, src/eumopps/catalogue/search.py, checksum.py,
   src/eustace/outputformats/iriscubesaver.py, src/eustace/satgrid_iris/saver.py. *)
From Coq Require Import QArith Qround String Ascii.
From Verif Require Fill_Model.
From Verif Require Import Base Work_Model Time_Model Land_Model Src_Model Tools_Model.
Local Open Scope Z_scope.
Local Open Scope list_scope.

(* ---- job arrays.  A call of bsub makes one array; its identifier is the next unused number.  A condition "done(1) && done(2)" is
   the list of its identifiers, and the empty text the empty list.  Calls of bsub that fail are not modelled. *)
Record job_array := { ja_id : nat; ja_wait : list nat; ja_module : string; ja_batch : Z; ja_size : Z; ja_first : Z; ja_last : Z }.
(* seq first last *)
Definition seq_upto (first last : Z) : list Z := zrange first (last + 1).
(* the loop over the batches: runlsf.sh:47-79, runlsf_solver.sh:34-66, runlsf_rawbinary.sh:38-51; [limit] is the clipping of
   runlsf.sh:53-55 *)
Fixpoint submit_batches (modulename : string) (batchsize : Z) (limit : option Z) (wait : list nat) (next : nat) (batches : list Z) : list job_array * list nat :=
  match batches with
  | [] => ([], [])
  | b :: r =>
      let batchstart := 1 + b * batchsize in
      let batchend := batchstart - 1 + batchsize in
      let batchend := match limit with Some n => if batchend >? n then n else batchend | None => batchend end in
      let (later, finished) := submit_batches modulename batchsize limit wait (S next) r in
      ({| ja_id := next; ja_wait := wait; ja_module := modulename; ja_batch := b; ja_size := batchsize; ja_first := batchstart; ja_last := batchend |} :: later, next :: finished)
  end.
(* runlsf.sh: batches of 366, the last one cut at the number of commands; gives the arrays and the finished condition *)
Definition runlsf (commandcount : Z) (modulename : string) (wait : list nat) (next : nat) : list job_array * list nat :=
  let batchsize := 366 in
  let batchcount := commandcount / batchsize in
  let batchcount := if commandcount mod batchsize >? 0 then batchcount + 1 else batchcount in
  submit_batches modulename batchsize (Some commandcount) wait next (seq_upto 0 (batchcount - 1)).
(* runlsf_solver.sh: batches of one *)
Definition runlsf_solver (commandcount : Z) (modulename : string) (wait : list nat) (next : nat) : list job_array * list nat :=
  let batchsize := 1 in
  let batchcount := batch_count commandcount batchsize in
  submit_batches modulename batchsize None wait next (seq_upto 0 (batchcount - 1)).
(* runlsf_rawbinary.sh: batches of 1000, never cut *)
Definition runlsf_rawbinary (commandcount : Z) (modulename : string) (next : nat) : list job_array * list nat :=
  let batchsize := 1000 in
  let batchcount := batch_count commandcount batchsize in
  submit_batches modulename batchsize None [] next (seq_upto 0 (batchcount - 1)).
(* the element of an array: lsf_commandrun.sh, lsf_commandrun_solver.sh:15-21 and lsf_rawbinary.sh:7-15, with the operation index that
   commandrun computes from it (commandrun.py:17-20) *)
Definition array_commands (a : job_array) : list Z :=
  map (fun jobindex => let (index, batch) := lsf_commandrun (ja_size a) (ja_batch a) jobindex in batch * ja_size a + index) (seq_upto (ja_first a) (ja_last a)).

(* runlsf_iterations.sh:28-40: each script waits for the finished condition that the one before exported *)
Inductive script := Runlsf | Runlsf_solver.
Fixpoint submit_chain (count : string -> Z) (steps : list (script * string)) (wait : list nat) (next : nat) : list job_array :=
  match steps with
  | [] => []
  | (s, modulename) :: r =>
      let (arrays, finished) := match s with
                                | Runlsf => runlsf (count modulename) modulename wait next
                                | Runlsf_solver => runlsf_solver (count modulename) modulename wait next
                                end in
      arrays ++ submit_chain count r finished (next + List.length arrays)
  end.
Definition iteration_steps (iteration : Z) : list (script * string) :=
  map (fun p => (fst p, (snd p ++ "_" ++ Fill_Model.py_str iteration)%string))
    [(Runlsf, "climatology_input"); (Runlsf_solver, "climatology_solve"); (Runlsf, "large_scale_input"); (Runlsf_solver, "large_scale_solve"); (Runlsf, "local_input_and_solve")]%string.
Definition all_steps : list (script * string) := flat_map iteration_steps (seq_upto 0 2) ++ [(Runlsf, "output_grid"%string)].
Definition runlsf_iterations (count : string -> Z) : list job_array := submit_chain count all_steps [] 0.

(* ---- postprocess/lsf: N_OPERATIONS from operation_count, the array [1-N_OPERATIONS] and OPERATION_INDEX = LSB_JOBINDEX - 1; the
   reference time is START_YEAR-01-01 *)
Definition postprocess_operations (start_year end_year : Z) : result (list Z) :=
  do n <- operation_count start_year end_year;
  Ok (map (fun jobindex => jobindex - 1) (seq_upto 1 n)).
Definition postprocess_days (start_year end_year : Z) : result (list (list Z)) :=
  do reference <- mk_datetime start_year 1 1 0 0 0;
  do operations <- postprocess_operations start_year end_year;
  mapM (operation_dates reference) operations.
(* submit_cell_percentile_calculation.sh and cell_percentile_job.sh:12: MONTH_NUMBER = LSB_JOBINDEX, [1-12] *)
Definition percentile_months : list Z := seq_upto 1 12.

(* ---- ensuredirectory.py.  A path is the list of its names, the last one first; [] is the directory that exists always (the root, or the
   working directory).  Symbolic links, "." and ".." are not modelled. *)
Inductive kind := Folder | Regular.
Definition path := list string.
Definition filesystem := path -> option kind.
Definition path_eq_dec : forall p q : path, {p = q} + {p <> q} := list_eq_dec string_dec.
Inductive os_error := EEXIST | ENOENT | ENOTDIR.
(* mkdir(2) *)
Definition mkdir (p : path) (f : filesystem) : filesystem * option os_error :=
  match p with
  | [] => (f, Some EEXIST)
  | _ :: parent =>
      match f p with
      | Some _ => (f, Some EEXIST)
      | None => match f parent with
                | Some Folder => ((fun q => if path_eq_dec q p then Some Folder else f q), None)
                | Some Regular => (f, Some ENOTDIR)
                | None => (f, Some ENOENT)
                end
      end
  end.
Section Interference.
(* what other processes do before our n-th system call *)
Variable others : nat -> filesystem -> filesystem.
(* os.makedirs of Python 2.7; the state is the file system and the number of system calls so far *)
Fixpoint makedirs (name : path) (s : filesystem * nat) : filesystem * nat * option os_error :=
  match name with
  | [] => (s, Some EEXIST)
  | _ :: head =>
      let (f, n) := s in
      let '(s, e) :=
        match head with
        | [] => (s, None)
        | _ :: _ =>
            let f := others n f in                          (* path.exists(head) *)
            match f head with
            | Some _ => ((f, S n), None)
            | None => makedirs head (f, S n)
            end
        end in
      match e with
      | Some ENOENT => (s, Some ENOENT)
      | Some ENOTDIR => (s, Some ENOTDIR)
      | _ => let (f, n) := s in let (f, e) := mkdir name (others n f) in ((f, S n), e)
      end
  end.
(* 6-27; [subdirectory] is os.path.dirname(pathname) *)
Definition ensuredirectory (subdirectory : path) (s : filesystem * nat) : filesystem * nat * option os_error :=
  match subdirectory with
  | [] => (s, None)
  | _ :: _ =>
      match makedirs subdirectory s with
      | (s, None) => (s, None)
      | (s, Some EEXIST) =>
          let (f, n) := s in
          let f := others n f in                            (* os.path.isdir *)
          match f subdirectory with Some Folder => ((f, S n), None) | _ => ((f, S n), Some EEXIST) end
      | (s, Some e) => (s, Some e)
      end
  end.
End Interference.

(* ---- search.py.  A tree of directories, in the order of os.listdir; a link to a directory counts as one that is not entered. *)
Inductive node := File | Directory (entries : list (string * node)).
(* os.walk(basepath), top down: the names that lead to a directory, and its files; nothing for a path that is not a directory *)
Definition is_file (e : string * node) : bool := match snd e with File => true | Directory _ => false end.
Fixpoint walk (dirpath : list string) (n : node) : list (list string * list string) :=
  match n with
  | File => []
  | Directory entries =>
      (dirpath, map fst (filter is_file entries)) :: flat_map (fun e => walk (dirpath ++ [fst e]) (snd e)) entries
  end.
(* 9-16 find_all_files; relpath(join(dirpath, filename), basepath) *)
Definition find_all_files (basepath : option node) : list (list string) :=
  match basepath with
  | None => []
  | Some n => flat_map (fun w => map (fun filename => fst w ++ [filename]) (snd w)) (walk [] n)
  end.

(* ---- checksum.py:11-17.  [output] is what cksum prints; str.split() as in Src_Model *)
Definition checksum (output : string) : result (string * Z) :=
  match split_words [] (list_ascii_of_string output) with
  | checksum_string :: size_string :: _ => do size <- py_int (string_of_list_ascii size_string); Ok (string_of_list_ascii checksum_string, size)
  | _ => Err ValueError
  end.

(* ---- iriscubesaver.py and saver.py *)
(* 10-18 VariableStorage; the type by its smallest and largest number *)
Record storage := { st_lowest : Z; st_highest : Z; st_scale_factor : Q; st_add_offset : Q; st_fill_value : Z }.
(* saver.py:9-11 *)
Definition STORAGE_K := {| st_lowest := -32768; st_highest := 32767; st_scale_factor := 5 # 1000; st_add_offset := 27315 # 100; st_fill_value := -32768 |}.
Definition STORAGE_RELATIVE_K := {| st_lowest := -32768; st_highest := 32767; st_scale_factor := 1 # 1000; st_add_offset := 32767 # 1000; st_fill_value := -32768 |}.
Definition STORAGE_RELATIVE_K2 := {| st_lowest := -2147483648; st_highest := 2147483647; st_scale_factor := 5 # 1000000; st_add_offset := 0; st_fill_value := -1 |}.
(* saver.py:14-22 set_storage: later calls replace earlier ones *)
Definition storage_override : list (string * storage) :=
  fold_left (fun d e => set_key (fst e) (snd e) d)
    [("tsmean", STORAGE_K); ("tsmin", STORAGE_K); ("tsmax", STORAGE_K); ("tsvariance", STORAGE_RELATIVE_K2); ("tsmean_unc_ran", STORAGE_RELATIVE_K);
     ("tsmean_unc_loc_atm", STORAGE_RELATIVE_K); ("tsmean_unc_loc_sfc", STORAGE_RELATIVE_K); ("tsmean_unc_spl", STORAGE_RELATIVE_K); ("tsmean_unc_sys", STORAGE_RELATIVE_K)]%string [].
(* numpy.around *)
Definition around (x : Q) : Z :=
  let f := Qfloor x in
  match Qcompare (x - inject_Z f) (1 # 2) with Lt => f | Gt => f + 1 | Eq => if Z.even f then f else f + 1 end.
Section Storage.
(* what the conversion to the type of the variable makes of a number that it cannot hold *)
Variable overflow : Z -> Z.
(* 26-44 createVariable, and the packing of the netCDF library: the numbers on disk, or the values where there is no override *)
Inductive stored := Packed (s : storage) (numbers : list Z) | Unpacked (values : list (option Q)).
Definition pack (s : storage) (v : option Q) : Z :=
  match v with
  | None => st_fill_value s
  | Some x => let n := around ((x - st_add_offset s) / st_scale_factor s) in
              if (st_lowest s <=? n) && (n <=? st_highest s) then n else overflow n
  end.
Definition write_variable (varname : string) (values : list (option Q)) : stored :=
  match lookup varname storage_override with
  | Some s => Packed s (map (pack s) values)
  | None => Unpacked values
  end.
(* reading with the attributes of the variable *)
Definition read_variable (v : stored) : list (option Q) :=
  match v with
  | Packed s l => map (fun n => if n =? st_fill_value s then None else Some (inject_Z n * st_scale_factor s + st_add_offset s)%Q) l
  | Unpacked values => values
  end.
End Storage.
