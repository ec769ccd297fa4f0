(* Generation of the operation descriptors of the iterated analysis (FullstaceJsonFiller).
   E: src/eumopps/catalogue/jsonfiller.py
   X: src/eustace/analysis/advanced_standard/examples/jsonfiller.py (same class name, a range of iterations instead of a number of them)
   A descriptor is a JSON value. json.load and json.dump are not modelled: templates and descriptors are the values they hold.
   Printing is left out. Python dictionaries are lists of keys and values; the order of keys carries no meaning in the code. *)
From Coq Require Import String Ascii.
From Verif Require Import Base Grid_Model NcObj_Model.
Open Scope string_scope.
Open Scope list_scope.
Open Scope Z_scope.

(* ---- values of the json module *)
Inductive json : Type :=
| JNull
| JStr (s : string)
| JNum (n : Z)
| JList (l : list json)
| JDict (d : list (string * json)).

(* d.get(k) *)
Fixpoint dget (k : string) (d : list (string * json)) : option json :=
  match d with [] => None | (k', v) :: d' => if String.eqb k' k then Some v else dget k d' end.
(* d[k] = v *)
Fixpoint dset (k : string) (v : json) (d : list (string * json)) : list (string * json) :=
  match d with
  | [] => [(k, v)]
  | (k', v') :: d' => if String.eqb k' k then (k, v) :: d' else (k', v') :: dset k v d'
  end.
(* if k in d: del d[k] *)
Definition ddel (k : string) (d : list (string * json)) : list (string * json) :=
  filter (fun e => negb (String.eqb (fst e) k)) d.

(* One subscript: ['key'] or [0]. The code has no other list index. *)
Inductive step := K (k : string) | First.

(* j[k] *)
Definition get1 (s : step) (j : json) : result json :=
  match s, j with
  | K k, JDict d => match dget k d with Some v => Ok v | None => Err KeyError end
  | First, JList (x :: _) => Ok x
  | First, JList [] => Err IndexError
  | First, JDict _ => Err KeyError
  | _, _ => Err TypeError
  end.
(* j[k1][k2]... *)
Fixpoint get (p : list step) (j : json) : result json :=
  match p with [] => Ok j | s :: p' => do x <- get1 s j; get p' x end.

(* j[k] = v *)
Definition put1 (s : step) (v j : json) : result json :=
  match s, j with
  | K k, JDict d => Ok (JDict (dset k v d))
  | First, JList (_ :: l) => Ok (JList (v :: l))
  | First, JList [] => Err IndexError
  | _, _ => Err TypeError
  end.
(* j[k1][k2]...[kn] = v: the value of the whole of j after the assignment *)
Fixpoint put (p : list step) (v j : json) : result json :=
  match p with
  | [] => Ok v
  | [s] => put1 s v j
  | s :: p' => do x <- get1 s j; do x' <- put p' v x; put1 s x' j
  end.

(* j[k1]...[kn].append(v) *)
Definition append_to (p : list step) (v j : json) : result json :=
  do x <- get p j;
  match x with JList l => put p (JList (l ++ [v])) j | _ => Err AttributeError end.

(* for to_remove in keys: if to_remove in j['runmodule']: del j['runmodule'][to_remove] (runmodule taken to be a dictionary) *)
Definition remove_keys (keys : list string) (j : json) : result json :=
  do r <- get [K "runmodule"] j;
  match r with
  | JDict d => put [K "runmodule"] (JDict (fold_left (fun d k => ddel k d) keys d)) j
  | _ => Err TypeError
  end.

(* str(i) *)
Definition py_str (i : Z) : string :=
  if i <? 0 then ("-" ++ decimals (decimal_width (S (Z.to_nat (- i))) 1 (- i)) (- i))%string
  else decimals (decimal_width (S (Z.to_nat i)) 1 i) i.

(* name+'_'+str(i), name+'_sample_'+str(i), name+'_prior_sample_'+str(i) *)
Definition numbered (name : string) (i : Z) : string := (name ++ "_" ++ py_str i)%string.
Definition sample_of (name : string) : string := (name ++ "_sample")%string.
Definition prior_sample_of (name : string) : string := (name ++ "_prior_sample")%string.

(* E 14 = X 14 *)
Definition STORAGE_LIST : list string := ["storage_climatology"; "storage_large_scale"; "storage_local"].
(* E 20 = X 20 *)
Definition INPUTSOURCE_LIST : list string :=
  ["insitu_land"; "insitu_ocean"; "surfaceairmodel_land"; "surfaceairmodel_ocean"; "surfaceairmodel_ice"].
(* definitions.py:24 GLOBAL_SAMPLE_SHAPE[3], E 23 *)
Definition OUTPUT_SAMPLE_SIZE : Z := 10.

(* placeholder classes *)
Definition INPUT_FILE : string := "eumopps.catalogue.placeholder.InputFile".
Definition INPUT_FILE_LIST : string := "eumopps.catalogue.placeholder.InputFileList".
Definition OUTPUT_FILE : string := "eumopps.catalogue.placeholder.OutputFile".
Definition BATCH_DAYS : string := "eustace.analysis.advanced_standard.examples.placeholder.AnnualBatchDays".
Definition BATCH_DAYS_OUTPUT : string := "eustace.analysis.advanced_standard.examples.placeholder.AnnualBatchDaysOutput".
Definition STEP_INDEX : string := "eustace.analysis.advanced_standard.examples.placeholder.AnalysisStepIndex".
Definition BATCH_INDICES : string := "eustace.analysis.advanced_standard.examples.placeholder.AnalysisAnnualBatchDayIndices".
Definition PROCESS_INPUTS : string := "eustace.analysis.advanced_standard.examples.moving_climatology.process_inputs".
Definition PROCESS_INPUTS_BATCH : string := "eustace.analysis.advanced_standard.examples.moving_climatology.process_inputs_batch".
Definition SOLVE : string := "eustace.analysis.advanced_standard.examples.moving_climatology.solve".
Definition OUTPUT_GRID : string := "eustace.analysis.advanced_standard.examples.moving_climatology.output_grid".
Definition OUTPUT_GRID_BATCH : string := "eustace.analysis.advanced_standard.examples.moving_climatology.output_grid_batch".

Definition of_class (c : string) : json := JDict [("python_class", JStr c)].
Definition reference (c dataset : string) : json := JDict [("python_class", JStr c); ("datasetname", JStr dataset)].
Definition reference_allowed (c dataset : string) : json :=
  JDict [("python_class", JStr c); ("datasetname", JStr dataset); ("missing_data", JStr "allowed")].

(* ---- E 26-63, X 26-68: the members of a filler. The templates are the contents of the three files. *)
Record filler := {
  f_operation : json; f_batch_operation : json; f_output_grid : json;
  f_start_date : string; f_end_date : string;
  f_land_biases : json; f_global_biases : json;
  f_measurement_climatology_command : string; f_measurement_climatology : string;
  f_solution_climatology_command : string; f_solution_climatology : string;
  f_measurement_large_scale_command : string; f_measurement_large_scale : string;
  f_solution_large_scale_command : string; f_solution_large_scale : string;
  f_local_scale_command : string; f_solution_local_scale : string;
  f_output_grid_command : string; f_output_grid_name : string;
  f_output_climatology : string; f_output_large_scale : string; f_output_local : string;
  f_state_sample_size : Z (* class constant STATE_SAMPLE_SIZE: 10 in E 22, 30 in X 23 *) }.

(* E 87-93 = X 85-91 *)
Definition restrict_inputs (j : json) : result json :=
  do r <- get [K "runmodule"] j;
  match r with
  | JDict d =>
      match dget "inputsources" d with
      | None => Ok j
      | Some (JList sources) =>
          do kept <- foldM (fun kept source =>
                       do name <- get [K "name"] source;
                       Ok (if existsb (fun s => match name with JStr n => String.eqb n s | _ => false end) INPUTSOURCE_LIST
                           then kept ++ [source] else kept)) [] sources;
          put [K "runmodule"; K "inputsources"] (JList kept) j
      | Some _ => Err TypeError
      end
  | _ => Err TypeError
  end.

(* E 65-85 = X 70-83: the templates after loading *)
Definition load_templates (f : filler) : result (json * json * json) :=
  do a <- restrict_inputs (f_operation f);
  do b <- restrict_inputs (f_batch_operation f);
  do c <- restrict_inputs (f_output_grid f);
  Ok (a, b, c).

(* E 646-659 = X 653-666 *)
Definition return_output_patterns (dataset fmt kind : string) : result json :=
  let is l := existsb (String.eqb kind) l in
  let two a b := Ok (JList [JStr (dataset ++ a)%string; JStr (dataset ++ b ++ fmt)%string]) in
  if is ["spacetime_solution"; "spacetime_uncertainty"; "spacetime_sample"] then two "/" "."
  else if is ["measurement"; "space_solution"; "space_uncertainty"; "space_sample"] then two "/%Y/" "_%Y%m%d."
  else if is ["annual_measurement"] then two "/%Y/" "_%Y."
  else if is ["monthly_measurement"] then two "/%Y/" "_%Y%m."
  else if is ["region_optimization"] then two "/optimization/" "_%i.%i.%i."
  else Err ValueError.

(* name and file patterns of one entry of newdatasets: the assignments at E 586-589, 534-536, 556-558, 394-397 *)
Definition name_dataset (dataset fmt kind : string) (d : json) : result json :=
  do d <- put [K "name"] (JStr dataset) d;
  do p <- return_output_patterns dataset fmt kind;
  put [K "subsets"; First; K "layout"; K "patterns"] p d.

(* copy.deepcopy(newdatasets[0]), renamed, appended: E 533-537, 555-559, 393-411 *)
Definition add_dataset (dataset fmt kind : string) (j : json) : result json :=
  do d <- get [K "newdatasets"; First] j;
  do d <- name_dataset dataset fmt kind d;
  append_to [K "newdatasets"] d j.

(* E 567-589 = X 566-588 *)
Definition fill_primary_keys (f : filler) (command dataset fmt kind : string) (j : json) : result json :=
  do j <- put [K "name"] (JStr command) j;
  do j <- put [K "runmodule"; K "insitu_biases"] (f_land_biases f) j;
  do j <- put [K "runmodule"; K "global_biases"] (f_global_biases f) j;
  do j <- put [K "runmodule"; K "compute_uncertainties"] (JNum 0) j;
  do j <- put [K "runmodule"; K "method"] (JStr "EXACT") j;
  do j <- put [K "runmodule"; K "compute_sample"] (JNum 0) j;
  do j <- put [K "runmodule"; K "sample_size"] (JNum 0) j;
  do j <- put [K "runmodule"; K "compute_prior_sample"] (JNum 0) j;
  do j <- put [K "step"; K "start"] (JStr (f_start_date f ++ "000000")) j;
  do j <- put [K "step"; K "end"] (JStr (f_end_date f ++ "000000")) j;
  do d <- get [K "newdatasets"; First] j;
  do d <- name_dataset dataset fmt kind d;
  put [K "newdatasets"; First] d j.

Definition solution_names (f : filler) : list string := [f_solution_climatology f; f_solution_large_scale f; f_solution_local_scale f].

(* one turn of the loop E 603-612 = X 604-613 *)
Definition secondary_step (f : filler) (i c : Z) (j : json) (shifter : Z) : result json :=
  let index := c - shifter in
  if (0 <=? index) && (0 <=? i) then
    do s <- py_index STORAGE_LIST index; do d <- py_index (solution_names f) index;
    put [K "runmodule"; K s; K "statefilename_read"] (reference INPUT_FILE (numbered d i)) j
  else if (index <? 0) && (0 <? i) then
    do s <- py_index STORAGE_LIST index; do d <- py_index (solution_names f) index;
    put [K "runmodule"; K s; K "statefilename_read"] (reference INPUT_FILE (numbered d (i - 1))) j
  else Ok j.
(* E 591-612 = X 590-613 *)
Definition fill_secondary_keys (f : filler) (i c : Z) (j : json) : result json :=
  do j <- put [K "runmodule"; K "component_index"] (JNum c) j;
  do j <- (if c =? 2 then Ok j else put [K "runmodule"; K "storage_local"; K "time_index"] (of_class STEP_INDEX) j);
  foldM (secondary_step f i c) j (zrange 1 3).

(* one turn of the loop E 625-644 = X 631-650 *)
Definition secondary_batch_read (f : filler) (k iteration : Z) (j : json) : result json :=
  do s <- py_index STORAGE_LIST k; do d <- py_index (solution_names f) k;
  if k =? 2 then
    do j <- put [K "runmodule"; K s; K "statefilelist_read"] (reference BATCH_DAYS (numbered d iteration)) j;
    put [K "runmodule"; K s; K "time_list"] (of_class BATCH_INDICES) j
  else put [K "runmodule"; K s; K "statefilename_read"] (reference INPUT_FILE (numbered d iteration)) j.
Definition secondary_batch_step (f : filler) (i c : Z) (j : json) (k : Z) : result json :=
  if (k <? c) && (0 <=? i) then secondary_batch_read f k i j
  else if (c <=? k) && (0 <? i) then secondary_batch_read f k (i - 1) j
  else Ok j.
(* E 614-644 = X 615-650 *)
Definition fill_secondary_keys_batch (f : filler) (i c : Z) (j : json) : result json :=
  do j <- put [K "runmodule"; K "component_index"] (JNum c) j;
  foldM (secondary_batch_step f i c) j (zrange 0 3).

(* E 519-537 = X 518-536, in mode 'single', the only one in use *)
Definition add_sample_information (f : filler) (c : Z) (dataset fmt kind : string) (j : json) : result json :=
  do s <- py_index STORAGE_LIST c;
  do j <- put [K "runmodule"; K s; K "sample_filename_write"] (reference OUTPUT_FILE dataset) j;
  do j <- put [K "runmodule"; K "compute_sample"] (JNum 1) j;
  do j <- put [K "runmodule"; K "sample_size"] (JNum (f_state_sample_size f)) j;
  add_dataset dataset fmt kind j.

(* any([dataset['name'] == dataset_name for dataset in dictionary['newdatasets']]) *)
Definition named_in (dataset : string) (j : json) : result bool :=
  do l <- get [K "newdatasets"] j;
  match l with
  | JList ds => foldM (fun found d => do n <- get [K "name"] d;
                                       Ok (found || match n with JStr s => String.eqb s dataset | _ => false end)) false ds
  | _ => Err TypeError
  end.
(* E 539-559 = X 538-558, in mode 'single' *)
Definition add_prior_sample_information (f : filler) (c : Z) (dataset fmt kind : string) (j : json) : result json :=
  do s <- py_index STORAGE_LIST c;
  do j <- put [K "runmodule"; K s; K "prior_sample_filename_write"] (reference OUTPUT_FILE dataset) j;
  do j <- put [K "runmodule"; K "compute_prior_sample"] (JNum 1) j;
  do j <- put [K "runmodule"; K "sample_size"] (JNum (f_state_sample_size f)) j;
  do found <- named_in dataset j;
  if (found : bool) then Ok j else add_dataset dataset fmt kind j.

(* ---- operations. [t] is the template (operation_dict or batch_operation_dict), [sampled] the condition
   iteration_index==(self.n_iterations-1) of E and (iteration_index==self.last_iteration) and self.grid_last_iteration of X *)

(* E 196-218 = X 195-217 *)
Definition fill_single_operation_space (f : filler) (t : json) (sampled : bool) (i c : Z) : result json :=
  let name := numbered (f_solution_local_scale f) i in
  do j <- fill_primary_keys f (numbered (f_local_scale_command f) i) name "pickle" "space_solution" t;
  do j <- fill_secondary_keys f i c j;
  do j <- (if sampled then
             do j <- add_sample_information f c (numbered (sample_of (f_solution_local_scale f)) i) "pickle" "space_sample" j;
             add_prior_sample_information f c (numbered (prior_sample_of (f_solution_local_scale f)) i) "pickle" "space_sample" j
           else Ok j);
  do j <- put [K "runmodule"; K "python_function"] (JStr PROCESS_INPUTS) j;
  do s <- py_index STORAGE_LIST c;
  do j <- put [K "runmodule"; K s; K "time_index"] (of_class STEP_INDEX) j;
  put [K "runmodule"; K s; K "statefilename_write"] (reference OUTPUT_FILE name) j.

(* E 220-233 = X 219-232 *)
Definition fill_single_measurement (f : filler) (t : json) (i c : Z) (command dataset : string) : result json :=
  let name := numbered dataset i in
  do j <- fill_primary_keys f (numbered command i) name "pickle" "measurement" t;
  do j <- fill_secondary_keys f i c j;
  do j <- put [K "runmodule"; K "python_function"] (JStr PROCESS_INPUTS) j;
  do s <- py_index STORAGE_LIST c;
  do j <- put [K "runmodule"; K s; K "measurement_time_index_write"] (of_class STEP_INDEX) j;
  put [K "runmodule"; K s; K "measurementfilename_write"] (reference OUTPUT_FILE name) j.

(* E 348-360 = X 347-359 *)
Definition fill_batch_measurement (f : filler) (t : json) (i c : Z) (command dataset : string) : result json :=
  let name := numbered dataset i in
  do j <- fill_primary_keys f (numbered command i) name "pickle" "monthly_measurement" t;
  do j <- fill_secondary_keys_batch f i c j;
  do j <- put [K "runmodule"; K "python_function"] (JStr PROCESS_INPUTS_BATCH) j;
  do s <- py_index STORAGE_LIST c;
  put [K "runmodule"; K s; K "measurementfilename_write"] (reference OUTPUT_FILE name) j.

Definition NOT_SOLVED : list string := ["inputsources"; "time_index"; "time_indices"].

(* the end of E 255-263, 282-290 and (without the storage entries) 306-314 *)
Definition solve_once (c : Z) (j : json) : result json :=
  do j <- put [K "runmodule"; K "component_index"] (JNum c) j;
  do j <- put [K "step"] (of_class "eumopps.catalogue.step.StepOnce") j;
  put [K "runmodule"; K "python_function"] (JStr SOLVE) j.
Definition solve_files (c : Z) (measurement name : string) (j : json) : result json :=
  do s <- py_index STORAGE_LIST c;
  do j <- put [K "runmodule"; K s; K "measurementfilelist_read"] (reference INPUT_FILE_LIST measurement) j;
  put [K "runmodule"; K s; K "statefilename_write"] (reference OUTPUT_FILE name) j.

(* E 235-263 = X 234-262 *)
Definition fill_single_solution (f : filler) (t : json) (sampled : bool) (i c : Z) (command solution measurement : string) : result json :=
  let name := numbered solution i in
  do j <- fill_primary_keys f (numbered command i) name "pickle" "spacetime_solution" t;
  do j <- (if sampled then
             do j <- add_sample_information f c (numbered (sample_of solution) i) "pickle" "spacetime_sample" j;
             add_prior_sample_information f c (numbered (prior_sample_of solution) i) "pickle" "spacetime_sample" j
           else Ok j);
  do j <- solve_once c j;
  do j <- solve_files c (numbered measurement i) name j;
  remove_keys NOT_SOLVED j.

(* E 265-290 = X 264-289 *)
Definition fill_posterior_solution (f : filler) (t : json) (sampled : bool) (i c : Z) (command solution measurement : string) : result json :=
  let name := numbered solution i in
  do j <- fill_primary_keys f (numbered command i) name "pickle" "spacetime_solution" t;
  do j <- (if sampled then add_sample_information f c (numbered (sample_of solution) i) "pickle" "spacetime_sample" j else Ok j);
  do j <- solve_once c j;
  do j <- solve_files c (numbered measurement i) name j;
  remove_keys NOT_SOLVED j.

(* E 292-314 = X 291-313 *)
Definition fill_prior_solution (f : filler) (t : json) (sampled : bool) (i c : Z) (command solution : string) : result json :=
  let name := numbered (prior_sample_of solution) i in
  do j <- fill_primary_keys f (numbered (prior_sample_of command) i) name "pickle" "spacetime_solution" t;
  do j <- (if sampled then add_prior_sample_information f c name "pickle" "spacetime_sample" j else Ok j);
  do j <- solve_once c j;
  remove_keys NOT_SOLVED j.

(* E 385-389: the input entries of one storage, whose keys the template must have *)
Definition gridding_read (i : Z) (j : json) (sd : string * string) : result json :=
  let '(s, d) := sd in
  do j <- put [K "runmodule"; K s; K "statefilename_read"; K "datasetname"] (JStr (numbered d i)) j;
  do j <- put [K "runmodule"; K s; K "sample_filename_read"; K "datasetname"] (JStr (numbered (sample_of d) i)) j;
  put [K "runmodule"; K s; K "prior_sample_filename_read"; K "datasetname"] (JStr (numbered (prior_sample_of d) i)) j.
(* E 368-411; [i] is self.n_iterations-1. The filler's own output_gridding_dict is changed in place; nothing reads it later. *)
Definition fill_output_gridding (f : filler) (t : json) (i : Z) : result json :=
  do j <- fill_primary_keys f (f_output_grid_command f) (f_output_grid_name f) "nc" "measurement" t;
  do j <- put [K "runmodule"; K "sample_size"] (JNum OUTPUT_SAMPLE_SIZE) j;
  do j <- put [K "runmodule"; K "python_function"] (JStr OUTPUT_GRID) j;
  do j <- put [K "runmodule"; K "outputfile"] (reference OUTPUT_FILE (f_output_grid_name f)) j;
  do j <- put [K "runmodule"; K "climatologyfile"] (reference OUTPUT_FILE (f_output_climatology f)) j;
  do j <- put [K "runmodule"; K "largescalefile"] (reference OUTPUT_FILE (f_output_large_scale f)) j;
  do j <- put [K "runmodule"; K "localfile"] (reference OUTPUT_FILE (f_output_local f)) j;
  do j <- foldM (gridding_read i) j (combine STORAGE_LIST (solution_names f));
  do j <- add_dataset (f_output_climatology f) "nc" "measurement" j;
  do j <- add_dataset (f_output_large_scale f) "nc" "measurement" j;
  add_dataset (f_output_local f) "nc" "measurement" j.

(* E 434-460, X 433-459: the data set of the local component is recognised by its name *)
Definition batch_gridding_read (f : filler) (i : Z) (j : json) (sd : string * string) : result json :=
  let '(s, d) := sd in
  if String.eqb d (f_solution_local_scale f) then
    do j <- put [K "runmodule"; K s; K "statefilelist_read"] (reference_allowed BATCH_DAYS (numbered d i)) j;
    do j <- put [K "runmodule"; K s; K "sample_filelist_read"] (reference_allowed BATCH_DAYS (numbered (sample_of d) i)) j;
    do j <- put [K "runmodule"; K s; K "prior_sample_filelist_read"] (reference_allowed BATCH_DAYS (numbered (prior_sample_of d) i)) j;
    put [K "runmodule"; K s; K "time_list"] (of_class BATCH_INDICES) j
  else
    do j <- put [K "runmodule"; K s; K "statefilename_read"] (reference INPUT_FILE (numbered d i)) j;
    do j <- put [K "runmodule"; K s; K "sample_filename_read"] (reference INPUT_FILE (numbered (sample_of d) i)) j;
    put [K "runmodule"; K s; K "prior_sample_filename_read"] (reference INPUT_FILE (numbered (prior_sample_of d) i)) j.
(* E 413-488, X 412-487. [out] gives the names of the outputs: unchanged in E, with the iteration in X; [command] likewise. *)
Definition fill_batch_output_gridding (f : filler) (t : json) (i : Z) (out : string -> string) : result json :=
  do j <- fill_primary_keys f (out (f_output_grid_command f)) (out (f_output_grid_name f)) "nc" "measurement" t;
  do j <- put [K "runmodule"; K "sample_size"] (JNum OUTPUT_SAMPLE_SIZE) j;
  do j <- put [K "runmodule"; K "python_function"] (JStr OUTPUT_GRID_BATCH) j;
  do j <- put [K "runmodule"; K "outputfiles"] (reference BATCH_DAYS_OUTPUT (out (f_output_grid_name f))) j;
  do j <- put [K "runmodule"; K "climatologyfiles"] (reference BATCH_DAYS_OUTPUT (out (f_output_climatology f))) j;
  do j <- put [K "runmodule"; K "largescalefiles"] (reference BATCH_DAYS_OUTPUT (out (f_output_large_scale f))) j;
  do j <- put [K "runmodule"; K "localfiles"] (reference BATCH_DAYS_OUTPUT (out (f_output_local f))) j;
  do j <- foldM (batch_gridding_read f i) j (combine STORAGE_LIST (solution_names f));
  do j <- add_dataset (out (f_output_climatology f)) "nc" "measurement" j;
  do j <- add_dataset (out (f_output_large_scale f)) "nc" "measurement" j;
  do j <- add_dataset (out (f_output_local f)) "nc" "measurement" j;
  do j <- remove_keys ["inputsources"; "time_index"] j;
  put [K "runmodule"; K "time_indices"] (of_class BATCH_INDICES) j.

(* ---- descriptors *)

(* E 134-143 and X 133-142: the operations of one iteration *)
Definition single_iteration (f : filler) (op : json) (sampled : Z -> bool) (i : Z) : result (list json) :=
  do mc <- fill_single_measurement f op i 0 (f_measurement_climatology_command f) (f_measurement_climatology f);
  do sc <- fill_single_solution f op (sampled i) i 0 (f_solution_climatology_command f) (f_solution_climatology f) (f_measurement_climatology f);
  do ml <- fill_single_measurement f op i 1 (f_measurement_large_scale_command f) (f_measurement_large_scale f);
  do sl <- fill_single_solution f op (sampled i) i 1 (f_solution_large_scale_command f) (f_solution_large_scale f) (f_measurement_large_scale f);
  do lo <- fill_single_operation_space f op (sampled i) i 2;
  Ok [mc; sc; ml; sl; lo].

(* E 160-181 and X 158-179 *)
Definition batch_iteration (f : filler) (op batch : json) (sampled : Z -> bool) (i : Z) : result (list json) :=
  do mc <- fill_batch_measurement f batch i 0 (f_measurement_climatology_command f) (f_measurement_climatology f);
  do sc <- fill_posterior_solution f op (sampled i) i 0 (f_solution_climatology_command f) (f_solution_climatology f) (f_measurement_climatology f);
  do pc <- (if sampled i then do p <- fill_prior_solution f op (sampled i) i 0 (f_solution_climatology_command f) (f_solution_climatology f); Ok [p] else Ok []);
  do ml <- fill_batch_measurement f batch i 1 (f_measurement_large_scale_command f) (f_measurement_large_scale f);
  do sl <- fill_posterior_solution f op (sampled i) i 1 (f_solution_large_scale_command f) (f_solution_large_scale f) (f_measurement_large_scale f);
  do pl <- (if sampled i then do p <- fill_prior_solution f op (sampled i) i 1 (f_solution_large_scale_command f) (f_solution_large_scale f); Ok [p] else Ok []);
  do lo <- fill_single_operation_space f op (sampled i) i 2;
  Ok (mc :: sc :: pc ++ ml :: sl :: pl ++ [lo]).

(* {'python_class' : 'eumopps.catalogue.catalogue.Catalogue', 'operations':operations } *)
Definition catalogue_of (operations : list json) : json :=
  JDict [("python_class", JStr "eumopps.catalogue.catalogue.Catalogue"); ("operations", JList operations)].

(* E 126-148 *)
Definition fill_descriptor (f : filler) (n : Z) : result json :=
  do t <- load_templates f; let '(op, _, grid) := t in
  if n =? 0 then Err ValueError else
  do its <- mapM (single_iteration f op (fun i => i =? n - 1)) (zrange 0 n);
  do g <- fill_output_gridding f grid (n - 1);
  Ok (catalogue_of (concat its ++ [g])).

(* E 151-187 *)
Definition fill_batch_descriptor (f : filler) (n : Z) : result json :=
  do t <- load_templates f; let '(op, batch, _) := t in
  if n =? 0 then Err ValueError else
  do its <- mapM (batch_iteration f op batch (fun i => i =? n - 1)) (zrange 0 n);
  do g <- fill_batch_output_gridding f batch (n - 1) (fun s => s);
  Ok (catalogue_of (concat its ++ [g])).

(* X 124-146: fill_output_gridding is called without the iteration it requires *)
Definition fill_descriptor_range (f : filler) (first last : Z) (grid : bool) : result json :=
  do t <- load_templates f; let '(op, _, _) := t in
  if last - first + 1 =? 0 then Err ValueError else
  do its <- mapM (single_iteration f op (fun i => (i =? last) && grid)) (zrange first (last + 1));
  Err TypeError.

(* X 149-186: the gridding operation follows the last iteration, inside the loop *)
Definition fill_batch_descriptor_range (f : filler) (first last : Z) (grid : bool) : result json :=
  do t <- load_templates f; let '(op, batch, _) := t in
  if last - first + 1 =? 0 then Err ValueError else
  do its <- mapM (fun i =>
      do ops <- batch_iteration f op batch (fun i => (i =? last) && grid) i;
      if (i =? last) && grid then do g <- fill_batch_output_gridding f batch i (fun s => numbered s i); Ok (ops ++ [g])
      else Ok ops) (zrange first (last + 1));
  Ok (catalogue_of (concat its)).

(* E 662-672 = X 669-679 *)
Fixpoint check_none (j : json) : result unit :=
  match j with
  | JNull => Err ValueError
  | JDict d => (fix each (d : list (string * json)) := match d with [] => Ok tt | (_, v) :: d' => do _ <- check_none v; each d' end) d
  | JList l => (fix each (l : list json) := match l with [] => Ok tt | v :: l' => do _ <- check_none v; each l' end) l
  | _ => Ok tt
  end.

(* E 95-108 create_descriptor and 110-123 create_batch_descriptor: what the output file holds afterwards ([before] if nothing was
   written) and the outcome. The file is written before the check. *)
Definition create_from (filled : result json) (check : bool) (before : option json) : option json * result unit :=
  match filled with
  | Err e => (before, Err e)
  | Ok d => (Some d, if check then check_none d else Ok tt)
  end.
Definition create_descriptor (f : filler) (n : Z) (check : bool) (before : option json) : option json * result unit :=
  create_from (fill_descriptor f n) check before.
Definition create_batch_descriptor (f : filler) (n : Z) (check : bool) (before : option json) : option json * result unit :=
  create_from (fill_batch_descriptor f n) check before.
