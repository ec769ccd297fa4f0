(* What generated descriptors should say, without the functions that fill them. *)
From Coq Require Import String Ascii.
From Verif Require Time_Model.
From Verif Require Import Base Fill_Model.
Open Scope string_scope.
Open Scope list_scope.
Open Scope Z_scope.

(* The operations of a descriptor. *)
Definition operations (descriptor : json) : list json :=
  match descriptor with JDict d => match dget "operations" d with Some (JList l) => l | _ => [] end | _ => [] end.

(* The placeholder classes that stand for input files and for output files. *)
Definition INPUTS : list string :=
  ["eumopps.catalogue.placeholder.InputFile"; "eumopps.catalogue.placeholder.InputFileList";
   "eustace.analysis.advanced_standard.examples.placeholder.AnnualBatchDays"].
Definition OUTPUTS : list string :=
  ["eumopps.catalogue.placeholder.OutputFile";
   "eustace.analysis.advanced_standard.examples.placeholder.AnnualBatchDaysOutput"].

(* Somewhere in the value is a placeholder of one of the classes for data set [d]. *)
Inductive refers (classes : list string) (d : string) : json -> Prop :=
| refers_here m c : dget "python_class" m = Some (JStr c) -> In c classes -> dget "datasetname" m = Some (JStr d) -> refers classes d (JDict m)
| refers_dict m k v : In (k, v) m -> refers classes d v -> refers classes d (JDict m)
| refers_list l v : In v l -> refers classes d v -> refers classes d (JList l).

Definition reads (op : json) (d : string) : Prop := refers INPUTS d op.
Definition writes (op : json) (d : string) : Prop := refers OUTPUTS d op.

(* Text at a place of a value. *)
Definition text_at (p : list step) (j : json) : option string := match get p j with Ok (JStr s) => Some s | _ => None end.

(* The data sets that the operation adds to the catalogue, in order, and their file patterns. *)
Definition declared (op : json) : list string :=
  match get [K "newdatasets"] op with
  | Ok (JList l) => flat_map (fun d => match text_at [K "name"] d with Some s => [s] | None => [] end) l
  | _ => []
  end.
Definition declared_patterns (op : json) : list (option string * json) :=
  match get [K "newdatasets"] op with
  | Ok (JList l) => map (fun d => (text_at [K "name"] d, match get [K "subsets"; First; K "layout"; K "patterns"] d with Ok p => p | Err _ => JNull end)) l
  | _ => []
  end.

(* Every data set read is declared by an earlier operation, or is [known] beforehand. *)
Definition well_ordered (known : string -> Prop) (ops : list json) : Prop :=
  forall before op after d, ops = before ++ op :: after -> reads op d -> known d \/ In d (flat_map declared before).

(* The files of a component: its state, samples of its state, prior samples, and its measurements. For each, the data set that an
   operation reads it from and the one that it writes it to. *)
Inductive kind := State | Sample | PriorSample | Measurement.
Definition storage_of (component : Z) : string :=
  if component =? 0 then "storage_climatology" else if component =? 1 then "storage_large_scale" else "storage_local".
Definition entry (component : Z) (key : string) (op : json) : option string :=
  text_at [K "runmodule"; K (storage_of component); K key; K "datasetname"] op.
Definition either (component : Z) (key key' : string) (op : json) : option string :=
  match entry component key op with Some d => Some d | None => entry component key' op end.
Definition source (component : Z) (what : kind) (op : json) : option string :=
  match what with
  | State => either component "statefilename_read" "statefilelist_read" op
  | Sample => either component "sample_filename_read" "sample_filelist_read" op
  | PriorSample => either component "prior_sample_filename_read" "prior_sample_filelist_read" op
  | Measurement => entry component "measurementfilelist_read" op
  end.
Definition target (component : Z) (what : kind) (op : json) : option string :=
  match what with
  | State => entry component "statefilename_write" op
  | Sample => entry component "sample_filename_write" op
  | PriorSample => entry component "prior_sample_filename_write" op
  | Measurement => entry component "measurementfilename_write" op
  end.
(* What was most lately written in a sequence of operations. *)
Definition latest (component : Z) (what : kind) (ops : list json) : option string :=
  fold_left (fun found op => match target component what op with Some d => Some d | None => found end) ops None.

(* The function that an operation calls, and whether it is one of the given ones. *)
Definition calls (op : json) (functions : list string) : Prop :=
  exists f, text_at [K "runmodule"; K "python_function"] op = Some f /\ In f functions.
(* Operations that confront a component with observations, solve for a component, or put results on grids. *)
Definition confronts (op : json) (component : Z) : Prop :=
  calls op ["eustace.analysis.advanced_standard.examples.moving_climatology.process_inputs";
            "eustace.analysis.advanced_standard.examples.moving_climatology.process_inputs_batch"] /\
  get [K "runmodule"; K "component_index"] op = Ok (JNum component).
Definition solves (op : json) (component : Z) : Prop :=
  calls op ["eustace.analysis.advanced_standard.examples.moving_climatology.solve"] /\
  get [K "runmodule"; K "component_index"] op = Ok (JNum component).
Definition grids (op : json) : Prop :=
  calls op ["eustace.analysis.advanced_standard.examples.moving_climatology.output_grid";
            "eustace.analysis.advanced_standard.examples.moving_climatology.output_grid_batch"].

(* ---- what is asked of the templates and names *)

(* The template can be filled: the parts that are assigned to exist. *)
Definition has_dict (p : list step) (t : json) : Prop := exists m, get p t = Ok (JDict m).
Definition fillable (t : json) : Prop :=
  has_dict [K "runmodule"] t /\ has_dict [K "step"] t /\
  (forall c, has_dict [K "runmodule"; K (storage_of c)] t) /\
  has_dict [K "newdatasets"; First] t /\ has_dict [K "newdatasets"; First; K "subsets"; First; K "layout"] t.
(* The sources of observations, if any, form a list of named dictionaries. *)
Definition sources_named (t : json) : Prop :=
  forall r s, get [K "runmodule"] t = Ok (JDict r) -> dget "inputsources" r = Some s ->
  exists l, s = JList l /\ forall x, In x l -> exists n, get [K "name"] x = Ok n.

(* Nothing in the template says which files of components are read or written yet; it announces one data set, and no output yet. *)
Definition blank (t : json) : Prop :=
  (forall c what, source c what t = None /\ target c what t = None) /\
  (exists d, get [K "newdatasets"] t = Ok (JList [d])) /\
  (forall d, ~ writes t d).

(* The gridding template has the input entries that are to be completed. *)
Definition grid_inputs (t : json) : Prop :=
  forall c key, In key ["statefilename_read"; "sample_filename_read"; "prior_sample_filename_read"] ->
  text_at [K "runmodule"; K (storage_of c); K key; K "python_class"] t = Some "eumopps.catalogue.placeholder.InputFile".

(* Bias settings are plain settings. *)
Definition plain (j : json) : Prop := match j with JList _ | JDict _ => False | _ => True end.

(* Base names of the data sets of the iterations. *)
Definition solutions (f : filler) : list string := [f_solution_climatology f; f_solution_large_scale f; f_solution_local_scale f].
Definition bases (f : filler) : list string :=
  [f_measurement_climatology f; f_measurement_large_scale f] ++ solutions f ++
  map (fun s => (s ++ "_sample")%string) (solutions f) ++ map (fun s => (s ++ "_prior_sample")%string) (solutions f).
Definition outputs (f : filler) : list string := [f_output_grid_name f; f_output_climatology f; f_output_large_scale f; f_output_local f].
Definition distinct_names (f : filler) : Prop :=
  NoDup (bases f) /\ NoDup (outputs f) /\
  forall o b i, In o (outputs f) -> In b (bases f) -> 0 <= i -> o <> numbered b i.

(* Everything asked of the templates and settings of a filler. *)
Definition ready (f : filler) : Prop :=
  plain (f_land_biases f) /\ plain (f_global_biases f) /\ blank (f_operation f) /\ blank (f_batch_operation f) /\ blank (f_output_grid f) /\ grid_inputs (f_output_grid f).
(* Data sets that the templates themselves read. *)
Definition given (f : filler) (d : string) : Prop := reads (f_operation f) d \/ reads (f_batch_operation f) d \/ reads (f_output_grid f) d.
(* The local solution is not named like another one. *)
Definition local_apart (f : filler) : Prop := f_solution_climatology f <> f_solution_local_scale f /\ f_solution_large_scale f <> f_solution_local_scale f.

(* All three templates can be filled. *)
Definition complete (f : filler) : Prop := forall t, In t [f_operation f; f_batch_operation f; f_output_grid f] -> fillable t /\ sources_named t.

(* The ways in which a descriptor of an analysis from its start is made: day by day, in batches, or as a range of iterations. *)
Inductive filled (f : filler) : json -> Prop :=
| by_days n d : 1 <= n -> fill_descriptor f n = Ok d -> filled f d
| by_batches n d : local_apart f -> 1 <= n -> fill_batch_descriptor f n = Ok d -> filled f d
| by_range last (grid : bool) d : local_apart f -> 0 <= last -> fill_batch_descriptor_range f 0 last grid = Ok d -> filled f d.

(* ---- files *)

(* Base names used in file names: no directory separator and no date field. *)
Fixpoint without (c : ascii) (s : string) : Prop := match s with EmptyString => True | String x s' => x <> c /\ without c s' end.
Definition clean (s : string) : Prop := without "/"%char s /\ without "%"%char s.
Definition clean_names (f : filler) : Prop := forall s, In s (bases f ++ outputs f) -> clean s.
(* The path given by patterns: of a day, or (for steps that run once) as it is. *)
Fixpoint texts (l : list json) : option (list string) :=
  match l with [] => Some [] | JStr s :: l' => match texts l' with Some r => Some (s :: r) | None => None end | _ => None end.
Definition pathname (day : option Z) (patterns : json) : result string :=
  match patterns with
  | JList l =>
      match texts l with
      | Some ps => match day with Some t => Time_Model.filename_from_patterns ps t | None => Time_Model.os_path_join ps end
      | None => Err TypeError
      end
  | _ => Err TypeError
  end.

(* A null somewhere in a value. *)
Inductive holds_null : json -> Prop :=
| null_here : holds_null JNull
| null_dict m k v : In (k, v) m -> holds_null v -> holds_null (JDict m)
| null_list l v : In v l -> holds_null v -> holds_null (JList l).

(* The sources of observations that are used. *)
Definition listed (source : json) : bool :=
  match get [K "name"] source with
  | Ok (JStr n) => existsb (String.eqb n) ["insitu_land"; "insitu_ocean"; "surfaceairmodel_land"; "surfaceairmodel_ocean"; "surfaceairmodel_ice"]
  | _ => false
  end.
