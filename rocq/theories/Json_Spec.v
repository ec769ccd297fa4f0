(* Specification of what a JSON file keeps of Python objects, and of catalogues as records. *)
From Coq Require Import QArith Qcanon String Ascii.
From Verif Require Import Base Time_Model Time_Spec NcObj_Model Json_Model.
Local Open Scope Z_scope.
Local Open Scope list_scope.

(* ASCII text *)
Definition plain_text (s : string) : Prop := Forall (fun c => (nat_of_ascii c < 128)%nat) (list_ascii_of_string s).

(* What comes back of a value: v is saved, w is loaded, where make is what calling a class with arguments gives.  Within an instance
   or a list of one (inside = true) strings come back as byte strings, elsewhere as unicode strings; of an instance the attributes that
   are not false are kept, and its class is called with them. *)
Definition simple (v : py) : Prop := match v with PNone | PBool _ | PInt _ | PFloat _ => True | _ => False end.
Definition class_name (c : string) : Prop := plain_text c /\ (exists a b, c = (a ++ "." ++ b)%string) /\ c <> DATETIME_CLASS.
Inductive returns (make : string -> list (string * py) -> result py) : bool -> py -> py -> Prop :=
| returns_simple inside v : simple v -> returns make inside v v
| returns_str s : plain_text s -> returns make true (PStr s) (PStr s)
| returns_uni s : plain_text s -> returns make true (PUni s) (PStr s)
| returns_str_outside s : plain_text s -> returns make false (PStr s) (PUni s)
| returns_uni_outside s : returns make false (PUni s) (PUni s)
| returns_time inside t : valid_datetime t = true -> returns make inside (PTime t) (PTime (to_the_second t))
| returns_list inside l l' : Forall2 (returns make inside) l l' -> returns make inside (PList l) (PList l')
| returns_dict inside d d' : NoDup (map fst d) -> ~ In CLASSID (map fst d) ->
    Forall2 (fun x y => fst x = fst y /\ returns make false (snd x) (snd y)) d d' -> returns make inside (PDict d) (PDict d')
| returns_instance inside c attributes kept arguments c' attributes' : class_name c -> NoDup (map fst attributes) -> ~ In CLASSID (map fst attributes) ->
    (forall x, In x attributes -> exists t, truth (snd x) = Ok t) ->
    kept = filter (fun x => match truth (snd x) with Ok true => true | _ => false end) attributes ->
    Forall2 (fun x y => fst x = fst y /\ returns make true (snd x) (snd y)) kept arguments ->
    make c arguments = Ok (PObj c' attributes') ->
    returns make inside (PObj c attributes) (PObj c' attributes').

(* ---- catalogues *)
Record file_entry := { fe_name : option string; fe_time : option Z; fe_tags : option (list string); fe_checksum : option string; fe_size : option Z }.
Inductive layout := InFiles (patterns : list string) | InTar (archive internal : string) | InTarGZip (archive internal : string).
Record subset := { su_layout : layout; su_matches : list file_entry; su_errors : list string; su_unused : list (list string) }.
Record dataset := { ds_name : option string; ds_path : option string; ds_toolchain : option (list string); ds_subsets : option (list subset);
                    ds_non_matching : option (list string) }.
Inductive stepping := Once | Daily (start end_ : Z).
Record operation := { op_module : py; op_step : stepping; op_name : option string; op_toolchain : option (list string);
                      op_newdatasets : option (list dataset); op_count : option Z }.
Record catalogue := { ca_datasets : list dataset; ca_operations : list operation; ca_identifier : string }.

(* as Python objects *)
Definition if_any {A} (f : A -> py) (o : option A) : py := match o with Some a => f a | None => PNone end.
Definition texts (l : list string) : py := PList (map PStr l).
Definition of_entry (e : file_entry) : py :=
  PObj ENTRY [("name", if_any PStr (fe_name e)); ("time", if_any PTime (fe_time e)); ("tags", if_any texts (fe_tags e)); ("checksum", if_any PStr (fe_checksum e));
              ("size", if_any PInt (fe_size e))]%string.
Definition of_layout (l : layout) : py :=
  match l with
  | InFiles patterns => PObj FILES [("patterns", texts patterns)]%string
  | InTar a i => PObj TAR [("pathname", PStr a); ("internalpathname", PStr i)]%string
  | InTarGZip a i => PObj TARGZIP [("pathname", PStr a); ("internalpathname", PStr i)]%string
  end.
Definition of_subset (s : subset) : py :=
  PObj SUBSET [("layout", of_layout (su_layout s)); ("matches", PList (map of_entry (su_matches s))); ("value_errors", texts (su_errors s));
               ("archive_unused", PList (map texts (su_unused s)))]%string.
Definition of_dataset (d : dataset) : py :=
  PObj DATASET [("name", if_any PStr (ds_name d)); ("path", if_any PStr (ds_path d)); ("toolchain", if_any texts (ds_toolchain d));
                ("subsets", if_any (fun l => PList (map of_subset l)) (ds_subsets d)); ("non_matching", if_any texts (ds_non_matching d))]%string.
Definition of_step (s : stepping) : py :=
  match s with Once => PObj STEP_ONCE [] | Daily a b => PObj STEP_DAILY [("start", PTime a); ("end", PTime b)]%string end.
Definition of_operation (o : operation) : py :=
  PObj OPERATION [("runmodule", op_module o); ("step", of_step (op_step o)); ("name", if_any PStr (op_name o));
                  ("newdatasets", if_any (fun l => PList (map of_dataset l)) (op_newdatasets o)); ("count", if_any PInt (op_count o));
                  ("toolchain", if_any texts (op_toolchain o))]%string.
Definition of_catalogue (c : catalogue) : py :=
  PObj CATALOGUE [("datasets", PList (map of_dataset (ca_datasets c))); ("operations", PList (map of_operation (ca_operations c))); ("identifier", PStr (ca_identifier c))]%string.

(* what is empty or zero comes back as None *)
Definition some_text (o : option string) : option string := match o with Some EmptyString => None | _ => o end.
Definition some_list {A} (o : option (list A)) : option (list A) := match o with Some [] => None | _ => o end.
Definition some_number (o : option Z) : option Z := match o with Some 0 => None | _ => o end.
Definition entry_again (e : file_entry) : file_entry :=
  {| fe_name := some_text (fe_name e); fe_time := option_map to_the_second (fe_time e); fe_tags := some_list (fe_tags e);
     fe_checksum := some_text (fe_checksum e); fe_size := some_number (fe_size e) |}.
Definition subset_again (s : subset) : subset :=
  {| su_layout := su_layout s; su_matches := map entry_again (su_matches s); su_errors := su_errors s; su_unused := su_unused s |}.
Definition dataset_again (d : dataset) : dataset :=
  {| ds_name := some_text (ds_name d); ds_path := some_text (ds_path d); ds_toolchain := some_list (ds_toolchain d);
     ds_subsets := option_map (map subset_again) (some_list (ds_subsets d)); ds_non_matching := some_list (ds_non_matching d) |}.
Definition step_again (s : stepping) : stepping := match s with Once => Once | Daily a b => Daily (to_the_second a) (to_the_second b) end.
Definition operation_again (module_again : py -> py) (o : operation) : operation :=
  {| op_module := module_again (op_module o); op_step := step_again (op_step o); op_name := some_text (op_name o); op_toolchain := some_list (op_toolchain o);
     op_newdatasets := option_map (map dataset_again) (some_list (op_newdatasets o)); op_count := some_number (op_count o) |}.
Definition catalogue_again (module_again : py -> py) (c : catalogue) : catalogue :=
  {| ca_datasets := map dataset_again (ca_datasets c); ca_operations := map (operation_again module_again) (ca_operations c); ca_identifier := ca_identifier c |}.

(* catalogues that can be loaded again *)
Definition whenever {A} (P : A -> Prop) (o : option A) : Prop := match o with Some a => P a | None => True end.
Definition plain_texts (l : list string) : Prop := Forall plain_text l.
Definition entry_ok (e : file_entry) : Prop :=
  whenever plain_text (fe_name e) /\ whenever (fun t => valid_datetime t = true) (fe_time e) /\ whenever plain_texts (fe_tags e) /\ whenever plain_text (fe_checksum e).
Definition layout_ok (l : layout) : Prop := match l with InFiles patterns => patterns <> [] /\ plain_texts patterns | _ => False end.
Definition subset_ok (s : subset) : Prop :=
  layout_ok (su_layout s) /\ Forall entry_ok (su_matches s) /\ plain_texts (su_errors s) /\ Forall plain_texts (su_unused s).
Definition dataset_ok (d : dataset) : Prop :=
  whenever plain_text (ds_name d) /\ whenever plain_text (ds_path d) /\ whenever plain_texts (ds_toolchain d) /\ whenever (Forall subset_ok) (ds_subsets d) /\
  whenever plain_texts (ds_non_matching d).
Definition step_ok (s : stepping) : Prop := match s with Once => True | Daily a b => valid_datetime a = true /\ valid_datetime b = true end.
(* a module is an instance of a class with a method run, or a dictionary that names a function *)
Definition runnable (runs : string -> bool) (m : py) : Prop :=
  match m with PObj c _ => runs c = true | PDict d => exists f, get d "python_function" = Some f | _ => False end.
Definition operation_ok (make : string -> list (string * py) -> result py) (runs : string -> bool) (module_again : py -> py) (o : operation) : Prop :=
  returns make true (op_module o) (module_again (op_module o)) /\ truth (op_module o) = Ok true /\ runnable runs (module_again (op_module o)) /\ step_ok (op_step o) /\
  whenever plain_text (op_name o) /\ whenever plain_texts (op_toolchain o) /\ whenever (Forall dataset_ok) (op_newdatasets o).
Definition catalogue_ok (make : string -> list (string * py) -> result py) (runs : string -> bool) (module_again : py -> py) (c : catalogue) : Prop :=
  Forall dataset_ok (ca_datasets c) /\ Forall (operation_ok make runs module_again) (ca_operations c) /\ ca_identifier c <> EmptyString /\ plain_text (ca_identifier c).

(* A part of a JSON text *)
Inductive within (j : json) : json -> Prop :=
| within_self : within j j
| within_list l x : In x l -> within j x -> within j (JList l)
| within_object d k x : In (k, x) d -> within j x -> within j (JObj d).

(* No attribute has the name under which the class is stored *)
Fixpoint no_class_attribute (v : py) : Prop :=
  match v with
  | PObj _ a => (fix all (l : list (string * py)) : Prop := match l with [] => True | (k, x) :: r => k <> CLASSID /\ no_class_attribute x /\ all r end) a
  | _ => True
  end.

(* A part of a Python value, found by elements, values and attributes *)
Inductive part_of (x : py) : py -> Prop :=
| part_self : part_of x x
| part_list l y : In y l -> part_of x y -> part_of x (PList l)
| part_dict d k y : In (k, y) d -> part_of x y -> part_of x (PDict d)
| part_attribute c a k y : In (k, y) a -> k <> "python_class"%string -> part_of x y -> part_of x (PObj c a).

(* Nothing that a catalogue states is empty, zero or a fraction of a second *)
Definition stated {A} (blank : A) (o : option A) : Prop := o <> Some blank.
Definition whole (t : Z) : Prop := to_the_second t = t.
Definition entry_stated (e : file_entry) : Prop :=
  stated EmptyString (fe_name e) /\ whenever whole (fe_time e) /\ stated [] (fe_tags e) /\ stated EmptyString (fe_checksum e) /\ stated 0 (fe_size e).
Definition dataset_stated (d : dataset) : Prop :=
  stated EmptyString (ds_name d) /\ stated EmptyString (ds_path d) /\ stated [] (ds_toolchain d) /\ stated [] (ds_subsets d) /\
  whenever (Forall (fun s => Forall entry_stated (su_matches s))) (ds_subsets d) /\ stated [] (ds_non_matching d).
Definition operation_stated (o : operation) : Prop :=
  match op_step o with Once => True | Daily a b => whole a /\ whole b end /\ stated EmptyString (op_name o) /\ stated [] (op_toolchain o) /\
  stated [] (op_newdatasets o) /\ whenever (Forall dataset_stated) (op_newdatasets o) /\ stated 0 (op_count o).
Definition catalogue_stated (c : catalogue) : Prop := Forall dataset_stated (ca_datasets c) /\ Forall operation_stated (ca_operations c).

(* What the classes of catalogues may be given in a file, and what they must be given (true) *)
Definition may (names : list string) : list (string * bool) := map (fun n => (n, false)) names.
Definition must (names : list string) : list (string * bool) := map (fun n => (n, true)) names.
Definition signatures : list (string * list (string * bool)) :=
  [("eumopps.catalogue.catalogue.Catalogue", may ["datasets"; "identifier"; "operations"]);
   ("eumopps.catalogue.dataset.CatalogueDataSet", may ["name"; "path"; "toolchain"; "subsets"; "non_matching"]);
   ("eumopps.catalogue.dataset.CatalogueDataSubset", may ["layout"; "matches"; "value_errors"; "archive_unused"]);
   ("eumopps.catalogue.dataset.CatalogueFileEntry", may ["name"; "time"; "tags"; "checksum"; "size"]);
   ("eumopps.catalogue.storage.DataStorageFiles", must ["patterns"]);
   ("eumopps.catalogue.storage.DataStorageTar", must ["archivepathname"; "internalpathname"]);
   ("eumopps.catalogue.storage.DataStorageTarGZip", must ["archivepathname"; "internalpathname"]);
   ("eumopps.catalogue.operation.Operation", app (must ["runmodule"; "step"]) (may ["name"; "toolchain"; "newdatasets"; "count"]));
   ("eumopps.catalogue.step.StepDaily", must ["start"; "end"]);
   ("eumopps.catalogue.step.StepOnce", []);
   ("eumopps.catalogue.placeholder.InputFile", app (must ["datasetname"]) (may ["subsetindex"; "missing_data"]));
   ("eumopps.catalogue.placeholder.InputFileList", app (must ["datasetname"]) (may ["subsetindex"; "missing_data"]));
   ("eumopps.catalogue.placeholder.OutputFile", app (must ["datasetname"]) (may ["subsetindex"]))]%string.
