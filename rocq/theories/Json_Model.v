(* Model of src/eumopps/jsonobjects/jsonobjects.py and of the classes of src/eumopps/catalogue that it saves and loads
   (catalogue.py, dataset.py, storage.py, operation.py, operationparameters.py, placeholder.py, step.py), for
   src/eumopps/catalogue/fileio/formatjson.py.
   Simplifications: JSON texts are trees (the json library turns trees into text and back); floats are exact and finite; the keys of
   dictionaries are strings; dictionaries are association lists in the order of iteration; instances are class names with the
   dictionary of their attributes; byte strings beyond ASCII, which the library decodes as UTF-8, are an error here; module and
   class of an identifier are not split further than the code does. *)
From Coq Require Import QArith Qcanon String Ascii.
From Verif Require Import Base Work_Model Cat_Model Time_Model Name_Model NcObj_Model.
Local Open Scope Z_scope.
Local Open Scope list_scope.

(* Python values; PArray is a numpy array of integers *)
Inductive py :=
| PNone | PBool (b : bool) | PInt (z : Z) | PFloat (q : Qc) | PStr (s : string) | PUni (s : string) | PTime (t : Z) | PArray (l : list Z)
| PList (l : list py) | PDict (d : list (string * py)) | PObj (cls : string) (attributes : list (string * py)).
Inductive json :=
| JNull | JBool (b : bool) | JInt (z : Z) | JFloat (q : Qc) | JStr (s : string) | JList (l : list json) | JObj (d : list (string * json)).

Definition is_ascii (s : string) : bool := forallb (fun c => (nat_of_ascii c <? 128)%nat) (list_ascii_of_string s).

(* 11-14; CLASSID is that of NcObj_Model *)
Definition DATETIMEVALUEKEY : string := "timestring".
Definition DATETIME_CLASS : string := "datetime.datetime".

(* bool(v): the truth of an array of several elements is an error *)
Definition truth (v : py) : result bool :=
  match v with
  | PNone => Ok false
  | PBool b => Ok b
  | PInt z => Ok (negb (z =? 0))
  | PFloat q => Ok (negb (Qc_eq_bool q 0%Qc))
  | PStr s | PUni s => Ok (negb (String.eqb s ""))
  | PTime _ | PObj _ _ => Ok true
  | PArray [] => Ok false
  | PArray [z] => Ok (negb (z =? 0))
  | PArray _ => Err ValueError
  | PList l => Ok (match l with [] => false | _ => true end)
  | PDict d => Ok (match d with [] => false | _ => true end)
  end.

(* 24-48 save_object *)
Fixpoint save_object (v : py) : result py :=
  match v with
  | PObj c attributes =>
      do d <- (fix items (l : list (string * py)) : result (list (string * py)) :=
                 match l with
                 | [] => Ok []
                 | (k, x) :: r => do t <- truth x;
                                  if t then do y <- save_object x; do s <- items r; Ok ((k, y) :: s) else items r
                 end) attributes;
      Ok (PDict (put CLASSID (PStr c) d))
  | PTime t => Ok (PDict [(CLASSID, PStr DATETIME_CLASS); (DATETIMEVALUEKEY, PStr (build t))])
  | _ => Ok v
  end.

(* json.dump with default=save_object: what is neither a dictionary, a list nor a number or string is given to save_object and the
   result encoded; if that is the same again, a circular reference is reported.  Encoding an instance: see encode_default in
   Json_Proofs, which says that this is the encoding of what save_object gives. *)
Fixpoint encode (v : py) : result json :=
  match v with
  | PNone => Ok JNull
  | PBool b => Ok (JBool b)
  | PInt z => Ok (JInt z)
  | PFloat q => Ok (JFloat q)
  | PStr s => if is_ascii s then Ok (JStr s) else Err ValueError
  | PUni s => Ok (JStr s)
  | PTime t => Ok (JObj [(CLASSID, JStr DATETIME_CLASS); (DATETIMEVALUEKEY, JStr (build t))])
  | PArray _ => Err ValueError
  | PList l => do js <- (fix elements (l : list py) : result (list json) :=
                           match l with [] => Ok [] | x :: r => do j <- encode x; do js <- elements r; Ok (j :: js) end) l;
               Ok (JList js)
  | PDict d => do js <- (fix entries (l : list (string * py)) : result (list (string * json)) :=
                           match l with [] => Ok [] | (k, x) :: r => do j <- encode x; do js <- entries r; Ok ((k, j) :: js) end) d;
               Ok (JObj js)
  | PObj c attributes =>
      do js <- (fix items (l : list (string * py)) : result (list (string * json)) :=
                  match l with
                  | [] => Ok []
                  | (k, x) :: r => do t <- truth x;
                                   if t then do j <- encode x; do js <- items r; Ok ((k, j) :: js) else items r
                  end) attributes;
      if is_ascii c then Ok (JObj (put CLASSID (JStr c) js)) else Err ValueError
  end.
(* 20-22 save *)
Definition save (v : py) : result json := encode v.

(* ---- classes and their constructors *)

(* an attribute is an argument, or an argument "if argument else []" *)
Inductive part := Arg (name : string) | OrEmpty (name : string).
Record class_def := { c_params : list (string * option py); c_fields : list (string * part) }.

(* calling with keyword arguments: those that are not parameters, and missing ones, are TypeErrors *)
Definition bind_arguments (params : list (string * option py)) (arguments : list (string * py)) : result (list (string * py)) :=
  if forallb (fun a => existsb (fun p => String.eqb (fst p) (fst a)) params) arguments
  then mapM (fun p => match get arguments (fst p), snd p with
                      | Some v, _ => Ok (fst p, v)
                      | None, Some v => Ok (fst p, v)
                      | None, None => Err TypeError
                      end) params
  else Err TypeError.
Definition or_empty (v : py) : result py := do t <- truth v; Ok (if t then v else PList []).
Definition field_value (env : list (string * py)) (p : part) : result py :=
  match p with
  | Arg n => match get env n with Some v => Ok v | None => Err NameError end
  | OrEmpty n => match get env n with Some v => or_empty v | None => Err NameError end
  end.
Definition fields_of (env : list (string * py)) (fields : list (string * part)) : result (list (string * py)) :=
  mapM (fun f => do v <- field_value env (snd f); Ok (fst f, v)) fields.
Definition construct_plain (cls : string) (d : class_def) (arguments : list (string * py)) : result py :=
  do env <- bind_arguments (c_params d) arguments;
  do fields <- fields_of env (c_fields d);
  Ok (PObj cls fields).

Definition optional (names : list string) : list (string * option py) := map (fun n => (n, Some PNone)) names.
Definition same_fields (names : list string) : list (string * part) := map (fun n => (n, Arg n)) names.
Definition plain_class (params : list (string * option py)) : class_def := {| c_params := params; c_fields := same_fields (map fst params) |}.

Definition CATALOGUE : string := "eumopps.catalogue.catalogue.Catalogue".
Definition DATASET : string := "eumopps.catalogue.dataset.CatalogueDataSet".
Definition SUBSET : string := "eumopps.catalogue.dataset.CatalogueDataSubset".
Definition ENTRY : string := "eumopps.catalogue.dataset.CatalogueFileEntry".
Definition FILES : string := "eumopps.catalogue.storage.DataStorageFiles".
Definition TAR : string := "eumopps.catalogue.storage.DataStorageTar".
Definition TARGZIP : string := "eumopps.catalogue.storage.DataStorageTarGZip".
Definition OPERATION : string := "eumopps.catalogue.operation.Operation".
Definition PARAMETERS : string := "eumopps.catalogue.operationparameters.OperationParameterList".
Definition FILE_REFERENCE : string := "eumopps.catalogue.operationparameters.OperationFileReference".
Definition LIST_REFERENCE : string := "eumopps.catalogue.operationparameters.OperationFileListReference".
Definition TIMESTAMP : string := "eumopps.catalogue.operationparameters.OperationTimeStamp".
Definition CATALOGUE_ID : string := "eumopps.catalogue.operationparameters.OperationCatalogueID".
Definition INPUT_LIST : string := "eumopps.catalogue.placeholder.InputFileList".
Definition INPUT : string := "eumopps.catalogue.placeholder.InputFile".
Definition STEP_TIME : string := "eumopps.catalogue.placeholder.StepTime".
Definition STEP_INDEX : string := "eumopps.catalogue.placeholder.StepIndex".
Definition OUTPUT : string := "eumopps.catalogue.placeholder.OutputFile".
Definition STEP_ONCE : string := "eumopps.catalogue.step.StepOnce".
Definition STEP_DAILY : string := "eumopps.catalogue.step.StepDaily".

Definition required (n : string) : string * option py := (n, None).
Definition archive : class_def :=    (* storage.py:46-50, 90-91, 111-112: kept under another name than the argument *)
  {| c_params := [required "archivepathname"; required "internalpathname"];
     c_fields := [("pathname"%string, Arg "archivepathname"); ("internalpathname"%string, Arg "internalpathname")] |}.
Definition input_file : class_def := (* placeholder.py:36-42, 177-182 *)
  plain_class [required "datasetname"; ("subsetindex"%string, Some (PInt 0)); ("missing_data"%string, Some (PStr "not_allowed"))].
Definition parameter_list : class_def := plain_class [required "operation_parameters"]. (* operationparameters.py:16-19, 41-44, 56-59 *)
Definition CLASSES : list (string * class_def) :=
  [(DATASET, plain_class (optional ["name"; "path"; "toolchain"; "subsets"; "non_matching"]%string));       (* dataset.py:22-29 *)
   (SUBSET, {| c_params := optional ["layout"; "matches"; "value_errors"; "archive_unused"]%string;          (* 63-69 *)
               c_fields := [("layout"%string, Arg "layout"); ("matches"%string, OrEmpty "matches"); ("value_errors"%string, OrEmpty "value_errors");
                            ("archive_unused"%string, OrEmpty "archive_unused")] |});
   (ENTRY, plain_class (optional ["name"; "time"; "tags"; "checksum"; "size"]%string));                        (* 143-149 *)
   (FILES, plain_class [required "patterns"]);                                                       (* storage.py:29-32 *)
   (TAR, archive); (TARGZIP, archive);
   (PARAMETERS, parameter_list); (FILE_REFERENCE, parameter_list); (LIST_REFERENCE, parameter_list);
   (TIMESTAMP, plain_class []); (CATALOGUE_ID, plain_class []);                                      (* operationparameters.py:66-78 *)
   (INPUT_LIST, input_file); (INPUT, input_file); (STEP_TIME, plain_class []); (STEP_INDEX, plain_class []);
   (OUTPUT, plain_class [required "datasetname"; ("subsetindex"%string, Some (PInt 0))]);             (* placeholder.py:220-223 *)
   (STEP_ONCE, plain_class [])].

(* catalogue.py:14-29: identifier is what uuid1 gives if there is none *)
Definition construct_catalogue (fresh : string) (arguments : list (string * py)) : result py :=
  do env <- bind_arguments (optional ["datasets"; "identifier"; "operations"]%string) arguments;
  do fields <- fields_of env [("datasets"%string, OrEmpty "datasets"); ("operations"%string, OrEmpty "operations"); ("identifier"%string, Arg "identifier")];
  do given <- truth (match get fields "identifier" with Some v => v | None => PNone end);
  Ok (PObj CATALOGUE (if given then fields else put "identifier" (PStr fresh) fields)).

(* operation.py:15-33; runs tells which classes have a method run *)
Definition FUNCTIONID : string := "python_function".
Definition construct_operation (runs : string -> bool) (arguments : list (string * py)) : result py :=
  do env <- bind_arguments (required "runmodule" :: required "step" :: optional ["name"; "toolchain"; "newdatasets"; "count"]%string) arguments;
  if match get env "runmodule" with
     | Some (PObj c _) => runs c
     | Some (PDict d) => match get d FUNCTIONID with Some _ => true | None => false end
     | _ => false
     end
  then do fields <- fields_of env (same_fields ["runmodule"; "step"; "name"; "newdatasets"; "count"; "toolchain"]%string); Ok (PObj OPERATION fields)
  else Err ValueError.

(* step.py:66-86 *)
Definition step_time (v : py) : result py :=
  match v with PTime t => Ok (PTime t) | PStr s => do t <- parse s; Ok (PTime t) | _ => Err ValueError end.
Definition construct_step_daily (arguments : list (string * py)) : result py :=
  do env <- bind_arguments [required "start"; required "end"] arguments;
  do start <- match get env "start" with Some v => step_time v | None => Err NameError end;
  do end_ <- match get env "end" with Some v => step_time v | None => Err NameError end;
  Ok (PObj STEP_DAILY [("start"%string, start); ("end"%string, end_)]).

(* the class of an identifier, called with arguments; other stands for all modules beyond these, which may not be there *)
Definition construct (fresh : string) (runs : string -> bool) (other : string -> list (string * py) -> result py)
                     (cls : string) (arguments : list (string * py)) : result py :=
  if String.eqb cls CATALOGUE then construct_catalogue fresh arguments
  else if String.eqb cls OPERATION then construct_operation runs arguments
  else if String.eqb cls STEP_DAILY then construct_step_daily arguments
  else match get CLASSES cls with Some d => construct_plain cls d arguments | None => other cls arguments end.

(* ---- loading, with make for the calls of classes *)

(* s.rsplit('.', 1) has two elements *)
Definition has_dot (s : string) : bool := existsb (Ascii.eqb ".") (list_ascii_of_string s).
Definition to_str (s : string) : result string := if is_ascii s then Ok s else Err ValueError.

Fixpoint remove_key (k : string) (d : list (string * py)) : list (string * py) :=
  match d with [] => [] | (k', v) :: r => if String.eqb k' k then remove_key k r else (k', v) :: remove_key k r end.

(* 51-88 load_object.  Values of a dictionary with a class are loaded after the class is found; a class that is not there is an error
   of make here, whose kind and order are not distinguished. *)
Fixpoint load_object (make : string -> list (string * py) -> result py) (v : py) : result py :=
  match v with
  | PDict d =>
      match get d CLASSID with
      | None => Ok v
      | Some (PUni c) | Some (PStr c) =>
          if negb (has_dot c) then Err ValueError
          else if String.eqb c DATETIME_CLASS
          then match get d DATETIMEVALUEKEY with
               | None => Err KeyError
               | Some (PUni s) | Some (PStr s) => do t <- parse s; Ok (PTime t)
               | Some _ => Err TypeError
               end
          else do parameters <- (fix values (l : list (string * py)) : result (list (string * py)) :=
                                   match l with [] => Ok [] | (k, x) :: r => do y <- load_object make x; do ys <- values r; Ok ((k, y) :: ys) end) d;
               make c (remove_key CLASSID parameters)
      | Some _ => Err AttributeError
      end
  | PList l => do l' <- (fix elements (l : list py) : result (list py) :=
                           match l with [] => Ok [] | x :: r => do y <- load_object make x; do ys <- elements r; Ok (y :: ys) end) l;
               Ok (PList l')
  | PUni s => do s' <- to_str s; Ok (PStr s')
  | _ => Ok v
  end.

Definition dict_of (l : list (string * py)) : list (string * py) := fold_left (fun d kv => put (fst kv) (snd kv) d) l [].

(* 16-18 load: json.load with object_hook=load_object, which is called for each object once its values are there *)
Fixpoint load (make : string -> list (string * py) -> result py) (j : json) : result py :=
  match j with
  | JNull => Ok PNone
  | JBool b => Ok (PBool b)
  | JInt z => Ok (PInt z)
  | JFloat q => Ok (PFloat q)
  | JStr s => Ok (PUni s)
  | JList l => do l' <- (fix elements (l : list json) : result (list py) :=
                           match l with [] => Ok [] | x :: r => do y <- load make x; do ys <- elements r; Ok (y :: ys) end) l;
               Ok (PList l')
  | JObj d => do d' <- (fix entries (l : list (string * json)) : result (list (string * py)) :=
                          match l with [] => Ok [] | (k, x) :: r => do y <- load make x; do ys <- entries r; Ok ((k, y) :: ys) end) d;
              load_object make (PDict (dict_of d'))
  end.
