(* Model of catalogue building: src/eumopps/catalogue/catalogue.py, dataset.py, placeholder.py, operation.py,
   operationparameters.py, build.py and fileio/formatnetcdf.py (load_data_pathnames).
   The operations stored in a catalogue are those of Work_Model (operation, param). *)
From Coq Require Import String.
From Verif Require Import Base Work_Model.
Local Open Scope Z_scope.
Local Open Scope list_scope.

(* dataset.py:134-149 CatalogueFileEntry: name and time only (tags, checksum and size play no part in
   resolving operations). Times are abstract integers. *)
Record entry := { en_name : string; en_time : option Z }.

(* dataset.py:58-69 CatalogueDataSubset: layout.patterns (None: the layout has no attribute 'patterns')
   and matches. *)
Record subset := { ss_patterns : option (list string); ss_matches : list entry }.

(* dataset.py:19-29 CatalogueDataSet; the attribute subsets is taken to be a list, as the descriptors give it. *)
Record dataset := { ds_name : string; ds_path : option string; ds_subsets : list subset }.

(* step.py:9-37 the interface Step; implementations are in Time_Model. *)
Record step := {
  st_count : Z;
  st_index_at_time : option Z -> result Z;
  st_time_at_index : Z -> result Z;
  st_output_entry : list string -> Z -> result entry;   (* create_output_entry *)
  st_unique : list string -> bool                        (* is_uniquely_defined_by *)
}.

(* Python next(index for index, x in enumerate(l) if f x), None when there is none. *)
Fixpoint find_pos {A} (f : A -> bool) (l : list A) : option nat :=
  match l with
  | [] => None
  | x :: xs => if f x then Some O else option_map S (find_pos f xs)
  end.

(* catalogue.py:30-36 *)
Definition datasetindex (datasets : list dataset) (name : string) : option nat :=
  find_pos (fun d => String.eqb (ds_name d) name) datasets.

(* catalogue.py:38-44 *)
Definition dataset_named (datasets : list dataset) (name : string) : option dataset :=
  find (fun d => String.eqb (ds_name d) name) datasets.

(* dataset.py:31-35 *)
Definition dataset_subset (d : dataset) (subsetindex : Z) : option subset :=
  if (0 <=? subsetindex) && (subsetindex <? zlen (ds_subsets d))
  then nth_error (ds_subsets d) (Z.to_nat subsetindex) else None.

(* catalogue.py:46-51 *)
Definition datasubset (datasets : list dataset) (name : string) (subsetindex : Z) : option subset :=
  match dataset_named datasets name with
  | Some d => dataset_subset d subsetindex
  | None => None
  end.

Definition enumerate {A} (l : list A) : list (Z * A) := combine (map Z.of_nat (seq 0 (length l))) l.

(* Python sorted(l, key=snd): a stable sort (insertion). *)
Fixpoint insert_by_step (x : Z * Z) (l : list (Z * Z)) : list (Z * Z) :=
  match l with
  | [] => [x]
  | y :: ys => if snd x <=? snd y then x :: y :: ys else y :: insert_by_step x ys
  end.
Definition sorted_by_step (l : list (Z * Z)) : list (Z * Z) := fold_right insert_by_step [] l.

(* { step : [match indices] for step, group in itertools.groupby(l, key=snd) }: consecutive equal keys. *)
Fixpoint groupby_step (l : list (Z * Z)) : list (Z * list Z) :=
  match l with
  | [] => []
  | (i, s) :: rest =>
      match groupby_step rest with
      | (s', g) :: more => if s =? s' then (s, i :: g) :: more else (s, [i]) :: (s', g) :: more
      | [] => [(s, [i])]
      end
  end.

(* Python dictionary lookup in a dictionary built from pairs in this order: the last pair wins. *)
Definition dict_get {K V} (eqb : K -> K -> bool) (pairs : list (K * V)) (k : K) : option V :=
  fold_left (fun acc p => if eqb (fst p) k then Some (snd p) else acc) pairs None.

(* placeholder.py:32-42 *)
Inductive missing_policy := NotAllowed | Allowed | SkipMissing | OtherPolicy.
Record input_file := { in_dataset : string; in_subset : Z; in_missing : missing_policy }.

Definition policy_eqb (a b : missing_policy) : bool :=
  match a, b with
  | NotAllowed, NotAllowed | Allowed, Allowed | SkipMissing, SkipMissing | OtherPolicy, OtherPolicy => true
  | _, _ => false
  end.

(* placeholder.py:70-133: the lookup step index -> match indices. *)
Definition step_to_matchgroup (st : step) (patterns : list string) (matches : list entry)
  : result (list (Z * list Z)) :=
  if st_unique st patterns then
    do match_with_step <- mapM (fun im => do s <- st_index_at_time st (en_time (snd im)); Ok (fst im, s))
                               (enumerate matches);
    Ok (groupby_step (sorted_by_step match_with_step))
  else
    let matchname_to_index := map (fun im => (en_name (snd im), fst im)) (enumerate matches) in
    do step_to_match <- mapM (fun s => do e <- st_output_entry st patterns s;
                                       Ok (dict_get String.eqb matchname_to_index (en_name e)))
                             (zrange 0 (st_count st));
    Ok (flat_map (fun sm => match snd sm with Some m => [(fst sm, [m])] | None => [] end)
                 (enumerate step_to_match)).

(* placeholder.py:48-171 InputFileList.find_references: references per step and the updated skip list. *)
Definition find_references (datasets : list dataset) (st : step) (inp : input_file) (request_skip : list bool)
  : result (list (list Z) * list bool) :=
  match datasubset datasets (in_dataset inp) (in_subset inp), datasetindex datasets (in_dataset inp) with
  | Some ss, Some di =>
      match ss_patterns ss with
      | None => Err OperationException
      | Some patterns =>
          do groups <- step_to_matchgroup st patterns (ss_matches ss);
          let default := if policy_eqb (in_missing inp) Allowed then [-1] else [] in
          let references :=
            map (fun s => flat_map (fun e => [Z.of_nat di; in_subset inp; e])
                            (match dict_get Z.eqb groups s with Some g => g | None => default end))
                (zrange 0 (st_count st)) in
          let missing := flat_map (fun sr => if zlen (snd sr) =? 0 then [fst sr] else []) (enumerate references) in
          match in_missing inp with
          | NotAllowed => if 0 <? zlen missing then Err OperationException else Ok (references, request_skip)
          | SkipMissing => Ok (references, fold_left (fun l i => update_nth (Z.to_nat i) (fun _ => true) l) missing request_skip)
          | _ => Ok (references, request_skip)
          end
      end
  | _, _ => Err OperationException
  end.

(* placeholder.py:184-196 InputFile.operation_input_resolve: at most one item per step; max([]) is a ValueError. *)
Definition find_single_references (datasets : list dataset) (st : step) (inp : input_file) (request_skip : list bool)
  : result (list (list Z) * list bool) :=
  do rs <- find_references datasets st inp request_skip;
  match fst rs with
  | [] => Err ValueError
  | refs => if existsb (fun r => 3 <? zlen r) refs then Err OperationException else Ok rs
  end.

(* placeholder.py:217-223 *)
Record output_file := { out_dataset : string; out_subset : Z }.

(* The runmodule of a descriptor: classes, dictionaries and lists are BNode (operation.py:143-182). *)
Inductive bparam : Type :=
| BLit (v : Z)
| BTimeStamp
| BCatalogueID
| BList (items : list Z)              (* an OperationParameterList given directly *)
| BStepTime
| BStepIndex
| BInputFile (inp : input_file)
| BInputFileList (inp : input_file)
| BOutputFile (out : output_file)
| BNode (children : list (string * bparam)).

(* After the inputs have been resolved. *)
Inductive mparam : Type :=
| MLit (v : Z)
| MTimeStamp
| MCatalogueID
| MList (items : list Z)
| MFileRef (items : list (list Z))
| MFileListRef (items : list (list Z))
| MOutputFile (out : output_file)
| MNode (children : list (string * mparam)).

(* operation.py:143-212: walk with OperationResolveInputReferences; placeholder.py:198-208 StepTime, StepIndex.
   The members are visited in list order; Python's dictionary order is arbitrary, but only the order of
   exceptions depends on it. *)
Fixpoint resolve_inputs (datasets : list dataset) (st : step) (p : bparam) (request_skip : list bool)
  : result (mparam * list bool) :=
  match p with
  | BLit v => Ok (MLit v, request_skip)
  | BTimeStamp => Ok (MTimeStamp, request_skip)
  | BCatalogueID => Ok (MCatalogueID, request_skip)
  | BList items => Ok (MList items, request_skip)
  | BStepTime => do ts <- mapM (st_time_at_index st) (zrange 0 (st_count st)); Ok (MList ts, request_skip)
  | BStepIndex => Ok (MList (zrange 0 (st_count st)), request_skip)
  | BInputFile inp => do rs <- find_single_references datasets st inp request_skip; Ok (MFileRef (fst rs), snd rs)
  | BInputFileList inp => do rs <- find_references datasets st inp request_skip; Ok (MFileListRef (fst rs), snd rs)
  | BOutputFile out => Ok (MOutputFile out, request_skip)
  | BNode children =>
      do r <- (fix walk (l : list (string * bparam)) (skip : list bool) : result (list (string * mparam) * list bool) :=
                 match l with
                 | [] => Ok ([], skip)
                 | (k, c) :: rest =>
                     do r1 <- resolve_inputs datasets st c skip;
                     do r2 <- walk rest (snd r1);
                     Ok ((k, fst r1) :: fst r2, snd r2)
                 end) children request_skip;
      Ok (MNode (fst r), snd r)
  end.

Definition set_matches (ss : subset) (m : list entry) : subset := {| ss_patterns := ss_patterns ss; ss_matches := m |}.
Definition set_subsets (d : dataset) (l : list subset) : dataset := {| ds_name := ds_name d; ds_path := ds_path d; ds_subsets := l |}.

(* placeholder.py:253-271: the loop over operations; existing_name_index as pairs. *)
Fixpoint output_loop (st : step) (patterns : list string) (indices : list Z)
         (existing : list (string * Z)) (matches : list entry) : result (list Z * list entry) :=
  match indices with
  | [] => Ok ([], matches)
  | i :: rest =>
      do newentry <- st_output_entry st patterns i;
      match dict_get String.eqb existing (en_name newentry) with
      | Some e =>
          do r <- output_loop st patterns rest existing matches;
          Ok (e :: fst r, snd r)
      | None =>
          let e := zlen matches in
          do r <- output_loop st patterns rest (existing ++ [(en_name newentry, e)]) (matches ++ [newentry]);
          Ok (e :: fst r, snd r)
      end
  end.

(* placeholder.py:225-274 OutputFile.operation_output_resolve: the references and the changed data sets
   (the subset object found by name is changed in place: it is subset number subsetindex of the first
   data set of that name). *)
Definition operation_output_resolve (datasets : list dataset) (st : step) (out : output_file) (indices : list Z)
  : result (list (list Z) * list dataset) :=
  match datasubset datasets (out_dataset out) (out_subset out), datasetindex datasets (out_dataset out) with
  | Some ss, Some di =>
      if 0 <? zlen (ss_matches ss) then Err OperationException
      else match ss_patterns ss with
      | None => Err OperationException
      | Some patterns =>
          do r <- output_loop st patterns indices [] (ss_matches ss);
          let datasets' :=
            update_nth di (fun d => set_subsets d (update_nth (Z.to_nat (out_subset out))
                                                              (fun s => set_matches s (snd r)) (ds_subsets d))) datasets in
          Ok (map (fun e => [Z.of_nat di; out_subset out; e]) (fst r), datasets')
      end
  | _, _ => Err OperationException
  end.

(* operationparameters.py:21-26 *)
Definition restrict_to_subset {A} (items : list A) (indices : list Z) : result (list A) :=
  mapM (py_index items) indices.

(* operation.py:143-182 and 214-236: walk with OperationResolveOutputReferences. *)
Fixpoint resolve_outputs (st : step) (indices : list Z) (p : mparam) (datasets : list dataset)
  : result (param * list dataset) :=
  match p with
  | MLit v => Ok (PLit v, datasets)
  | MTimeStamp => Ok (PTimeStamp, datasets)
  | MCatalogueID => Ok (PCatalogueID, datasets)
  | MList items => do l <- restrict_to_subset items indices; Ok (PList l, datasets)
  | MFileRef items => do l <- restrict_to_subset items indices; Ok (PFileRef l, datasets)
  | MFileListRef items => do l <- restrict_to_subset items indices; Ok (PFileListRef l, datasets)
  | MOutputFile out => do r <- operation_output_resolve datasets st out indices; Ok (PFileRef (fst r), snd r)
  | MNode children =>
      do r <- (fix walk (l : list (string * mparam)) (ds : list dataset) : result (list (string * param) * list dataset) :=
                 match l with
                 | [] => Ok ([], ds)
                 | (k, c) :: rest =>
                     do r1 <- resolve_outputs st indices c ds;
                     do r2 <- walk rest (snd r1);
                     Ok ((k, fst r1) :: fst r2, snd r2)
                 end) children datasets;
      Ok (PNode (fst r), snd r)
  end.

(* operation.py:19-33 Operation, before it is resolved. *)
Record operation_request := {
  rq_name : option string;
  rq_class : option string;
  rq_function : option string;
  rq_runmodule : bparam;
  rq_step : step;
  rq_newdatasets : list dataset
}.

(* Python truth of an optional string. *)
Definition truthy_string (o : option string) : bool :=
  match o with Some s => negb (String.eqb s "") | None => false end.

(* operation.py:91-96 *)
Definition with_path (pathdefault : option string) (d : dataset) : result dataset :=
  if truthy_string (ds_path d) then Ok d
  else if truthy_string pathdefault then Ok {| ds_name := ds_name d; ds_path := pathdefault; ds_subsets := ds_subsets d |}
  else Err ValueError.

(* operation.py:125: indices of the steps that are not skipped. *)
Definition not_skipped (request_skip : list bool) : list Z :=
  flat_map (fun os : Z * bool => if snd os then [] else [fst os]) (enumerate request_skip).

(* operation.py:79-134 Operation.resolve_operation_references: the changed data sets of the catalogue and the
   operation as stored.  The function versions of the running system are an oracle. *)
Definition resolve_operation_references (tc : string -> result (list string)) (datasets : list dataset)
           (pathdefault : option string) (rq : operation_request) : result (list dataset * operation) :=
  do toolchain <- current_runtime_toolchain tc
                    {| op_name := rq_name rq; op_class := rq_class rq; op_function := rq_function rq;
                       op_count := 0; op_toolchain := []; op_runmodule := PLit 0 |};
  do new <- mapM (with_path pathdefault) (rq_newdatasets rq);
  let datasets := datasets ++ new in
  let request_skip := map (fun _ => false) (zrange 0 (st_count (rq_step rq))) in
  do ins <- resolve_inputs datasets (rq_step rq) (rq_runmodule rq) request_skip;
  let restrict_to_operations := not_skipped (snd ins) in
  do outs <- resolve_outputs (rq_step rq) restrict_to_operations (fst ins) datasets;
  Ok (snd outs,
      {| op_name := rq_name rq; op_class := rq_class rq; op_function := rq_function rq;
         op_count := zlen restrict_to_operations; op_toolchain := toolchain; op_runmodule := fst outs |}).

(* catalogue.py:6-23 Catalogue as stored in a file. *)
Record catalogue := { ct_identifier : string; ct_datasets : list dataset; ct_operations : list operation }.

(* A descriptor read from JSON. *)
Record descriptor := { dc_datasets : list dataset; dc_operations : list operation_request }.

(* build.py:85-88: resolve the new operations one after the other on the growing catalogue. *)
Fixpoint resolve_all (tc : string -> result (list string)) (pathdefault : option string)
         (datasets : list dataset) (requests : list operation_request) : result (list dataset * list operation) :=
  match requests with
  | [] => Ok (datasets, [])
  | rq :: rest =>
      do r <- resolve_operation_references tc datasets pathdefault rq;
      do rs <- resolve_all tc pathdefault (fst r) rest;
      Ok (fst rs, snd r :: snd rs)
  end.

(* Contents of a file: a catalogue, or what is there while it is being written. *)
Inductive file_content := Complete (c : catalogue) | Truncated.
Definition filesystem := string -> option file_content.
Definition fs_write (fs : filesystem) (path : string) (c : file_content) : filesystem :=
  fun p => if String.eqb p path then Some c else fs p.

(* formatnetcdf.py:21-27 load: a truncated file cannot be loaded. Reading back what was written is taken to
   give the same catalogue here; the list codec of the file format itself is the subject of NcObj_Model. *)
Definition fs_load (fs : filesystem) (path : string) : result catalogue :=
  match fs path with Some (Complete c) => Ok c | _ => Err IOErrorE end.

Section Build.
  Variable tc : string -> result (list string).
  Variable search : dataset -> dataset.            (* dataset.search() and checksum(): dataset.py:37-55 *)
  Variable new_identifier : string.                (* uuid.uuid1() *)
  Variable savable : catalogue -> bool.            (* false: the writer meets an object it does not support *)

  (* build.py:37-95 build: resulting file system and result. CatalogueWriterNetCDF.save
     (formatnetcdf.py:132-137, netcdfobjects.py:37-41) opens the file with mode 'w', which empties an
     existing file before the new contents are written. *)
  Definition build (fs : filesystem) (input : descriptor) (path : string) (update : bool)
             (dataset_filter pathdefault : option string) : filesystem * result unit :=
    if truthy_string dataset_filter then
      (fs, match datasetindex (dc_datasets input) (match dataset_filter with Some s => s | None => EmptyString end) with
           | None => Err ValueError
           | Some _ => Err TypeError      (* build.py:51: inputcatalogue.dataset is a method, not a list *)
           end)
    else
      let found := map search (dc_datasets input) in
      match (if update then do old <- fs_load fs path; Ok (ct_datasets old ++ found, ct_operations old)
             else Ok (found, [])) with
      | Err e => (fs, Err e)
      | Ok (datasets, old_operations) =>
          match resolve_all tc pathdefault datasets (dc_operations input) with
          | Err e => (fs, Err e)
          | Ok (datasets', new_operations) =>
              let saved := {| ct_identifier := new_identifier; ct_datasets := datasets';
                               ct_operations := old_operations ++ new_operations |} in
              if savable saved then (fs_write fs path (Complete saved), Ok tt)
              else (fs_write fs path Truncated, Err ValueError)
          end
      end.

  (* build.py:16-35 build_from_json_file; [description] is the descriptor file's content, None if it does not exist. *)
  Definition build_from_json_file (fs : filesystem) (description : option descriptor) (path : string)
             (dataset_filter : option string) (update overwrite : bool) (pathdefault : option string)
    : filesystem * result unit :=
    match description with
    | None => (fs, Err ValueError)
    | Some d =>
        match fs path with
        | Some _ => if negb update && negb overwrite then (fs, Err ValueError)
                    else build fs d path update dataset_filter pathdefault
        | None => build fs d path update dataset_filter pathdefault
        end
    end.
End Build.

(* formatnetcdf.py:102-123 load_data_pathnames on a stored catalogue.  The group 'matches' only exists when the
   subset has at least one entry (netcdfobjects.py:366-369 skips empty lists), otherwise the lookup is a
   KeyError (IndexError in netCDF4 for variables; one error value here).  An entry index beyond the last is an
   IndexError. [join] is os.path.join. *)
Definition load_one_pathname (join : string -> string -> string) (datasets : list dataset) (ref : data_reference)
  : result (option string) :=
  if (ref_dataset ref <? 0) || (ref_subset ref <? 0) then Err KeyError else
  match nth_error datasets (Z.to_nat (ref_dataset ref)) with
  | None => Err KeyError
  | Some d =>
      match nth_error (ds_subsets d) (Z.to_nat (ref_subset ref)) with
      | None => Err KeyError
      | Some ss =>
          match ss_matches ss with
          | [] => Err KeyError
          | _ :: _ =>
              if 0 <=? ref_entry ref then
                match nth_error (ss_matches ss) (Z.to_nat (ref_entry ref)) with
                | None => Err IndexError
                | Some e => match ds_path d with
                            | Some path => Ok (Some (join path (en_name e)))
                            | None => Err AttributeError
                            end
                end
              else Ok None
          end
      end
  end.

Definition load_data_pathnames (join : string -> string -> string) (datasets : list dataset)
           (reflist : list data_reference) : result (list (option string)) :=
  mapM (load_one_pathname join datasets) reflist.

(* The catalogue file as commandrun sees it. *)
Definition as_file (join : string -> string -> string) (c : catalogue) : catalogue_file :=
  {| cf_identifier := ct_identifier c; cf_operations := ct_operations c;
     cf_pathnames := load_data_pathnames join (ct_datasets c) |}.
