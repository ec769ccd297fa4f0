(* Model of src/eustace/outputformats/filesmerger.py and merge_multiple_outputs.py: the merge of the files of several satellites.
   Numbers are exact rationals (doubles in the code); a square root is kept as the number under it.  The checks of types in the constructor of
   FilesMerger are not modelled, nor are the attributes of the files other than the comment, nor the update of correlation ranges. *)
From Coq Require Import QArith Qcanon Ascii String.
From Verif Require Import Base Grid_Model.
Local Open Scope Z_scope.
Local Open Scope list_scope.

(* ------------------------------------------------------------------ Python lists *)
(* list.remove *)
Fixpoint remove_first {A} (eqb : A -> A -> bool) (x : A) (l : list A) : result (list A) :=
  match l with
  | [] => Err ValueError
  | y :: r => if eqb x y then Ok r else do r' <- remove_first eqb x r; Ok (y :: r')
  end.
(* l[i] = x for an index that is not negative *)
Fixpoint set_nth {A} (n : nat) (x : A) (l : list A) : result (list A) :=
  match l, n with
  | [], _ => Err IndexError
  | _ :: r, O => Ok (x :: r)
  | y :: r, S k => do r' <- set_nth k x r; Ok (y :: r')
  end.
Definition enumerate {A} (l : list A) : list (Z * A) := combine (zrange 0 (zlen l)) l.

(* ------------------------------------------------------------------ clean_list_of_outputs_to_merge *)
(* a path, or None for a file the catalogue knows to be missing *)
Definition path := option string.
Definition path_eqb (a b : path) : bool :=
  match a, b with None, None => true | Some a, Some b => String.eqb a b | _, _ => false end.
Section Clean.
Variable isfile : string -> bool.
Definition present (p : path) : bool := match p with None => false | Some n => isfile n end.
Record cleaning := { main : list path; ancillary : list path; sources : Z; to_remove : list Z }.
(* filesmerger.py:23-32: one turn of the loop (zip is a list made before the loop) *)
Definition clean_step (st : cleaning) (element : Z * (path * path)) : result cleaning :=
  let '(index, (m, a)) := element in
  do st <- (if present m then Ok {| main := main st; ancillary := ancillary st; sources := sources st + 1; to_remove := to_remove st |}
            else do l <- remove_first path_eqb m (main st);
                 Ok {| main := l; ancillary := ancillary st; sources := sources st; to_remove := to_remove st ++ [index] |});
  if present a then Ok st
  else do l <- remove_first path_eqb a (ancillary st);
       Ok {| main := main st; ancillary := l; sources := sources st; to_remove := to_remove st |}.
(* the pairs (index, jndex) of lines 43-44, in the order of the loops *)
Definition loop_pairs (n : Z) : list (Z * Z) := flat_map (fun index => map (fun jndex => (index, jndex)) (zrange (index + 1) n)) (zrange 0 n).
(* filesmerger.py:42-47 for one index to remove and one sublist *)
Definition label_sub_list (n index_to_remove : Z) (sub_list : list (option Qc)) : result (list (option Qc)) :=
  do r <- foldM (fun (st : list (option Qc) * Z) (p : Z * Z) =>
    do l <- (if (index_to_remove =? fst p) || (index_to_remove =? snd p) then set_nth (Z.to_nat (snd st)) None (fst st) else Ok (fst st));
    Ok (l, snd st + 1)) (sub_list, 0) (loop_pairs n);
  Ok (fst r).
(* filesmerger.py:40-47 *)
Definition label_lists (n : Z) (indexes_to_remove : list Z) (list_of_indexes : list (list (option Qc))) : result (list (list (option Qc))) :=
  foldM (fun ls index_to_remove => mapM (label_sub_list n index_to_remove) ls) list_of_indexes indexes_to_remove.
(* filesmerger.py:49-51: remove None while there is one *)
Definition drop_none {A} (l : list (option A)) : list A := flat_map (fun x => match x with None => [] | Some v => [v] end) l.
(* filesmerger.py:13-51; the lists and the number of sources are changed in place: here they are returned *)
Definition clean_list_of_outputs_to_merge (outputs_main outputs_ancillary : list path) (number_of_sources : Z) (list_of_indexes : list (list Qc))
  : result (list path * list path * Z * list (list Qc)) :=
  if negb (zlen outputs_main =? zlen outputs_ancillary) then Err ValueError
  else
    let original_number_of_outputs := zlen outputs_main in
    do st <- foldM clean_step {| main := outputs_main; ancillary := outputs_ancillary; sources := number_of_sources; to_remove := [] |}
               (enumerate (combine outputs_main outputs_ancillary));
    if negb (zlen (main st) =? zlen (ancillary st)) then Err ValueError
    else
      do ls <- label_lists original_number_of_outputs (to_remove st) (map (map Some) list_of_indexes);
      Ok (main st, ancillary st, sources st, map drop_none ls).
End Clean.

(* ------------------------------------------------------------------ fields *)
(* A masked array as read from a file: mask None is numpy.ma.nomask, when no value is masked. *)
Record field := { data : list Qc; mask : option (list bool); fill : Qc }.
Definition Qceqb (a b : Qc) : bool := if Qc_eq_dec a b then true else false.
(* filesmerger.py:308-314 extract_and_modify_masked_array_data_and_mask, with NaN (None here) and with zero *)
Definition extract_nan (f : field) : list (option Qc) := map (fun v => if Qceqb v (fill f) then None else Some v) (data f).
Definition extract_zero (f : field) : list Qc := map (fun v => if Qceqb v (fill f) then 0%Qc else v) (data f).
(* numpy.row_stack: a further row *)
Definition row_stack {A} (rows : list (list A)) (row : list A) : result (list (list A)) :=
  match rows with [] => Ok [row] | r :: _ => if (length r =? length row)%nat then Ok (rows ++ [row]) else Err ValueError end.
(* numpy.logical_and of masks, with nomask as a scalar *)
Definition mask_and (a b : option (list bool)) : result (option (list bool)) :=
  match a, b with
  | None, None => Ok None
  | None, Some m | Some m, None => Ok (Some (map (fun _ => false) m))
  | Some a, Some b => if (length a =? length b)%nat then Ok (Some (map (fun p => fst p && snd p) (combine a b))) else Err ValueError
  end.
(* values of the cell k of the rows *)
Definition column {A} (d : A) (rows : list (list A)) (k : nat) : list A := map (fun r => nth k r d) rows.
(* numpy.nanmean over the rows; NaN for no value *)
Definition nanmean (l : list (option Qc)) : option Qc :=
  match drop_none l with [] => None | v => Some (sumQ v / qz (zlen v))%Qc end.
(* filesmerger.py:241-266 compute_mean_fields, for one name; [fields] are those of the handles, in order *)
Definition mean_field (fields : list field) : result field :=
  match fields with
  | [] => Err IndexError
  | f0 :: rest =>
      do st <- foldM (fun (st : list (list (option Qc)) * option (list bool)) f =>
        do rows <- row_stack (fst st) (extract_nan f);
        do m <- mask_and (snd st) (mask f);
        Ok (rows, m)) ([extract_nan f0], mask f0) rest;
      let mean_field_data := map (fun k => match nanmean (column None (fst st) k) with None => fill f0 | Some v => v end) (seq 0 (length (data f0))) in
      Ok {| data := mean_field_data; mask := snd st; fill := fill f0 |}
  end.
(* filesmerger.py:316-333 build_triangular_correlation_matrix: the matrix as a function of its indices *)
Definition build_triangular_correlation_matrix (number_of_files : Z) (sub_list : list Qc) : result (Z -> Z -> Qc) :=
  if negb (number_of_files * (number_of_files - 1) =? 2 * zlen sub_list) then Err ValueError
  else
    do r <- foldM (fun (st : (Z -> Z -> Qc) * Z) (p : Z * Z) =>
      do v <- py_index sub_list (snd st);
      Ok ((fun a b => if (a =? fst p) && (b =? snd p) then (qz 2 * v)%Qc else fst st a b), snd st + 1))
      ((fun a b => if a =? b then 1%Qc else 0%Qc), 0) (loop_pairs number_of_files);
    Ok (fst r).
(* filesmerger.py:335-347 propagate_uncertainty, before the square root: one cell, the uncertainties of the files in order *)
Definition propagate (size : Z) (u : list Qc) (matrix : Z -> Z -> Qc) : Qc :=
  let v i := nth (Z.to_nat i) u 0%Qc in
  fold_left (fun result p => result + v (fst p) * matrix (fst p) (snd p) * v (snd p))%Qc
    (flat_map (fun i => map (fun j => (i, j)) (zrange i size)) (zrange 0 size)) 0%Qc.
(* A merged uncertainty: the square root of a number over the number of contributing files; the fill value, for NaN; infinity. *)
Inductive uncertainty := Root (under : Qc) (files : Z) | Filled | Infinite.
(* filesmerger.py:293-300: square root, weights (1 / 0 is infinite, and 0 times it NaN), NaN replaced *)
Definition weighted (under : Qc) (files : Z) : uncertainty :=
  if Qclt_bool under 0%Qc then Filled
  else if files =? 0 then if Qceqb under 0%Qc then Filled else Infinite
  else Root under files.
Record uncertain := { cells : list uncertainty; umask : option (list bool); ufill : Qc }.
(* row_stack of the masks: a scalar and an array of three dimensions cannot be stacked; scalars can, and count for every cell *)
Definition stack_masks (masks : list (option (list bool))) (m : option (list bool)) : result (list (option (list bool))) :=
  match masks, m with
  | None :: _, None => Ok (masks ++ [m])
  | Some r :: _, Some r' => if (length r =? length r')%nat then Ok (masks ++ [m]) else Err ValueError
  | [], _ => Ok [m]
  | _, _ => Err ValueError
  end.
Definition unmasked_at (k : nat) (m : option (list bool)) : bool := match m with None => true | Some r => negb (nth k r false) end.
Definition count (l : list bool) : Z := zlen (filter (fun b => b) l).
(* filesmerger.py:268-305 compute_propagated_uncertainties, for one name and its sublist of correlation indexes *)
Definition propagated_field (sub_list : list Qc) (fields : list field) : result uncertain :=
  do matrix <- build_triangular_correlation_matrix (zlen fields) sub_list;
  match fields with
  | [] => Err IndexError
  | f0 :: rest =>
      do st <- foldM (fun (st : list (list Qc) * list (option (list bool)) * option (list bool)) f =>
        do rows <- row_stack (fst (fst st)) (extract_zero f);
        do masks <- stack_masks (snd (fst st)) (mask f);
        do m <- mask_and (snd st) (mask f);
        Ok (rows, masks, m)) ([extract_zero f0], [mask f0], mask f0) rest;
      let '(rows, masks, final_mask) := st in
      Ok {| cells := map (fun k => weighted (propagate (zlen fields) (column 0%Qc rows k) matrix) (count (map (unmasked_at k) masks))) (seq 0 (length (data f0)));
            umask := final_mask; ufill := fill f0 |}
  end.

(* ------------------------------------------------------------------ names *)
Fixpoint split_on (c : ascii) (s : string) : list string :=
  match s with
  | EmptyString => [EmptyString]
  | String d r => if Ascii.eqb c d then EmptyString :: split_on c r
                  else match split_on c r with [] => [] | h :: t => String d h :: t end
  end.
(* os.path.basename *)
Definition basename (s : string) : string := last (split_on "/" s) EmptyString.
(* os.path.basename(name).split('_')[4] *)
Definition source_label (name : string) : result string := py_index (split_on "_" (basename name)) 4.
(* str.replace(pattern, ''): from left to right; [skip] characters of an occurrence are still to be dropped *)
Fixpoint delete_all (pattern : string) (skip : nat) (s : string) : string :=
  match s with
  | EmptyString => EmptyString
  | String c r =>
      match skip with
      | S k => delete_all pattern k r
      | O => if String.prefix pattern s then delete_all pattern (String.length pattern - 1) r else String c (delete_all pattern 0 r)
      end
  end.
(* name.replace('_' + label, '') *)
Definition without_label (label name : string) : string := delete_all ("_" ++ label) 0 name.

(* ------------------------------------------------------------------ files *)
Inductive variable := Plain (f : field) | Uncertain (u : uncertain).
Record file := { day : Z; comment : string; variables : list (string * variable) }.
Definition store := string -> option file.
Fixpoint lookup {A} (name : string) (l : list (string * A)) : option A :=
  match l with [] => None | (n, v) :: r => if String.eqb name n then Some v else lookup name r end.
(* What happens to the files, in order; a program that is interrupted leaves a prefix of it done. *)
Inductive op := Write (name : string) (f : file) | Remove (name : string) | Rename (old new : string) | Comment (name : string) (c : string).
Definition put (name : string) (f : option file) (s : store) : store := fun n => if String.eqb n name then f else s n.
Definition exec (s : store) (o : op) : result store :=
  match o with
  | Write name f => Ok (put name (Some f) s)
  | Remove name => match s name with None => Err IOErrorE | Some _ => Ok (put name None s) end
  | Rename old new => match s old with None => Err IOErrorE | Some f => Ok (put new (Some f) (put old None s)) end
  | Comment name c => match s name with None => Err IOErrorE | Some f => Ok (put name (Some {| day := day f; comment := c; variables := variables f |}) s) end
  end.
(* netCDF4.Dataset(name, 'r') and variables[name][...] *)
Definition open_file (s : store) (name : string) : result file := match s name with None => Err IOErrorE | Some f => Ok f end.
Definition read_field (name : string) (f : file) : result field :=
  match lookup name (variables f) with None => Err KeyError | Some (Plain v) => Ok v | Some (Uncertain _) => Err TypeError end.
Record definitions := { primary_fields : list string; primary_uncertainties : list string; ancillary_fields : list string; comment_prefix : string;
                        primary_variables : list string (* ConsistentModelOutputNetCDF.PRIMARY_VARIABLES *) }.
(* filesmerger.py:349-358 append_original_fields: later entries of a dictionary replace earlier ones; here they are put in front *)
Definition append_original_fields (names : list string) (files : list (string * file)) (results : list (string * variable)) : result (list (string * variable)) :=
  foldM (fun results nf =>
    foldM (fun results name =>
      do v <- read_field name (snd nf);
      do source <- source_label (fst nf);
      Ok ((name ++ "_" ++ source, Plain v)%string :: results)) results names) results files.
Definition compute_mean_fields (names : list string) (files : list (string * file)) (results : list (string * variable)) : result (list (string * variable)) :=
  foldM (fun results name => do fields <- mapM (fun nf => read_field name (snd nf)) files; do f <- mean_field fields; Ok ((name, Plain f) :: results)) results names.
Definition compute_propagated_uncertainties (names : list string) (files : list (string * file)) (list_of_correlation_indexes : list (list Qc)) (results : list (string * variable))
  : result (list (string * variable)) :=
  foldM (fun results p =>
    do sub_list <- py_index list_of_correlation_indexes (fst p);
    do fields <- mapM (fun nf => read_field (snd p) (snd nf)) files;
    do u <- propagated_field sub_list fields; Ok ((snd p, Uncertain u) :: results)) results (enumerate names).
Definition all_equal (l : list Z) : result Z := match l with [] => Err ValueError | d :: r => if forallb (Z.eqb d) r then Ok d else Err ValueError end.
(* filesmerger.py:185-223 merge_multiple_files: the day and the results *)
Definition merge_multiple_files (d : definitions) (correlation : list (list Qc)) (s : store) (primary ancillary : list string) : result (Z * list (string * variable)) :=
  do fp <- mapM (fun n => do f <- open_file s n; Ok (n, f)) primary;
  do fa <- mapM (fun n => do f <- open_file s n; Ok (n, f)) ancillary;
  do daynumber <- all_equal (map (fun nf => day (snd nf)) (fp ++ fa));
  let n := zlen primary in
  let zeros := map (fun _ => map (fun _ => 0%Qc) (zrange 0 (n * (n - 1) / 2))) (primary_uncertainties d) in
  do r <- append_original_fields (primary_fields d ++ primary_uncertainties d) fp [];
  do r <- append_original_fields (ancillary_fields d) fa r;
  do r <- compute_mean_fields (primary_fields d) fp r;
  do r <- compute_propagated_uncertainties (primary_uncertainties d) fp zeros r;
  do r <- compute_propagated_uncertainties (ancillary_fields d) fa correlation r;
  Ok (daynumber, r).
(* consistent.py:51-76 write_element: of the named variables, those in the results *)
Definition write_element (names : list string) (results : list (string * variable)) : list (string * variable) :=
  flat_map (fun n => match lookup n results with None => [] | Some v => [(n, v)] end) names.
Definition join_comma (l : list string) : string := match l with [] => EmptyString | h :: t => fold_left (fun acc n => (acc ++ ", " ++ n)%string) t h end.
(* filesmerger.py:157-182 update_single_file *)
Definition update_single_file (d : definitions) (primary ancillary : list string) : result (list op) :=
  match primary with
  | [] => Err IndexError
  | p0 :: _ =>
      do label <- source_label p0;
      let update n := [Comment n (comment_prefix d ++ label ++ " retrievals.")%string; Rename n (without_label label n)] in
      Ok (flat_map update primary ++ flat_map update ancillary)
  end.
(* filesmerger.py:109-155 merge_outputs_from_single_day: what is done to the files, or the error raised before anything is done *)
Definition merge_outputs_from_single_day (d : definitions) (correlation : list (list Qc)) (s : store) (primary ancillary : list string) : result (list op) :=
  if zlen primary =? 1 then update_single_file d primary ancillary
  else
    do merged <- merge_multiple_files d correlation s primary ancillary;
    let '(daynumber, results) := merged in
    do labels <- mapM source_label primary;
    let ancillary_variables := ancillary_fields d ++ flat_map (fun v => map (fun l => (v ++ "_" ++ l)%string) labels) (primary_fields d ++ primary_uncertainties d ++ ancillary_fields d) in
    do p0 <- py_index primary 0;
    do a0 <- py_index ancillary 0;
    do label <- source_label p0;
    let output_main := without_label label p0 in
    let output_ancillary := without_label label a0 in
    let text := (comment_prefix d ++ join_comma labels ++ " retrievals.")%string in
    Ok ([Write output_main {| day := daynumber; comment := text; variables := write_element (primary_variables d) results |};
         Write output_ancillary {| day := daynumber; comment := text; variables := write_element ancillary_variables results |}] ++ map Remove (primary ++ ancillary)).
(* filesmerger.py:101-107 merge_outputs_from_multiple_daily_sources: the files of each day *)
Definition daily_slices {A} (l : list A) (list_of_daily_sources : list Z) : list (list A) :=
  snd (fold_left (fun st sources => (fst st + sources, snd st ++ [zslice l (fst st) (fst st + sources)])) list_of_daily_sources (0, [])).
(* merge_multiple_outputs.py:26-65 merge_single_day_outputs; nothing is done when there are no files *)
Definition merge_single_day_outputs (d : definitions) (correlation : list (list Qc)) (s : store) (input_main input_ancillary : list path) : result (list op) :=
  let isfile n := match s n with None => false | Some _ => true end in
  do c <- clean_list_of_outputs_to_merge isfile input_main input_ancillary 0 correlation;
  let '(m, a, n, corr) := c in
  if n =? 0 then Ok []
  else
    do m <- mapM (fun p : path => match p with Some x => Ok x | None => Err ValueError end) m;
    do a <- mapM (fun p : path => match p with Some x => Ok x | None => Err ValueError end) a;
    if negb (zlen a =? n) || negb (zlen m =? n) then Err ValueError
    else if negb (length (ancillary_fields d) =? length corr)%nat then Err ValueError
    else merge_outputs_from_single_day d corr s m a.
