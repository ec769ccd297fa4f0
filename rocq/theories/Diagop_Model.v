(* Generation of the descriptor of diagnostic operations: extraction of station biases after each iteration of an analysis.
   D: src/eustace/analysis/advanced_standard/examples/diagnosticfiller.py
   The filler has the settings of FullstaceJsonFiller (Fill_Model.filler) and a number of iterations. Templates and descriptors are the
   values that their files hold, as in Fill_Model. Printing is left out; the methods that no descriptor uses (D 63-105 and 215-257) are
   not modelled. *)
From Coq Require Import String Ascii.
From Verif Require Import Base Grid_Model NcObj_Model Fill_Model.
Open Scope string_scope.
Open Scope list_scope.
Open Scope Z_scope.

Definition EXTRACT_STATION_BIASES : string := "eustace.analysis.advanced_standard.examples.station_bias_model.extract_station_biases".

(* one turn of the loop D 117-158. [.keys()] of the printed entry demands a dictionary. *)
Definition state_input (f : filler) (n iteration : Z) (filter : option (list string)) (j : json) (sd : string * string) : result json :=
  let '(s, d) := sd in
  if match filter with Some names => negb (existsb (String.eqb d) names) | None => false end then Ok j
  else
    do r <- get [K "runmodule"; K s] j;
    match r with
    | JDict _ =>
        if negb (String.eqb d (f_solution_local_scale f)) then
          do j <- put [K "runmodule"; K s; K "statefilename_read"] (reference INPUT_FILE (numbered d iteration)) j;
          if iteration =? n - 1 then
            do j <- put [K "runmodule"; K s; K "sample_filename_read"] (reference INPUT_FILE (numbered (sample_of d) iteration)) j;
            put [K "runmodule"; K s; K "prior_sample_filename_read"] (reference INPUT_FILE (numbered (prior_sample_of d) iteration)) j
          else Ok j
        else
          do j <- put [K "runmodule"; K s; K "statefilelist_read"] (reference_allowed BATCH_DAYS (numbered d iteration)) j;
          do j <- put [K "runmodule"; K s; K "time_list"] (of_class BATCH_INDICES) j;
          if iteration =? n - 1 then
            do j <- put [K "runmodule"; K s; K "sample_filelist_read"] (reference_allowed BATCH_DAYS (numbered (sample_of d) iteration)) j;
            put [K "runmodule"; K s; K "prior_sample_filelist_read"] (reference_allowed BATCH_DAYS (numbered (prior_sample_of d) iteration)) j
          else Ok j
    | _ => Err AttributeError
    end.
(* D 107-158 fill_state_inputs *)
Definition fill_state_inputs (f : filler) (n iteration : Z) (filter : option (list string)) (j : json) : result json :=
  foldM (state_input f n iteration filter) j (combine STORAGE_LIST (solution_names f)).

(* D 161-205 fill_extract_station_biases_operation; [t] is operation_dict. start_date and end_date have '000000' added (D 43-44). *)
Definition fill_extract_station_biases (f : filler) (n : Z) (t : json) (i c : Z) (command dataset : string) : result json :=
  let name := numbered dataset i in
  do j <- fill_primary_keys f (numbered command i) name "pickle" "spacetime_solution" t;
  do j <- put [K "runmodule"; K "component_index"] (JNum c) j;
  do j <- put [K "step"] (of_class "eumopps.catalogue.step.StepOnce") j;
  do j <- put [K "runmodule"; K "python_function"] (JStr EXTRACT_STATION_BIASES) j;
  do j <- put [K "name"] (JStr (numbered command i)) j;
  do j <- put [K "runmodule"; K "insitu_biases"] (f_land_biases f) j;
  do j <- put [K "runmodule"; K "global_biases"] (f_global_biases f) j;
  do j <- put [K "runmodule"; K "compute_uncertainties"] (JNum 0) j;
  do j <- put [K "runmodule"; K "method"] (JStr "EXACT") j;
  do j <- put [K "runmodule"; K "compute_sample"] (JNum 0) j;
  do j <- put [K "runmodule"; K "sample_size"] (JNum 30) j;
  do j <- put [K "runmodule"; K "compute_prior_sample"] (JNum 0) j;
  do j <- put [K "runmodule"; K "first_year"] (JStr (substring 0 4 (f_start_date f ++ "000000"))) j;
  do j <- put [K "runmodule"; K "last_year"] (JStr (substring 0 4 (f_end_date f ++ "000000"))) j;
  do j <- put [K "runmodule"; K "outputfile"] (reference OUTPUT_FILE name) j;
  do d <- get [K "newdatasets"; First] j;
  do d <- put [K "name"] (JStr name) d;
  do d <- put [K "subsets"; First; K "layout"; K "patterns"] (JList [JStr name; JStr (name ++ ".pickle")%string]) d;
  do j <- put [K "newdatasets"; First] d j;
  do j <- fill_state_inputs f n i (Some [f_solution_large_scale f]) j;
  remove_keys NOT_SOLVED j.

(* D 265-284 fill_diagnostic_descriptor *)
Definition fill_diagnostic_descriptor (f : filler) (n : Z) : result json :=
  do ts <- load_templates f;
  let '(op, _, _) := ts in
  if n =? 0 then Err ValueError
  else
    do ops <- mapM (fun i => fill_extract_station_biases f n op i 1 "store_station_biases" "station_biases") (zrange 0 n);
    Ok (catalogue_of ops).

(* D 287-300 create_diagnostic_descriptor: the file is written before it is checked *)
Definition create_diagnostic_descriptor (f : filler) (n : Z) (check : bool) (before : option json) : option json * result unit :=
  create_from (fill_diagnostic_descriptor f n) check before.
