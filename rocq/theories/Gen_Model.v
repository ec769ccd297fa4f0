(* The command lines that make descriptors, and the scripts that ship with the settings of the analysis.
   G: src/eustace/analysis/advanced_standard/examples/generate_json_descriptors.py
   H: src/eustace/analysis/advanced_standard/examples/generate_diagnostic_descriptors.py
   B: src/roses/fullstace/advanced_standard/build_descriptors.sh, build_diagnostic_descriptors.sh
   Paths and the reading of templates are left out: templates are given by what they hold (as in Fill_Model). The positional
   arguments of type int are numbers already. *)
From Coq Require Import String Ascii.
From Verif Require Import Base Grid_Model NcObj_Model Fill_Model Fill_Templates Diagop_Model.
Open Scope string_scope.
Open Scope list_scope.
Open Scope Z_scope.

Record templates := { t_operation : json; t_batch_operation : json; t_output_grid : json }.
(* Options of a command line, in order: name and text. argparse keeps the last of an option given twice. *)
Definition options := list (string * string).
Definition given_option (name : string) (o : options) : option string :=
  fold_left (fun seen nv => if String.eqb (fst nv) name then Some (snd nv) else seen) o None.
Definition text_option (name default : string) (o : options) : string := match given_option name o with Some v => v | None => default end.
(* G 31-32 = H 27-28: the default is a number, but there is no type: a value that is given stays text *)
Definition bias_option (name : string) (o : options) : json := match given_option name o with Some v => JStr v | None => JNum 1 end.

(* G 23-65 = H 19-61: the filler *)
Definition filler_of (t : templates) (start_date end_date : string) (o : options) : filler :=
  {| f_operation := t_operation t; f_batch_operation := t_batch_operation t; f_output_grid := t_output_grid t;
     f_start_date := start_date; f_end_date := end_date;
     f_land_biases := bias_option "land_biases" o; f_global_biases := bias_option "global_biases" o;
     f_measurement_climatology_command := text_option "measurement_climatology_command" "climatology_input" o;
     f_measurement_climatology := text_option "measurement_climatology_name" "measurement_climatology" o;
     f_solution_climatology_command := text_option "solution_climatology_command" "climatology_solve" o;
     f_solution_climatology := text_option "solution_climatology_name" "solution_climatology" o;
     f_measurement_large_scale_command := text_option "measurement_large_scale_command" "large_scale_input" o;
     f_measurement_large_scale := text_option "measurement_large_scale_name" "measurement_large_scale" o;
     f_solution_large_scale_command := text_option "solution_large_scale_command" "large_scale_solve" o;
     f_solution_large_scale := text_option "solution_large_scale_name" "solution_large_scale" o;
     f_local_scale_command := text_option "local_scale_command" "local_input_and_solve" o;
     f_solution_local_scale := text_option "solution_local_scale_name" "solution_local" o;
     f_output_grid_command := text_option "output_grid_command" "output_grid" o;
     f_output_grid_name := text_option "output_grid_name" "eustace_infilled" o;
     f_output_climatology := text_option "output_climatology_name" "eustace_infilled" o;
     f_output_large_scale := text_option "output_large_scale_name" "eustace_infilled" o;
     f_output_local := text_option "output_local_name" "eustace_infilled" o;
     f_state_sample_size := 30 |}.

(* G 56-67; jsonfiller.py tests grid_last_iteration for truth. What the descriptor file holds afterwards, and the outcome. *)
Definition generate_json_descriptors (t : templates) (first_iteration last_iteration grid_last_iteration : Z) (start_date end_date : string) (o : options)
    (before : option json) : option json * result unit :=
  create_from (fill_batch_descriptor_range (filler_of t start_date end_date o) first_iteration last_iteration (negb (grid_last_iteration =? 0))) false before.
(* H 52-63 *)
Definition generate_diagnostic_descriptors (t : templates) (n_iterations : Z) (start_date end_date : string) (o : options) (before : option json) : option json * result unit :=
  create_diagnostic_descriptor (filler_of t start_date end_date o) n_iterations false before.

(* B, lines 28-66: the same in both scripts. The names of the templates are left out. *)
Definition SCRIPT_OPTIONS : options :=
  [("land_biases", "1"); ("global_biases", "1");
   ("measurement_climatology_command", "climatology_input"); ("measurement_climatology_name", "climatology_increment");
   ("solution_climatology_command", "climatology_solve"); ("solution_climatology_name", "climatology_solution");
   ("measurement_large_scale_command", "large_scale_input"); ("measurement_large_scale_name", "large_scale_increment");
   ("solution_large_scale_command", "large_scale_solve"); ("solution_large_scale_name", "large_scale_solution");
   ("local_scale_command", "local_input_and_solve"); ("solution_local_scale_name", "local_solution");
   ("output_grid_command", "output_grid"); ("output_grid_name", "eustace_analysis");
   ("output_climatology_name", "eustace_climatology_component"); ("output_large_scale_name", "eustace_large_scale_component");
   ("output_local_name", "eustace_local_component")].
Definition SHIPPED : templates := {| t_operation := shipped_operation; t_batch_operation := shipped_batch_operation; t_output_grid := shipped_outputgrid |}.
(* B 7-11 and 18-46: without a directory for the output nothing is done and the exit status is 1, here ValueError *)
Definition build_descriptors (directory : bool) (before : option json) : option json * result unit :=
  if negb directory then (before, Err ValueError) else generate_json_descriptors SHIPPED 0 5 1 "18800101" "20151231" SCRIPT_OPTIONS before.
Definition build_diagnostic_descriptors (directory : bool) (before : option json) : option json * result unit :=
  if negb directory then (before, Err ValueError) else generate_diagnostic_descriptors SHIPPED 5 "18800101" "20151231" SCRIPT_OPTIONS before.
