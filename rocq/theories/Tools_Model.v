(* Model of the reader of specification documents, of repository revisions, of the table of station biases and of the lists of
   files to be gridded: src/eustace/parsedoc/parsedoc.py, src/eustace/outputformats/verify/specificationreader.py,
   src/eumopps/version/svn.py, src/eustace/analysis/advanced_standard/examples/station_bias_model.py,
   src/eustace/satgrid/command.py, src/eustace/satgrid_iris/satellite.py (SatelliteInputList) and src/eustace/generation/landsatgrid.py.
   Simplifications: the paragraphs of a document are given as strings; dictionaries are lists of pairs in order of insertion. *)
From Coq Require Import QArith Qcanon String Ascii.
From Verif Require Import Base Time_Model Batch_Model Grid_Model Obs_Model NcObj_Model Stn_Model Land_Model Src_Model.
Local Open Scope Z_scope.
Local Open Scope list_scope.

(* ---- parsedoc.py *)

(* [sub in s] *)
Fixpoint contains (sub s : string) : bool :=
  String.prefix sub s || match s with EmptyString => false | String _ r => contains sub r end.
(* 38-53 get_paragraphs_between; [mode_contents] is whether the start has been seen *)
Fixpoint between_from (mode_contents : bool) (startmarker endmarker : string) (paragraphs : list string) : list string :=
  match paragraphs with
  | [] => []
  | p :: r => if mode_contents then (if contains endmarker p then [] else p :: between_from true startmarker endmarker r)
              else between_from (contains startmarker p) startmarker endmarker r
  end.
Definition get_paragraphs_between (paragraphs : list string) (startmarker endmarker : string) : list string :=
  between_from false startmarker endmarker paragraphs.

(* d[key] = value *)
Fixpoint set_key {V} (key : string) (value : V) (d : list (string * V)) : list (string * V) :=
  match d with
  | [] => [(key, value)]
  | (k, v) :: r => if String.eqb k key then (k, value) :: r else (k, v) :: set_key key value r
  end.

(* ---- specificationreader.py *)

(* 10 VARIABLE_TYPES *)
Definition VARIABLE_TYPES : list (string * string) :=
  [("(float32)", "float32"); ("(int32)", "int32"); ("(int16)", "int16"); ("(char)", "S1"); ("(uint8)", "uint8")]%string.
(* column[k] *)
Definition column (k : nat) (columns : list string) : result string := match nth_error columns k with Some c => Ok c | None => Err IndexError end.
Definition COLON : string := ": ".

(* 28-45 read_attributes *)
Fixpoint attributes_from (attributes : list (string * string)) (paragraphs : list string) : result (list (string * string)) :=
  match paragraphs with
  | [] => Ok attributes
  | p :: r =>
      let columns := split COLON p in
      do key <- column 0 columns;
      do value <- column 1 columns;
      attributes_from (set_key key value attributes) r
  end.
Definition read_attributes (paragraphs_all : list string) (startmarker endmarker : string) : result (list (string * string)) :=
  attributes_from [] (get_paragraphs_between paragraphs_all startmarker endmarker).

(* specification.py:8-23 VariableSpecification; values of metadata are text, or what ast.literal_eval makes of text that begins with a bracket *)
Inductive metadata {V : Type} := Text (s : string) | Literal (v : V).
Arguments metadata V : clear implicits.
Record variable_specification {V : Type} := { vs_name : string; vs_type : string; vs_metadata : list (string * metadata V) }.
Arguments variable_specification V : clear implicits.
Definition with_metadata {V} (key : string) (value : metadata V) (v : variable_specification V) : variable_specification V :=
  {| vs_name := vs_name v; vs_type := vs_type v; vs_metadata := set_key key value (vs_metadata v) |}.
(* s[n:] *)
Definition from_position (n : nat) (s : string) : string := substring n (String.length s - n) s.
(* the variables before the current one, and the current one *)
Fixpoint variables_from {V} (literal_eval : string -> result V) (before : list (variable_specification V)) (current : option (variable_specification V))
    (paragraphs : list string) : result (list (variable_specification V)) :=
  let so_far := before ++ match current with Some c => [c] | None => [] end in
  match paragraphs with
  | [] => Ok so_far
  | p :: r =>
      if String.prefix "Variable: " p then
        let fields := split " " p in
        do name <- column 1 fields;
        do type <- column 2 fields;
        match find (fun e => String.eqb (fst e) type) VARIABLE_TYPES with
        | None => Err KeyError
        | Some e => variables_from literal_eval so_far (Some {| vs_name := name; vs_type := snd e; vs_metadata := [] |}) r
        end
      else if String.eqb p EmptyString then variables_from literal_eval before current r
      else
        do key <- column 0 (split COLON p);
        let text := from_position (String.length key + 2) p in
        do value <- (if String.prefix "[" text then do v <- literal_eval text; Ok (Literal v) else Ok (Text text));
        match current with
        | None => Err AttributeError
        | Some c => variables_from literal_eval before (Some (with_metadata key value c)) r
        end
  end.
(* 47-74 read_variables *)
Definition read_variables {V} (literal_eval : string -> result V) (paragraphs_all : list string) (startmarker endmarker : string) : result (list (variable_specification V)) :=
  variables_from literal_eval [] None (get_paragraphs_between paragraphs_all startmarker endmarker).

(* int(s) *)
Definition py_int (s : string) : result Z := match read_int (list_ascii_of_string s) with Some v => Ok v | None => Err ValueError end.
(* 76-93 read_dimensions: None is unlimited *)
Fixpoint dimensions_from (required : list (string * option Z)) (paragraphs : list string) : result (list (string * option Z)) :=
  match paragraphs with
  | [] => Ok required
  | p :: r =>
      let columns := split COLON p in
      do c1 <- column 1 columns;
      do c0 <- column 0 columns;
      if String.eqb c1 "UNLIMITED" then dimensions_from (set_key c0 None required) r
      else do n <- py_int c1; dimensions_from (set_key c0 (Some n) required) r
  end.
Definition read_dimensions (paragraphs_all : list string) (startmarker endmarker : string) : result (list (string * option Z)) :=
  dimensions_from [] (tl (get_paragraphs_between paragraphs_all startmarker endmarker)).

(* 95-101 read_name_list; s.strip() *)
Definition strip (s : string) : string := string_of_list_ascii (strip_spaces (list_ascii_of_string s)).
Definition read_name_list (paragraphs_all : list string) (startmarker endmarker : string) : result (list string) :=
  match get_paragraphs_between paragraphs_all startmarker endmarker with
  | [] => Err IndexError
  | line :: _ => Ok (split ", " (strip line))
  end.

(* ---- svn.py *)

(* 14 ID_PATTERN 'R{:06d}', of a number that is not negative *)
Definition revision_id (number : Z) : string := ("R" ++ decimals (decimal_width (S (Z.to_nat number)) 6 number) number)%string.
(* 37-42 parse_revision_string; RepositoryStateException is OperationException *)
Definition parse_revision_string (revisionstring : string) : result Z :=
  match py_int revisionstring with Ok n => Ok n | Err _ => Err OperationException end.
(* 50-70 get_revision_id, of what svnversion prints *)
Definition get_revision_id (allow_unversioned_code : bool) (revisionstring : string) : result string :=
  match parse_revision_string revisionstring with
  | Ok number => Ok (revision_id number)
  | Err e => if allow_unversioned_code then Ok "UNVERSIONED"%string else Err e
  end.

(* ---- station_bias_model.py:87-111 build_bias_matrix: the tables bias_index and bias_grid, as rows by station of columns by year.
   NaN is None. *)
Definition list_max (l : list Z) : option Z := match l with [] => None | x :: r => Some (fold_left Z.max r x) end.
Definition set_nth {A} (i : nat) (x : A) (l : list A) : list A := firstn i l ++ match skipn i l with [] => [] | _ :: r => x :: r end.
(* column [ind] of the tables, starting from NaN: assignment to the rows of the effect *)
Definition column_of {A} (n_stations : nat) (value : nat -> A) (effect : option (list (nat * nat))) : list (option A) :=
  fold_left (fun col e => set_nth (fst e) (Some (value (snd e))) col) (match effect with Some l => l | None => [] end) (repeat None n_stations).
(* days_since_epoch(datetime(year, 1, 1)), a whole number of days *)
Definition year_start (year : Z) : result Z := do t <- mk_datetime year 1 1 0 0 0; Ok (int_days (days_since_epoch t)).
Record bias_matrix := { bm_times : list Z; bm_index : list (list (option nat)); bm_grid : list (list (option Qc)) }.
(* columns first here: one list per year *)
Definition build_bias_matrix (b : breaks) (biases : list Qc) (first_year last_year : Z) : result bias_matrix :=
  do time_indices <- mapM year_start (zrange first_year (last_year + 1));
  match list_max (map (fun s => s - 1) (bk_station b)) with
  | None => Err ValueError
  | Some m =>
      let n_stations := Z.to_nat (m + 1) in
      let station_indices := map Z.of_nat (seq 0 n_stations) in
      do columns <- mapM (fun time =>
        do effect <- Obs_Model.covariate_effect time station_indices b;
        let es := match effect with Some l => l | None => [] end in
        if negb (forallb (fun e => (snd e <? List.length biases)%nat) es) then Err IndexError else
        Ok (column_of n_stations (fun k => k) effect, column_of n_stations (fun k => nth k biases 0%Qc) effect)) time_indices;
      Ok {| bm_times := time_indices; bm_index := map fst columns; bm_grid := map snd columns |}
  end.

(* ---- satgrid/command.py:37-60 FilenameList.__init__, and satgrid_iris/satellite.py:51-75 likewise: the times *)
Definition strptime_minute (s : string) : result Z :=
  match match_fields [field_Y; field_m; field_d; field_H; field_M] s with
  | Some ([y; m; d; hour; minute], EmptyString) => mk_datetime y m d hour minute 0
  | _ => Err ValueError
  end.
Definition requested_times (date : string) : result (list Z) :=
  if (String.length date =? 12)%nat then do t <- strptime_minute date; Ok [t]
  else
    do t <- strptime_date date;
    mapM (fun hm => mk_datetime (dt_year t) (dt_month t) (dt_day t) (fst hm) (snd hm) 0)
         (flat_map (fun hour => map (fun k => (hour, 5 * k)) (zrange 0 12)) (zrange 0 24)).
(* 59-60, and satellite_file.py from_pattern_and_time: names of the observation file and of the auxiliary file *)
Definition requested_files (strftime : string -> Z -> string) (path pattern_lst pattern_aux date : string) : result (list (string * string)) :=
  do times <- requested_times date;
  Ok (map (fun t => (join_one path (strftime pattern_lst t), join_one path (strftime pattern_aux t))) times).

(* ---- generation/landsatgrid.py:81-95 specify: the inputs for one day, references with their times.
   A reference without partner is StopIteration, here KeyError. *)
Fixpoint matched_inputs {A} (lst aux : list (A * Z)) : result (list A) :=
  match lst with
  | [] => Ok []
  | (reference, time) :: r =>
      match find (fun x => snd x =? time) aux with
      | None => Err KeyError
      | Some x => do rest <- matched_inputs r aux; Ok (reference :: fst x :: rest)
      end
  end.
(* 107-111 run: pairs of a flat list *)
Fixpoint input_pairs {A} (pathnames : list A) : result (list (A * A)) :=
  match pathnames with
  | [] => Ok []
  | [_] => Err IndexError
  | a :: b :: r => do rest <- input_pairs r; Ok ((a, b) :: rest)
  end.
