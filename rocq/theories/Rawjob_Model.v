(* The scripts that build raw binary files.
   C: src/roses/fullstace/rawbinary/create_rawbinary_files.sh
   L: src/roses/fullstace/rawbinary/buildall_lookups.sh       R: buildall_rawbinary.sh
   P: src/roses/fullstace/rawbinary/buildall_locationpointers.sh, runlsf_locationpointers.sh, lsf_locationpointers.sh
   Shell text is given line by line, each line as its words; quotes and expansions other than those of variables are left out, and variables
   are given by their values. What the programs called do is left out except for the parsing of their arguments (eumopps/catalogue/build.py,
   commandrun.py, commandcount.py) and the catalogue that a build makes; a build with proper arguments is taken to succeed. *)
From Coq Require Import String Ascii.
From Verif Require Import Base Time_Model Work_Model Tools_Model Jobs_Model.
Open Scope string_scope.
Open Scope list_scope.
Open Scope Z_scope.

(* ---- shell lines: a word that starts with # begins a comment that ends with the line, also if it ends with a backslash; a line that
   ends with a backslash is continued *)
Definition starts_with (c : ascii) (w : string) : bool := match w with String c' _ => Ascii.eqb c' c | EmptyString => false end.
Definition comment (w : string) : bool := starts_with "#" w.
Fixpoint before_comment (l : list string) : list string :=
  match l with [] => [] | w :: r => if comment w then [] else w :: before_comment r end.
Definition BACKSLASH : string := "\".
Fixpoint split_last (l : list string) : list string * bool :=
  match l with
  | [] => ([], false)
  | [w] => if String.eqb w BACKSLASH then ([], true) else ([w], false)
  | w :: r => let (ws, c) := split_last r in (w :: ws, c)
  end.
Definition scan (l : list string) : list string * bool := if existsb comment l then (before_comment l, false) else split_last l.
Fixpoint commands (pending : list string) (lines : list (list string)) : list (list string) :=
  match lines with
  | [] => [pending]
  | l :: r => let (ws, continued) := scan l in if continued then commands (pending ++ ws) r else (pending ++ ws) :: commands [] r
  end.
Definition shell (lines : list (list string)) : list (list string) := filter (fun c => match c with [] => false | _ => true end) (commands [] lines).

(* ---- arguments: options with a value, flags, and positional arguments in order; anything else that starts with - is refused. argparse
   also takes abbreviations and --name=value, which are left out *)
Fixpoint parse (valued flags : list string) (args : list string) : result (list (string * string) * list string * list string) :=
  match args with
  | [] => Ok ([], [], [])
  | a :: r =>
      if existsb (String.eqb a) valued then
        match r with
        | v :: r' => if starts_with "-" v then Err ValueError else do p <- parse valued flags r'; let '(o, f, pos) := p in Ok ((a, v) :: o, f, pos)
        | [] => Err ValueError
        end
      else do p <- parse valued flags r; let '(o, f, pos) := p in
        if existsb (String.eqb a) flags then Ok (o, a :: f, pos) else if starts_with "-" a then Err ValueError else Ok (o, f, a :: pos)
  end.
(* build.py main: two positional arguments *)
Definition parse_build (args : list string) : result (string * string) :=
  do p <- parse ["--dataset_filter"; "--pathdefault"] ["--allow_unversioned_code"; "--update"; "--overwrite"; "--nochecksum"] args;
  let '(_, f, pos) := p in
  match pos with
  | [description; catalogue] => if existsb (String.eqb "--update") f && existsb (String.eqb "--overwrite") f then Err ValueError else Ok (description, catalogue)
  | _ => Err ValueError
  end.
(* commandrun.py main: catalogue, operation and index; here the index stays text *)
Definition parse_commandrun (args : list string) : result (string * string * string) :=
  do p <- parse ["--use_batch_size"; "--batch"] ["--justlist"; "--list"; "--allow_unversioned_code"] args;
  let '(_, _, pos) := p in match pos with [catalogue; operation; index] => Ok (catalogue, operation, index) | _ => Err ValueError end.
(* commandcount.py main *)
Definition parse_commandcount (args : list string) : result (string * string) :=
  do p <- parse ["--batchsize"] [] args;
  let '(_, _, pos) := p in match pos with [catalogue; operation] => Ok (catalogue, operation) | _ => Err ValueError end.
(* an unquoted variable that is empty gives no word *)
Definition unquoted (v : string) : list string := if String.eqb v "" then [] else [v].
Definition param (n : nat) (params : list string) : string := nth n params "".

(* ---- L *)
Definition LOOKUPS : list string := [
  "preparecorrelationranges_insitu_land_Tmin"; "preparecorrelationranges_insitu_land_Tmax"; "preparecorrelationranges_insitu_ocean_Tmean";
  "preparecorrelationranges_surfaceairmodel_ice_Tmin"; "preparecorrelationranges_surfaceairmodel_ice_Tmax"; "preparecorrelationranges_surfaceairmodel_ice_Tmean";
  "preparecorrelationranges_surfaceairmodel_land_Tmin"; "preparecorrelationranges_surfaceairmodel_land_Tmax"; "preparecorrelationranges_surfaceairmodel_ocean_Tmean";
  "preparelocationlookup_insitu_land"; "preparelocationlookup_satellite"].
(* the arguments of the programs called in order, whatever the outcome of those before; None: the usage is printed and the shell exits *)
Definition buildall_lookups (params : list string) : option (list (list string)) :=
  if (List.length params <? 1)%nat then None
  else Some (map (fun m => unquoted (param 1 params) ++ unquoted (param 0 params) ++ [m; "0"]) LOOKUPS).

(* ---- R: what is handed to runlsf_rawbinary.sh; the arrays of Jobs_Model for the numbers of commands [count] *)
Definition RAWBINARY : list string := [
  "preparedailyfixed_insitu_land_Tmin"; "preparedailyfixed_insitu_land_Tmax"; "preparedailymobile_insitu_ocean_Tmean";
  "preparedailyfixed_surfaceairmodel_ice_Tmin"; "preparedailyfixed_surfaceairmodel_ice_Tmax"; "preparedailyfixed_surfaceairmodel_ice_Tmean";
  "preparedailyfixed_surfaceairmodel_land_Tmin"; "preparedailyfixed_surfaceairmodel_land_Tmax"; "preparedailyfixed_surfaceairmodel_ocean_Tmean"].
Definition sourced (params : list string) (m : string) : list string := unquoted (param 0 params) ++ [m] ++ unquoted (param 1 params).
Definition buildall_rawbinary (params : list string) : option (list (list string)) :=
  if (List.length params <? 1)%nat then None else Some (map (sourced params) RAWBINARY).

(* ---- P *)
Definition POINTERS : list string := [
  "preparelocationpointers_insitu_land_Tmin"; "preparelocationpointers_insitu_land_Tmax"; "preparelocationpointers_surfaceairmodel_ice_Tmin";
  "preparelocationpointers_surfaceairmodel_ice_Tmax"; "preparelocationpointers_surfaceairmodel_ice_Tmean"; "preparelocationpointers_surfaceairmodel_land_Tmin";
  "preparelocationpointers_surfaceairmodel_land_Tmax"; "preparelocationpointers_surfaceairmodel_ocean_Tmean"].
(* runlsf_locationpointers.sh: one array with elements from 1 to the number of commands, which commandcount prints; without such a number
   bsub refuses the array. Each element runs one command: its catalogue, module and index *)
Definition runlsf_locationpointers (count : string -> string -> Z) (params : list string) : list (result (string * string * Z)) :=
  if (List.length params <? 2)%nat then []
  else match parse_commandcount (unquoted (param 0 params) ++ unquoted (param 1 params)) with
  | Err _ => []
  | Ok (catalogue, operation) =>
      map (fun jobindex =>
             let commandindex := jobindex - 1 in
             do p <- parse_commandrun (unquoted (param 2 params) ++ unquoted (param 0 params) ++ unquoted (param 1 params) ++ ["INDEX"]);
             let '(c, m, _) := p in Ok (c, m, commandindex)) (seq_upto 1 (count catalogue operation))
  end.
Definition buildall_locationpointers (count : string -> string -> Z) (params : list string) : option (list (result (string * string * Z))) :=
  if (List.length params <? 1)%nat then None else Some (flat_map (fun m => runlsf_locationpointers count (sourced params m)) POINTERS).

(* ---- C *)
(* The files, what has been printed, and the commands that were handed on to catalogue programs. *)
Record world := { files : string -> bool; printed : list string; handed : list (list string) }.
Definition below (dir path : string) : bool := String.eqb path dir || prefix (dir ++ "/")%string path.
(* 12-21 *)
Definition clear (dir : string) (w : world) : world := {| files := fun p => files w p && negb (below dir p); printed := printed w; handed := handed w |}.
Inductive outcome := Going (w : world) | Exited (w : world).
(* one command: programs with wrong arguments and unknown commands do nothing but fail, which the script passes over *)
Definition execute (params : list string) (w : world) (c : list string) : outcome :=
  match c with
  | "python" :: "-m" :: "eumopps.catalogue.build" :: args =>
      match parse_build args with
      | Ok (_, catalogue) => Going {| files := fun p => String.eqb p catalogue || files w p; printed := printed w; handed := handed w |}
      | Err _ => Going w
      end
  | ["echo"; text] => Going {| files := files w; printed := printed w ++ [text]; handed := handed w |}
  | "source" :: script :: args =>
      (* without arguments a sourced script sees those of the script that sources it *)
      let seen := match args with [] => params | _ => args end in
      match (if String.eqb script "buildall_lookups.sh" then buildall_lookups seen else if String.eqb script "buildall_rawbinary.sh" then buildall_rawbinary seen else Some []) with
      | None => Exited w
      | Some cs => Going {| files := files w; printed := printed w; handed := handed w ++ cs |}
      end
  | _ => Going w
  end.
Fixpoint run_commands (params : list string) (w : world) (cs : list (list string)) : outcome :=
  match cs with
  | [] => Going w
  | c :: r => match execute params w c with Going w' => run_commands params w' r | Exited w' => Exited w' end
  end.
(* 28-65; lines without words are left out *)
Definition create_lines (dir : string) : list (list string) := [
  ["python"; "-m"; "eumopps.catalogue.build"; BACKSLASH];
  ["--pathdefault"; dir; BACKSLASH];
  ["#"; "--nochecksum"; BACKSLASH];
  ["#"; "--allow_unversioned_code"; BACKSLASH];
  ["rawbinary_inputs.json"; BACKSLASH];
  [(dir ++ "/catalogue.nc")%string];
  ["echo"; " --- "]; ["echo"; "Catalogue file created"]; ["echo"; " --- "];
  ["python"; "-m"; "eumopps.catalogue.build"; BACKSLASH];
  ["--pathdefault"; dir; BACKSLASH];
  ["#"; "--nochecksum"; BACKSLASH];
  ["#"; "--allow_unversioned_code"; BACKSLASH];
  ["--update"; BACKSLASH];
  ["rawbinary_generation.json"; BACKSLASH];
  [(dir ++ "/catalogue.nc")%string];
  ["echo"; " --- "]; ["echo"; "Updated the catalogue"]; ["echo"; " --- "];
  ["source"; "buildall_lookups.sh"; BACKSLASH];
  ["#"; "--allow_unversioned_code"; BACKSLASH];
  [(dir ++ "/catalogue.nc")%string];
  ["echo"; " --- "]; ["echo"; "Built lookups"]; ["echo"; " --- "];
  ["source"; "buildall_rawbinary.sh"; BACKSLASH];
  ["#"; "--allow_unversioned_code"; BACKSLASH];
  [(dir ++ "/catalogue.nc")%string];
  ["echo"; " --- "]; ["echo"; "Jobs sent to Cylc for building rawbinary files"]; ["echo"; " --- "]].
Definition create_rawbinary_files (lines : string -> list (list string)) (dir : string) (params : list string) (w : world) : outcome :=
  run_commands params (clear dir w) (shell (lines dir)).
