(* Properties of the scripts that build raw binary files: C182. *)
From Coq Require Import String Ascii Permutation.
From Verif Require Import Base Jobs_Model Rawjob_Model Rawjob_Spec.
Open Scope string_scope.
Open Scope list_scope.
Open Scope Z_scope.

(* ------------------------------------------------------------------ C182 *)

Lemma no_comment_false w : no_comment w -> comment w = false.
Proof. intros H. destruct w as [|c r]; [reflexivity|]. unfold comment, starts_with. apply Ascii.eqb_neq. intros ->. exact (H r eq_refl). Qed.
Lemma split_last_snoc ws : split_last (ws ++ [BACKSLASH]) = (ws, true).
Proof.
  induction ws as [|w r IH]; [reflexivity|]. cbn [app split_last]. destruct (r ++ [BACKSLASH]) eqn:E; [destruct r; discriminate E|]. rewrite <- E in *. now rewrite IH.
Qed.
Lemma split_last_whole l w : w <> BACKSLASH -> split_last (l ++ [w]) = (l ++ [w], false).
Proof.
  intros N. induction l as [|v r IH].
  - cbn [app split_last]. now rewrite (proj2 (String.eqb_neq _ _) N).
  - cbn [app split_last]. destruct (r ++ [w]) eqn:E; [destruct r; discriminate E|]. rewrite <- E in *. now rewrite IH.
Qed.
Lemma uncommented l : Forall no_comment l -> existsb comment l = false.
Proof. induction 1 as [|w r H F IH]; [reflexivity|]. cbn [existsb]. now rewrite no_comment_false. Qed.
Lemma scan_continued ws : Forall no_comment ws -> scan (ws ++ [BACKSLASH]) = (ws, true).
Proof.
  intros F. unfold scan. rewrite uncommented; [apply split_last_snoc|]. apply Forall_app. split; [exact F|]. constructor; [intros r; discriminate|constructor].
Qed.

(* Lines that end with a backslash make one command with the line after them. *)
Theorem C182_continued : forall (continued : list (list string)) l w rest, Forall (Forall no_comment) continued -> Forall no_comment (l ++ [w]) -> w <> BACKSLASH ->
  commands [] (map (fun ws => ws ++ [BACKSLASH]) continued ++ (l ++ [w]) :: rest) = (concat continued ++ l ++ [w]) :: commands [] rest.
Proof.
  intros continued l w rest F Fl N.
  enough (H : forall pending, commands pending (map (fun ws => ws ++ [BACKSLASH]) continued ++ (l ++ [w]) :: rest) = (pending ++ concat continued ++ l ++ [w]) :: commands [] rest) by exact (H []).
  induction F as [|c cs Fc F IH]; intros pending.
  - cbn [map app commands concat]. unfold scan. rewrite (uncommented _ Fl), split_last_whole by exact N. reflexivity.
  - cbn [map app commands concat]. rewrite scan_continued by exact Fc. rewrite IH. now rewrite <- !app_assoc.
Qed.
Print Assumptions C182_continued.
(* A line that is a comment ends the command of the lines before it, even if it ends with a backslash itself. *)
Theorem C182_comment : forall (continued : list (list string)) c cs rest, Forall (Forall no_comment) continued -> ~ no_comment c -> continued <> [] ->
  commands [] (map (fun ws => ws ++ [BACKSLASH]) continued ++ (c :: cs) :: rest) = concat continued :: commands [] rest.
Proof.
  intros continued c cs rest F N _.
  assert (C : comment c = true). { destruct c as [|a r]; [exfalso; apply N; intros r; discriminate|]. unfold comment, starts_with. destruct (Ascii.eqb_spec a "#") as [|Na]; [reflexivity|]. exfalso. apply N. intros r' [= E _]. contradiction. }
  enough (H : forall pending, commands pending (map (fun ws => ws ++ [BACKSLASH]) continued ++ (c :: cs) :: rest) = (pending ++ concat continued) :: commands [] rest) by exact (H []).
  induction F as [|x xs Fx F IH]; intros pending.
  - cbn [map app commands concat]. unfold scan. cbn [existsb before_comment]. rewrite C. cbn [orb]. reflexivity.
  - cbn [map app commands concat]. rewrite scan_continued by exact Fx. rewrite IH. now rewrite <- app_assoc.
Qed.
Print Assumptions C182_comment.
Example C182_comment_nonvacuous : commands [] [["build"; "-p"; BACKSLASH]; ["d"; BACKSLASH]; ["#"; "-n"; BACKSLASH]; ["in"; BACKSLASH]; ["out"]] = [["build"; "-p"; "d"]; ["in"; "out"]; []] /\
  commands [] [["build"; "-p"; BACKSLASH]; ["d"; BACKSLASH]; ["in"; BACKSLASH]; ["out"]] = [["build"; "-p"; "d"; "in"; "out"]; []].
Proof. split; reflexivity. Qed.

(* The script as shipped makes no catalogue: it removes the earlier results, whatever they are, says that the catalogue has been made, and
   called without arguments exits before any data is prepared. *)
Lemma shipped_commands d : shell (create_lines (String "/" d)) = [
  ["python"; "-m"; "eumopps.catalogue.build"; "--pathdefault"; String "/" d]; ["rawbinary_inputs.json"; (String "/" d ++ "/catalogue.nc")%string];
  ["echo"; " --- "]; ["echo"; "Catalogue file created"]; ["echo"; " --- "];
  ["python"; "-m"; "eumopps.catalogue.build"; "--pathdefault"; String "/" d]; ["--update"; "rawbinary_generation.json"; (String "/" d ++ "/catalogue.nc")%string];
  ["echo"; " --- "]; ["echo"; "Updated the catalogue"]; ["echo"; " --- "];
  ["source"; "buildall_lookups.sh"]; [(String "/" d ++ "/catalogue.nc")%string];
  ["echo"; " --- "]; ["echo"; "Built lookups"]; ["echo"; " --- "];
  ["source"; "buildall_rawbinary.sh"]; [(String "/" d ++ "/catalogue.nc")%string];
  ["echo"; " --- "]; ["echo"; "Jobs sent to Cylc for building rawbinary files"]; ["echo"; " --- "]].
Proof. reflexivity. Qed.
Definition says (w : world) (t : string) : world := {| files := files w; printed := printed w ++ [t]; handed := handed w |}.
Definition hands (w : world) (cs : list (list string)) : world := {| files := files w; printed := printed w; handed := handed w ++ cs |}.
Definition makes (w : world) (c : string) : world := {| files := fun p => String.eqb p c || files w p; printed := printed w; handed := handed w |}.
Lemma exec_echo params w t : execute params w ["echo"; t] = Going (says w t).
Proof. reflexivity. Qed.
Lemma exec_build params w args : execute params w ("python" :: "-m" :: "eumopps.catalogue.build" :: args) = match parse_build args with Ok (_, c) => Going (makes w c) | Err _ => Going w end.
Proof. reflexivity. Qed.
Lemma exec_lookups params w args : execute params w ("source" :: "buildall_lookups.sh" :: args) = match buildall_lookups (match args with [] => params | _ => args end) with Some cs => Going (hands w cs) | None => Exited w end.
Proof. reflexivity. Qed.
Lemma exec_rawbinary params w args : execute params w ("source" :: "buildall_rawbinary.sh" :: args) = match buildall_rawbinary (match args with [] => params | _ => args end) with Some cs => Going (hands w cs) | None => Exited w end.
Proof. reflexivity. Qed.
Lemma exec_slash params w s r : execute params w (String "/" s :: r) = Going w.
Proof. reflexivity. Qed.
Lemma exec_inputs params w r : execute params w ("rawbinary_inputs.json" :: r) = Going w.
Proof. reflexivity. Qed.
Lemma exec_update params w r : execute params w ("--update" :: r) = Going w.
Proof. reflexivity. Qed.
Lemma build_incomplete d : parse_build ["--pathdefault"; String "/" d] = Err ValueError.
Proof. reflexivity. Qed.
Ltac step := cbn [run_commands]; rewrite ?exec_echo, ?exec_build, ?exec_slash, ?exec_inputs, ?exec_update, ?build_incomplete.
Theorem C182_create_refuted : forall d params w, let dir := String "/" d in
  exists w', (create_rawbinary_files create_lines dir params w = Going w' \/ create_rawbinary_files create_lines dir params w = Exited w') /\
  (forall p, files w' p = files w p && negb (below dir p)) /\ In "Catalogue file created" (printed w') /\ In "Updated the catalogue" (printed w') /\
  (params = [] -> create_rawbinary_files create_lines dir params w = Exited w' /\ handed w' = handed w).
Proof.
  intros d params w dir. unfold create_rawbinary_files, dir. rewrite shipped_commands. set (name := (String "/" d ++ "/catalogue.nc")%string).
  assert (N : forall v r, execute params v (name :: r) = Going v) by (intros v r; apply exec_slash).
  do 10 step. cbn [run_commands]. rewrite exec_lookups. destruct params as [|c r].
  - eexists. split; [right; reflexivity|]. split; [reflexivity|]. cbn [says printed clear]. split; [rewrite !in_app_iff; cbn; tauto|]. split; [rewrite !in_app_iff; cbn; tauto|].
    intros _. split; reflexivity.
  - change (buildall_lookups (c :: r)) with (Some (map (fun m => unquoted (param 1 (c :: r)) ++ unquoted (param 0 (c :: r)) ++ [m; "0"]) LOOKUPS)). cbn beta iota.
    cbn [run_commands]. rewrite N. do 3 step. cbn [run_commands]. rewrite exec_rawbinary. change (buildall_rawbinary (c :: r)) with (Some (map (sourced (c :: r)) RAWBINARY)). cbn beta iota.
    cbn [run_commands]. rewrite N. do 3 step.
    eexists. split; [left; reflexivity|]. split; [reflexivity|]. cbn [says hands printed clear]. split; [rewrite !in_app_iff; cbn; tauto|]. split; [rewrite !in_app_iff; cbn; tauto|]. intros E. discriminate E.
Qed.
Print Assumptions C182_create_refuted.

(* Without the lines of comment it makes the catalogue and hands every operation on, each once. *)
Theorem C182_create_intended : forall d params w, let dir := String "/" d in let catalogue := (dir ++ "/catalogue.nc")%string in
  exists w' lookups jobs, create_rawbinary_files (fun dir => without_comment_lines (create_lines dir)) dir params w = Going w' /\
  files w' catalogue = true /\ (forall p, p <> catalogue -> files w' p = files w p && negb (below dir p)) /\
  handed w' = handed w ++ lookups ++ jobs /\
  map parse_commandrun lookups = map (fun m => Ok (catalogue, m, "0")) LOOKUPS /\ jobs = map (fun m => [catalogue; m]) RAWBINARY /\
  Permutation (LOOKUPS ++ RAWBINARY) GENERATED /\ NoDup GENERATED.
Proof.
  intros d params w dir catalogue. unfold create_rawbinary_files.
  assert (E : shell (without_comment_lines (create_lines dir)) = [
    ["python"; "-m"; "eumopps.catalogue.build"; "--pathdefault"; dir; "rawbinary_inputs.json"; catalogue];
    ["echo"; " --- "]; ["echo"; "Catalogue file created"]; ["echo"; " --- "];
    ["python"; "-m"; "eumopps.catalogue.build"; "--pathdefault"; dir; "--update"; "rawbinary_generation.json"; catalogue];
    ["echo"; " --- "]; ["echo"; "Updated the catalogue"]; ["echo"; " --- "];
    ["source"; "buildall_lookups.sh"; catalogue]; ["echo"; " --- "]; ["echo"; "Built lookups"]; ["echo"; " --- "];
    ["source"; "buildall_rawbinary.sh"; catalogue]; ["echo"; " --- "]; ["echo"; "Jobs sent to Cylc for building rawbinary files"]; ["echo"; " --- "]]) by reflexivity.
  rewrite E. clear E. assert (Pc : plain_name catalogue) by (split; [discriminate | intros r; discriminate]).
  assert (B1 : parse_build ["--pathdefault"; dir; "rawbinary_inputs.json"; catalogue] = Ok ("rawbinary_inputs.json", catalogue)) by reflexivity.
  assert (B2 : parse_build ["--pathdefault"; dir; "--update"; "rawbinary_generation.json"; catalogue] = Ok ("rawbinary_generation.json", catalogue)) by reflexivity.
  step. rewrite B1. do 3 step. step. rewrite B2. do 3 step. cbn [run_commands]. rewrite exec_lookups.
  change (buildall_lookups [catalogue]) with (Some (map (fun m => [catalogue; m; "0"]) LOOKUPS)). cbn beta iota. do 3 step. cbn [run_commands]. rewrite exec_rawbinary.
  change (buildall_rawbinary [catalogue]) with (Some (map (fun m => [catalogue; m]) RAWBINARY)). cbn beta iota. do 3 step.
  exists (says (says (says (hands (says (says (says (hands (says (says (says (makes (says (says (says (makes (clear dir w) catalogue) " --- ") "Catalogue file created") " --- ") catalogue) " --- ") "Updated the catalogue") " --- ")
    (map (fun m => [catalogue; m; "0"]) LOOKUPS)) " --- ") "Built lookups") " --- ") (map (fun m => [catalogue; m]) RAWBINARY)) " --- ") "Jobs sent to Cylc for building rawbinary files") " --- "),
    (map (fun m => [catalogue; m; "0"]) LOOKUPS), (map (fun m => [catalogue; m]) RAWBINARY).
  split; [reflexivity|]. cbn [files handed clear says makes hands]. split; [now rewrite String.eqb_refl|]. split.
  { intros p N. rewrite (proj2 (String.eqb_neq _ _) N). cbn [orb]. reflexivity. }
  split; [rewrite <- app_assoc; reflexivity|]. split; [reflexivity|]. split; [reflexivity|]. split.
  - unfold LOOKUPS, RAWBINARY, GENERATED. do 9 apply perm_skip. apply perm_swap.
  - unfold GENERATED. repeat (apply NoDup_cons; [cbn; intros H; repeat (destruct H as [H|H]; [discriminate H|]); exact H|]). apply NoDup_nil.
Qed.
Print Assumptions C182_create_intended.

(* The scripts on their own: for any catalogue, every operation is run on that catalogue, in whichever order the option is given. *)
Lemma plain_not s o : plain_name s -> existsb (String.eqb s) (map (String "-") o) = false /\ starts_with "-" s = false.
Proof.
  intros [_ H]. split.
  - induction o as [|x r IH]; [reflexivity|]. cbn [map existsb]. rewrite IH, orb_false_r. apply String.eqb_neq, H.
  - destruct s as [|c r]; [reflexivity|]. cbn [starts_with]. apply Ascii.eqb_neq. intros ->. exact (H r eq_refl).
Qed.
Lemma plain_unquoted s : plain_name s -> unquoted s = [s].
Proof. intros [H _]. unfold unquoted. now rewrite (proj2 (String.eqb_neq _ _) H). Qed.
Lemma parse_positional valued flags a r : plain_name a -> parse (map (String "-") valued) (map (String "-") flags) (a :: r) =
  (do p <- parse (map (String "-") valued) (map (String "-") flags) r; let '(o, f, pos) := p in Ok (o, f, a :: pos)).
Proof.
  intros H. cbn [parse]. rewrite (proj1 (plain_not a valued H)), (proj1 (plain_not a flags H)), (proj2 (plain_not a [] H)). reflexivity.
Qed.
Lemma commandrun_parsed catalogue m i option : plain_name catalogue -> plain_name m -> plain_name i -> In option [""; "--allow_unversioned_code"] ->
  parse_commandrun (unquoted option ++ [catalogue; m; i]) = Ok (catalogue, m, i) /\ parse_commandrun ([catalogue] ++ unquoted option ++ [m; i]) = Ok (catalogue, m, i).
Proof.
  intros Hc Hm Hi I. unfold parse_commandrun.
  change ["--use_batch_size"; "--batch"] with (map (String "-") ["-use_batch_size"; "-batch"]). change ["--justlist"; "--list"; "--allow_unversioned_code"] with (map (String "-") ["-justlist"; "-list"; "-allow_unversioned_code"]).
  assert (P2 : parse (map (String "-") ["-use_batch_size"; "-batch"]) (map (String "-") ["-justlist"; "-list"; "-allow_unversioned_code"]) [m; i] = Ok ([], [], [m; i])).
  { rewrite parse_positional by assumption. rewrite parse_positional by assumption. reflexivity. }
  assert (FL : forall r, parse (map (String "-") ["-use_batch_size"; "-batch"]) (map (String "-") ["-justlist"; "-list"; "-allow_unversioned_code"]) ("--allow_unversioned_code" :: r) =
    (do p <- parse (map (String "-") ["-use_batch_size"; "-batch"]) (map (String "-") ["-justlist"; "-list"; "-allow_unversioned_code"]) r; let '(o, f, pos) := p in Ok (o, "--allow_unversioned_code" :: f, pos))) by (intros r; reflexivity).
  destruct I as [<-|[<-|[]]].
  - change (unquoted "") with (@nil string). cbn [app]. rewrite parse_positional, P2 by assumption. split; reflexivity.
  - change (unquoted "--allow_unversioned_code") with ["--allow_unversioned_code"]. cbn [app]. split.
    + rewrite FL, parse_positional, P2 by assumption. reflexivity.
    + rewrite parse_positional by assumption. rewrite FL, P2. reflexivity.
Qed.
Lemma modules_plain m : In m (LOOKUPS ++ RAWBINARY ++ POINTERS) -> plain_name m.
Proof. intros I. cbn in I. repeat (destruct I as [<-|I]; [split; [discriminate | intros r; discriminate]|]). destruct I. Qed.
Theorem C182_lookups : forall catalogue params, plain_name catalogue ->
  In params [[catalogue]; [catalogue; "--allow_unversioned_code"]; ["--allow_unversioned_code"; catalogue]] ->
  exists cs, buildall_lookups params = Some cs /\ map parse_commandrun cs = map (fun m => Ok (catalogue, m, "0")) LOOKUPS.
Proof.
  intros catalogue params H I. eexists. assert (Z : plain_name "0") by (split; [discriminate | intros r; discriminate]).
  assert (G : forall a b, ((a = catalogue /\ In b [""; "--allow_unversioned_code"]) \/ (b = catalogue /\ In a [""; "--allow_unversioned_code"])) ->
    map parse_commandrun (map (fun m => unquoted b ++ unquoted a ++ [m; "0"]) LOOKUPS) = map (fun m => Ok (catalogue, m, "0")) LOOKUPS).
  { intros a b D. rewrite map_map. apply map_ext_in. intros m Im. pose proof (modules_plain m ltac:(apply in_app_iff; now left)) as Hm.
    destruct D as [[-> D]|[-> D]]; rewrite (plain_unquoted catalogue H); [exact (proj1 (commandrun_parsed catalogue m "0" b H Hm Z D)) | exact (proj2 (commandrun_parsed catalogue m "0" a H Hm Z D))]. }
  destruct I as [<-|[<-|[<-|[]]]]; (split; [reflexivity|]); apply G; cbn; tauto.
Qed.
Print Assumptions C182_lookups.

(* Location pointers: every command of every operation is run once, on that catalogue, for any numbers of commands. *)
Lemma shifted n : map (fun j => j - 1) (seq_upto 1 n) = zrange 0 n.
Proof.
  unfold seq_upto, zrange. replace (Z.to_nat (n + 1 - 1)) with (Z.to_nat (n - 0)) by lia. rewrite map_map. apply map_ext. intros k. lia.
Qed.
Lemma flat_map_on {A B} (f g : A -> list B) l : (forall x, In x l -> f x = g x) -> flat_map f l = flat_map g l.
Proof. induction l as [|x r IH]; intros H; [reflexivity|]. cbn [flat_map]. rewrite (H x (or_introl eq_refl)), IH; [reflexivity|]. intros y I. apply H. now right. Qed.
Theorem C182_pointers : forall count catalogue params, plain_name catalogue -> In params [[catalogue]; [catalogue; "--allow_unversioned_code"]] ->
  buildall_locationpointers count params = Some (flat_map (fun m => map (fun i => Ok (catalogue, m, i)) (zrange 0 (count catalogue m))) POINTERS_GENERATED).
Proof.
  intros count catalogue params H I. assert (X : plain_name "INDEX") by (split; [discriminate | intros r; discriminate]).
  assert (G : forall option, In option [""; "--allow_unversioned_code"] -> param 0 params = catalogue -> param 1 params = option ->
    flat_map (fun m => runlsf_locationpointers count (sourced params m)) POINTERS = flat_map (fun m => map (fun i => Ok (catalogue, m, i)) (zrange 0 (count catalogue m))) POINTERS_GENERATED).
  { intros option Io E0 E1. change POINTERS_GENERATED with POINTERS. apply flat_map_on. intros m Im. pose proof (modules_plain m ltac:(rewrite !in_app_iff; tauto)) as Hm.
    unfold sourced. rewrite E0, E1, (plain_unquoted catalogue H). cbn [app].
    assert (C : parse_commandcount [catalogue; m] = Ok (catalogue, m)).
    { unfold parse_commandcount. change (parse ["--batchsize"] [] [catalogue; m]) with (parse (map (String "-") ["-batchsize"]) (map (String "-") []) [catalogue; m]).
      rewrite parse_positional by assumption. rewrite parse_positional by assumption. reflexivity. }
    assert (U : runlsf_locationpointers count (catalogue :: m :: unquoted option) = map (fun jobindex => do p <- parse_commandrun (unquoted option ++ [catalogue; m; "INDEX"]); let '(c, m0, _) := p in Ok (c, m0, jobindex - 1)) (seq_upto 1 (count catalogue m))).
    { unfold runlsf_locationpointers, param. cbn [List.length nth]. change (S (S (List.length (unquoted option))) <? 2)%nat with false. rewrite (plain_unquoted catalogue H), (plain_unquoted m Hm). cbn [app]. rewrite C.
      destruct Io as [<-|[<-|[]]]; reflexivity. }
    rewrite U, (proj1 (commandrun_parsed catalogue m "INDEX" option H Hm X Io)). rewrite <- shifted, map_map. reflexivity. }
  unfold buildall_locationpointers. destruct I as [<-|[<-|[]]]; cbn [List.length Nat.ltb Nat.leb]; f_equal; [apply (G "") | apply (G "--allow_unversioned_code")]; cbn; tauto.
Qed.
Print Assumptions C182_pointers.
(* With the option first, which serves for the lookups, nothing at all is submitted for the location pointers, and nothing is said. *)
Theorem C182_option_refuted : forall count catalogue, buildall_locationpointers count ["--allow_unversioned_code"; catalogue] = Some [].
Proof.
  intros count catalogue. reflexivity.
Qed.
Print Assumptions C182_option_refuted.
Theorem C182_usage : forall count, buildall_lookups [] = None /\ buildall_rawbinary [] = None /\ buildall_locationpointers count [] = None.
Proof. intros count. repeat split. Qed.
Print Assumptions C182_usage.
Example C182_nonvacuous : plain_name "/work/scratch/rawbinary/catalogue.nc" /\
  List.length (match buildall_locationpointers (fun _ _ => 3) ["/work/scratch/rawbinary/catalogue.nc"] with Some l => l | None => [] end) = 24%nat.
Proof. split; [split; [discriminate | intros r; discriminate] | vm_compute; reflexivity]. Qed.
