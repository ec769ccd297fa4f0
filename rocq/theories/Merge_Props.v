(* Theorems about the merge of files of several sources: C56, C57 and C93-C96. *)
From Coq Require Import QArith Qcanon Ascii String.
From Verif Require Import Base Grid_Model Grid_Proofs Merge_Model Merge_Spec Merge_Proofs.
Local Open Scope Z_scope.
Local Open Scope list_scope.

(* ------------------------------------------------------------------ C56 *)
(* When each source has both of its files or neither: what is left are the files of the sources that have them, in order, their number is
   added, and every list of correlations keeps exactly those of pairs of remaining sources, in the order of the pairs. *)
Theorem C56_sources : forall isfile (m a : list path) n0 rs, zlen m = zlen a -> (forall i, present isfile (nth i m None) = present isfile (nth i a None)) ->
  let kept := remaining isfile m in
  clean_list_of_outputs_to_merge isfile m a n0 (map (fun r => listed r (zrange 0 (zlen m))) rs) =
  Ok (map (fun i => nth (Z.to_nat i) m None) kept, map (fun i => nth (Z.to_nat i) a None) kept, n0 + zlen kept, map (fun r => listed r kept) rs).
Proof.
  intros isfile m a n0 rs L A kept. assert (R : remaining isfile a = kept) by (unfold kept, remaining; rewrite L; apply filter_ext; intros i; symmetry; apply A).
  rewrite clean_spec; [rewrite (filter_remaining isfile m), (filter_remaining isfile a), R; reflexivity|exact L|]. rewrite (filter_remaining isfile m), (filter_remaining isfile a), R, !zlen_map. reflexivity.
Qed.
Print Assumptions C56_sources.
Definition ex_isfile (n : string) : bool := negb (String.eqb n "b").
Definition ex_r (i j : Z) : Qc := (qz (10 * i + j))%Qc.
Example C56_sources_nonvacuous :
  (forall i, present ex_isfile (nth i [Some "a"%string; Some "b"%string; Some "c"%string; Some "d"%string] None) = present ex_isfile (nth i [Some "e"%string; None; Some "f"%string; Some "g"%string] None)) /\
  listed ex_r (zrange 0 4) = [qz 1; qz 2; qz 3; qz 12; qz 13; qz 23] /\
  clean_list_of_outputs_to_merge ex_isfile [Some "a"%string; Some "b"%string; Some "c"%string; Some "d"%string] [Some "e"%string; None; Some "f"%string; Some "g"%string] 0 [[qz 1; qz 2; qz 3; qz 12; qz 13; qz 23]] =
  Ok ([Some "a"%string; Some "c"%string; Some "d"%string], [Some "e"%string; Some "f"%string; Some "g"%string], 3, [[qz 2; qz 3; qz 23]]).
Proof. split; [intros [|[|[|[|[|i]]]]]; reflexivity|]. split; vm_compute; reflexivity. Qed.

(* Different numbers of files, or of files that exist, are reported. *)
Theorem C56_mismatch : forall isfile (m a : list path) n0 corr, zlen m <> zlen a \/ zlen (filter (present isfile) m) <> zlen (filter (present isfile) a) -> clean_list_of_outputs_to_merge isfile m a n0 corr = Err ValueError.
Proof. exact clean_mismatch. Qed.
Print Assumptions C56_mismatch.
Example C56_mismatch_nonvacuous : zlen (filter (present ex_isfile) [Some "a"%string; Some "b"%string]) <> zlen (filter (present ex_isfile) [Some "c"%string; Some "d"%string]).
Proof. vm_compute. discriminate. Qed.

(* The lists that are kept have the length the merge of that number of sources asks for. *)
Theorem C56_length : forall isfile (m : list path) (r : Z -> Z -> Qc), let k := zlen (remaining isfile m) in 2 * zlen (listed r (remaining isfile m)) = k * (k - 1).
Proof. intros isfile m r k. unfold listed. rewrite zlen_map. apply pairs_length. Qed.
Print Assumptions C56_length.
Example C56_length_nonvacuous : zlen (remaining ex_isfile [Some "a"%string; Some "b"%string; Some "c"%string; Some "d"%string]) = 3.
Proof. vm_compute. reflexivity. Qed.

(* The day is then merged from the files of those sources, with their correlations; without any nothing is done. *)
Theorem C56_day : forall d s (m a : list path) rs, let isfile n := match s n with None => false | Some _ => true end in let kept := remaining isfile m in
  zlen m = zlen a -> (forall i, present isfile (nth i m None) = present isfile (nth i a None)) -> length (ancillary_fields d) = length rs ->
  exists m' a', map Some m' = map (fun i => nth (Z.to_nat i) m None) kept /\ map Some a' = map (fun i => nth (Z.to_nat i) a None) kept /\
    merge_single_day_outputs d (map (fun r => listed r (zrange 0 (zlen m))) rs) s m a = if zlen kept =? 0 then Ok [] else merge_outputs_from_single_day d (map (fun r => listed r kept) rs) s m' a'.
Proof.
  intros d s m a rs isfile kept L A LA. assert (R : remaining isfile a = kept) by (unfold kept, remaining; rewrite L; apply filter_ext; intros i; symmetry; apply A).
  destruct (present_names isfile m) as (m' & EM). destruct (present_names isfile a) as (a' & EA). assert (EM' : map Some m' = map (fun i => nth (Z.to_nat i) m None) kept) by (rewrite <- EM; apply filter_remaining). assert (EA' : map Some a' = map (fun i => nth (Z.to_nat i) a None) kept) by (rewrite <- EA, <- R; apply filter_remaining).
  exists m', a'. split; [exact EM'|]. split; [exact EA'|]. unfold merge_single_day_outputs. pose proof (C56_sources isfile m a 0 rs L A) as C. cbv zeta in C. fold kept in C. rewrite <- EM', <- EA', Z.add_0_l in C. fold isfile. rewrite C. cbn [bind]. destruct (zlen kept =? 0); [reflexivity|]. rewrite !unwrap. cbn [bind].
  assert (LM : zlen m' = zlen kept) by (rewrite <- (zlen_map (@Some string) m'), <- EM, filter_remaining, zlen_map; reflexivity). assert (LA' : zlen a' = zlen kept) by (rewrite <- (zlen_map (@Some string) a'), <- EA, filter_remaining, R, zlen_map; reflexivity).
  rewrite LM, LA', Z.eqb_refl. cbn [negb orb]. rewrite map_length, LA, Nat.eqb_refl. reflexivity.
Qed.
Print Assumptions C56_day.
Definition ex_s0 : store := fun n => if String.eqb n "a" || String.eqb n "c" then Some {| day := 1; comment := ""; variables := [] |} else None.
Example C56_day_nonvacuous : remaining (fun n => match ex_s0 n with None => false | Some _ => true end) [None; Some "a"%string; Some "b"%string] = [1] /\
  forall i, present (fun n => match ex_s0 n with None => false | Some _ => true end) (nth i [None; Some "a"%string; Some "b"%string] None) = present (fun n => match ex_s0 n with None => false | Some _ => true end) (nth i [None; Some "c"%string; Some "d"%string] None).
Proof. split; [vm_compute; reflexivity|]. intros [|[|[|i]]]; try reflexivity. Qed.

(* Only numbers are compared: when one source lacks its primary file and another its ancillary file, files of different sources are paired. *)
Theorem C56_pairing_refuted : ~ forall isfile (m a : list path) n0 corr m' a' n' corr', zlen m = zlen a -> clean_list_of_outputs_to_merge isfile m a n0 corr = Ok (m', a', n', corr') ->
  forall j p q, nth_error m' j = Some p -> nth_error a' j = Some q -> exists i, nth_error m i = Some p /\ nth_error a i = Some q.
Proof.
  intros H. specialize (H (fun n => negb (String.eqb n "m1" || String.eqb n "a2")) [Some "m1"%string; Some "m2"%string] [Some "a1"%string; Some "a2"%string] 0 [] [Some "m2"%string] [Some "a1"%string] 1 [] eq_refl eq_refl 0%nat (Some "m2"%string) (Some "a1"%string) eq_refl eq_refl).
  destruct H as ([|[|[|i]]] & A & B); cbn in *; congruence.
Qed.
Print Assumptions C56_pairing_refuted.

(* ------------------------------------------------------------------ C57 *)
(* The merged uncertainty of a cell is the square root of the variance of the sum of the errors of the sources that have a value there, with the
   given correlations, over their number; it is missing, and masked, when no source has one.  (A negative variance, possible only when the
   numbers given are not correlations, gives a missing value.) *)
Theorem C57_formula : forall n r fields, fields <> [] -> Forall (well_masked n) fields -> alike fields ->
  exists g, propagated_field (listed r (zrange 0 (zlen fields))) fields = Ok g /\ length (cells g) = n /\ ufill g = fill (source fields 0) /\
  forall k, (k < n)%nat -> (masked (umask g) k = true <-> contributors fields k = []) /\
    nth_error (cells g) k = Some (let v := variance_of_sum (correlation r) (value fields k) (contributors fields k) in
      if masked (umask g) k then Filled else if Qclt_bool v 0%Qc then Filled else Root v (zlen (contributors fields k))).
Proof. exact propagated_spec. Qed.
Print Assumptions C57_formula.
Definition ex_f1 : field := {| data := [qz 3; qz (-9); qz 1; qz (-9)]; mask := Some [false; true; false; true]; fill := qz (-9) |}.
Definition ex_f2 : field := {| data := [qz 4; qz 5; qz (-9); qz (-9)]; mask := Some [false; false; true; true]; fill := qz (-9) |}.
Definition ex_f3 : field := {| data := [qz 1; qz 2; qz 3; qz 4]; mask := None; fill := qz (-9) |}.
Lemma ex_well f : f = ex_f1 \/ f = ex_f2 \/ f = ex_f3 -> well_masked 4 f.
Proof. intros [-> | [-> | ->]]; (split; [reflexivity|]; split; [intros m E; inversion E; reflexivity|]; intros [|[|[|[|k]]]] K; try lia; vm_compute; split; intros E; (discriminate || reflexivity)). Qed.
Example C57_formula_nonvacuous : Forall (well_masked 4) [ex_f1; ex_f2] /\ alike [ex_f1; ex_f2] /\
  propagated_field [qz 1] [ex_f1; ex_f2] = Ok {| cells := [Root (qz 49) 2; Root (qz 25) 1; Root (qz 1) 1; Filled]; umask := Some [false; false; false; true]; ufill := qz (-9) |}.
Proof. split; [repeat constructor; apply ex_well; auto|]. split; [right; intros f [<-|[<-|[]]]; discriminate|]. vm_compute. reflexivity. Qed.

(* Every list of the right length is a list of correlations of pairs, and only such lists are accepted. *)
Theorem C57_every_list : forall n sub, 0 <= n -> 2 * zlen sub = n * (n - 1) -> exists r, sub = listed r (zrange 0 n).
Proof. intros n sub N L. apply listed_every; [apply zrange_NoDup|]. rewrite zlen_zrange by lia. rewrite Z.sub_0_r. exact L. Qed.
Print Assumptions C57_every_list.
Example C57_every_list_nonvacuous : 2 * zlen [qz 1; qz 2; qz 3] = 3 * (3 - 1). Proof. reflexivity. Qed.
Theorem C57_wrong_number : forall sub fields, 2 * zlen sub <> zlen fields * (zlen fields - 1) -> propagated_field sub fields = Err ValueError.
Proof. exact propagated_wrong. Qed.
Print Assumptions C57_wrong_number.
Example C57_wrong_number_nonvacuous : 2 * zlen [qz 1; qz 2] <> zlen [ex_f1; ex_f2] * (zlen [ex_f1; ex_f2] - 1). Proof. vm_compute. discriminate. Qed.

(* For correlations between 0 and 1 and uncertainties that are not negative, it lies between the values for independent and for fully
   correlated errors, in particular it is not missing. *)
Theorem C57_bounds : forall r fields k, (forall i j, (0 <= r i j)%Qc /\ (r i j <= 1)%Qc) -> (forall f v, In f fields -> datum f k = Some v -> (0 <= v)%Qc) ->
  let l := contributors fields k in let v := variance_of_sum (correlation r) (value fields k) l in
  (sumQ (map (fun i => value fields k i * value fields k i) l) <= v)%Qc /\ (v <= sumQ (map (value fields k) l) * sumQ (map (value fields k) l))%Qc /\ Qclt_bool v 0%Qc = false.
Proof.
  intros r fields k HR HV l v. destruct (variance_bounds r (value fields k) l (contributors_NoDup fields k)) as [A B]; [intros; apply HR|intros; apply value_nonneg; exact HV|]. split; [exact A|]. split; [exact B|].
  apply Qclt_bool_false. eapply Qcle_trans; [|exact A]. apply sumQ_nonneg. intros i _. apply Win_Proofs.nonneg_mult; apply value_nonneg; exact HV.
Qed.
Print Assumptions C57_bounds.
Example C57_bounds_nonvacuous : variance_of_sum (correlation (fun _ _ => Q2Qc (1 # 2))) (value [ex_f1; ex_f2] 0) (contributors [ex_f1; ex_f2] 0) = qz 37. Proof. vm_compute. reflexivity. Qed.

(* Independent errors: the root of the sum of the squares. *)
Theorem C57_independent : forall fields k, let l := contributors fields k in variance_of_sum (correlation (fun _ _ => 0%Qc)) (value fields k) l = sumQ (map (fun i => value fields k i * value fields k i)%Qc l).
Proof.
  intros fields k l. unfold variance_of_sum. assert (ND : NoDup l) by apply contributors_NoDup. apply sumQ_ext_in. intros i I. destruct (in_split i l I) as (l1 & l2 & E). rewrite E in ND |- *. rewrite map_app. cbn [map]. rewrite sumQ_app, sumQ_cons.
  assert (Z0 : forall l', ~ In i l' -> sumQ (map (fun j => correlation (fun _ _ => 0%Qc) i j * value fields k i * value fields k j)%Qc l') = 0%Qc).
  { intros l' NI. transitivity (sumQ (map (fun _ : Z => 0%Qc) l')); [|apply sumQ_zeros]. apply sumQ_ext_in. intros j J. unfold correlation. destruct (Z.eqb_spec i j) as [->|D]; [contradiction|]. destruct (i <? j); ring. }
  apply NoDup_remove_2 in ND. rewrite !Z0 by (intros J; apply ND; apply in_or_app; auto). unfold correlation. rewrite Z.eqb_refl. ring.
Qed.
Print Assumptions C57_independent.
Example C57_independent_nonvacuous : contributors [ex_f1; ex_f2] 0 = [0; 1] /\ contributors [ex_f1; ex_f2] 1 = [1]. Proof. split; vm_compute; reflexivity. Qed.

(* After missing sources were dropped, the correlations used for the files that remain are those of the sources they come from. *)
Theorem C57_after_missing : forall r kept, listed r kept = listed (fun a b => r (nth (Z.to_nat a) kept 0) (nth (Z.to_nat b) kept 0)) (zrange 0 (zlen kept)).
Proof. exact listed_renumber. Qed.
Print Assumptions C57_after_missing.
Example C57_after_missing_nonvacuous : listed ex_r [0; 2; 3] = [qz 2; qz 3; qz 23]. Proof. vm_compute. reflexivity. Qed.

(* ------------------------------------------------------------------ C93 *)
(* The merged field has in every cell the mean of the sources that have a value there, and is masked exactly where none has. *)
Theorem C93_mean : forall n fields, fields <> [] -> Forall (well_masked n) fields -> exists g, mean_field fields = Ok g /\ length (data g) = n /\ fill g = fill (source fields 0) /\
  forall k, (k < n)%nat -> (masked (mask g) k = true <-> contributors fields k = []) /\
    nth_error (data g) k = Some (if masked (mask g) k then fill g else sumQ (map (value fields k) (contributors fields k)) / qz (zlen (contributors fields k)))%Qc.
Proof. exact mean_spec. Qed.
Print Assumptions C93_mean.
Example C93_mean_nonvacuous : Forall (well_masked 4) [ex_f1; ex_f2] /\ mean_field [ex_f1; ex_f2] = Ok {| data := [Q2Qc (7 # 2); qz 5; qz 1; qz (-9)]; mask := Some [false; false; false; true]; fill := qz (-9) |}.
Proof. split; [repeat constructor; apply ex_well; auto|]. vm_compute. reflexivity. Qed.

(* The mean also merges a field in which no cell is masked with one in which some are; the uncertainties of such fields cannot be merged: the
   numbers of sources cannot be counted, and the day fails. *)
Theorem C93_mixed_masks_refuted : forall n sub fields, Forall (well_masked n) fields -> ~ alike fields -> (exists g, mean_field fields = Ok g) /\ propagated_field sub fields = Err ValueError.
Proof.
  intros n sub fields W NA. split; [|apply (propagated_not_alike n); assumption]. destruct (mean_spec n fields) as (g & E & _); [intros ->; apply NA; left; intros f []|exact W|]. exists g. exact E.
Qed.
Print Assumptions C93_mixed_masks_refuted.
Example C93_mixed_masks_refuted_nonvacuous : Forall (well_masked 4) [ex_f3; ex_f1] /\ ~ alike [ex_f3; ex_f1].
Proof.
  split; [repeat constructor; apply ex_well; auto|].
  - intros [H|H]; [discriminate (H ex_f1 (or_intror (or_introl eq_refl)))|apply (H ex_f3 (or_introl eq_refl)); reflexivity].
Qed.

(* ------------------------------------------------------------------ C94 *)
(* The files are divided among the days without overlap or gap, each day getting as many as it has sources. *)
Theorem C94_days : forall {A} (l : list A) sources, Forall (fun d => 0 <= d) sources -> fold_right Z.add 0 sources = zlen l -> map zlen (daily_slices l sources) = sources /\ concat (daily_slices l sources) = l.
Proof. exact @slices_spec. Qed.
Print Assumptions C94_days.
Example C94_days_nonvacuous : daily_slices [1; 2; 3; 4; 5; 6] [2; 0; 3; 1] = [[1; 2]; []; [3; 4; 5]; [6]]. Proof. reflexivity. Qed.

(* What is done for a day of several sources: two files are written, then the inputs are deleted.  The first has the mean of every primary
   field and the uncertainty of every primary uncertainty, for independent errors; the second the uncertainty of every ancillary field, with
   the correlations given for it, and the fields of every source under their own names; all inputs and outputs have one date. *)
Theorem C94_contents : forall d corr s primary anc ops labels,
  merge_outputs_from_single_day d corr s primary anc = Ok ops -> zlen primary <> 1 -> mapM source_label primary = Ok labels -> mapM source_label anc = Ok labels ->
  primary_fields d <> [] -> ancillary_fields d <> [] -> NoDup (output_names d labels) ->
  exists p0 a0 label F G, nth_error primary 0 = Some p0 /\ nth_error anc 0 = Some a0 /\ nth_error labels 0 = Some label /\
    ops = [Write (without_label label p0) F; Write (without_label label a0) G] ++ map Remove (primary ++ anc) /\
    (forall n c, In n (primary ++ anc) -> s n = Some c -> day F = day c /\ day G = day c) /\
    (forall n, In n (primary_fields d) -> In n (primary_variables d) -> exists fields g, fields_of s n primary fields /\ mean_field fields = Ok g /\ lookup n (variables F) = Some (Plain g)) /\
    (forall n, In n (primary_uncertainties d) -> In n (primary_variables d) -> exists fields g, fields_of s n primary fields /\ propagated_field (listed (fun _ _ => 0%Qc) (zrange 0 (zlen primary))) fields = Ok g /\ lookup n (variables F) = Some (Uncertain g)) /\
    (forall i n, nth_error (ancillary_fields d) i = Some n -> exists sub fields g, nth_error corr i = Some sub /\ fields_of s n anc fields /\ propagated_field sub fields = Ok g /\ lookup n (variables G) = Some (Uncertain g)) /\
    (forall f l n, In f primary -> source_label f = Ok l -> In n (primary_fields d ++ primary_uncertainties d) -> exists c v, s f = Some c /\ lookup n (variables c) = Some (Plain v) /\ lookup (n ++ "_" ++ l) (variables G) = Some (Plain v)) /\
    (forall f l n, In f anc -> source_label f = Ok l -> In n (ancillary_fields d) -> exists c v, s f = Some c /\ lookup n (variables c) = Some (Plain v) /\ lookup (n ++ "_" ++ l) (variables G) = Some (Plain v)).
Proof. exact merge_contents. Qed.
Print Assumptions C94_contents.
Definition ex_d : definitions := {| primary_fields := ["tas"%string]; primary_uncertainties := ["tasu"%string]; ancillary_fields := ["u1"%string; "u2"%string]; comment_prefix := "from "%string; primary_variables := ["tas"%string; "tasu"%string] |}.
Definition ex_p1 : string := "/data/tas_land_eustace_0_aqua_20150101.nc".
Definition ex_p2 : string := "/data/tas_land_eustace_0_terra_20150101.nc".
Definition ex_a1 : string := "/data/anc_land_eustace_0_aqua_20150101.nc".
Definition ex_a2 : string := "/data/anc_land_eustace_0_terra_20150101.nc".
Definition ex_s : store := fun n =>
  if String.eqb n ex_p1 then Some {| day := 60265; comment := ""; variables := [("tas"%string, Plain ex_f1); ("tasu"%string, Plain ex_f1)] |}
  else if String.eqb n ex_p2 then Some {| day := 60265; comment := ""; variables := [("tas"%string, Plain ex_f2); ("tasu"%string, Plain ex_f2)] |}
  else if String.eqb n ex_a1 then Some {| day := 60265; comment := ""; variables := [("u1"%string, Plain ex_f1); ("u2"%string, Plain ex_f1)] |}
  else if String.eqb n ex_a2 then Some {| day := 60265; comment := ""; variables := [("u1"%string, Plain ex_f2); ("u2"%string, Plain ex_f2)] |}
  else None.
Definition ex_corr : list (list Qc) := [[qz 1]; [Q2Qc (1 # 2)]].
Definition ok_of (r : result (list op)) : list op := match r with Ok l => l | Err _ => [] end.
Definition ex_ops : list op := ok_of (merge_outputs_from_single_day ex_d ex_corr ex_s [ex_p1; ex_p2] [ex_a1; ex_a2]).
Example C94_contents_nonvacuous : is_ok (merge_outputs_from_single_day ex_d ex_corr ex_s [ex_p1; ex_p2] [ex_a1; ex_a2]) = true /\
  mapM source_label [ex_p1; ex_p2] = Ok ["aqua"%string; "terra"%string] /\ mapM source_label [ex_a1; ex_a2] = Ok ["aqua"%string; "terra"%string] /\ NoDup (output_names ex_d ["aqua"%string; "terra"%string]) /\
  map (fun o => match o with Write n f => (n, map fst (variables f)) | Remove n => (n, []) | _ => (EmptyString, []) end) ex_ops =
  [("/data/tas_land_eustace_0_20150101.nc", ["tas"; "tasu"]); ("/data/anc_land_eustace_0_20150101.nc", ["u1"; "u2"; "tas_aqua"; "tas_terra"; "tasu_aqua"; "tasu_terra"; "u1_aqua"; "u1_terra"; "u2_aqua"; "u2_terra"]); (ex_p1, []); (ex_p2, []); (ex_a1, []); (ex_a2, [])]%string.
Proof. split; [vm_compute; reflexivity|]. split; [vm_compute; reflexivity|]. split; [vm_compute; reflexivity|]. split; [|vm_compute; reflexivity]. vm_compute. repeat constructor; intros I; repeat (destruct I as [I|I]; [discriminate I|]); destruct I. Qed.

(* ------------------------------------------------------------------ C95 *)
(* Wherever a merge of several sources is interrupted, all inputs are intact or both merged files are complete; no other file is touched. *)
Theorem C95_safe : forall d corr s primary anc ops s', merge_outputs_from_single_day d corr s primary anc = Ok ops -> zlen primary <> 1 -> interrupted s ops s' ->
  exists om F oa G, firstn 2 ops = [Write om F; Write oa G] /\
    (~ In om (primary ++ anc) -> ~ In oa (primary ++ anc) -> om <> oa ->
     ((forall n, In n (primary ++ anc) -> s' n = s n) \/ (s' om = Some F /\ s' oa = Some G)) /\ (forall n, n <> om -> n <> oa -> ~ In n (primary ++ anc) -> s' n = s n)).
Proof.
  intros d corr s primary anc ops s' E NZ (k & I). destruct (merge_ops _ _ _ _ _ _ E NZ) as (p0 & a0 & label & F & G & _ & _ & _ & ->). exists (without_label label p0), F, (without_label label a0), G. split; [reflexivity|]. intros A B D.
  destruct (merge_steps _ _ _ _ _ _ _ _ I A B D) as (S1 & S2 & S3). split; [|exact S3]. destruct (le_lt_dec 2 k) as [K|K]; [right; apply S2; exact K|left]. intros n N. rewrite (S1 n N). replace (k - 2)%nat with 0%nat by lia. reflexivity.
Qed.
Print Assumptions C95_safe.
Example C95_safe_nonvacuous : exists s', interrupted ex_s ex_ops s' /\ s' ex_p1 = None /\ s' ex_p2 <> None /\ s' "/data/anc_land_eustace_0_20150101.nc"%string <> None.
Proof. destruct (foldM exec ex_s (firstn 3 ex_ops)) as [s'|e] eqn:E; [|vm_compute in E; discriminate]. exists s'. split; [exists 3%nat; exact E|]. vm_compute in E. injection E as <-. split; [vm_compute; reflexivity|]. split; vm_compute; discriminate. Qed.

(* When it is not interrupted both merged files are there, the inputs are not, and running the same day again does nothing. *)
Theorem C95_finished : forall d rs s m a s', length m = length a -> (2 <= length m)%nat -> length (ancillary_fields d) = length rs -> (forall n, In n (m ++ a) -> s n <> None) ->
  let corr := map (fun r => listed r (zrange 0 (zlen m))) rs in
  forall ops, merge_single_day_outputs d corr s (map Some m) (map Some a) = Ok ops -> finished s ops s' ->
  exists om F oa G, firstn 2 ops = [Write om F; Write oa G] /\
    (~ In om (m ++ a) -> ~ In oa (m ++ a) -> om <> oa -> s' om = Some F /\ s' oa = Some G /\ (forall n, In n (m ++ a) -> s' n = None) /\ merge_single_day_outputs d corr s' (map Some m) (map Some a) = Ok []).
Proof.
  intros d rs s m a s' L L2 LA EX corr ops E FIN. unfold corr in *. rewrite day_existing in E; [|exact L|destruct m; [cbn in L2; lia|discriminate]|exact EX|exact LA].
  destruct (merge_ops _ _ _ _ _ _ E ltac:(unfold zlen; lia)) as (p0 & a0 & label & F & G & _ & _ & _ & ->). exists (without_label label p0), F, (without_label label a0), G. split; [reflexivity|]. intros A B D.
  unfold finished in FIN. rewrite <- (firstn_all ([Write (without_label label p0) F; Write (without_label label a0) G] ++ map Remove (m ++ a))) in FIN. rewrite app_length, map_length in FIN. cbn [length] in FIN.
  destruct (merge_steps _ _ _ _ _ _ _ _ FIN A B D) as (S1 & S2 & S3). destruct (S2 ltac:(lia)) as [X Y]. split; [exact X|]. split; [exact Y|].
  assert (N : forall n, In n (m ++ a) -> s' n = None). { intros n N. rewrite (S1 n N). replace (2 + length (m ++ a) - 2)%nat with (length (m ++ a)) by lia. rewrite firstn_all, existsb_In by exact N. reflexivity. }
  split; [exact N|]. apply day_nothing; assumption.
Qed.
Print Assumptions C95_finished.
Example C95_finished_nonvacuous : is_ok (merge_single_day_outputs ex_d ex_corr ex_s (map Some [ex_p1; ex_p2]) (map Some [ex_a1; ex_a2])) = true /\ is_ok (foldM exec ex_s ex_ops) = true /\ ex_corr = map (fun r => listed r (zrange 0 2)) [(fun _ _ => qz 1); (fun _ _ => Q2Qc (1 # 2))].
Proof. split; [vm_compute; reflexivity|]. split; vm_compute; reflexivity. Qed.

(* A merge interrupted while it deletes its inputs cannot be completed by running the day again: that fails although both merged files are
   complete, and does so for every such interruption. *)
Theorem C95_interrupted_rerun_refuted : forall d rs s m a, length m = length a -> (2 <= length m)%nat -> length (ancillary_fields d) = length rs -> NoDup (m ++ a) -> (forall n, In n (m ++ a) -> s n <> None) ->
  let corr := map (fun r => listed r (zrange 0 (zlen m))) rs in
  forall ops, merge_single_day_outputs d corr s (map Some m) (map Some a) = Ok ops ->
  exists om F oa G, firstn 2 ops = [Write om F; Write oa G] /\
    (~ In om (m ++ a) -> ~ In oa (m ++ a) -> om <> oa -> forall k s', (2 < k < length ops)%nat -> foldM exec s (firstn k ops) = Ok s' ->
     s' om = Some F /\ s' oa = Some G /\ merge_single_day_outputs d corr s' (map Some m) (map Some a) = Err ValueError).
Proof.
  intros d rs s m a L L2 LA ND EX corr ops E. unfold corr in *. rewrite day_existing in E; [|exact L|destruct m; [cbn in L2; lia|discriminate]|exact EX|exact LA].
  destruct (merge_ops _ _ _ _ _ _ E ltac:(unfold zlen; lia)) as (p0 & a0 & label & F & G & _ & _ & _ & ->). exists (without_label label p0), F, (without_label label a0), G. split; [reflexivity|]. intros A B D k s' K I.
  destruct (merge_steps _ _ _ _ _ _ _ _ I A B D) as (S1 & S2 & S3). destruct (S2 ltac:(lia)) as [X Y]. split; [exact X|]. split; [exact Y|]. apply (day_interrupted d _ s s' m a (k - 2)); try assumption. cbn [app length] in K. rewrite map_length in K. lia.
Qed.
Print Assumptions C95_interrupted_rerun_refuted.
Example C95_interrupted_rerun_refuted_nonvacuous : NoDup ([ex_p1; ex_p2] ++ [ex_a1; ex_a2]) /\ length ex_ops = 6%nat /\ is_ok (foldM exec ex_s (firstn 4 ex_ops)) = true.
Proof. split; [repeat constructor; intros I; repeat (destruct I as [I|I]; [discriminate I|]); destruct I|]. split; vm_compute; reflexivity. Qed.

(* A day of one source: at every moment each file is complete, under its old name or under the new one, and not under both. *)
Theorem C95_single_file : forall d corr s p a fp fa ops s', merge_outputs_from_single_day d corr s [p] [a] = Ok ops -> s p = Some fp -> s a = Some fa -> interrupted s ops s' ->
  exists label, source_label p = Ok label /\
    let p' := without_label label p in let a' := without_label label a in
    (p <> a -> p' <> p -> p' <> a -> a' <> p -> a' <> a -> a' <> p' ->
     ((same_data fp (s' p) /\ s' p' = s p') \/ (s' p = None /\ same_data fp (s' p'))) /\ ((same_data fa (s' a) /\ s' a' = s a') \/ (s' a = None /\ same_data fa (s' a'))) /\
     (forall n, ~ In n [p; a; p'; a'] -> s' n = s n)).
Proof.
  intros d corr s p a fp fa ops s' E SP SA (k & I). change (merge_outputs_from_single_day d corr s [p] [a]) with (update_single_file d [p] [a]) in E. destruct (single_ops _ _ _ _ E) as (label & EL & EO). exists label. split; [exact EL|]. intros p' a' D1 D2 D3 D4 D5 D6. cbv zeta in EO. fold p' a' in EO. set (c := (comment_prefix d ++ label ++ " retrievals.")%string) in *. subst ops.
  assert (FI : forall f cm, same_data f (Some {| day := day f; comment := cm; variables := variables f |})) by (intros f cm; eexists; split; [reflexivity|split; reflexivity]).
  assert (FR : forall f, same_data f (Some f)) by (intros f; exists f; auto).
  assert (OUT : forall n, ~ In n [p; a; p'; a'] -> n <> p /\ n <> a /\ n <> p' /\ n <> a') by (intros n N; cbn in N; repeat split; intros ->; apply N; auto).
  destruct k as [|[|[|[|k]]]]; cbn [firstn foldM exec] in I.
  - inversion I. subst. rewrite SP, SA. repeat split; left; auto.
  - rewrite SP in I. cbn [bind] in I. inversion I. subst. repeat split.
    + left. rewrite put_same, put_other by assumption. auto.
    + left. rewrite !put_other by congruence. rewrite SA. auto.
    + intros n N. destruct (OUT n N) as (N1 & N2 & N3 & N4). apply put_other. exact N1.
  - rewrite SP in I. cbn [bind] in I. rewrite put_same in I. cbn [bind] in I. inversion I. subst. repeat split.
    + right. rewrite (put_other p) by congruence. rewrite !put_same. auto.
    + left. rewrite !put_other by congruence. rewrite SA. auto.
    + intros n N. destruct (OUT n N) as (N1 & N2 & N3 & N4). rewrite !put_other by assumption. reflexivity.
  - rewrite SP in I. cbn [bind] in I. rewrite put_same in I. cbn [bind] in I. rewrite !(put_other a) in I by congruence. rewrite SA in I. cbn [bind] in I. inversion I. subst. repeat split.
    + right. rewrite (put_other p) by congruence. rewrite (put_other p) by congruence. rewrite put_same. rewrite (put_other p') by congruence. rewrite put_same. auto.
    + left. rewrite put_same. rewrite !put_other by congruence. auto.
    + intros n N. destruct (OUT n N) as (N1 & N2 & N3 & N4). rewrite !put_other by assumption. reflexivity.
  - rewrite firstn_nil in I. rewrite SP in I. cbn [bind] in I. rewrite put_same in I. cbn [bind] in I. rewrite !(put_other a) in I by congruence. rewrite SA in I. cbn [bind] in I. rewrite put_same in I. cbn [bind foldM] in I. inversion I. subst. repeat split.
    + right. split; [rewrite !(put_other p) by congruence; apply put_same|]. rewrite !(put_other p' a') by congruence. rewrite !(put_other p' a) by congruence. rewrite put_same. auto.
    + right. split; [rewrite (put_other a a') by congruence; apply put_same|]. rewrite put_same. auto.
    + intros n N. destruct (OUT n N) as (N1 & N2 & N3 & N4). rewrite !put_other by assumption. reflexivity.
Qed.
Print Assumptions C95_single_file.
Example C95_single_file_nonvacuous : is_ok (merge_outputs_from_single_day ex_d ex_corr ex_s [ex_p1] [ex_a1]) = true /\ source_label ex_p1 = Ok "aqua"%string /\ without_label "aqua" ex_p1 = "/data/tas_land_eustace_0_20150101.nc"%string /\ without_label "aqua" ex_a1 = "/data/anc_land_eustace_0_20150101.nc"%string.
Proof. repeat split; vm_compute; reflexivity. Qed.

(* ------------------------------------------------------------------ C96 *)
(* The label of a source occurs in the name after an underscore and has none itself. *)
Theorem C96_label : forall name label, source_label name = Ok label -> underscores label = 0 /\ exists a b, name = (a ++ "_" ++ label ++ b)%string.
Proof. exact label_occurs. Qed.
Print Assumptions C96_label.
Example C96_label_nonvacuous : source_label ex_p2 = Ok "terra"%string. Proof. vm_compute. reflexivity. Qed.
(* The merged name is the name without the label, if it occurs once. *)
Theorem C96_name : forall label pre post, underscores label = 0 -> free_of ("_" ++ label) pre -> free_of ("_" ++ label) post -> without_label label (pre ++ "_" ++ label ++ post) = (pre ++ post)%string.
Proof. exact delete_one. Qed.
Print Assumptions C96_name.
Example C96_name_nonvacuous : without_label "terra" ("/data/tas_land_eustace_0" ++ "_" ++ "terra" ++ "_20150101.nc") = "/data/tas_land_eustace_0_20150101.nc"%string. Proof. vm_compute. reflexivity. Qed.
(* When all names have as many underscores, and that of the first ancillary file has the label of the first primary file, no output replaces an
   input, so that C95 applies. *)
Theorem C96_new_names : forall inputs p0 a0 label, source_label p0 = Ok label -> (exists x y, a0 = (x ++ "_" ++ label ++ y)%string) -> (forall n, In n inputs -> underscores n = underscores p0) -> underscores a0 = underscores p0 ->
  ~ In (without_label label p0) inputs /\ ~ In (without_label label a0) inputs.
Proof.
  intros inputs p0 a0 label EL (x & y & EA) U UA. destruct (label_occurs _ _ EL) as (_ & u & v & EP). split; intros I; apply U in I.
  - pose proof (underscores_fewer label u v) as Q. rewrite <- EP in Q. lia.
  - pose proof (underscores_fewer label x y) as Q. rewrite <- EA in Q. lia.
Qed.
Print Assumptions C96_new_names.
Example C96_new_names_nonvacuous : forall n, In n [ex_p1; ex_p2; ex_a1; ex_a2] -> underscores n = underscores ex_p1. Proof. intros n I. repeat (destruct I as [<-|I]; [vm_compute; reflexivity|]). destruct I. Qed.
(* If the name of the first ancillary file does not have the label of the first primary file, the merged ancillary file replaces that input and
   is then deleted with it: a merge that reports no error leaves no ancillary data. *)
Theorem C96_ancillary_lost_refuted : forall d corr s primary anc ops s' p0 a0 label, merge_outputs_from_single_day d corr s primary anc = Ok ops -> zlen primary <> 1 -> nth_error primary 0 = Some p0 -> nth_error anc 0 = Some a0 ->
  source_label p0 = Ok label -> free_of ("_" ++ label) a0 -> finished s ops s' -> exists om F G, firstn 2 ops = [Write om F; Write a0 G] /\ forall n, In n anc -> s' n = None.
Proof.
  intros d corr s primary anc ops s' p0 a0 label E NZ EP EA EL FR FIN. destruct (merge_ops _ _ _ _ _ _ E NZ) as (p0' & a0' & label' & F & G & EP' & EA' & EL' & ->). assert (p0' = p0) by congruence. assert (a0' = a0) by congruence. subst p0' a0'. assert (label' = label) by congruence. subst label'.
  exists (without_label label p0), F, G. split; [unfold without_label at 2; rewrite (delete_free _ _ FR); reflexivity|]. intros n N. unfold finished in FIN. cbn [app foldM exec bind] in FIN. apply (removed _ _ _ FIN). apply in_or_app. right. exact N.
Qed.
Print Assumptions C96_ancillary_lost_refuted.
Definition ex_b1 : string := "/data/anc_land_eustace_0_Aqua_20150101.nc".
Definition ex_s2 : store := fun n => if String.eqb n ex_b1 then ex_s ex_a1 else ex_s n.
Example C96_ancillary_lost_refuted_nonvacuous : is_ok (foldM exec ex_s2 (ok_of (merge_outputs_from_single_day ex_d ex_corr ex_s2 [ex_p1; ex_p2] [ex_b1; ex_a2]))) = true /\ ok_of (merge_outputs_from_single_day ex_d ex_corr ex_s2 [ex_p1; ex_p2] [ex_b1; ex_a2]) <> [] /\ without_label "aqua" ex_b1 = ex_b1.
Proof. split; [vm_compute; reflexivity|]. split; [vm_compute; discriminate|]. vm_compute. reflexivity. Qed.
