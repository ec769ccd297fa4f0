(* C174: directories; C175: searches for files and checksums; C176: storage of gridded satellite data *)
From Coq Require Import QArith Qround String Ascii Lqa.
From Verif Require Import Base Time_Model Time_Proofs Batch_Model NcObj_Model Land_Model Src_Model Tools_Model Tools_Proofs Jobs_Model Jobs_Spec.
Local Open Scope Z_scope.
Local Open Scope list_scope.

(* ---- C174 *)
Lemma leads_itself p : leads p p. Proof. now exists []. Qed.
Lemma leads_tail x p q : leads q p -> leads q (x :: p). Proof. intros [l ->]. now exists (x :: l). Qed.
Lemma mkdir_keeps p f : well_formed f -> well_formed (fst (mkdir p f)) /\ (forall q k, f q = Some k -> fst (mkdir p f) q = Some k) /\ (snd (mkdir p f) = None -> fst (mkdir p f) p = Some Folder).
Proof.
  intros [R W]. destruct p as [|x p]; [cbn [mkdir fst snd]; split; [now split|]; split; [easy|discriminate]|]. cbn [mkdir]. destruct (f (x :: p)) as [k|] eqn:E; [cbn [fst snd]; split; [now split|]; split; [easy|discriminate]|].
  destruct (f p) as [[|]|] eqn:F; cbn [fst snd]; try (split; [now split|]; split; [easy|discriminate]). split; [split|split].
  - destruct (path_eq_dec [] (x :: p)); [discriminate|exact R].
  - intros y q H. destruct (path_eq_dec (y :: q) (x :: p)) as [Q|Q].
    + assert (q = p) as -> by congruence. destruct (path_eq_dec p (x :: p)); [reflexivity|exact F].
    + apply W in H. destruct (path_eq_dec q (x :: p)); [reflexivity|exact H].
  - intros q k H. destruct (path_eq_dec q (x :: p)) as [->|_]; [congruence|exact H].
  - intros _. destruct (path_eq_dec (x :: p) (x :: p)); [reflexivity|congruence].
Qed.
Lemma mkdir_regular p f q : fst (mkdir p f) q = Some Regular -> f q = Some Regular.
Proof. destruct p as [|x p]; [easy|]. cbn [mkdir]. destruct (f (x :: p)) eqn:E; [easy|]. destruct (f p) as [[|]|]; cbn [fst]; try easy. destruct (path_eq_dec q (x :: p)); [discriminate|easy]. Qed.
Lemma mkdir_made p f : well_formed f -> (match p with [] => False | _ :: parent => f parent = Some Folder end) -> f p <> Some Regular -> fst (mkdir p f) p = Some Folder /\ (snd (mkdir p f) = None \/ snd (mkdir p f) = Some EEXIST).
Proof.
  intros W P R. destruct p as [|x p]; [destruct P|]. cbn [mkdir]. destruct (f (x :: p)) as [[|]|] eqn:E; cbn [fst snd]; [now split; [|right]|congruence|]. rewrite P. cbn [fst snd]. split; [|now left]. destruct (path_eq_dec (x :: p) (x :: p)); congruence.
Qed.
Lemma makedirs_cons others x head f n : makedirs others (x :: head) (f, n) =
  let '(s, e) := match head with [] => ((f, n), None) | _ :: _ => match others n f head with Some _ => ((others n f, S n), None) | None => makedirs others head (others n f, S n) end end in
  match e with Some ENOENT => (s, Some ENOENT) | Some ENOTDIR => (s, Some ENOTDIR) | _ => let (f, n) := s in let (f, e) := mkdir (x :: head) (others n f) in ((f, S n), e) end.
Proof. reflexivity. Qed.
Lemma makedirs_keeps others : keeps others -> forall name f n f' n' e, well_formed f -> makedirs others name (f, n) = ((f', n'), e) ->
  well_formed f' /\ (forall q k, f q = Some k -> f' q = Some k) /\ (e = None -> f' name = Some Folder).
Proof.
  intros K. induction name as [|x head IH]; intros f n f' n' e W E.
  - cbn [makedirs] in E. assert (f' = f /\ e = Some EEXIST) as [-> ->] by (split; congruence). split; [exact W|]. split; [easy|discriminate].
  - rewrite makedirs_cons in E.
    assert (G : exists f1 n1 e1, (match head with [] => ((f, n), None) | _ :: _ => match others n f head with Some _ => ((others n f, S n), None) | None => makedirs others head (others n f, S n) end end) = ((f1, n1), e1) /\ well_formed f1 /\ forall q k, f q = Some k -> f1 q = Some k).
    { destruct head as [|y r]; [exists f, n, None; split; [reflexivity|]; split; [exact W|easy]|]. destruct (K n f W) as [W1 M1]. destruct (others n f (y :: r)) as [k|] eqn:Q; [exists (others n f), (S n), None; split; [reflexivity|]; split; assumption|].
      destruct (makedirs others (y :: r) (others n f, S n)) as [[f1 n1] e1] eqn:D. exists f1, n1, e1. split; [reflexivity|]. destruct (IH _ _ _ _ _ W1 D) as (W2 & M2 & _). split; [exact W2|]. intros q k A. apply M2, M1, A. }
    destruct G as (f1 & n1 & e1 & Q & W1 & M1). rewrite Q in E. destruct (K n1 f1 W1) as [W2 M2].
    assert (L : forall f' n' e, (let (f, n) := (f1, n1) in let (f, e) := mkdir (x :: head) (others n f) in ((f, S n), e)) = (f', n', e) -> well_formed f' /\ (forall q k, f q = Some k -> f' q = Some k) /\ (e = None -> f' (x :: head) = Some Folder)).
    { intros g m d L. pose proof (mkdir_keeps (x :: head) _ W2) as (A & B & C). destruct (mkdir (x :: head) (others n1 f1)) as [g' d']. cbn [fst snd] in A, B, C. assert (g = g' /\ d = d') as [-> ->] by (split; congruence). split; [exact A|]. split; [|exact C]. intros q k J. apply B, M2, M1, J. }
    destruct e1 as [[| |]|]; [now apply L in E| | |now apply L in E]; assert (f' = f1 /\ e <> None) as [-> NE] by (split; congruence); (split; [exact W1|]; split; [exact M1|intros; contradiction]).
Qed.
Lemma makedirs_made target others : friendly target others -> forall name f n, leads name target -> name <> [] -> well_formed f -> no_file_on_the_way target f ->
  exists f' n' e, makedirs others name (f, n) = ((f', n'), e) /\ well_formed f' /\ no_file_on_the_way target f' /\ f' name = Some Folder /\ (e = None \/ e = Some EEXIST).
Proof.
  intros [K F]. induction name as [|x head IH]; intros f n T NE W R; [congruence|]. rewrite makedirs_cons. clear NE.
  assert (TH : leads head target) by (destruct T as [l ->]; exists (l ++ [x]); now rewrite <- app_assoc).
  assert (G : exists f1 n1 e1, (match head with [] => ((f, n), None) | _ :: _ => match others n f head with Some _ => ((others n f, S n), None) | None => makedirs others head (others n f, S n) end end) = ((f1, n1), e1) /\ well_formed f1 /\ no_file_on_the_way target f1 /\ f1 head = Some Folder /\ (e1 = None \/ e1 = Some EEXIST)).
  { destruct head as [|y r]; [exists f, n, None; split; [reflexivity|]; split; [exact W|]; split; [exact R|]; split; [apply W|now left]|]. destruct (K n f W) as [W1 M1]. pose proof (F n f R) as R1.
    destruct (others n f (y :: r)) as [k|] eqn:Q.
    - exists (others n f), (S n), None. split; [reflexivity|]. split; [exact W1|]. split; [exact R1|]. split; [|now left]. destruct k; [exact Q|]. now apply R1 in Q.
    - apply IH; [exact TH|discriminate|exact W1|exact R1]. }
  destruct G as (f1 & n1 & e1 & Q & W1 & R1 & H1 & E1). rewrite Q. clear Q. destruct (K n1 f1 W1) as [W2 M2]. pose proof (F n1 f1 R1) as R2.
  assert (L : exists f' n' e, (let (f, n) := (f1, n1) in let (f, e) := mkdir (x :: head) (others n f) in ((f, S n), e)) = ((f', n'), e) /\ well_formed f' /\ no_file_on_the_way target f' /\ f' (x :: head) = Some Folder /\ (e = None \/ e = Some EEXIST)).
  { pose proof (mkdir_keeps (x :: head) _ W2) as (A & _). pose proof (mkdir_made (x :: head) _ W2 (M2 _ _ H1) (R2 _ T)) as [B C]. pose proof (mkdir_regular (x :: head) (others n1 f1)) as D. destruct (mkdir (x :: head) (others n1 f1)) as [g d]. cbn [fst snd] in *. exists g, (S n1), d. split; [reflexivity|]. split; [exact A|]. split; [|now split].
    intros q J X. apply D in X. now apply (R2 q J). }
  destruct E1 as [->| ->]; exact L.
Qed.
(* Whatever directories other processes make at the same time, and whatever files they make elsewhere, the directory is there at the end. *)
Theorem C174_made : forall target others f n, well_formed f -> no_file_on_the_way target f -> friendly target others ->
  exists f' n', ensuredirectory others target (f, n) = ((f', n'), None) /\ f' target = Some Folder /\ forall q k, f q = Some k -> f' q = Some k.
Proof.
  intros target others f n W R F. destruct target as [|x p].
  - exists f, n. split; [reflexivity|]. split; [apply W|easy].
  - destruct (makedirs_made (x :: p) others F (x :: p) f n (leads_itself _) ltac:(discriminate) W R) as (f1 & n1 & e & E & W1 & R1 & H & D). destruct (makedirs_keeps others (proj1 F) _ _ _ _ _ _ W E) as (_ & M & _). unfold ensuredirectory. rewrite E. destruct D as [->| ->].
    + exists f1, n1. split; [reflexivity|]. split; assumption.
    + destruct (proj1 F n1 f1 W1) as [_ M2]. pose proof (M2 _ _ H) as H2. cbv zeta. rewrite H2. exists (others n1 f1), (S n1). split; [reflexivity|]. split; [exact H2|]. intros q k Q. apply M2, M, Q.
Qed.
Print Assumptions C174_made.
(* So for any number of processes that make directories, in any order: each of them finds its directory. *)
Theorem C174_concurrent : forall target (others : nat -> list path) f n, well_formed f -> no_file_on_the_way target f ->
  exists f' n', ensuredirectory (fun k g => fold_left (fun g p => fst (mkdir p g)) (others k) g) target (f, n) = ((f', n'), None) /\ f' target = Some Folder.
Proof.
  intros target others f n W R. destruct (C174_made target (fun k g => fold_left (fun g p => fst (mkdir p g)) (others k) g) f n W R) as (f' & n' & E & H & _); [|now exists f', n'].
  split.
  - intros k g. generalize (others k). clear. intros l. revert g. induction l as [|p l IH]; intros g W; [now split|]. cbn [fold_left]. pose proof (mkdir_keeps p g W) as (A & B & _). destruct (IH _ A) as [C D]. split; [exact C|]. intros q k' Q. apply D, B, Q.
  - intros k g. generalize (others k). clear. intros l. revert g. induction l as [|p l IH]; intros g R; [exact R|]. cbn [fold_left]. apply IH. intros q L X. apply mkdir_regular in X. now apply (R q L).
Qed.
Print Assumptions C174_concurrent.
(* A file in the way is an error, whatever the other processes do. *)
Theorem C174_blocked : forall target others f n q, well_formed f -> keeps others -> q <> [] -> leads q target -> f q = Some Regular -> exists s e, ensuredirectory others target (f, n) = (s, Some e).
Proof.
  intros target others f n q W K NQ L Q. destruct target as [|x p]; [destruct L as [l L]; symmetry in L; apply app_eq_nil in L; destruct L; contradiction|].
  assert (X : forall g, well_formed g -> g q = Some Regular -> g (x :: p) <> Some Folder).
  { intros g [_ V] G. destruct L as [l ->]. destruct l as [|y l]; [cbn [app]; congruence|]. intros H. assert (C : forall l y, g ((y :: l) ++ q) <> None -> g q = Some Folder).
    { clear -V. induction l as [|z l IH]; intros y H; cbn [app] in H; apply V in H; [exact H|]. apply (IH z). cbn [app]. congruence. }
    assert (g q = Some Folder) by (apply (C l y); congruence). congruence. }
  unfold ensuredirectory. destruct (makedirs others (x :: p) (f, n)) as [[f1 n1] e] eqn:E. destruct (makedirs_keeps others K _ _ _ _ _ _ W E) as (W1 & M & N). destruct e as [[| |]|]; try (eexists; eexists; reflexivity).
  - destruct (K n1 f1 W1) as [W2 M2]. cbv zeta. specialize (X _ W2 (M2 _ _ (M _ _ Q))). destruct (others n1 f1 (x :: p)) as [[|]|]; [congruence| |]; eexists; eexists; reflexivity.
  - exfalso. apply (X f1 W1 (M _ _ Q)). now apply N.
Qed.
Print Assumptions C174_blocked.
Definition empty_disk : filesystem := fun p => match p with [] => Some Folder | ["file"%string] => Some Regular | _ => None end.
Example C174_nonvacuous : well_formed empty_disk /\ no_file_on_the_way ["c"; "b"; "a"]%string empty_disk /\ empty_disk ["file"%string] = Some Regular /\
  snd (ensuredirectory (fun k g => fold_left (fun g p => fst (mkdir p g)) (nth k [[]; [["a"]]; [["b"; "a"]]; [["c"; "b"; "a"]]]%string []) g) ["c"; "b"; "a"]%string (empty_disk, 0%nat)) = None /\
  snd (ensuredirectory (fun _ g => g) ["x"; "file"]%string (empty_disk, 0%nat)) = Some ENOTDIR /\ snd (ensuredirectory (fun _ g => g) ["file"]%string (empty_disk, 0%nat)) = Some EEXIST.
Proof.
  split; [split; [reflexivity|]|].
  - intros x p H. destruct p as [|y p]; [reflexivity|]. cbn in H. destruct x as [|[[] [] [] [] [] [] [] []] x]; cbn in H; try congruence; repeat (destruct x as [|[[] [] [] [] [] [] [] []] x]; cbn in H; try congruence).
  - split; [|repeat split; vm_compute; reflexivity]. intros q [l L] H. destruct q as [|x [|y q]]; cbn in H; try discriminate.
    + destruct l as [|? [|? [|? [|? l]]]]; cbn in L; try discriminate L. injection L as _ _ <-. discriminate H.
    + destruct x as [|[[] [] [] [] [] [] [] []] x]; cbn in H; try discriminate H; repeat (destruct x as [|[[] [] [] [] [] [] [] []] x]; cbn in H; try discriminate H).
Qed.

(* ---- C175 *)
Lemma node_induction (P : node -> Prop) : P File -> (forall entries, (forall e, In e entries -> P (snd e)) -> P (Directory entries)) -> forall n, P n.
Proof.
  intros F D. fix IH 1. intros [|entries]; [exact F|]. apply D. induction entries as [|[x n] r IHr]; [intros e []|]. intros e [<-|I]; [apply IH|now apply IHr].
Qed.
Lemma walk_below n : forall d, walk d n = map (fun w => (d ++ fst w, snd w)) (walk [] n).
Proof.
  induction n as [|entries IH] using node_induction; intros d; [reflexivity|]. cbn [walk map fst snd app]. rewrite app_nil_r. f_equal.
  induction entries as [|e r IHr]; [reflexivity|]. cbn [flat_map]. rewrite map_app. f_equal; [|apply IHr; intros x I; apply IH; now right].
  rewrite (IH e (or_introl eq_refl) (d ++ [fst e])), (IH e (or_introl eq_refl) [fst e]). rewrite map_map. apply map_ext. intros w. cbn [fst snd app]. now rewrite <- app_assoc.
Qed.
Lemma found_directory entries : find_all_files (Some (Directory entries)) = map (fun e => [fst e]) (filter is_file entries) ++ flat_map (fun e => map (cons (fst e)) (find_all_files (Some (snd e)))) entries.
Proof.
  unfold find_all_files at 1. cbn [walk flat_map fst snd]. rewrite map_map. f_equal. induction entries as [|e r IH]; [reflexivity|]. cbn [flat_map]. rewrite flat_map_app, IH. f_equal. clear.
  cbn [app]. rewrite walk_below. unfold find_all_files. rewrite flat_map_concat_map, map_map. rewrite flat_map_concat_map, concat_map, map_map. f_equal. apply map_ext. intros w. cbn [fst snd]. rewrite map_map. reflexivity.
Qed.
Lemma find_name (entries : list (string * node)) e : NoDup (map fst entries) -> In e entries -> find (fun x => String.eqb (fst x) (fst e)) entries = Some e.
Proof.
  induction entries as [|x r IH]; intros N I; [destruct I|]. inversion N as [|? ? X N']. subst. cbn [find]. destruct I as [->|I]; [now rewrite String.eqb_refl|]. destruct (String.eqb_spec (fst x) (fst e)) as [Q|_]; [|now apply IH]. exfalso. apply X. rewrite Q. now apply in_map.
Qed.
(* The search gives exactly the files of the tree, at any depth. *)
Theorem C175_found : forall t, distinct_names t -> forall p, In p (find_all_files (Some t)) <-> p <> [] /\ at_path t p = Some File.
Proof.
  induction t as [|entries IH] using node_induction; intros D p.
  - cbn. split; [intros []|]. intros [N E]. destruct p; [contradiction|discriminate].
  - inversion D as [|? N U]. subst. rewrite found_directory, in_app_iff. split.
    + intros [I|I].
      * apply in_map_iff in I. destruct I as (e & <- & I). apply filter_In in I. destruct I as [I F]. split; [discriminate|]. cbn [at_path]. rewrite find_name by assumption. unfold is_file in F. destruct (snd e); [reflexivity|discriminate].
      * apply in_flat_map in I. destruct I as (e & I & J). apply in_map_iff in J. destruct J as (q & <- & J). split; [discriminate|]. cbn [at_path]. rewrite find_name by assumption. now apply (IH e I (U e I)) in J.
    + intros [E H]. destruct p as [|x q]; [contradiction|]. cbn [at_path] in H. destruct (find (fun e => String.eqb (fst e) x) entries) as [e|] eqn:F; [|discriminate]. apply find_some in F. destruct F as [I Q]. apply String.eqb_eq in Q. subst x.
      destruct q as [|y q]; [left|right].
      * apply in_map_iff. exists e. split; [reflexivity|]. apply filter_In. split; [exact I|]. unfold is_file. cbn [at_path] in H. assert (snd e = File) as -> by congruence. reflexivity.
      * apply in_flat_map. exists e. split; [exact I|]. apply in_map. apply (IH e I (U e I)). split; [discriminate|exact H].
Qed.
Print Assumptions C175_found.
Lemma NoDup_together {A} (a b : list A) : NoDup a -> NoDup b -> (forall x, In x a -> In x b -> False) -> NoDup (a ++ b).
Proof. induction a as [|x a IH]; intros N M H; [exact M|]. inversion N as [|? ? X N']. subst. cbn [app]. constructor; [|apply IH; [exact N'|exact M|intros y I J; apply (H y); [now right|exact J]]]. intros I. apply in_app_iff in I. destruct I as [I|I]; [contradiction|]. apply (H x); [now left|exact I]. Qed.
(* No file comes twice. *)
Theorem C175_once : forall t, distinct_names t -> NoDup (find_all_files (Some t)).
Proof.
  induction t as [|entries IH] using node_induction; intros D; [constructor|]. inversion D as [|? N U]. subst. rewrite found_directory. apply NoDup_together.
  - clear IH U D. induction entries as [|e r IHr]; [constructor|]. inversion N as [|? ? X N']. subst. cbn [filter]. destruct (is_file e); [|now apply IHr]. cbn [map]. constructor; [|now apply IHr]. intros I. apply in_map_iff in I. destruct I as (y & E & I). apply filter_In in I. apply X. injection E as E. rewrite <- E. now apply in_map.
  - induction entries as [|e r IHr]; [constructor|]. inversion N as [|? ? X N']. subst. cbn [flat_map]. apply NoDup_together.
    + apply FinFun.Injective_map_NoDup; [intros a b E; congruence|]. apply IH; [now left|]. apply U. now left.
    + apply IHr; [intros x I; apply IH; now right| |exact N'|intros x I; apply U; now right]. constructor; [exact N'|intros x I; apply U; now right].
    + intros p I J. apply in_map_iff in I. destruct I as (q & <- & _). apply in_flat_map in J. destruct J as (y & Y & J). apply in_map_iff in J. destruct J as (q' & E & _). apply X. injection E as E _. rewrite <- E. now apply in_map.
  - intros p I J. apply in_map_iff in I. destruct I as (e & <- & I). apply filter_In in I. destruct I as [I F]. apply in_flat_map in J. destruct J as (y & Y & J). apply in_map_iff in J. destruct J as (q & E & J). injection E as E E2. subst q.
    apply (C175_found (snd y) (U y Y)) in J. now destruct J.
Qed.
Print Assumptions C175_once.
(* A directory that does not exist has no files. *)
Theorem C175_missing : find_all_files None = [].
Proof. reflexivity. Qed.
Print Assumptions C175_missing.
Example C175_nonvacuous : let t := Directory [("a", File); ("b", Directory [("a", File); ("c", Directory [])]); ("d", Directory [("e", Directory [("f", File)])])]%string in
  distinct_names t /\ find_all_files (Some t) = [["a"]; ["b"; "a"]; ["d"; "e"; "f"]]%string.
Proof.
  split; [|reflexivity]. repeat (constructor; [repeat (constructor; [intros H; repeat (destruct H as [H|H]; [discriminate H|]); destruct H|]); constructor|intros e H; repeat (destruct H as [<-|H]; cbn [snd]; [|]); try (now destruct H)]); try constructor.
Qed.

Lemma word_taken w : forall taken c rest, Forall (fun x => is_space x = false) w -> (taken <> [] \/ w <> []) -> is_space c = true -> split_words taken (w ++ c :: rest) = (rev taken ++ w) :: split_words [] rest.
Proof.
  induction w as [|x w IH]; intros taken c rest F N S.
  - cbn [app split_words]. rewrite S, app_nil_r. destruct taken; [destruct N; contradiction|reflexivity].
  - inversion F as [|? ? X F']. subst. cbn [app split_words]. rewrite X. rewrite IH; [|exact F'|left; discriminate|exact S]. cbn [rev]. now rewrite <- app_assoc.
Qed.
(* What cksum prints gives the checksum and the size, whatever the name of the file; where nothing is printed it is an error. *)
Theorem C175_checksum : forall sum w size name, sum <> EmptyString -> Forall (fun x => is_space x = false) (list_ascii_of_string sum) -> (0 < w)%nat -> 0 <= size < 10 ^ Z.of_nat w ->
  checksum (sum ++ " " ++ decimals w size ++ " " ++ name)%string = Ok (sum, size) /\ checksum EmptyString = Err ValueError.
Proof.
  intros sum w size name N F W S. split; [|reflexivity]. unfold checksum. rewrite !list_ascii_app. change (list_ascii_of_string " ") with [" "%char]. cbn [app]. rewrite word_taken; [|exact F| |reflexivity].
  2:{ right. destruct sum; [contradiction|discriminate]. }
  rewrite word_taken; [| | |reflexivity].
  - cbn [rev app]. rewrite !string_of_list_ascii_of_string. unfold py_int. pose proof (int_decimals [] [] w size W S eq_refl eq_refl) as I. cbn [app] in I. rewrite app_nil_r in I. rewrite I. reflexivity.
  - eapply Forall_impl; [|apply digits_decimals; lia]. intros c [d D]. now apply digit_not_space in D.
  - right. intros E. pose proof (decimals_length w size) as L. rewrite E in L. cbn in L. lia.
Qed.
Print Assumptions C175_checksum.
Example C175_checksum_nonvacuous : checksum ("4294967295 17 a file with 3 blanks" ++ String (ascii_of_nat 10) EmptyString)%string = Ok ("4294967295"%string, 17) /\ checksum "cksum: no" = Err ValueError.
Proof. split; vm_compute; reflexivity. Qed.

(* ---- C176 *)
Lemma around_near x : (x - (1 # 2) <= inject_Z (around x) <= x + (1 # 2))%Q.
Proof.
  unfold around. cbv zeta. pose proof (Qfloor_le x) as L. pose proof (Qlt_floor x) as U. rewrite inject_Z_plus in U. change (inject_Z 1) with 1%Q in U. set (f := Qfloor x) in *.
  destruct (Qcompare_spec (x - inject_Z f) (1 # 2)) as [E|E|E]; [destruct (Z.even f)| |]; try (rewrite inject_Z_plus; change (inject_Z 1) with 1%Q); lra.
Qed.
Lemma around_between a b x : (inject_Z a <= x <= inject_Z b)%Q -> a <= around x <= b.
Proof.
  intros [A B]. pose proof (Qfloor_resp_le _ _ A) as FA. rewrite Qfloor_Z in FA. pose proof (Qfloor_resp_le _ _ B) as FB. rewrite Qfloor_Z in FB. unfold around. cbv zeta.
  assert (G : ((1 # 2) <= x - inject_Z (Qfloor x))%Q -> Qfloor x + 1 <= b).
  { intros H. destruct (Z.le_gt_cases (Qfloor x + 1) b) as [K|K]; [exact K|]. exfalso. assert (Qfloor x = b) as E by lia. rewrite E in H. lra. }
  destruct (Qcompare_spec (x - inject_Z (Qfloor x)) (1 # 2)) as [E|E|E]; [destruct (Z.even _)| |]; try (split; lia); (split; [lia|apply G; lra]).
Qed.
Lemma stored_near overflow s low high error v : (0 < st_scale_factor s)%Q -> (error == st_scale_factor s * (1 # 2))%Q ->
  (forall x, (low <= x <= high)%Q -> let n := around ((x - st_add_offset s) / st_scale_factor s) in st_lowest s <= n <= st_highest s /\ n <> st_fill_value s) -> within low high v ->
  near error v (if pack overflow s v =? st_fill_value s then None else Some (inject_Z (pack overflow s v) * st_scale_factor s + st_add_offset s)%Q).
Proof.
  intros P E R W. destruct v as [x|]; cbn [pack near]; [|now rewrite Z.eqb_refl]. specialize (R x W). cbv zeta in R. destruct R as [R N]. cbv zeta. set (y := ((x - st_add_offset s) / st_scale_factor s)%Q) in *.
  replace ((st_lowest s <=? around y) && (around y <=? st_highest s)) with true by lia. apply Z.eqb_neq in N. rewrite N.
  assert (X : (x == y * st_scale_factor s + st_add_offset s)%Q) by (unfold y; field; intros Q; rewrite Q in P; discriminate P). destruct (around_near y) as [L U].
  apply (Qmult_le_compat_r _ _ (st_scale_factor s)) in L; [|lra]. apply (Qmult_le_compat_r _ _ (st_scale_factor s)) in U; [|lra]. split; rewrite X, E; lra.
Qed.
(* The variables of the gridded satellite files come back within half a step, and missing values as missing values. *)
Theorem C176_stored : forall overflow name low high error values, In (name, (low, high, error)) stored_ranges -> Forall (within low high) values ->
  Forall2 (near error) values (read_variable (write_variable overflow name values)).
Proof.
  intros overflow name low high error values I F.
  assert (K : exists s, Land_Model.lookup name storage_override = Some s /\ (0 < st_scale_factor s)%Q /\ (error == st_scale_factor s * (1 # 2))%Q /\
    forall x, (low <= x <= high)%Q -> let n := around ((x - st_add_offset s) / st_scale_factor s) in st_lowest s <= n <= st_highest s /\ n <> st_fill_value s).
  { assert (A : forall s a b x, (inject_Z a <= (x - st_add_offset s) / st_scale_factor s <= inject_Z b)%Q -> st_lowest s <= a -> b <= st_highest s -> st_fill_value s < a -> let n := around ((x - st_add_offset s) / st_scale_factor s) in st_lowest s <= n <= st_highest s /\ n <> st_fill_value s).
    { intros s a b x H H1 H2 H3. apply around_between in H. cbv zeta. lia. }
    assert (T : forall s, (st_scale_factor s == 5 # 1000)%Q -> (st_add_offset s == 27315 # 100)%Q -> forall x, ((109315 # 1000) <= x <= (436985 # 1000))%Q -> (inject_Z (-32767) <= (x - st_add_offset s) / st_scale_factor s <= inject_Z 32767)%Q).
    { intros s E1 E2 x H. rewrite E1, E2. change (inject_Z (-32767)) with (-32767 # 1). change (inject_Z 32767) with (32767 # 1). setoid_replace ((x - (27315 # 100)) / (5 # 1000))%Q with ((x - (27315 # 100)) * 200)%Q by field. lra. }
    assert (U : forall s, (st_scale_factor s == 1 # 1000)%Q -> (st_add_offset s == 32767 # 1000)%Q -> forall x, (0 <= x <= (65534 # 1000))%Q -> (inject_Z (-32767) <= (x - st_add_offset s) / st_scale_factor s <= inject_Z 32767)%Q).
    { intros s E1 E2 x H. rewrite E1, E2. change (inject_Z (-32767)) with (-32767 # 1). change (inject_Z 32767) with (32767 # 1). setoid_replace ((x - (32767 # 1000)) / (1 # 1000))%Q with ((x - (32767 # 1000)) * 1000)%Q by field. lra. }
    assert (V : forall s, (st_scale_factor s == 5 # 1000000)%Q -> (st_add_offset s == 0)%Q -> forall x, (0 <= x <= 10737)%Q -> (inject_Z 0 <= (x - st_add_offset s) / st_scale_factor s <= inject_Z 2147400000)%Q).
    { intros s E1 E2 x H. rewrite E1, E2. change (inject_Z 0) with 0%Q. change (inject_Z 2147400000) with (2147400000 # 1). setoid_replace ((x - 0) / (5 # 1000000))%Q with (x * 200000)%Q by field. lra. }
    unfold stored_ranges in I. cbn [In] in I.
    repeat (destruct I as [I|I]; [assert (EN := f_equal fst I); assert (EL := f_equal (fun p => fst (fst (snd p))) I); assert (EH := f_equal (fun p => snd (fst (snd p))) I); assert (EE := f_equal (fun p => snd (snd p)) I); cbn [fst snd] in EN, EL, EH, EE; subst name low high error;
      match goal with |- context [Land_Model.lookup ?n storage_override] => let r := eval vm_compute in (Land_Model.lookup n storage_override) in match r with Some ?s => exists s end end;
      (split; [vm_compute; reflexivity|]); (split; [reflexivity|]); (split; [reflexivity|]); intros x H;
      first [apply (A _ (-32767) 32767); [apply T; [reflexivity|reflexivity|exact H]|cbn; lia|cbn; lia|cbn; lia] | apply (A _ (-32767) 32767); [apply U; [reflexivity|reflexivity|exact H]|cbn; lia|cbn; lia|cbn; lia] | apply (A _ 0 2147400000); [apply V; [reflexivity|reflexivity|exact H]|cbn; lia|cbn; lia|cbn; lia]]|]). destruct I. }
  destruct K as (s & L & P & E & R). unfold write_variable. rewrite L. cbn [read_variable]. rewrite map_map. induction F as [|v values W F IH]; [constructor|]. cbn [map]. constructor; [|exact IH]. now apply (stored_near overflow s low high).
Qed.
Print Assumptions C176_stored.
(* All other variables are stored as they are. *)
Theorem C176_others : forall overflow name values, ~ In name (map fst stored_ranges) -> read_variable (write_variable overflow name values) = values.
Proof.
  intros overflow name values N. unfold write_variable. replace (Land_Model.lookup name storage_override) with (@None storage); [reflexivity|]. symmetry.
  assert (E : map fst storage_override = map fst stored_ranges) by (vm_compute; reflexivity). rewrite <- E in N. revert N. generalize storage_override. induction l as [|[k v] l IH]; intros N; [reflexivity|]. cbn [Land_Model.lookup]. destruct (String.eqb_spec name k) as [->|Q]; [exfalso; apply N; now left|]. destruct (String.eqb_spec k name); [congruence|]. apply IH. intros I. apply N. now right.
Qed.
Print Assumptions C176_others.
(* Finding: an uncertainty of 66 K does not fit: whatever number of the type is stored, it is read as missing or with an error above 0.4 K. *)
Theorem C176_range_refuted : forall overflow, (forall n, -32768 <= overflow n <= 32767) -> exists y, read_variable (write_variable overflow "tsmean_unc_sys" [Some (66 # 1)%Q]) = [y] /\ ~ near (4 # 10) (Some (66 # 1)%Q) y.
Proof.
  intros overflow O. unfold write_variable. replace (Land_Model.lookup "tsmean_unc_sys" storage_override) with (Some STORAGE_RELATIVE_K) by (vm_compute; reflexivity). cbn [map read_variable]. set (n := pack overflow STORAGE_RELATIVE_K (Some (66 # 1)%Q)). eexists. split; [reflexivity|].
  assert (B : n <= 32767). { unfold n, pack. destruct (_ && _) eqn:E; [|apply O]. cbn [st_lowest st_highest STORAGE_RELATIVE_K] in E |- *. lia. }
  destruct (n =? st_fill_value STORAGE_RELATIVE_K); cbn [near]; [easy|]. intros [H _]. cbn [st_scale_factor st_add_offset STORAGE_RELATIVE_K] in H. rewrite Zle_Qle in B. change (inject_Z 32767) with (32767 # 1) in B. lra.
Qed.
Print Assumptions C176_range_refuted.
Example C176_nonvacuous : Forall (within (109315 # 1000) (436985 # 1000)) [Some (290123 # 1000); None]%Q /\ (exists y, read_variable (write_variable (fun _ => 0) "tsmean" [Some (290123 # 1000); None]%Q) = [Some y; None] /\ (y == 290125 # 1000)%Q).
Proof. split; [repeat constructor; cbn; lra|]. eexists. split; [vm_compute; reflexivity|reflexivity]. Qed.
