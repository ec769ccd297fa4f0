(* Lemmas about the connector and the biases of sources. *)
From Coq Require Import QArith Qcanon String Ascii Sorted.
From Verif Require Import Base Time_Model Time_Spec Time_Proofs Grid_Model Grid_Proofs Lin Ana_Model Comb_Model Flag_Model Name_Model Name_Spec Name_Proofs.
From Verif Require Import Obs_Model Obs_Spec Obs_Proofs Cpp_Model Cpp_Spec Cpp_Names Conn_Model Conn_Spec.
Local Open Scope Z_scope.
Local Open Scope list_scope.

(* ---- positions *)
Lemma seq_sorted n : forall a, StronglySorted lt (seq a n).
Proof.
  induction n as [|n IH]; intro a; cbn [seq]; constructor; [apply IH|]. apply Forall_forall. intros x Hx. apply in_seq in Hx. lia.
Qed.
Lemma filter_sorted (f : nat -> bool) l : StronglySorted lt l -> StronglySorted lt (filter f l).
Proof.
  induction 1 as [|x l S IH F]; cbn [filter]; [constructor|]. destruct (f x); [|assumption]. constructor; [assumption|].
  rewrite Forall_forall in *. intros y Hy. apply filter_In in Hy as [Hy _]. now apply F.
Qed.
Lemma sorted_unique (l l' : list nat) : StronglySorted lt l -> StronglySorted lt l' -> (forall x, In x l <-> In x l') -> l = l'.
Proof.
  intro S. revert l'. induction S as [|x l S IH F]; intros l' S' H.
  - destruct l' as [|y l']; [reflexivity|]. exfalso. apply (proj2 (H y)). now left.
  - destruct S' as [|y l' S' F']; [exfalso; apply (proj1 (H x)); now left|].
    rewrite Forall_forall in F, F'. assert (x = y) as <-.
    { destruct (proj1 (H x) (or_introl eq_refl)) as [|Ix]; [congruence|]. destruct (proj2 (H y) (or_introl eq_refl)) as [|Iy]; [congruence|].
      specialize (F _ Iy). specialize (F' _ Ix). lia. }
    f_equal. apply IH; [assumption|]. intro z. split; intro I.
    + destruct (proj1 (H z) (or_intror I)) as [<-|]; [|assumption]. specialize (F _ I). lia.
    + destruct (proj2 (H z) (or_intror I)) as [<-|]; [|assumption]. specialize (F' _ I). lia.
Qed.
Lemma valid_kept st : positions_kept (s_mask (st_set st)) (valid st).
Proof.
  split; [apply filter_sorted, seq_sorted|]. intro i. unfold valid. rewrite filter_In, in_seq. split.
  - intros [H1 H2]. rewrite (nth_error_nth' _ true) by lia. destruct (nth i _ true); [discriminate|reflexivity].
  - intro H. assert (i < List.length (s_mask (st_set st)))%nat by (apply nth_error_Some; congruence). split; [lia|].
    rewrite (nth_error_nth _ _ true H). reflexivity.
Qed.
Lemma kept_unique mask ps ps' : positions_kept mask ps -> positions_kept mask ps' -> ps = ps'.
Proof. intros [S H] [S' H']. apply sorted_unique; [assumption|assumption|]. intro x. now rewrite H, H'. Qed.

(* ---- locations *)
Lemma wrap_in n l : 0 <= l < Z.of_nat n -> Z.of_nat n <= 2 ^ 63 -> wrap n (signed64 l) = Some (Z.to_nat l).
Proof.
  intros H N. unfold signed64. destruct (Z.ltb_spec l (2 ^ 63)); [|lia]. unfold wrap.
  destruct (Z.leb_spec (- Z.of_nat n) l); [|lia]. destruct (Z.ltb_spec l (Z.of_nat n)); [|lia]. cbn [andb].
  destruct (Z.ltb_spec l 0); [lia|reflexivity].
Qed.
Lemma wrap_some n l k : wrap n l = Some k -> (k < n)%nat /\ (- Z.of_nat n <= l < Z.of_nat n).
Proof.
  unfold wrap. destruct (Z.leb_spec (- Z.of_nat n) l); [|discriminate]. destruct (Z.ltb_spec l (Z.of_nat n)); [|discriminate]. cbn [andb].
  intro E. injection E as <-. split; [|lia]. destruct (Z.ltb_spec l 0); lia.
Qed.
Lemma wrap_longitude_meridian ll : fst (wrap_longitude ll) = fst ll /\ same_meridian (snd (wrap_longitude ll)) (snd ll).
Proof.
  unfold wrap_longitude. destruct (Qle_bool _ _); cbn [fst snd].
  - split; [reflexivity|]. exists (-1). change (360 * -1) with (-360). change (qz (-360)) with (- qz 360)%Qc. reflexivity.
  - split; [reflexivity|]. exists 0. change (qz (360 * 0)) with 0%Qc. now rewrite Qcplus_0_r.
Qed.
Lemma wrap_longitude_range ll : (- qz 180 <= snd ll)%Qc -> (snd ll < qz 540)%Qc ->
  (- qz 180 <= snd (wrap_longitude ll))%Qc /\ (snd (wrap_longitude ll) < qz 180)%Qc.
Proof.
  intros A B. unfold wrap_longitude. destruct (Qle_bool _ _) eqn:E; cbn [snd].
  - apply Qle_bool_Qc in E. split.
    + pose proof (Qcplus_le_compat _ _ _ _ E (Qcle_refl (- qz 360)%Qc)) as L. exact L.
    + apply Qclt_minus_iff in B. apply Qclt_minus_iff.
      replace (qz 180 + - (snd ll - qz 360))%Qc with (qz 540 + - snd ll)%Qc; [exact B|].
      change (qz 540) with (qz 180 + qz 360)%Qc. ring.
  - split; [exact A|]. apply Qcnot_le_lt. intro H. apply Qle_bool_Qc in H. congruence.
Qed.

Definition coordinates_at (table : list (Qc * Qc)) (l : Z) : result (Qc * Qc) :=
  match wrap (List.length table) (signed64 l) with
  | Some k => Ok (wrap_longitude (nth k table (0, 0)%Qc))
  | None => Err IndexError
  end.
Lemma polar_unfold st table : st_table st = Some table -> fd_float (st_found st) = false ->
  location_polar_coordinates st = mapM (fun i => coordinates_at table (nth i (s_location (st_set st)) 0)) (valid st).
Proof. intros E F. unfold location_polar_coordinates. now rewrite E, F. Qed.
Lemma coordinates_located table l ll : Z.of_nat (List.length table) <= 2 ^ 63 -> located table l ll -> coordinates_at table l = Ok (wrap_longitude ll).
Proof.
  intros N [H E]. unfold coordinates_at.
  assert (Z.to_nat l < List.length table)%nat by (apply nth_error_Some; congruence).
  rewrite wrap_in by lia. rewrite (nth_error_nth _ _ _ E). reflexivity.
Qed.
Lemma coordinates_outside table l : Z.of_nat (List.length table) <= l < 2 ^ 63 -> coordinates_at table l = Err IndexError.
Proof.
  intro H. unfold coordinates_at, signed64. destruct (Z.ltb_spec l (2 ^ 63)); [|lia]. unfold wrap.
  destruct (Z.leb_spec (- Z.of_nat (List.length table)) l); [|lia]. destruct (Z.ltb_spec l (Z.of_nat (List.length table))); [lia|]. reflexivity.
Qed.
Lemma mapM_error {A B} (f : A -> result B) l e : (forall x, In x l -> f x = Err e \/ exists y, f x = Ok y) -> (exists x, In x l /\ f x = Err e) -> mapM f l = Err e.
Proof.
  induction l as [|x l IH]; intros H [y [Iy Ey]]; [destruct Iy|]. cbn [mapM].
  destruct (f x) as [z|e'] eqn:Ex; cbn [bind].
  - rewrite IH; [reflexivity|intros; apply H; now right|]. destruct Iy as [<-|Iy]; [congruence|now exists y].
  - destruct (H x (or_introl eq_refl)) as [E|[z E]]; congruence.
Qed.
Lemma mapM_values {A B} (f : A -> result B) (g : A -> B) l : (forall x, In x l -> f x = Ok (g x)) -> mapM f l = Ok (map g l).
Proof.
  induction l as [|x l IH]; intro H; [reflexivity|]. cbn [mapM map]. rewrite H by now left. cbn [bind]. rewrite IH by (intros; apply H; now right). reflexivity.
Qed.
Lemma mapM_some {A B} (f : A -> result B) l : (forall x, In x l -> exists y, f x = Ok y) -> exists r, mapM f l = Ok r.
Proof.
  induction l as [|x l IH]; intro H; [exists []; reflexivity|]. cbn [mapM]. destruct (H x (or_introl eq_refl)) as [y ->]. cbn [bind].
  destruct IH as [r ->]; [intros; apply H; now right|]. eexists. reflexivity.
Qed.
Lemma mapM_Forall2 {A B} (f : A -> result B) l r : mapM f l = Ok r -> Forall2 (fun a b => f a = Ok b) l r.
Proof. intro H. now apply mapM_ok_Forall2. Qed.
Lemma Forall2_impl' {A B} (P Q : A -> B -> Prop) l l' : (forall a b, In a l -> P a b -> Q a b) -> Forall2 P l l' -> Forall2 Q l l'.
Proof.
  intros H F. induction F as [|a b l l' Hab F IH]; constructor; [apply H; [now left|assumption]|]. apply IH. intros; apply H; [now right|assumption].
Qed.

(* ---- names of files and patterns *)
Lemma basename_tail a b : ~ In "/"%char (list_ascii_of_string b) -> basename (a ++ String "/" b) = b.
Proof.
  intro N. assert (E : existsb (Ascii.eqb "/") (list_ascii_of_string b) = false).
  { apply not_true_iff_false. intro H. apply existsb_exists in H as (x & Ix & Ex). apply Ascii.eqb_eq in Ex. now subst. }
  assert (basename b = b) as Bb by (destruct b as [|c b]; [reflexivity|]; cbn [basename]; now rewrite E).
  induction a as [|c a IH]; cbn [append].
  - cbn [basename list_ascii_of_string existsb]. rewrite Ascii.eqb_refl. exact Bb.
  - cbn [basename]. assert (existsb (Ascii.eqb "/") (list_ascii_of_string (String c (a ++ String "/" b))) = true) as ->; [|exact IH].
    cbn [list_ascii_of_string existsb]. apply orb_true_iff. right. clear. induction a as [|d a IH]; cbn [append list_ascii_of_string existsb].
    + reflexivity.
    + rewrite IH. apply orb_true_r.
Qed.

(* the name of a file of observations without its directories *)
Definition day_name (s : source) (o : observable) (d : Z) : string := (sourcename s ++ "_" ++ observablename o ++ "_" ++ datestring d ++ ".bin")%string.
Lemma app_assoc_s (a b c : string) : ((a ++ b) ++ c = a ++ b ++ c)%string.
Proof. induction a; cbn; congruence. Qed.
Lemma no_slash_app a b : ~ In "/"%char (list_ascii_of_string a) -> ~ In "/"%char (list_ascii_of_string b) -> ~ In "/"%char (list_ascii_of_string (a ++ b)).
Proof. induction a as [|c a IH]; cbn; intros A B; [assumption|]. intros [E|E]; [tauto|]. revert E. apply IH; tauto. Qed.
Lemma pad2_no_slash n : ~ In "/"%char (list_ascii_of_string (pad2 n)).
Proof.
  unfold pad2. cbn [list_ascii_of_string In]. 
  assert (forall k, 0 <= k < 10 -> digit k <> "/"%char) as D.
  { intros k Hk E. assert (k = 0 \/ k = 1 \/ k = 2 \/ k = 3 \/ k = 4 \/ k = 5 \/ k = 6 \/ k = 7 \/ k = 8 \/ k = 9) as C by lia.
    repeat destruct C as [-> |C]; try discriminate E. subst. discriminate E. }
  intros [E|[E|[]]]; revert E; apply D; apply Z.mod_pos_bound; lia.
Qed.
Lemma datestring_shape d : exists y m dd, datestring d = (pad4 y ++ pad2 m ++ pad2 dd)%string.
Proof. unfold datestring. destruct (ord2ymd _) as [[y m] dd]. now exists y, m, dd. Qed.
Lemma datestring_no_slash d : ~ In "/"%char (list_ascii_of_string (datestring d)).
Proof.
  destruct (datestring_shape d) as (y & m & dd & ->). unfold pad4. repeat apply no_slash_app; apply pad2_no_slash.
Qed.
Lemma basename_observation base s o d : basename (path_observation base s o d) = day_name s o d.
Proof.
  unfold path_observation. cbv zeta.
  set (y := str_slice (datestring d) 0 4).
  replace (base ++ "/" ++ sourcename s ++ "/" ++ y ++ "/" ++ sourcename s ++ "_" ++ observablename o ++ "_" ++ datestring d ++ ".bin")%string
    with ((base ++ "/" ++ sourcename s ++ "/" ++ y) ++ String "/" (day_name s o d))%string.
  - apply basename_tail. unfold day_name. repeat apply no_slash_app; try apply datestring_no_slash; destruct s, o; cbn; intuition discriminate.
  - unfold day_name. rewrite !app_assoc_s. reflexivity.
Qed.

Definition matches_name (pattern name : string) : bool := match re_match (make_search_expression pattern []) name with Some _ => true | None => false end.
Lemma check_all_unfold st pattern : compile (make_search_expression pattern []) = Ok (make_search_expression pattern []) ->
  check_all_candidates st pattern = Ok (forallb (matches_name pattern) (st_files st)).
Proof.
  intro C. unfold check_all_candidates, nested_search_patterns, child_matches. cbn [fst snd]. rewrite C. cbn [bind]. f_equal.
  rewrite flat_map_concat_map, map_map, <- flat_map_concat_map. cbn [fst snd].
  set (e := make_search_expression pattern []). unfold matches_name. fold e. generalize (st_files st). intro l.
  assert (Le : forall l, (List.length (flat_map (fun x => match re_match e x with Some (values, _) => [(x, values ++ [])] | None => [] end) l) <= List.length l)%nat).
  { clear. induction l as [|x l IH]; [auto|]. cbn [flat_map]. rewrite app_length. destruct (re_match e x) as [[v r]|]; cbn [List.length] in *; lia. }
  induction l as [|x l IH]; [reflexivity|]. cbn [flat_map forallb List.length]. rewrite app_length.
  destruct (re_match e x) as [[v r]|] eqn:E; cbn [List.length].
  - rewrite andb_true_l, <- IH. reflexivity.
  - cbn [andb]. apply Nat.eqb_neq. specialize (Le l). cbn [Nat.add]. lia.
Qed.

Lemma rxspell_lits v : forall e d s, rxspell e d s -> rxspell (map RLit (list_ascii_of_string v) ++ e) d (v ++ s)%string.
Proof.
  induction v as [|c v IH]; intros e d s H; cbn [list_ascii_of_string map append app]; [assumption|]. constructor. now apply IH.
Qed.
Definition day_rx : list rx := [RStar TagA; RLit "_"; RNum Year 4; RNum Month 2; RNum Day 2; RLit "."; RLit "b"; RLit "i"; RLit "n"]%char.
Lemma own_expression s : make_search_expression (sourcename s ++ "_%A_%Y%m%d.bin") [] = map RLit (list_ascii_of_string (sourcename s ++ "_")) ++ day_rx.
Proof. destruct s; reflexivity. Qed.
Lemma own_compiles s : compile (make_search_expression (sourcename s ++ "_%A_%Y%m%d.bin") []) = Ok (make_search_expression (sourcename s ++ "_%A_%Y%m%d.bin") []).
Proof. destruct s; reflexivity. Qed.
Lemma pad2_numerals n : numerals 2 (pad2 n).
Proof. cbn. repeat split; apply digit_numeral; lia. Qed.
Lemma pad4_numerals n : numerals 4 (pad4 n).
Proof. unfold pad4. cbn. repeat split; apply digit_numeral; lia. Qed.
Lemma obs_no_newline o : forall a b, observablename o <> (a ++ String NEWLINE b)%string.
Proof.
  intros a b E. assert (In NEWLINE (list_ascii_of_string (observablename o))) as I.
  { rewrite E. clear. induction a as [|c a IH]; cbn; auto. }
  destruct o; cbn in I; intuition discriminate.
Qed.
Lemma own_name s o d : matches_name (sourcename s ++ "_%A_%Y%m%d.bin") (day_name s o d) = true.
Proof.
  unfold matches_name. rewrite own_expression.
  destruct (re_match_exists (map RLit (list_ascii_of_string (sourcename s ++ "_")) ++ day_rx) (day_name s o d)) as [m ->]; [|reflexivity].
  destruct (datestring_shape d) as (y & mo & dd & E).
  eexists _, (day_name s o d), ""%string. split; [now rewrite append_nil_r || (generalize (day_name s o d); intro x; induction x; cbn; congruence)|].
  unfold day_name. rewrite E. replace (sourcename s ++ "_" ++ observablename o ++ "_" ++ (pad4 y ++ pad2 mo ++ pad2 dd) ++ ".bin")%string
    with ((sourcename s ++ "_") ++ observablename o ++ String "_" (pad4 y ++ pad2 mo ++ pad2 dd ++ String "." (String "b" (String "i" (String "n" "")))))%string
    by (rewrite !app_assoc_s; reflexivity).
  apply rxspell_lits. unfold day_rx. apply rs_star; [apply obs_no_newline|]. apply rs_lit. apply rs_num; [apply pad4_numerals|]. apply rs_num; [apply pad2_numerals|].
  apply rs_num; [apply pad2_numerals|]. repeat apply rs_lit. constructor.
Qed.
Lemma other_name s s' o d : s <> s' -> matches_name (sourcename s ++ "_%A_%Y%m%d.bin") (day_name s' o d) = false.
Proof.
  intro N. unfold matches_name, day_name. rewrite own_expression. generalize ("_" ++ observablename o ++ "_" ++ datestring d ++ ".bin")%string. intro t.
  destruct s, s'; try congruence; reflexivity.
Qed.

(* the groups, each with its source *)
Definition group_source (group : string) : option source :=
  if String.eqb group "insitu_land" then Some InsituLand
  else if String.eqb group "insitu_ocean" then Some InsituOcean
  else if String.eqb group "surfaceairmodel_land_global" then Some SatLand
  else if String.eqb group "surfaceairmodel_ocean_global" then Some SatOcean
  else if String.eqb group "surfaceairmodel_ice_global" then Some SatIce
  else None.
Lemma group_source_iff group s : group_source group = Some s <-> group_of s = Some group.
Proof.
  unfold group_source. split.
  - repeat match goal with |- context [String.eqb group ?x] => destruct (String.eqb_spec group x) as [-> |]; [intro H; injection H as <-; reflexivity|] end. discriminate.
  - destruct s; cbn [group_of]; intro H; try discriminate; injection H as <-; reflexivity.
Qed.
Lemma pattern_of group : dict_get BIAS_PATTERNS group = option_map (fun s => (sourcename s ++ "_%A_%Y%m%d.bin")%string) (group_source group).
Proof.
  unfold group_source. unfold BIAS_PATTERNS. cbn [dict_get].
  rewrite !(String.eqb_sym _ group).
  repeat match goal with |- context [String.eqb group ?x] => destruct (String.eqb_spec group x) as [-> |]; [reflexivity|] end. reflexivity.
Qed.
(* files of one source *)
Lemma check_all_own st s : Forall (fun name => exists o d, name = day_name s o d) (st_files st) ->
  check_all_candidates st (sourcename s ++ "_%A_%Y%m%d.bin") = Ok true.
Proof.
  intro F. rewrite check_all_unfold by apply own_compiles. f_equal. apply forallb_forall. intros x Hx. rewrite Forall_forall in F.
  destruct (F x Hx) as (o & d & ->). apply own_name.
Qed.
Lemma check_all_other st s s' : s <> s' -> st_files st <> [] -> Forall (fun name => exists o d, name = day_name s' o d) (st_files st) ->
  check_all_candidates st (sourcename s ++ "_%A_%Y%m%d.bin") = Ok false.
Proof.
  intros N Ne F. rewrite check_all_unfold by apply own_compiles. f_equal. destruct (st_files st) as [|x l]; [congruence|]. cbn [forallb].
  inversion_clear F as [|? ? (o & d & ->) _]. now rewrite other_name.
Qed.

Lemma effect_unfold st group b s : group_source group = Some s ->
  covariate_effect st group b =
  (do all <- check_all_candidates st (sourcename s ++ "_%A_%Y%m%d.bin");
   if negb all then Ok None else
   match s, b with
   | InsituLand, Some b =>
       do e <- Obs_Model.covariate_effect (effect_time (time_index st)) (take 0 (s_location (st_set st)) (valid st)) b;
       Ok (option_map (map (fun ij => (Z.of_nat (fst ij), Z.of_nat (snd ij)))) e)
   | SatLand, _ | SatOcean, _ => Ok (Some (global_satellite_effect (number_of_observations st)))
   | SatIce, _ => do ll <- location_polar_coordinates st; Ok (Some (hemispheric_satellite_effect (number_of_observations st) (map fst ll)))
   | _, _ => Ok None
   end).
Proof.
  intro G. unfold covariate_effect. rewrite pattern_of, G. cbn [option_map]. destruct (check_all_candidates _ _) as [all|]; [|reflexivity]. cbn [bind].
  destruct all; [|reflexivity]. cbn [negb]. apply group_source_iff in G. destruct s; cbn [group_of] in G; try discriminate; injection G as <-; destruct b; reflexivity.
Qed.
