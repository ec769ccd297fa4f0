(* Theorems about the loader of raw binary files, continued (C157), and about the check of latent variables (C158). *)
From Coq Require Import QArith Qcanon String Ascii Sorted.
From Verif Require Import Base Time_Model Time_Spec Time_Proofs Grid_Model Grid_Proofs Lin Ana_Model Comb_Model Flag_Model Name_Model Name_Spec Name_Proofs.
From Verif Require Import Obs_Model Obs_Spec Obs_Proofs Cpp_Model Cpp_Spec Cpp_Names Conn_Model Conn_Spec Conn_Proofs Conn_Proofs2 Conn_Props2.
Local Open Scope Z_scope.
Local Open Scope list_scope.

(* Sources observed as minima and maxima: loading the mean of a day gives the means at the locations that both files have. *)
Section Mean.
  Variable num : Z -> Qc.
  Variable root : Qc -> Qc.
  Variable fs : files.
  Variable base : string.
  Variable s : source.
  Variable days : list Z.
  Variable day : Z.
  Variable lk : lookup.
  Variable rg : observable -> list Z.
  Variables o1 o2 : observations.
  Hypothesis S : s = SatLand \/ s = InsituLand.
  Hypothesis P : plain_base base.
  Hypothesis D : Forall four_digit_day days.
  Hypothesis I : In day days.
  Hypothesis R : forall o, o = Tmin \/ o = Tmax -> fs (path_ranges base s o) = Some (write_ranges (rg o)) /\ Forall word (rg o).
  Hypothesis C1 : List.length (rg Tmin) = List.length (o_cor o1).
  Hypothesis C2 : List.length (rg Tmax) = List.length (o_cor o2).
  Hypothesis FL : fs (locations_file base s day) = Some (write_lookup lk).
  Hypothesis L : lookup_ok lk.
  Hypothesis F1 : fs (path_observation base s Tmin day) = Some (write_day (lk_uuid lk) o1 day).
  Hypothesis F2 : fs (path_observation base s Tmax day) = Some (write_day (lk_uuid lk) o2 day).
  Hypothesis W1 : well_formed o1.
  Hypothesis W2 : well_formed o2.
  Hypothesis K1 : day_ok o1 day.
  Hypothesis K2 : day_ok o2 day.

  Lemma both_read : exists l o1' o2',
    source_loader fs base (sourcename s) days = Ok l /\
    (forall m, mean_found root {| fd_set := numbered num o1'; fd_float := false |} {| fd_set := numbered num o2'; fd_float := false |} = Ok m ->
       load_observation_structure num root fs l "Tmean" day =
         Ok {| st_table := Some (numbers num lk); st_found := m; st_datetime := EPOCH + day * DAY; st_files := map (fun o => day_name s o day) [Tmin; Tmax] |}) /\
    (forall e, mean_found root {| fd_set := numbered num o1'; fd_float := false |} {| fd_set := numbered num o2'; fd_float := false |} = Err e ->
       load_observation_structure num root fs l "Tmean" day = Err e) /\
    records o1' = kept_records o1 day /\ records o2' = kept_records o2 day /\
    o_mask o1' = repeat false (List.length (o_measurement o1')) /\ o_mask o2' = repeat false (List.length (o_measurement o2')) /\
    o_time o1' = TScalar (qz day) /\ o_time o2' = TScalar (qz day) /\ List.length (o_cor o1') = List.length (o_cor o1) /\ List.length (o_cor o2') = List.length (o_cor o2) /\
    well_formed o1' /\ well_formed o2'.
  Proof.
    assert (O : source_observables s = Some [Tmin; Tmax]) by (destruct S as [-> | ->]; reflexivity).
    destruct (loader_locations fs base s [Tmin; Tmax] rg days day lk P O) as (fixed & mobile & E1 & E2); [|assumption|assumption|assumption|assumption|].
    { intros o [<-|[<-|[]]]; apply R; auto. }
    assert (Fd : four_digit_day day) by (rewrite Forall_forall in D; now apply D).
    destruct (source_read num fs lk (specs_of base s [Tmin; Tmax] rg day) day "Tmin" (path_observation base s Tmin day) (rg Tmin) o1) as (o1' & A1 & A2 & A3 & A4 & A5 & A6);
      [reflexivity|assumption|assumption|assumption|assumption|assumption|].
    destruct (source_read num fs lk (specs_of base s [Tmin; Tmax] rg day) day "Tmax" (path_observation base s Tmax day) (rg Tmax) o2) as (o2' & B1 & B2 & B3 & B4 & B5 & B6);
      [reflexivity|assumption|assumption|assumption|assumption|assumption|].
    exists (made base s [Tmin; Tmax] rg days fixed mobile), o1', o2'. split; [exact E1|].
    assert (observations_or_mean num root fs (Some lk) (specs_of base s [Tmin; Tmax] rg day) day "Tmean"
            = mean_found root {| fd_set := numbered num o1'; fd_float := false |} {| fd_set := numbered num o2'; fd_float := false |}) as E.
    { unfold observations_or_mean.
      change (dict_get (specs_of base s [Tmin; Tmax] rg day) "Tmean") with (@None (option string * list Z)).
      change (dict_get (specs_of base s [Tmin; Tmax] rg day) "Tmin") with (Some (Some (path_observation base s Tmin day), rg Tmin)).
      change (dict_get (specs_of base s [Tmin; Tmax] rg day) "Tmax") with (Some (Some (path_observation base s Tmax day), rg Tmax)).
      cbv iota. change (String.eqb "Tmean" "Tmean") with true. cbv iota. rewrite A1. cbn [bind]. rewrite B1. reflexivity. }
    split; [|split; [|auto 20]].
    - intros m M. rewrite M in E. exact (load_made fs base s [Tmin; Tmax] rg num root days fixed mobile (Some lk) "Tmean" m day I Fd E2 E).
    - intros e M. rewrite M in E. unfold load_observation_structure. rewrite E2. cbn [bind]. rewrite made_specs by assumption. cbn [bind].
      unfold datetime_at_time_index. rewrite (proj1 (day_time day Fd)). cbn [bind]. rewrite E. reflexivity.
  Qed.
End Mean.

Theorem C157_mean : forall num root fs base s days day lk rg o1 o2, s = SatLand \/ s = InsituLand ->
  plain_base base -> Forall four_digit_day days -> In day days ->
  (forall o, o = Tmin \/ o = Tmax -> fs (path_ranges base s o) = Some (write_ranges (rg o)) /\ Forall word (rg o)) ->
  List.length (rg Tmin) = List.length (o_cor o1) -> List.length (rg Tmax) = List.length (o_cor o2) -> List.length (o_cor o1) = List.length (o_cor o2) ->
  fs (locations_file base s day) = Some (write_lookup lk) -> lookup_ok lk -> Z.of_nat (List.length (lk_table lk)) <= 2 ^ 63 ->
  fs (path_observation base s Tmin day) = Some (write_day (lk_uuid lk) o1 day) -> fs (path_observation base s Tmax day) = Some (write_day (lk_uuid lk) o2 day) ->
  well_formed o1 -> well_formed o2 -> day_ok o1 day -> day_ok o2 day ->
  NoDup (map rec_location (kept_records o2 day)) -> shared (kept_records o1 day) (kept_records o2 day) = shared (kept_records o2 day) (kept_records o1 day) ->
  Forall (fun r => exists ll, located (lk_table lk) (rec_location r) ll) (kept_records o1 day) ->
  let ps := pairs (kept_records o1 day) (kept_records o2 day) in
  exists l st cs, source_loader fs base (sourcename s) days = Ok l /\ load_observation_structure num root fs l "Tmean" day = Ok st /\
    time_index st = TScalar (qz day) /\ st_datetime st = EPOCH + day * DAY /\ files_of s st /\ st_files st <> [] /\
    observation_vector st = map (half_sum num) ps /\
    observation_precision st = map (fun xy => 1 / (root (half_squares num xy) * root (half_squares num xy)))%Qc ps /\
    location_polar_coordinates st = Ok cs /\ Forall2 (fun xy c => placed num (lk_table lk) (rec_location (fst xy)) c) ps cs.
Proof.
  intros num root fs base s days day lk rg o1 o2 S P D I R C1 C2 C FL L N F1 F2 W1 W2 K1 K2 ND SH Loc; cbv zeta.
  destruct (both_read num root fs base s days day lk rg o1 o2 S P D I R C1 C2 FL L F1 F2 W1 W2 K1 K2)
    as (l & o1' & o2' & E1 & E2 & _ & A2 & B2 & A3 & B3 & A4 & B4 & A5 & B5 & A6 & B6).
  rewrite <- A2, <- B2 in *.
  destruct (mean_day num root o1' o2' day A6 B6 A3 B3 A4 B4) as (m & M & Fl & Hm & Ht & Hl & Hv & Hu); [congruence|assumption|assumption|].
  set (ps := pairs (records o1') (records o2')) in *.
  set (st := {| st_table := Some (numbers num lk); st_found := m; st_datetime := EPOCH + day * DAY; st_files := map (fun o => day_name s o day) [Tmin; Tmax] |}).
  destruct (open_structure st (map (half_sum num) ps) (map (fun xy => root (half_squares num xy)) ps) (map (fun xy => rec_location (fst xy)) ps) (List.length ps) Hm Hv Hu Hl) as (_ & V & Pr & Co);
    [apply map_length..|].
  specialize (Co (numbers num lk) eq_refl Fl).
  assert (Forall (fun l => exists ll, located (lk_table lk) l ll) (map (fun xy => rec_location (fst xy)) ps)) as Lo.
  { apply Forall_map, Forall_forall. intros xy H. unfold ps, pairs in H. apply in_flat_map in H as (x & Hx & H). rewrite Forall_forall in Loc.
    destruct (partner (records o2') x); [|destruct H]. destruct H as [<-|[]]. now apply Loc. }
  destruct (places_found (lk_table lk) num _ N Lo) as (cs & E5 & Pl).
  exists l, st, cs. split; [exact E1|]. split; [exact (E2 m M)|]. split; [exact Ht|]. split; [reflexivity|].
  split; [unfold files_of; cbn [st st_files map]; repeat apply Forall_cons; [..|apply Forall_nil]; eexists base, _, day; now rewrite basename_observation|].
  split; [discriminate|]. split; [exact V|]. split; [rewrite Pr, map_map; reflexivity|]. split; [rewrite Co; exact E5|].
  clear - Pl. revert cs Pl. induction ps as [|r R IH]; intros cs Pl; cbn [map] in Pl; inversion_clear Pl; constructor; auto.
Qed.
Print Assumptions C157_mean.

(* Files in ascending order of locations, as they are written by the preparation of days, meet the hypotheses on locations. *)
Lemma sorted_same (a b : list Z) : StronglySorted Z.lt a -> StronglySorted Z.lt b -> (forall x, In x a <-> In x b) -> a = b.
Proof.
  revert b. induction a as [|x a IH]; intros [|y b] A B E; [reflexivity|exfalso; apply (proj2 (E y)); now left|exfalso; apply (proj1 (E x)); now left|].
  inversion_clear A as [|? ? A1 A2]. inversion_clear B as [|? ? B1 B2]. rewrite Forall_forall in A2, B2.
  assert (x = y) as ->.
  { destruct (proj1 (E x) (or_introl eq_refl)) as [H|H]; [congruence|]. destruct (proj2 (E y) (or_introl eq_refl)) as [H'|H']; [congruence|]. apply B2 in H. apply A2 in H'. lia. }
  f_equal. apply IH; [assumption|assumption|]. intro z. specialize (E z). cbn in E. split; intro H.
  - destruct (proj1 E (or_intror H)) as [<-|]; [|assumption]. apply A2 in H. lia.
  - destruct (proj2 E (or_intror H)) as [<-|]; [|assumption]. apply B2 in H. lia.
Qed.
Lemma sorted_filter (f : Z -> bool) l : StronglySorted Z.lt l -> StronglySorted Z.lt (filter f l).
Proof.
  induction 1 as [|x l H IH F]; [constructor|]. cbn [filter]. destruct (f x); [|assumption]. constructor; [assumption|].
  rewrite Forall_forall in *. intros z Hz. apply filter_In in Hz as [Hz _]. auto.
Qed.
Theorem C157_sorted_files : forall a b, StronglySorted Z.lt (map rec_location a) -> StronglySorted Z.lt (map rec_location b) ->
  NoDup (map rec_location b) /\ shared a b = shared b a.
Proof.
  intros a b A B. split.
  - clear A. induction B as [|x l H IH F]; constructor; [|assumption]. intro I. rewrite Forall_forall in F. apply F in I. lia.
  - unfold shared. apply sorted_same; [now apply sorted_filter..|]. intro x. rewrite !filter_In, !existsb_exists. split; intros [H (y & H' & E)]; apply Z.eqb_eq in E; subst y;
      (split; [assumption|exists x; split; [assumption|apply Z.eqb_refl]]).
Qed.
Print Assumptions C157_sorted_files.

(* Otherwise, with the shared locations in different orders, there is an error and not a wrong mean. *)
Theorem C157_mean_mismatch : forall num root fs base s days day lk rg o1 o2, s = SatLand \/ s = InsituLand ->
  plain_base base -> Forall four_digit_day days -> In day days ->
  (forall o, o = Tmin \/ o = Tmax -> fs (path_ranges base s o) = Some (write_ranges (rg o)) /\ Forall word (rg o)) ->
  List.length (rg Tmin) = List.length (o_cor o1) -> List.length (rg Tmax) = List.length (o_cor o2) ->
  fs (locations_file base s day) = Some (write_lookup lk) -> lookup_ok lk ->
  fs (path_observation base s Tmin day) = Some (write_day (lk_uuid lk) o1 day) -> fs (path_observation base s Tmax day) = Some (write_day (lk_uuid lk) o2 day) ->
  well_formed o1 -> well_formed o2 -> day_ok o1 day -> day_ok o2 day ->
  shared (kept_records o1 day) (kept_records o2 day) <> shared (kept_records o2 day) (kept_records o1 day) ->
  exists l, source_loader fs base (sourcename s) days = Ok l /\ load_observation_structure num root fs l "Tmean" day = Err ValueError.
Proof.
  intros num root fs base s days day lk rg o1 o2 S P D I R C1 C2 FL L F1 F2 W1 W2 K1 K2 SH.
  destruct (both_read num root fs base s days day lk rg o1 o2 S P D I R C1 C2 FL L F1 F2 W1 W2 K1 K2)
    as (l & o1' & o2' & E1 & _ & E3 & A2 & B2 & _ & _ & _ & _ & _ & _ & A6 & B6).
  exists l. split; [assumption|]. apply E3. unfold mean_found. cbn [fd_set].
  destruct (mean_sets (numbered num o1') (numbered num o2')) as [m|e] eqn:M.
  - exfalso. apply SH. apply mean_sets_ok in M as (M & _). cbn [numbered s_location] in M. rewrite !take_isin in M. rewrite <- A2, <- B2. unfold shared.
    rewrite <- (map_id (o_location o1')), <- (map_id (o_location o2')), (day_places (fun x => x) o1' A6), (day_places (fun x => x) o2' B6) in M. exact M.
  - unfold mean_sets in M. cbv zeta in M. repeat match type of M with (if ?b then _ else _) = _ => destruct b; [injection M as <-; reflexivity|] end. discriminate M.
Qed.
Print Assumptions C157_mean_mismatch.
(* two files of one day, with one location in both *)
Definition demo_min : observations :=
  {| o_mask := [false; false; false]; o_time := TScalar (qz 7); o_location := [0; 1; 2]; o_measurement := [100; 200; 300]; o_unc := [1; 2; 3]; o_cor := [] |}.
Definition demo_max : observations :=
  {| o_mask := [true; false; false]; o_time := TScalar (qz 7); o_location := [0; 1; 2]; o_measurement := [110; 220; 330]; o_unc := [4; 5; 6]; o_cor := [] |}.
Definition demo_swapped : observations :=
  {| o_mask := [false; false; false]; o_time := TScalar (qz 7); o_location := [2; 1; 0]; o_measurement := [110; 220; 330]; o_unc := [4; 5; 6]; o_cor := [] |}.
Definition land_fs (o2 : observations) : files := fun path =>
  if String.eqb path (path_ranges "/data" SatLand Tmin) || String.eqb path (path_ranges "/data" SatLand Tmax) then Some (write_ranges [])
  else if String.eqb path (locations_file "/data" SatLand 7) then Some (write_lookup demo_lookup)
  else if String.eqb path (path_observation "/data" SatLand Tmin 7) then Some (write_day (lk_uuid demo_lookup) demo_min 7)
  else if String.eqb path (path_observation "/data" SatLand Tmax 7) then Some (write_day (lk_uuid demo_lookup) o2 7)
  else None.
Lemma demo_sets_ok : well_formed demo_min /\ well_formed demo_max /\ well_formed demo_swapped.
Proof.
  unfold well_formed, demo_min, demo_max, demo_swapped, word. cbn [o_mask o_time o_location o_measurement o_unc o_cor].
  split; [|split]; (repeat (split; [first [reflexivity|exact I|repeat constructor; lia]|]); repeat constructor; lia).
Qed.
Lemma land_files o2 : (forall o, o = Tmin \/ o = Tmax -> land_fs o2 (path_ranges "/data" SatLand o) = Some (write_ranges []) /\ Forall word []) /\
  land_fs o2 (locations_file "/data" SatLand 7) = Some (write_lookup demo_lookup) /\
  land_fs o2 (path_observation "/data" SatLand Tmin 7) = Some (write_day (lk_uuid demo_lookup) demo_min 7) /\
  land_fs o2 (path_observation "/data" SatLand Tmax 7) = Some (write_day (lk_uuid demo_lookup) o2 7).
Proof.
  unfold land_fs. split; [intros o [-> | ->]; (split; [|apply Forall_nil])|split; [|split]];
    (repeat match goal with |- context [String.eqb ?a ?b] => let v := eval vm_compute in (String.eqb a b) in replace (String.eqb a b) with v by (vm_compute; reflexivity) end); reflexivity.
Qed.
Example C157_mean_nonvacuous : well_formed demo_min /\ well_formed demo_max /\ land_fs demo_max (path_observation "/data" SatLand Tmax 7) = Some (write_day (lk_uuid demo_lookup) demo_max 7) /\
  StronglySorted Z.lt (map rec_location (kept_records demo_min 7)) /\ StronglySorted Z.lt (map rec_location (kept_records demo_max 7)) /\
  pairs (kept_records demo_min 7) (kept_records demo_max 7) = [((1, 200, 2, []), (1, 220, 5, [])); ((2, 300, 3, []), (2, 330, 6, []))] /\
  Forall (fun r => exists ll, located (lk_table demo_lookup) (rec_location r) ll) (kept_records demo_min 7).
Proof.
  split; [apply demo_sets_ok|]. split; [apply demo_sets_ok|]. split; [apply land_files|].
  assert (kept_records demo_min 7 = [(0, 100, 1, []); (1, 200, 2, []); (2, 300, 3, [])]) as -> by (vm_compute; reflexivity).
  assert (kept_records demo_max 7 = [(1, 220, 5, []); (2, 330, 6, [])]) as -> by (vm_compute; reflexivity).
  split; [cbn; repeat constructor|]. split; [cbn; repeat constructor|]. split; [vm_compute; reflexivity|].
  repeat apply Forall_cons; [..|apply Forall_nil]; eexists; (split; [vm_compute; discriminate|reflexivity]).
Qed.
Example C157_mean_mismatch_nonvacuous : well_formed demo_swapped /\ land_fs demo_swapped (path_observation "/data" SatLand Tmax 7) = Some (write_day (lk_uuid demo_lookup) demo_swapped 7) /\
  shared (kept_records demo_min 7) (kept_records demo_swapped 7) = [0; 1; 2] /\ shared (kept_records demo_swapped 7) (kept_records demo_min 7) = [2; 1; 0].
Proof. split; [apply demo_sets_ok|]. split; [apply land_files|]. split; vm_compute; reflexivity. Qed.

(* What is not known is an error: a source without files of its own (lakes), a day that is not one of the loader's, a variable
   that is neither stored nor a mean of two that are. *)
Theorem C157_unknown : forall num root fs base days l observable day,
  source_loader fs base (sourcename SatLake) days = Err KeyError /\
  (l_mobile l = None -> day_get (l_files l) day = None -> load_observation_structure num root fs l observable day = Err KeyError) /\
  (forall lk specs, dict_get specs observable = None -> observable <> "Tmean"%string -> observations_or_mean num root fs lk specs day observable = Err OperationException).
Proof.
  intros num root fs base days l observable day. split; [reflexivity|]. split.
  - intros M G. unfold load_observation_structure, day_locations. rewrite M. destruct (l_fixed l); cbn [bind]; unfold day_specs; rewrite G; reflexivity.
  - intros lk specs G N. unfold observations_or_mean. rewrite G. destruct (String.eqb_spec observable "Tmean") as [|_]; [contradiction|reflexivity].
Qed.
Print Assumptions C157_unknown.
Example C157_unknown_nonvacuous : let l := {| l_ranges := [("Tmean"%string, [5])]; l_files := [(7, [("Tmean"%string, None)])]; l_fixed := None; l_mobile := None |} in
  l_mobile l = None /\ day_get (l_files l) 8 = None /\ dict_get (A := option string * list Z) [("Tmean"%string, (None, [5]))] "Tmin" = None.
Proof. split; [|split]; reflexivity. Qed.

(* A day with no file of observations, or none of locations, is a day without observations. *)
Theorem C157_missing : forall num root fs ranges_files ranges day observable fixed lk file mobile,
  mapM (fun nf => do data <- open_file fs (snd nf); do r <- read_ranges data; Ok (fst nf, r)) ranges_files = Ok ranges -> (exists r, dict_get ranges observable = Some r) ->
  four_digit_day day ->
  (file = None /\ (exists name, fixed = Some name /\ fs name = Some (write_lookup lk) /\ lookup_ok lk)) \/ (fixed = None /\ mobile = []) ->
  exists l st, one_day_loader fs ranges_files day [(observable, file)] fixed mobile = Ok l /\ load_observation_structure num root fs l observable day = Ok st /\
    number_of_observations st = 0%nat /\ observation_vector st = [] /\ observation_precision st = [] /\ time_index st = TScalar (qz day).
Proof.
  intros num root fs rf ranges day ob fixed lk file mobile R (r & G) Fd H. unfold one_day_loader. rewrite R. cbn [bind].
  assert (forall lk' mb, day_specs {| l_ranges := ranges; l_files := [(day, [(ob, file)])]; l_fixed := lk'; l_mobile := mb |} day = Ok [(ob, (file, r))]) as Sp.
  { intros. unfold day_specs. cbn [l_files l_ranges day_get]. rewrite Z.eqb_refl. cbn [key_error bind mapM fst snd]. rewrite G. reflexivity. }
  assert (forall lk' mb, day_locations fs {| l_ranges := ranges; l_files := [(day, [(ob, file)])]; l_fixed := lk'; l_mobile := mb |} day = Ok lk' ->
    (file = None \/ lk' = None) -> exists st, load_observation_structure num root fs {| l_ranges := ranges; l_files := [(day, [(ob, file)])]; l_fixed := lk'; l_mobile := mb |} ob day = Ok st /\
      number_of_observations st = 0%nat /\ observation_vector st = [] /\ observation_precision st = [] /\ time_index st = TScalar (qz day)) as Q.
  { intros lk' mb E No. unfold load_observation_structure. rewrite E. cbn [bind]. rewrite Sp. cbn [bind]. unfold datetime_at_time_index. rewrite (proj1 (day_time day Fd)). cbn [bind].
    assert (observations_or_mean num root fs lk' [(ob, (file, r))] day ob = Ok (observations_missing day)) as ->.
    { unfold observations_or_mean, source_observations. cbn [dict_get]. rewrite String.eqb_refl. cbn [key_error bind fst snd]. destruct No as [-> | ->]; [reflexivity|now destruct file]. }
    cbn [bind]. eexists. split; [reflexivity|]. split; [reflexivity|]. split; [reflexivity|]. split; reflexivity. }
  destruct H as [[-> (name & -> & Fn & L)] | [-> ->]].
  - unfold open_file at 1. rewrite Fn. cbn [bind]. rewrite (read_lookup_ok lk L). cbn [bind].
    destruct (Q (Some lk) (match mobile with [] => None | (_, name) :: _ => Some [(day, name)] end) eq_refl (or_introl eq_refl)) as (st & E & H).
    exists {| l_ranges := ranges; l_files := [(day, [(ob, None)])]; l_fixed := Some lk; l_mobile := match mobile with [] => None | (_, name) :: _ => Some [(day, name)] end |}, st. split; [reflexivity|]. split; assumption.
  - cbn [bind]. destruct (Q None None eq_refl (or_intror eq_refl)) as (st & E & H). eexists _, st. split; [reflexivity|]. split; assumption.
Qed.
Print Assumptions C157_missing.
Example C157_missing_nonvacuous :
  mapM (fun nf => do data <- open_file demo_fs (snd nf); do r <- read_ranges data; Ok (fst nf, r)) [("Tmean"%string, path_ranges "/data" SatOcean Tmean)] = Ok [("Tmean"%string, [5])] /\ four_digit_day 7.
Proof. split; [vm_compute; reflexivity|]. split; vm_compute; discriminate. Qed.

(* But where one of the two files of a mean is missing, the day is an error if the source has correlated errors. *)
Theorem C157_one_missing_refuted : forall num root fs lk r1 r2 day f2 data o, fs f2 = Some data -> read_day (List.length r2) data (lk_uuid lk) day = Ok o -> r2 <> [] ->
  observations_or_mean num root fs (Some lk) [("Tmin"%string, (None, r1)); ("Tmax"%string, (Some f2, r2))] day "Tmean" = Err ValueError.
Proof.
  intros num root fs lk r1 r2 day f2 data o F R N. unfold observations_or_mean, source_observations. cbn [dict_get String.eqb Ascii.eqb Bool.eqb key_error bind fst snd].
  unfold open_file. rewrite F. cbn [bind]. rewrite R. cbn [bind].
  assert (List.length (o_cor o) = List.length r2 /\ o_time o = TScalar (qz day)) as [C T].
  { unfold read_day in R. destruct (read_contents _ _ _) as [c|]; cbn [bind] in R; [|discriminate]. injection R as <-. cbn [o_cor o_time]. now rewrite map_length, seq_length. }
  unfold mean_found, mean_sets. cbn [fd_set observations_missing numbered s_location s_time s_cor]. 
  assert (isin (o_location o) [] = []) as ->.
  { unfold isin. generalize (seq 0 (List.length (o_location o))). intro l. induction l; [reflexivity|]. exact IHl. }
  cbn [isin seq filter List.length take map combine forallb negb Nat.eqb]. rewrite T.
  assert (times_eqb (TScalar (qz day)) (TScalar (qz day)) = true) as -> by (cbn; unfold Qc_eq_bool; now destruct (Qc_eq_dec _ _)).
  cbn [negb]. rewrite map_length, C. destruct r2; [congruence|]. reflexivity.
Qed.
Print Assumptions C157_one_missing_refuted.
Example C157_one_missing_refuted_nonvacuous : exists o, read_day 1 (write_day (lk_uuid demo_lookup) demo_obs 7) (lk_uuid demo_lookup) 7 = Ok o /\ o_location o = [1; 2].
Proof. eexists. split; [vm_compute; reflexivity|reflexivity]. Qed.

(* ---- C158 *)

Lemma dot_nonneg a b : Forall (fun x => 0 <= x)%Qc a -> Forall (fun x => 0 <= x)%Qc b -> (0 <= dot a b)%Qc.
Proof.
  unfold dot. intro A. revert b. induction A as [|x a Hx A IH]; intros b B; [apply Qcle_refl|]. destruct B as [|y b Hy B]; cbn [combine map fold_right fst snd]; [apply Qcle_refl|].
  specialize (IH b B). replace 0%Qc with (0 + 0)%Qc by ring. apply Qcplus_le_compat; [|assumption]. replace 0%Qc with (0 * y)%Qc by ring. now apply Qcmult_le_compat_r.
Qed.
Lemma dot_positive a b : List.length a = List.length b -> Forall (fun x => 0 <= x)%Qc a -> Forall (fun x => 0 <= x)%Qc b ->
  ((0 < dot a b)%Qc <-> exists j, (0 < nth j a 0)%Qc /\ (0 < nth j b 0)%Qc).
Proof.
  intros L A. revert b L. induction A as [|x a Hx A IH]; intros b L B.
  - split; [intro H; discriminate H|]. intros (j & H & _). destruct j; discriminate H.
  - destruct B as [|y b Hy B]; [discriminate L|]. injection L as L. specialize (IH b L B). unfold dot in *. cbn [combine map fold_right fst snd].
    pose proof (dot_nonneg a b A B) as T. unfold dot in T. set (d := fold_right Qcplus 0%Qc (map (fun xy => (fst xy * snd xy)%Qc) (combine a b))) in *.
    assert (0 <= x * y)%Qc as Hxy by (replace 0%Qc with (0 * y)%Qc by ring; now apply Qcmult_le_compat_r).
    split.
    + intro H. destruct (Qclt_le_dec 0 d) as [Hd|Hd].
      * apply IH in Hd as (j & Hj). now exists (S j).
      * exists 0%nat. cbn [nth]. assert (d = 0)%Qc as E by now apply Qcle_antisym. rewrite E, Qcplus_0_r in H.
        apply Qcle_lt_or_eq in Hx as [Hx|Hx]; [|rewrite <- Hx in H; replace (0 * y)%Qc with 0%Qc in H by ring; now apply Qclt_not_eq in H].
        apply Qcle_lt_or_eq in Hy as [Hy|Hy]; [|rewrite <- Hy in H; replace (x * 0)%Qc with 0%Qc in H by ring; now apply Qclt_not_eq in H]. auto.
    + intros ([|j] & H1 & H2); cbn [nth] in *.
      * apply Qclt_le_trans with (x * y)%Qc; [replace 0%Qc with (0 * y)%Qc by ring; now apply Qcmult_lt_compat_r|].
        replace (x * y)%Qc with (x * y + 0)%Qc at 1 by ring. apply Qcplus_le_compat; [apply Qcle_refl|assumption].
      * apply Qclt_le_trans with d; [apply IH; now exists j|]. replace d with (0 + d)%Qc at 1 by ring. apply Qcplus_le_compat; [assumption|apply Qcle_refl].
Qed.
Lemma loose post prior : (0 < prior)%Qc -> (Qle_bool CONSTRAINT_THRESHOLD (latent_constraint post prior) = false <-> (qz 4 / qz 5 * prior < post)%Qc).
Proof.
  intro P. unfold latent_constraint. assert (post = post / prior * prior)%Qc as E by (field; intro H; subst; discriminate P).
  set (r := (post / prior)%Qc) in *. cbv zeta.
  assert ((qz 4 / qz 5 * prior < post)%Qc <-> (qz 4 / qz 5 < r)%Qc) as ->.
  { rewrite E. split; intro H; [|now apply Qcmult_lt_compat_r]. destruct (Qclt_le_dec (qz 4 / qz 5) r) as [|H']; [assumption|].
    exfalso. apply (Qclt_not_le _ _ H). apply Qcmult_le_compat_r; [assumption|now apply Qclt_le_weak]. }
  assert (forall x : Qc, Qle_bool CONSTRAINT_THRESHOLD (1 - x)%Qc = false <-> (qz 4 / qz 5 < x)%Qc) as A.
  { intro x. replace (qz 4 / qz 5)%Qc with (1 - CONSTRAINT_THRESHOLD)%Qc by (apply Qc_is_canon; vm_compute; reflexivity).
    split; intro H.
    - destruct (Qclt_le_dec (1 - CONSTRAINT_THRESHOLD) x) as [|Le]; [assumption|]. exfalso. apply not_true_iff_false in H. apply H. apply Qle_bool_iff. change (CONSTRAINT_THRESHOLD <= 1 - x)%Qc.
      apply Qcopp_le_compat in Le. apply (Qcplus_le_compat 1 1) in Le; [|apply Qcle_refl]. replace (1 + - (1 - CONSTRAINT_THRESHOLD))%Qc with CONSTRAINT_THRESHOLD in Le by ring. exact Le.
    - apply not_true_iff_false. intro B. apply Qle_bool_iff in B. change (CONSTRAINT_THRESHOLD <= 1 - x)%Qc in B. apply (Qclt_not_le _ _ H).
      apply Qcopp_le_compat in B. apply (Qcplus_le_compat 1 1) in B; [|apply Qcle_refl]. replace (1 + - (1 - x))%Qc with x in B by ring. exact B. }
  rewrite A. destruct (Qle_bool r 1) eqn:R; [reflexivity|]. split; intros _; [|vm_compute; reflexivity].
  apply Qclt_le_trans with 1%Qc; [vm_compute; reflexivity|]. destruct (Qclt_le_dec r 1) as [H|H]; [|assumption]. apply Qclt_le_weak in H. apply not_true_iff_false in R. exfalso. apply R. now apply Qle_bool_iff.
Qed.

(* Where the weights of the variables are not negative, a cell is flagged just when a variable of which it has some is still
   about as uncertain as before: with more than four fifths of its variance. *)
Theorem C158_flagged_cells : forall design post prior k row, List.length post = List.length prior -> Forall (fun v => 0 < v)%Qc prior ->
  nth_error design k = Some row -> List.length row = List.length post -> Forall (fun w => 0 <= w)%Qc row ->
  (nth_error (constraint_statistic design (latent_constraints post prior) CONSTRAINT_THRESHOLD) k = Some true <->
   exists j, (j < List.length post)%nat /\ (0 < nth j row 0)%Qc /\ (qz 4 / qz 5 * nth j prior 0 < nth j post 0)%Qc).
Proof.
  intros design post prior k row L P K Lr W. unfold constraint_statistic. rewrite nth_error_map, K. cbn [option_map].
  set (ind := indicator (latent_constraints post prior) CONSTRAINT_THRESHOLD).
  assert (List.length ind = List.length post) as Li by (unfold ind, indicator, latent_constraints; rewrite !map_length, combine_length, <- L; apply Nat.min_id).
  assert (Forall (fun w => 0 <= w)%Qc ind) as In by (apply Forall_map, Forall_forall; intros c _; destruct (Qle_bool _ _); vm_compute; discriminate).
  assert (forall j, (j < List.length post)%nat -> ((0 < nth j ind 0)%Qc <-> (qz 4 / qz 5 * nth j prior 0 < nth j post 0)%Qc)) as N.
  { intros j Hj. unfold ind, indicator, latent_constraints. rewrite map_map.
    set (f := fun x : Qc * Qc => if Qle_bool CONSTRAINT_THRESHOLD (latent_constraint (fst x) (snd x)) then 0%Qc else 1%Qc).
    rewrite (nth_indep _ 0%Qc (f (0%Qc, 0%Qc))) by (rewrite map_length, combine_length, <- L, Nat.min_id; assumption).
    rewrite map_nth, combine_nth by assumption. unfold f. cbn [fst snd].
    rewrite <- loose by (rewrite Forall_forall in P; apply P, nth_In; congruence).
    destruct (Qle_bool CONSTRAINT_THRESHOLD _); split; (reflexivity || discriminate). }
  assert (forall x : Qc, negb (Qle_bool x 0) = true <-> (0 < x)%Qc) as B.
  { intro x. rewrite negb_true_iff, <- not_true_iff_false. split; intro H.
    - destruct (Qclt_le_dec 0 x) as [|H']; [assumption|]. exfalso. apply H. now apply Qle_bool_iff.
    - intro H'. apply Qle_bool_iff in H'. now apply (Qclt_not_le _ _ H). }
  split.
  - intro H. injection H as H. apply B in H. apply dot_positive in H as (j & H1 & H2); [|congruence|assumption|assumption].
    assert (j < List.length post)%nat as Hj by (destruct (Nat.lt_ge_cases j (List.length post)) as [|G]; [assumption|rewrite nth_overflow in H1 by lia; discriminate H1]).
    exists j. split; [assumption|]. split; [assumption|]. now apply N.
  - intros (j & Hj & H1 & H2). f_equal. apply B. apply dot_positive; [congruence|assumption|assumption|]. exists j. split; [assumption|]. now apply N.
Qed.
Print Assumptions C158_flagged_cells.
Example C158_flagged_cells_nonvacuous : let post := [qz 9; qz 1; qz 20] in let prior := [qz 10; qz 10; qz 10] in
  let design := [[1%Qc; 1%Qc; 0%Qc]; [0%Qc; 1%Qc; 0%Qc]; [0%Qc; 0%Qc; 1%Qc]] in
  Forall (fun v => 0 < v)%Qc prior /\ Forall (Forall (fun w => 0 <= w)%Qc) design /\
  constraint_statistic design (latent_constraints post prior) CONSTRAINT_THRESHOLD = [true; false; true].
Proof.
  cbv zeta. split; [repeat apply Forall_cons; [vm_compute; reflexivity..|apply Forall_nil]|]. split; [|vm_compute; reflexivity].
  repeat apply Forall_cons; try apply Forall_nil; vm_compute; discriminate.
Qed.

(* Where they may be, as in the harmonics and in a latitude or altitude below their centres, a cell that depends on loose
   variables only can go without a flag. *)
Theorem C158_negative_weights_refuted : exists design post prior k row, nth_error design k = Some row /\
  (forall j, (j < List.length row)%nat -> nth j row 0%Qc <> 0%Qc /\ (qz 4 / qz 5 * nth j prior 0 < nth j post 0)%Qc) /\ row <> [] /\
  nth_error (constraint_statistic design (latent_constraints post prior) CONSTRAINT_THRESHOLD) k = Some false.
Proof.
  exists [[1; (- (1))]]%Qc, [qz 10; qz 10], [qz 10; qz 10], 0%nat, [1; (- (1))]%Qc. split; [reflexivity|]. split; [|split; [discriminate|vm_compute; reflexivity]].
  intros [|[|j]] H; [split; [discriminate|vm_compute; reflexivity]|split; [discriminate|vm_compute; reflexivity]|cbn in H; lia].
Qed.
Print Assumptions C158_negative_weights_refuted.

(* As it stands, the module of flags does not define those of this check, which so fails whatever its input. *)
Theorem C158_runs_refuted : forall climatology large_scale, latent_variable_flags climatology large_scale = Err AttributeError.
Proof. reflexivity. Qed.
Print Assumptions C158_runs_refuted.

(* Raising a flag leaves the others as they were. *)
Theorem C158_raise : forall flag statistic values k v b, 0 <= flag -> nth_error statistic k = Some b -> nth_error values k = Some v ->
  exists v', nth_error (raise_flags flag statistic values) k = Some v' /\ forall n, 0 <= n -> Z.testbit v' n = Z.testbit v n || (b && Z.testbit flag n).
Proof.
  intros flag statistic values k v b F B V. unfold raise_flags. rewrite nth_error_map.
  assert (nth_error (combine statistic values) k = Some (b, v)) as ->.
  { revert statistic values B V. induction k as [|k IH]; intros [|x xs] [|y ys]; cbn; try discriminate; [congruence|apply IH]. }
  cbn [option_map fst snd]. eexists. split; [reflexivity|]. intros n Hn. destruct b; [now rewrite Z.lor_spec|now rewrite orb_false_r].
Qed.
Print Assumptions C158_raise.
Example C158_raise_nonvacuous : raise_flags 4 [true; false] [1; 3] = [5; 3].
Proof. reflexivity. Qed.
