(* Lemmas about the loader of raw binary files. *)
From Coq Require Import QArith Qcanon String Ascii Sorted.
From Verif Require Import Base Time_Model Time_Spec Time_Proofs Grid_Model Grid_Proofs Lin Ana_Model Comb_Model Flag_Model Name_Model Name_Spec Name_Proofs.
From Verif Require Import Obs_Model Obs_Spec Obs_Proofs Cpp_Model Cpp_Spec Cpp_Names Conn_Model Conn_Spec Conn_Proofs.
Local Open Scope Z_scope.
Local Open Scope list_scope.

Lemma read_lookup_ok lk : lookup_ok lk -> read_lookup (write_lookup lk) = Ok lk.
Proof. destruct lk as [u t]. intros [U T]. now apply read_lookup_write. Qed.

Lemma day_get_map {A} (f : Z -> A) days day : In day days -> day_get (map (fun d => (d, f d)) days) day = Some (f day).
Proof.
  induction days as [|d days IH]; intros []; cbn [map day_get].
  - subst. now rewrite Z.eqb_refl.
  - destruct (Z.eqb_spec d day) as [-> |]; auto.
Qed.

Lemma source_observables_names s : dict_get SOURCE_OBSERVABLES (sourcename s) = option_map (map observablename) (source_observables s).
Proof. destruct s; reflexivity. Qed.

Section Load.
  Variable fs : files.
  Variable base : string.
  Variable s : source.
  Variable os : list observable.
  Variable rg : observable -> list Z.
  Hypothesis P : plain_base base.
  Hypothesis O : source_observables s = Some os.
  Hypothesis R : forall o, In o os -> fs (path_ranges base s o) = Some (write_ranges (rg o)) /\ Forall word (rg o).

  Lemma day0 : four_digit_day 0.
  Proof. split; vm_compute; discriminate. Qed.
  Definition names_of (d : Z) : list (string * option string) := map (fun o => (observablename o, Some (path_observation base s o d))) os.
  Definition made (days : list Z) fixed mobile : loader :=
    {| l_ranges := map (fun o => (observablename o, rg o)) os; l_files := map (fun d => (d, names_of d)) days; l_fixed := fixed; l_mobile := mobile |}.

  Lemma loader_made days fixed mobile :
    Forall four_digit_day days ->
    (match py_filename_lookup base (sourcename s) with
     | Some name => do data <- open_file fs name; do lk <- read_lookup data; Ok (Some lk, None)
     | None =>
         do m <- mapM (fun day => do name <- py_filename_mobile_locations base (sourcename s) (hd EmptyString (map observablename os)) day; Ok (day, Some name)) days;
         Ok (None, Some m)
     end) = Ok (fixed, mobile) ->
    source_loader fs base (sourcename s) days = Ok (made days fixed mobile).
  Proof.
    intros D F. unfold source_loader. rewrite source_observables_names, O. cbn [option_map key_error bind].
    assert (forall d, four_digit_day d -> forall o, py_filename_observations base (sourcename s) (observablename o) d = Ok (path_observation base s o d)) as N1
      by (intros d Fd o; exact (proj1 (names_observation base s o d P Fd))).
    assert (mapM (fun o => do data <- open_file fs (py_filename_ranges base (sourcename s) o); do r <- read_ranges data; Ok (o, r)) (map observablename os)
            = Ok (map (fun o => (observablename o, rg o)) os)) as ->.
    { revert R. clear - P. induction os as [|o l IH]; intro R; [reflexivity|]. cbn [map mapM].
      assert (py_filename_ranges base (sourcename s) (observablename o) = path_ranges base s o) as E.
      { unfold py_filename_ranges, path_ranges. apply base_join; [assumption|]. destruct s; reflexivity. }
      rewrite E. unfold open_file at 1. destruct (R o (or_introl eq_refl)) as [-> W]. cbn [bind]. rewrite read_ranges_write by assumption. cbn [bind].
      rewrite IH by (intros; apply R; now right). reflexivity. }
    cbn [bind]. rewrite F. cbn [bind fst snd].
    assert (mapM (fun day => do ns <- mapM (fun o => do name <- py_filename_observations base (sourcename s) o day; Ok (o, Some name)) (map observablename os); Ok (day, ns)) days
            = Ok (map (fun d => (d, names_of d)) days)) as ->; [|reflexivity].
    apply mapM_values. intros d Hd. rewrite Forall_forall in D. specialize (D d Hd).
    assert (mapM (fun o => do name <- py_filename_observations base (sourcename s) o d; Ok (o, Some name)) (map observablename os) = Ok (names_of d)) as ->; [|reflexivity].
    unfold names_of. clear - N1 D. induction os as [|o l IH]; [reflexivity|]. cbn [map mapM]. rewrite N1 by assumption. cbn [bind]. rewrite IH. reflexivity.
  Qed.

  Lemma fixed_loader days name lk : Forall four_digit_day days -> staticlocation s = Some name -> fs (path_lookup base name) = Some (write_lookup lk) -> lookup_ok lk ->
    source_loader fs base (sourcename s) days = Ok (made days (Some lk) None).
  Proof.
    intros D S F L. apply loader_made; [assumption|].
    assert (py_filename_lookup base (sourcename s) = Some (path_lookup base name)) as ->.
    { unfold py_filename_lookup. destruct s; cbn in S; try discriminate; injection S as <-; cbn [source_observables] in O; try discriminate;
        cbn [sourcename]; unfold path_lookup; cbn [py_fixed_lookup String.eqb Ascii.eqb Bool.eqb option_map]; rewrite base_join by (assumption || reflexivity); reflexivity. }
    unfold open_file. rewrite F. cbn [bind]. rewrite read_lookup_ok by assumption. reflexivity.
  Qed.

  Lemma mobile_loader days : Forall four_digit_day days -> s = InsituOcean ->
    source_loader fs base (sourcename s) days = Ok (made days None (Some (map (fun d => (d, Some (path_mobile base s Tmean d))) days))).
  Proof.
    intros D ES. apply loader_made; [assumption|]. rewrite ES in *. cbn [source_observables] in O. injection O as <-. cbn [py_filename_lookup py_fixed_lookup sourcename].
    replace (py_filename_lookup base "insitu_ocean") with (@None string) by reflexivity.
    rewrite (mapM_values _ (fun d => (d, Some (path_mobile base InsituOcean Tmean d)))); [reflexivity|].
    intros d Hd. rewrite Forall_forall in D. cbn [map hd]. change "insitu_ocean"%string with (sourcename InsituOcean).
    rewrite (proj2 (names_observation base InsituOcean Tmean d P (D d Hd))). reflexivity.
  Qed.

  Definition specs_of (d : Z) : filespecs := map (fun o => (observablename o, (Some (path_observation base s o d), rg o))) os.
  Lemma ranges_get o : In o os -> dict_get (map (fun o => (observablename o, rg o)) os) (observablename o) = Some (rg o).
  Proof.
    clear. induction os as [|x l IH]; intros []; cbn [map dict_get].
    - subst. now rewrite String.eqb_refl.
    - destruct (String.eqb_spec (observablename x) (observablename o)) as [E|]; [|auto]. assert (x = o) as -> by (destruct x, o; cbn in E; congruence). reflexivity.
  Qed.
  Lemma made_specs days fixed mobile d : In d days -> day_specs (made days fixed mobile) d = Ok (specs_of d).
  Proof.
    intro Hd. unfold day_specs. cbn [made l_files l_ranges]. rewrite day_get_map by assumption. cbn [key_error bind].
    unfold names_of, specs_of. assert (forall l, (forall o, In o l -> In o os) ->
      mapM (fun nf => do r <- key_error (dict_get (map (fun o => (observablename o, rg o)) os) (fst nf)); Ok (fst nf, (snd nf, r)))
           (map (fun o => (observablename o, Some (path_observation base s o d))) l) = Ok (map (fun o => (observablename o, (Some (path_observation base s o d), rg o))) l)) as H; [|now apply H].
    induction l as [|o l IH]; intro I; [reflexivity|]. cbn [map mapM fst snd]. rewrite ranges_get by (apply I; now left). cbn [key_error bind].
    rewrite IH by (intros; apply I; now right). reflexivity.
  Qed.
  Lemma specs_get o d : In o os -> dict_get (specs_of d) (observablename o) = Some (Some (path_observation base s o d), rg o).
  Proof.
    unfold specs_of. clear. induction os as [|x l IH]; intros []; cbn [map dict_get].
    - subst. now rewrite String.eqb_refl.
    - destruct (String.eqb_spec (observablename x) (observablename o)) as [E|]; [|auto]. assert (x = o) as -> by (destruct x, o; cbn in E; congruence). reflexivity.
  Qed.
  Lemma specs_files d : flat_map (fun x : string * (option string * list Z) => match fst (snd x) with Some name => [basename name] | None => [] end) (specs_of d)
    = map (fun o => day_name s o d) os.
  Proof.
    unfold specs_of. rewrite flat_map_concat_map, map_map. cbn [fst snd]. rewrite <- flat_map_concat_map.
    clear. induction os as [|o l IH]; [reflexivity|]. cbn [flat_map map]. now rewrite basename_observation, IH.
  Qed.
  Lemma load_made num root days fixed mobile lk o f d : In d days -> four_digit_day d -> day_locations fs (made days fixed mobile) d = Ok lk ->
    observations_or_mean num root fs lk (specs_of d) d o = Ok f ->
    load_observation_structure num root fs (made days fixed mobile) o d =
      Ok {| st_table := option_map (numbers num) lk; st_found := f; st_datetime := EPOCH + d * DAY; st_files := map (fun o => day_name s o d) os |}.
  Proof.
    intros I F L H. unfold load_observation_structure. rewrite L. cbn [bind]. rewrite made_specs by assumption. cbn [bind].
    unfold datetime_at_time_index. rewrite (proj1 (day_time d F)). cbn [bind]. rewrite H. cbn [bind]. rewrite specs_files. reflexivity.
  Qed.
End Load.

(* ---- the sets of one day *)
Definition rec0 : obs_record := (0, 0, 0, []).
Lemma take_all {A} (d : A) l n : n = List.length l -> take d l (seq 0 n) = l.
Proof.
  intros ->. unfold take. apply (nth_ext _ _ d d); [now rewrite map_length, seq_length|]. intros i Hi. rewrite map_length, seq_length in Hi.
  rewrite (nth_indep _ d (nth 0 l d)) by now rewrite map_length, seq_length.
  rewrite (map_nth (fun i => nth i l d)). now rewrite seq_nth.
Qed.
Lemma filter_all {A} (f : A -> bool) l : (forall x, In x l -> f x = true) -> filter f l = l.
Proof. induction l as [|x l IH]; intro H; [reflexivity|]. cbn [filter]. rewrite (H x) by now left. f_equal. apply IH. intros; apply H; now right. Qed.
Lemma nth_repeat_false n i : (i < n)%nat -> nth i (repeat false n) true = false.
Proof. revert i. induction n as [|n IH]; intros i H; [lia|]. destruct i; [reflexivity|]. cbn. apply IH. lia. Qed.
Lemma valid_all st n : s_mask (st_set st) = repeat false n -> valid st = seq 0 n.
Proof.
  intro E. unfold valid. rewrite E, repeat_length. apply filter_all. intros i Hi. apply in_seq in Hi. now rewrite nth_repeat_false by lia.
Qed.
Lemma map_nth_records {B} (f : Z -> B) (g : obs_record -> Z) (l : list Z) o :
  List.length l = List.length (o_measurement o) -> (forall i, g (record_at o i) = nth i l 0) ->
  map f l = map (fun r => f (g r)) (records o).
Proof.
  intros L H. unfold records. rewrite map_map, <- L. rewrite <- (take_all 0 l (List.length l) eq_refl) at 1. unfold take. rewrite map_map. apply map_ext. intro i. now rewrite H.
Qed.
Lemma day_measurements {B} (f : Z -> B) o : map f (o_measurement o) = map (fun r => f (rec_measurement r)) (records o).
Proof. apply map_nth_records; [reflexivity|]. reflexivity. Qed.
Lemma day_errors {B} (f : Z -> B) o : well_formed o -> map f (o_unc o) = map (fun r => f (rec_error r)) (records o).
Proof. intros (_ & _ & L & _). apply map_nth_records; [assumption|]. reflexivity. Qed.
Lemma day_places {B} (f : Z -> B) o : well_formed o -> map f (o_location o) = map (fun r => f (rec_location r)) (records o).
Proof. intros (_ & L & _). apply map_nth_records; [assumption|]. reflexivity. Qed.
Lemma records_length o : List.length (records o) = List.length (o_measurement o).
Proof. unfold records. now rewrite map_length, seq_length. Qed.

(* what the connector gives for arrays without masks *)
Lemma open_structure st ms us ls n : s_mask (st_set st) = repeat false n -> s_measurement (st_set st) = ms -> s_unc (st_set st) = us -> s_location (st_set st) = ls ->
  List.length ms = n -> List.length us = n -> List.length ls = n ->
  number_of_observations st = n /\ observation_vector st = ms /\ observation_precision st = map (fun u => 1 / (u * u))%Qc us /\
  (forall table, st_table st = Some table -> fd_float (st_found st) = false -> location_polar_coordinates st = mapM (coordinates_at table) ls).
Proof.
  intros M E1 E2 E3 L1 L2 L3. pose proof (valid_all st n M) as V. unfold number_of_observations, observation_vector, observation_precision. rewrite V, E1, E2.
  split; [apply seq_length|]. split; [apply take_all; congruence|]. split; [now rewrite take_all by congruence|].
  intros table T F. rewrite (polar_unfold st table T F), V, E3. transitivity (mapM (coordinates_at table) (take 0 ls (seq 0 n))); [|now rewrite take_all by congruence]. unfold take.
  generalize (seq 0 n). intro l. induction l as [|i l IH]; [reflexivity|]. cbn [mapM map]. now rewrite IH.
Qed.
Lemma places_found table num ls : (Z.of_nat (List.length table) <= 2 ^ 63) -> Forall (fun l => exists ll, located table l ll) ls ->
  exists cs, mapM (coordinates_at (map (fun ll : Z * Z => (num (fst ll), num (snd ll))) table)) ls = Ok cs /\ Forall2 (placed num table) ls cs.
Proof.
  intros N F. induction F as [|l ls (ll & H) F (cs & E & IH)]; [exists []; split; [reflexivity|constructor]|].
  assert (coordinates_at (map (fun ll : Z * Z => (num (fst ll), num (snd ll))) table) l = Ok (wrap_longitude (num (fst ll), num (snd ll)))) as C.
  { apply coordinates_located; [now rewrite map_length|]. destruct H as [H1 H2]. split; [assumption|]. rewrite nth_error_map, H2. reflexivity. }
  exists (wrap_longitude (num (fst ll), num (snd ll)) :: cs). cbn [mapM]. rewrite C. cbn [bind]. rewrite E. split; [reflexivity|]. constructor; [|assumption].
  exists ll. destruct (wrap_longitude_meridian (num (fst ll), num (snd ll))). auto.
Qed.

(* ---- means *)
Lemma find_partner RB l j : NoDup (map rec_location RB) -> (j < List.length RB)%nat -> rec_location (nth j RB rec0) = l ->
  find (fun y => rec_location y =? l) RB = Some (nth j RB rec0).
Proof.
  intros N Hj E. destruct (find _ RB) as [y|] eqn:F.
  - apply find_some in F as [I Y]. apply Z.eqb_eq in Y. apply (In_nth _ _ rec0) in I as (j' & Hj' & <-). f_equal. f_equal.
    apply (NoDup_nth (map rec_location RB) (rec_location rec0)); rewrite ?map_length; [assumption|assumption|assumption|]. rewrite !map_nth. congruence.
  - pose proof (find_none _ _ F (nth j RB rec0) (nth_In _ _ Hj)) as H. cbn in H. rewrite E, Z.eqb_refl in H. discriminate.
Qed.
Lemma partner_some RB x : (exists y, partner RB x = Some y) <-> In (rec_location x) (map rec_location RB).
Proof.
  unfold partner. split.
  - intros [y H]. apply find_some in H as [I E]. apply Z.eqb_eq in E. rewrite <- E. now apply in_map.
  - intro I. destruct (find _ RB) as [y|] eqn:F; [now exists y|]. exfalso. apply in_map_iff in I as (y & E & I).
    pose proof (find_none _ _ F y I) as H. cbn in H. rewrite E, Z.eqb_refl in H. discriminate.
Qed.
Lemma flat_map_some {A B C} (p : A -> option B) (x : A -> C) d l :
  flat_map (fun i => match p i with Some y => [(x i, y)] | None => [] end) l
  = map (fun i => (x i, match p i with Some y => y | None => d end)) (filter (fun i => match p i with Some _ => true | None => false end) l).
Proof. induction l as [|i l IH]; [reflexivity|]. cbn [flat_map filter]. destruct (p i) eqn:E; cbn [app map]; rewrite IH; rewrite ?E; reflexivity. Qed.
Lemma pairs_indices RA RB : NoDup (map rec_location RB) ->
  let la := map rec_location RA in let lb := map rec_location RB in
  take 0 la (isin la lb) = take 0 lb (isin lb la) ->
  pairs RA RB = map (fun ij => (nth (fst ij) RA rec0, nth (snd ij) RB rec0)) (combine (isin la lb) (isin lb la)).
Proof.
  intros N la lb E. unfold pairs.
  rewrite <- (take_all rec0 RA (List.length RA) eq_refl) at 1. unfold take at 1.
  rewrite flat_map_concat_map, map_map, <- flat_map_concat_map.
  rewrite (flat_map_some (fun i => partner RB (nth i RA rec0)) (fun i => nth i RA rec0) rec0).
  assert (filter (fun i => match partner RB (nth i RA rec0) with Some _ => true | None => false end) (seq 0 (List.length RA)) = isin la lb) as ->.
  { unfold isin, la. rewrite map_length. apply filter_ext_in. intros i Hi. apply in_seq in Hi. change 0 with (rec_location rec0). rewrite map_nth.
    pose proof (partner_some RB (nth i RA rec0)) as Q. destruct (partner RB (nth i RA rec0)) as [y|].
    - symmetry. apply existsb_exists. exists (rec_location (nth i RA rec0)). split; [apply (proj1 Q); now exists y|apply Z.eqb_refl].
    - symmetry. apply not_true_iff_false. intro H. apply existsb_exists in H as (z & I & Ez). apply Z.eqb_eq in Ez. subst z. apply Q in I as [? H]. discriminate. }
  assert (Forall (fun j => (j < List.length RB)%nat) (isin lb la)) as B.
  { apply Forall_forall. intros j Hj. apply isin_In in Hj as [Hj _]. unfold lb in Hj. now rewrite map_length in Hj. }
  unfold take in E. revert E B. generalize (isin lb la) as rb. generalize (isin la lb) as ra.
  induction ra as [|i ra IH]; intros [|j rb] E B; cbn [map combine] in *; try discriminate; [reflexivity|].
  injection E as E1 E2. inversion_clear B as [|? ? Bj B']. rewrite (IH rb E2 B'). f_equal. cbn [fst snd]. f_equal.
  unfold partner. rewrite (find_partner RB _ j N Bj); [reflexivity|]. unfold la, lb in E1. change 0 with (rec_location rec0) in E1. rewrite !map_nth in E1. congruence.
Qed.

Lemma combine_maps {A B C} (f : A -> B) (g : A -> C) l : combine (map f l) (map g l) = map (fun x => (f x, g x)) l.
Proof. induction l; cbn; congruence. Qed.
Lemma map_fst_combine {A B} (l : list A) (l' : list B) : List.length l = List.length l' -> map fst (combine l l') = l.
Proof. revert l'. induction l; intros [|b l'] H; cbn in *; try discriminate; [reflexivity|]. f_equal. apply IHl. now injection H. Qed.
Lemma map_snd_combine {A B} (l : list A) (l' : list B) : List.length l = List.length l' -> map snd (combine l l') = l'.
Proof. revert l'. induction l; intros [|b l'] H; cbn in *; try discriminate; [reflexivity|]. f_equal. apply IHl. now injection H. Qed.
Lemma take_records {B} (f : Z -> B) (g : obs_record -> Z) (d : B) R is : Forall (fun i => (i < List.length R)%nat) is ->
  take d (map (fun r => f (g r)) R) is = map (fun i => f (g (nth i R rec0))) is.
Proof.
  intro F. unfold take. apply map_ext_in. intros i Hi. rewrite Forall_forall in F. specialize (F i Hi).
  rewrite (nth_indep _ d (f (g rec0))) by now rewrite map_length. now rewrite (map_nth (fun r => f (g r))).
Qed.
Lemma isin_bounds R l : Forall (fun i => (i < List.length R)%nat) (isin (map rec_location R) l).
Proof. apply Forall_forall. intros i Hi. apply isin_In in Hi as [Hi _]. now rewrite map_length in Hi. Qed.

Lemma mean_day num root o1 o2 d : well_formed o1 -> well_formed o2 -> o_mask o1 = repeat false (List.length (o_measurement o1)) ->
  o_mask o2 = repeat false (List.length (o_measurement o2)) -> o_time o1 = TScalar (qz d) -> o_time o2 = TScalar (qz d) -> List.length (o_cor o1) = List.length (o_cor o2) ->
  NoDup (map rec_location (records o2)) -> shared (records o1) (records o2) = shared (records o2) (records o1) ->
  exists m, mean_found root {| fd_set := numbered num o1; fd_float := false |} {| fd_set := numbered num o2; fd_float := false |} = Ok m /\ fd_float m = false /\
    let ps := pairs (records o1) (records o2) in
    s_mask (fd_set m) = repeat false (List.length ps) /\ s_time (fd_set m) = TScalar (qz d) /\ s_location (fd_set m) = map (fun xy => rec_location (fst xy)) ps /\
    s_measurement (fd_set m) = map (half_sum num) ps /\ s_unc (fd_set m) = map (fun xy => root (half_squares num xy)) ps.
Proof.
  intros W1 W2 M1 M2 T1 T2 C N S.
  assert (L1 : o_location o1 = map rec_location (records o1)) by (rewrite <- (map_id (o_location o1)); now apply (day_places (fun x => x))).
  assert (L2 : o_location o2 = map rec_location (records o2)) by (rewrite <- (map_id (o_location o2)); now apply (day_places (fun x => x))).
  unfold mean_found. cbn [fd_set fd_float].
  assert (exists c, mean_sets (numbered num o1) (numbered num o2) = Ok c) as [c E].
  { apply mean_sets_total; cbn [numbered s_location s_time s_cor].
    - rewrite L1, L2. exact S.
    - rewrite T1, T2. cbn. unfold Qc_eq_bool. now destruct (Qc_eq_dec _ _).
    - now rewrite !map_length. }
  rewrite E. cbn [bind]. eexists. split; [reflexivity|]. cbn [fd_float fd_set]. split; [reflexivity|]. cbv zeta.
  apply mean_sets_ok in E as (E1 & _ & _ & ->). cbn [rooted s_mask s_time s_location s_measurement s_unc numbered] in *. rewrite L1, L2 in *.
  pose proof (pairs_indices (records o1) (records o2) N E1) as PI. cbv zeta in PI. rewrite PI.
  pose proof (isin_bounds (records o1) (map rec_location (records o2))) as B1. pose proof (isin_bounds (records o2) (map rec_location (records o1))) as B2.
  set (ra := isin (map rec_location (records o1)) (map rec_location (records o2))) in *. set (rb := isin (map rec_location (records o2)) (map rec_location (records o1))) in *.
  assert (List.length ra = List.length rb) as LR by (apply (f_equal (@List.length Z)) in E1; now rewrite !take_length in E1).
  rewrite map_length, combine_length.
  split; [|split; [assumption|split; [|split]]].
  - rewrite M1, M2. rewrite Forall_forall in B1, B2.
    assert (take true (repeat false (List.length (o_measurement o1))) ra = repeat false (List.length ra)) as ->.
    { unfold take. clear - B1. rewrite records_length in B1. induction ra as [|i r IH]; [reflexivity|]. cbn [map List.length repeat]. rewrite nth_repeat_false by (apply B1; now left). f_equal. apply IH. intros; apply B1; now right. }
    assert (take true (repeat false (List.length (o_measurement o2))) rb = repeat false (List.length rb)) as ->.
    { unfold take. clear - B2. rewrite records_length in B2. induction rb as [|i r IH]; [reflexivity|]. cbn [map List.length repeat]. rewrite nth_repeat_false by (apply B2; now left). f_equal. apply IH. intros; apply B2; now right. }
    rewrite <- LR, Nat.min_id. clear. induction (List.length ra) as [|n IH]; [reflexivity|]. cbn [repeat combine map fst snd orb]. now rewrite IH.
  - rewrite map_map. cbn [fst]. rewrite <- (map_map fst (fun i => rec_location (nth i (records o1) rec0))). rewrite map_fst_combine by assumption.
    rewrite <- (take_records (fun x => x) rec_location 0) by assumption. reflexivity.
  - unfold mean2. rewrite (day_measurements num o1), (day_measurements num o2), !take_records by assumption. rewrite map_map.
    rewrite <- (map_fst_combine ra rb LR) at 1. rewrite <- (map_snd_combine ra rb LR) at 2. rewrite !map_map, combine_maps, map_map. reflexivity.
  - unfold meansq2. rewrite (day_errors num o1), (day_errors num o2), !take_records by assumption. rewrite !map_map.
    rewrite <- (map_fst_combine ra rb LR) at 1. rewrite <- (map_snd_combine ra rb LR) at 2. rewrite !map_map, combine_maps, map_map. reflexivity.
Qed.

Lemma day_read o u v d : well_formed o -> is_uuid u -> day_ok o d ->
  exists o', read_day (List.length (o_cor o)) (write_day u o d) v d = Ok o' /\ records o' = kept_records o d /\ o_mask o' = repeat false (List.length (o_measurement o')) /\
    o_time o' = TScalar (qz d) /\ List.length (o_cor o') = List.length (o_cor o) /\ well_formed o'.
Proof.
  intros W U H. destruct (read_day_write u o d v d [] W U) as (o' & H1 & H2 & H3 & H4 & H5 & H6); [unfold record_size; cbn; lia|].
  rewrite app_nil_r in H1. exists o'. split; [assumption|]. split; [|split; [|split; [assumption|split; assumption]]].
  - rewrite H2. unfold kept_records. f_equal. apply valid_positions_in_day; [assumption|apply W].
  - rewrite H3. f_equal. rewrite <- records_length, H2. now rewrite map_length.
Qed.

(* the loader of a source, and the locations it finds for a day *)
Lemma loader_locations fs base s os rg days d lk : plain_base base -> source_observables s = Some os ->
  (forall o, In o os -> fs (path_ranges base s o) = Some (write_ranges (rg o)) /\ Forall word (rg o)) ->
  Forall four_digit_day days -> In d days -> fs (locations_file base s d) = Some (write_lookup lk) -> lookup_ok lk ->
  exists fixed mobile, source_loader fs base (sourcename s) days = Ok (made base s os rg days fixed mobile) /\
    day_locations fs (made base s os rg days fixed mobile) d = Ok (Some lk).
Proof.
  intros P O R D I F L. unfold locations_file in F. destruct (staticlocation s) as [name|] eqn:S.
  - exists (Some lk), None. split; [eapply fixed_loader; eassumption|]. reflexivity.
  - assert (s = InsituOcean) as -> by (destruct s; cbn in S; congruence).
    exists None, (Some (map (fun d => (d, Some (path_mobile base InsituOcean Tmean d))) days)). split; [eapply mobile_loader; try eassumption; reflexivity|].
    unfold day_locations. cbn [made l_fixed l_mobile]. rewrite day_get_map by assumption. unfold open_file. rewrite F. cbn [bind]. rewrite read_lookup_ok by assumption. reflexivity.
Qed.
Lemma source_read num fs lk specs d name file ranges o : dict_get specs name = Some (Some file, ranges) -> fs file = Some (write_day (lk_uuid lk) o d) ->
  List.length ranges = List.length (o_cor o) -> lookup_ok lk -> well_formed o -> day_ok o d ->
  exists o', source_observations num fs (Some lk) specs d name = Ok {| fd_set := numbered num o'; fd_float := false |} /\
    records o' = kept_records o d /\ o_mask o' = repeat false (List.length (o_measurement o')) /\
    o_time o' = TScalar (qz d) /\ List.length (o_cor o') = List.length (o_cor o) /\ well_formed o'.
Proof.
  intros G F C L W Dk. destruct (day_read o (lk_uuid lk) (lk_uuid lk) d W (proj1 L) Dk) as (o' & R & H).
  exists o'. split; [|exact H]. unfold source_observations. rewrite G. cbn [key_error bind fst snd]. unfold open_file. rewrite F. cbn [bind]. rewrite C, R. reflexivity.
Qed.
