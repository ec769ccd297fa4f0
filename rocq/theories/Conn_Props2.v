(* Theorems about the biases of sources (C156) and the loader of raw binary files (C157). *)
From Coq Require Import QArith Qcanon String Ascii Sorted.
From Verif Require Import Base Time_Model Time_Spec Time_Proofs Grid_Model Grid_Proofs Lin Ana_Model Comb_Model Flag_Model Name_Model Name_Spec Name_Proofs.
From Verif Require Import Obs_Model Obs_Spec Obs_Proofs Cpp_Model Cpp_Spec Cpp_Names Conn_Model Conn_Spec Conn_Proofs Conn_Proofs2.
Local Open Scope Z_scope.
Local Open Scope list_scope.

(* ---- C156 *)

Definition files_of (s : source) (st : structure) : Prop :=
  Forall (fun name => exists base o d, name = basename (path_observation base s o d)) (st_files st).
Lemma files_names s st : files_of s st -> Forall (fun name => exists o d, name = day_name s o d) (st_files st).
Proof. intro F. eapply Forall_impl; [|exact F]. intros n (base & o & d & ->). exists o, d. apply basename_observation. Qed.

(* A group that is none of the five is refused. *)
Theorem C156_unknown : forall st group b, (forall s, group_of s <> Some group) -> covariate_effect st group b = Err ValueError.
Proof.
  intros st group b H. unfold covariate_effect. rewrite pattern_of. destruct (group_source group) as [s|] eqn:G; [|reflexivity].
  apply group_source_iff in G. now apply H in G.
Qed.
Print Assumptions C156_unknown.
Example C156_unknown_nonvacuous : forall s, group_of s <> Some "surfaceairmodel_lake_global"%string.
Proof. intros []; discriminate. Qed.

(* Observations of one source, recognised by the names of its files, are not affected by the biases of another. *)
Theorem C156_other_source : forall st s group b, st_files st <> [] -> files_of s st -> (exists s', group_of s' = Some group) -> group_of s <> Some group ->
  covariate_effect st group b = Ok None.
Proof.
  intros st s group b Ne F [s' G] N. rewrite (effect_unfold st group b s') by now apply group_source_iff.
  rewrite (check_all_other st s' s); [reflexivity| |assumption|now apply files_names]. intros ->. congruence.
Qed.
Print Assumptions C156_other_source.
Definition land_st : structure := {| st_table := Some [(qz 50, qz 350); (qz (-20), qz 10)];
  st_found := {| fd_set := {| s_mask := [false; true; false]; s_time := TScalar (qz 7); s_location := [0; 0; 1]; s_measurement := [qz 20; qz 30; qz 40]; s_unc := [qz 1; qz 2; qz 4]; s_cor := [] |}; fd_float := false |};
  st_datetime := 0; st_files := [basename (path_observation "/data" SatLand Tmin 7); basename (path_observation "/data" SatLand Tmax 7)] |}.
Definition ice_st : structure := {| st_table := st_table land_st; st_found := st_found land_st; st_datetime := 0; st_files := [basename (path_observation "/data" SatIce Tmean 7)] |}.
Example C156_other_source_nonvacuous : st_files land_st = ["surfaceairmodel_land_Tmin_18500108.bin"; "surfaceairmodel_land_Tmax_18500108.bin"]%string /\ files_of SatLand land_st /\
  covariate_effect land_st "surfaceairmodel_ice_global" None = Ok None /\ covariate_effect land_st "surfaceairmodel_land_global" None = Ok (Some [(0, 0); (1, 0)]).
Proof.
  split; [vm_compute; reflexivity|]. split; [|split; vm_compute; reflexivity].
  repeat apply Forall_cons; [| |apply Forall_nil]; do 3 eexists; reflexivity.
Qed.

(* Every observation of the satellite over land or ocean is affected by the one bias of its group. *)
Theorem C156_global : forall st s group b, s = SatLand \/ s = SatOcean -> group_of s = Some group -> files_of s st ->
  exists e, covariate_effect st group b = Ok (Some e) /\ forall k p, nth_error e k = Some p <-> (k < number_of_observations st)%nat /\ p = (Z.of_nat k, 0).
Proof.
  intros st s group b S G F. rewrite (effect_unfold st group b s) by now apply group_source_iff. rewrite check_all_own by now apply files_names. cbn [bind negb].
  exists (global_satellite_effect (number_of_observations st)). split; [destruct S as [-> | ->]; reflexivity|]. intros k p. unfold global_satellite_effect. rewrite nth_error_map.
  destruct (Nat.lt_ge_cases k (number_of_observations st)) as [L|L].
  - rewrite (nth_error_nth' _ 0%nat) by now rewrite seq_length. rewrite seq_nth by assumption. cbn [option_map Nat.add]. split; [intro H; injection H as <-; auto|intros [_ ->]; reflexivity].
  - rewrite (proj2 (nth_error_None (seq 0 (number_of_observations st)) k)) by now rewrite seq_length. cbn. split; [discriminate|lia].
Qed.
Print Assumptions C156_global.
Example C156_global_nonvacuous : files_of SatLand land_st /\ number_of_observations land_st = 2%nat /\ group_of SatLand = Some "surfaceairmodel_land_global"%string.
Proof. split; [apply C156_other_source_nonvacuous|]. split; reflexivity. Qed.

(* Over ice there are two biases: the first for the northern hemisphere and the equator, the second for the southern. *)
Definition hemisphere (latitude : Qc) : nat := if Qclt_le_dec latitude 0 then 1%nat else 0%nat.
Lemma hemisphere_effect (lat : Qc) : (if Qle_bool 0 lat then 0 else 1) = Z.of_nat (hemisphere lat).
Proof.
  unfold hemisphere. destruct (Qclt_le_dec lat 0) as [L|L].
  - destruct (Qle_bool 0 lat) eqn:E; [|reflexivity]. apply (proj1 (Qle_bool_Qc 0 lat)) in E. now apply Qcle_not_lt in E.
  - apply (proj2 (Qle_bool_Qc 0 lat)) in L. change (Qle_bool 0 lat = true) in L. now rewrite L.
Qed.
Lemma polar_length st cs : location_polar_coordinates st = Ok cs -> List.length cs = number_of_observations st.
Proof.
  unfold location_polar_coordinates. destruct (st_table st); [|discriminate]. destruct (fd_float _); [discriminate|]. intro E. now apply mapM_length in E.
Qed.
Lemma ice_effect st b cs : files_of SatIce st -> location_polar_coordinates st = Ok cs ->
  exists e, covariate_effect st "surfaceairmodel_ice_global" b = Ok (Some e) /\ e = combine (map Z.of_nat (seq 0 (number_of_observations st))) (map (fun c => Z.of_nat (hemisphere (fst c))) cs).
Proof.
  intros F C. rewrite (effect_unfold st _ b SatIce) by reflexivity. rewrite check_all_own by now apply files_names. cbn [bind negb]. rewrite C. cbn [bind]. eexists. split; [reflexivity|].
  unfold hemispheric_satellite_effect. f_equal. rewrite map_map. apply map_ext. intro c. apply hemisphere_effect.
Qed.
Theorem C156_ice : forall st b cs, files_of SatIce st -> location_polar_coordinates st = Ok cs ->
  exists e, covariate_effect st "surfaceairmodel_ice_global" b = Ok (Some e) /\
    forall k p, nth_error e k = Some p <-> exists c, nth_error cs k = Some c /\ p = (Z.of_nat k, Z.of_nat (hemisphere (fst c))).
Proof.
  intros st b cs F C. destruct (ice_effect st b cs F C) as (e & E & ->). eexists. split; [exact E|]. pose proof (polar_length st cs C) as L.
  intros k p. rewrite <- L. clear. revert k. assert (H : forall a k, nth_error (combine (map Z.of_nat (seq a (List.length cs))) (map (fun c => Z.of_nat (hemisphere (fst c))) cs)) k = Some p <->
    (exists c, nth_error cs k = Some c /\ p = (Z.of_nat (a + k), Z.of_nat (hemisphere (fst c))))); [|intro k; now apply H].
  induction cs as [|c cs IH]; intros a k; cbn [List.length seq map combine].
  - destruct k; cbn; (split; [discriminate|intros (c & H & _); discriminate]).
  - destruct k as [|k]; cbn [nth_error].
    + rewrite Nat.add_0_r. split; [intro H; injection H as <-; now exists c|intros (c' & H & ->); now injection H as ->].
    + rewrite IH. replace (a + S k)%nat with (S a + k)%nat by lia. reflexivity.
Qed.
Print Assumptions C156_ice.
Example C156_ice_nonvacuous : files_of SatIce ice_st /\ location_polar_coordinates ice_st = Ok [(qz 50, (qz 350 - qz 360)%Qc); (qz (-20), qz 10)] /\
  covariate_effect ice_st "surfaceairmodel_ice_global" None = Ok (Some [(0, 0); (1, 1)]).
Proof. split; [repeat apply Forall_cons; [|apply Forall_nil]; do 3 eexists; reflexivity|]. split; vm_compute; reflexivity. Qed.

(* With two parameters the design matrix of ice has a single 1 in each row, in the column of the hemisphere; with one (as the
   example systems are set up) it cannot be made as soon as one observation is in the southern hemisphere. *)
Lemma wrap_own n k : (k < n)%nat -> wrap n (Z.of_nat k) = Some k.
Proof.
  intro H. unfold wrap. destruct (Z.leb_spec (- Z.of_nat n) (Z.of_nat k)); [|lia]. destruct (Z.ltb_spec (Z.of_nat k) (Z.of_nat n)); [|lia]. cbn [andb].
  destruct (Z.ltb_spec (Z.of_nat k) 0); [lia|]. now rewrite Nat2Z.id.
Qed.
Lemma effect_places n m (h : list nat) : Forall (fun j => (j < m)%nat) h -> (List.length h <= n)%nat ->
  forall a, (a + List.length h <= n)%nat ->
  mapM (fun e => match wrap n (fst e), wrap m (snd e) with Some i, Some j => Ok (i, j) | _, _ => Err IndexError end)
       (combine (map Z.of_nat (seq a (List.length h))) (map Z.of_nat h)) = Ok (combine (seq a (List.length h)) h).
Proof.
  induction h as [|j h IH]; intros F L a A; [reflexivity|]. inversion_clear F as [|? ? Fj F']. cbn [List.length seq map combine mapM fst snd] in *.
  rewrite wrap_own by lia. rewrite wrap_own by assumption. cbn [bind]. rewrite IH by (assumption || lia). reflexivity.
Qed.
Lemma entry_of h : forall a i j, existsb (fun p : nat * nat => (fst p =? i)%nat && (snd p =? j)%nat) (combine (seq a (List.length h)) h) = true <-> (a <= i)%nat /\ nth_error h (i - a) = Some j.
Proof.
  induction h as [|x h IH]; intros a i j; cbn [List.length seq combine existsb].
  - split; [discriminate|]. intros [_ H]. destruct (i - a)%nat; discriminate.
  - rewrite orb_true_iff, andb_true_iff, IH. cbn [fst snd]. rewrite !Nat.eqb_eq. split.
    + intros [[-> ->]|[H1 H2]]; [split; [lia|]; now rewrite Nat.sub_diag|]. split; [lia|]. replace (i - a)%nat with (S (i - S a)) by lia. exact H2.
    + intros [H1 H2]. destruct (Nat.eq_dec a i) as [-> |N].
      * left. rewrite Nat.sub_diag in H2. cbn in H2. now injection H2 as ->.
      * right. split; [lia|]. replace (i - a)%nat with (S (i - S a)) in H2 by lia. exact H2.
Qed.
Theorem C156_ice_design : forall st cs, files_of SatIce st -> location_polar_coordinates st = Ok cs ->
  exists A, bias_design st "surfaceairmodel_ice_global" 2 = Ok A /\ m_rows A = number_of_observations st /\ m_cols A = 2%nat /\
    forall i c j, nth_error cs i = Some c -> (j < 2)%nat -> m_at A i j = (if (j =? hemisphere (fst c))%nat then 1 else 0)%Qc.
Proof.
  intros st cs F C. destruct (ice_effect st None cs F C) as (e & E & ->). pose proof (polar_length st cs C) as L. unfold bias_design. rewrite E. cbn [bind bias_matrix].
  set (h := map (fun c => hemisphere (fst c)) cs). assert (Lh : List.length h = number_of_observations st) by (unfold h; now rewrite map_length).
  assert (EQ : combine (map Z.of_nat (seq 0 (number_of_observations st))) (map (fun c => Z.of_nat (hemisphere (fst c))) cs) = combine (map Z.of_nat (seq 0 (List.length h))) (map Z.of_nat h))
    by (rewrite Lh; unfold h; now rewrite map_map).
  rewrite EQ, (effect_places (number_of_observations st) 2 h); [|apply Forall_map, Forall_forall; intros c _; unfold hemisphere; destruct (Qclt_le_dec _ _); lia|lia|lia].
  cbn [bind]. eexists. split; [reflexivity|]. cbn [m_rows m_cols m_at]. split; [reflexivity|]. split; [reflexivity|].
  intros i c j Hc Hj. pose proof (entry_of h 0 i j) as EN. rewrite Nat.sub_0_r in EN. assert (Hh : nth_error h i = Some (hemisphere (fst c))) by (unfold h; now rewrite nth_error_map, Hc).
  rewrite Hh in EN. destruct (Nat.eqb_spec j (hemisphere (fst c))) as [-> |N].
  - rewrite (proj2 EN); [reflexivity|]. split; [lia|reflexivity].
  - destruct (existsb _ _); [|reflexivity]. exfalso. apply N. destruct (proj1 EN eq_refl) as [_ H]. now injection H.
Qed.
Print Assumptions C156_ice_design.
Example C156_ice_design_nonvacuous : exists A, bias_design ice_st "surfaceairmodel_ice_global" 2 = Ok A /\ m_at A 0 0 = 1%Qc /\ m_at A 0 1 = 0%Qc /\ m_at A 1 0 = 0%Qc /\ m_at A 1 1 = 1%Qc.
Proof.
  destruct C156_ice_nonvacuous as (F & C & _). destruct (C156_ice_design ice_st _ F C) as (A & E & _ & _ & H). exists A. split; [exact E|].
  rewrite (H 0%nat _ 0%nat eq_refl), (H 0%nat _ 1%nat eq_refl), (H 1%nat _ 0%nat eq_refl), (H 1%nat _ 1%nat eq_refl) by lia. repeat split; reflexivity.
Qed.

Theorem C156_one_ice_bias_refuted : forall st cs c, files_of SatIce st -> location_polar_coordinates st = Ok cs -> In c cs -> (fst c < 0)%Qc ->
  bias_design st "surfaceairmodel_ice_global" 1 = Err IndexError.
Proof.
  intros st cs c F C I S. destruct (ice_effect st None cs F C) as (e & E & ->). pose proof (polar_length st cs C) as L. unfold bias_design. rewrite E. cbn [bind bias_matrix].
  rewrite <- L. rewrite mapM_error with (e := IndexError); [reflexivity| |].
  - intros [a b] _. cbn [fst snd]. destruct (wrap (List.length cs) a); [|now left]. destruct (wrap 1 b); [right; eexists; reflexivity|now left].
  - apply In_nth_error in I as [k Hk]. exists (Z.of_nat k, 1). split.
    + apply nth_error_In with (n := k). clear - Hk S. assert (H : forall a, nth_error (combine (map Z.of_nat (seq a (List.length cs))) (map (fun c => Z.of_nat (hemisphere (fst c))) cs)) k = Some (Z.of_nat (a + k), 1)); [|apply (H 0%nat)].
      revert k Hk. induction cs as [|x cs IH]; intros [|k] Hk a; cbn [nth_error List.length seq map combine] in *; try discriminate.
      * injection Hk as ->. rewrite Nat.add_0_r. unfold hemisphere. destruct (Qclt_le_dec (fst c) 0) as [_|H]; [reflexivity|]. now apply Qcle_not_lt in H.
      * rewrite IH by assumption. do 3 f_equal. lia.
    + cbn [fst snd]. now destruct (wrap _ _).
Qed.
Print Assumptions C156_one_ice_bias_refuted.
Example C156_one_ice_bias_refuted_nonvacuous : files_of SatIce ice_st /\ bias_design ice_st "surfaceairmodel_ice_global" 1 = Err IndexError.
Proof. split; [apply C156_ice_nonvacuous|vm_compute; reflexivity]. Qed.

(* Given break points, an observation at a land station is affected by the parameter of the station's next break, and by no other. *)
Theorem C156_stations : forall st b, files_of InsituLand st -> breaks_ordered b -> ascending (take 0 (s_location (st_set st)) (valid st)) ->
  exists effect, covariate_effect st "insitu_land" (Some b) = Ok effect /\
    let es := match effect with Some l => l | None => [] end in
    NoDup es /\ forall p i, In (p, i) es <-> exists k j, p = Z.of_nat k /\ i = Z.of_nat j /\ (k < number_of_observations st)%nat /\
                              next_break b (effect_time (time_index st)) (nth (nth k (valid st) 0%nat) (s_location (st_set st)) 0) j.
Proof.
  intros st b F B A. rewrite (effect_unfold st _ (Some b) InsituLand) by reflexivity. rewrite check_all_own by now apply files_names. cbn [bind negb].
  destruct (covariate_effect_spec (effect_time (time_index st)) (take 0 (s_location (st_set st)) (valid st)) b B A) as (e & E & N & _ & H). rewrite E. cbn [bind].
  eexists. split; [reflexivity|]. cbv zeta in *. set (es := match e with Some l => l | None => [] end) in *.
  assert (match option_map (map (fun ij : nat * nat => (Z.of_nat (fst ij), Z.of_nat (snd ij)))) e with Some l => l | None => [] end = map (fun ij => (Z.of_nat (fst ij), Z.of_nat (snd ij))) es) as -> by (unfold es; now destruct e).
  split.
  - clear - N. induction N as [|[x y] l Hn N IH]; cbn [map]; constructor; [|assumption]. intro I. apply in_map_iff in I as ([x' y'] & Exy & I). cbn [fst snd] in Exy. injection Exy as E1 E2.
    apply Nat2Z.inj in E1, E2. subst. contradiction.
  - intros p i. rewrite in_map_iff. split.
    + intros ([k j] & Exy & I). cbn [fst snd] in Exy. injection Exy as <- <-. exists k, j. apply H in I as [I1 I2]. rewrite take_length in I1. split; [reflexivity|]. split; [reflexivity|]. split; [exact I1|].
      rewrite nth_take in I2 by exact I1. exact I2.
    + intros (k & j & -> & -> & L & NB). exists (k, j). split; [reflexivity|]. apply H. rewrite take_length. split; [exact L|]. rewrite nth_take by exact L. exact NB.
Qed.
Print Assumptions C156_stations.
Definition station_st : structure := {| st_table := Some (repeat (qz 0, qz 0) 6);
  st_found := {| fd_set := {| s_mask := [false; true; false; false]; s_time := TScalar (qz 120); s_location := [0; 7; 1; 4]; s_measurement := repeat (qz 20) 4; s_unc := repeat (qz 1) 4; s_cor := [] |}; fd_float := false |};
  st_datetime := 0; st_files := [basename (path_observation "/data" InsituLand Tmin 120)] |}.
Definition station_breaks : breaks := {| bk_time := [100; 200; 300; 150; 250]; bk_station := [2; 2; 2; 5; 5]; bk_likelihood := [1; 1; 1; 1; 1] |}.
Example C156_stations_nonvacuous : files_of InsituLand station_st /\ breaks_ordered station_breaks /\ ascending (take 0 (s_location (st_set station_st)) (valid station_st)) /\
  covariate_effect station_st "insitu_land" (Some station_breaks) = Ok (Some [(1, 1); (2, 3)]).
Proof.
  split; [repeat apply Forall_cons; [|apply Forall_nil]; do 3 eexists; reflexivity|]. split; [|split; [|vm_compute; reflexivity]].
  - split; [reflexivity|]. intros i j. cbn [station_breaks bk_station List.length]. intro H.
    assert (i = 0 \/ i = 1 \/ i = 2 \/ i = 3)%nat as I by lia. assert (j = 1 \/ j = 2 \/ j = 3 \/ j = 4)%nat as J by lia.
    destruct I as [-> |[-> |[-> | ->]]], J as [-> |[-> |[-> | ->]]]; cbn; lia.
  - change (take 0 (s_location (st_set station_st)) (valid station_st)) with [0; 1; 4]. intros i j. cbn [List.length]. intro H.
    assert (i = 0 \/ i = 1)%nat as I by lia. assert (j = 1 \/ j = 2)%nat as J by lia. destruct I as [-> | ->], J as [-> | ->]; cbn; lia.
Qed.

(* The group of ships is known but never has an effect; that of land stations has none unless break points are given. *)
Theorem C156_no_ship_biases_refuted : forall st b, files_of InsituOcean st -> covariate_effect st "insitu_ocean" b = Ok None.
Proof.
  intros st b F. rewrite (effect_unfold st _ b InsituOcean) by reflexivity. rewrite check_all_own by now apply files_names. reflexivity.
Qed.
Print Assumptions C156_no_ship_biases_refuted.
Theorem C156_stations_without_breaks : forall st, files_of InsituLand st -> covariate_effect st "insitu_land" None = Ok None.
Proof.
  intros st F. rewrite (effect_unfold st _ None InsituLand) by reflexivity. rewrite check_all_own by now apply files_names. reflexivity.
Qed.
Print Assumptions C156_stations_without_breaks.
Example C156_stations_without_breaks_nonvacuous : files_of InsituLand station_st.
Proof. apply C156_stations_nonvacuous. Qed.

(* Without any file names every group matches: asked for the biases of ice, a day without files is an error, not "no effect". *)
Theorem C156_no_files_refuted : forall table day t b,
  let st := {| st_table := table; st_found := observations_missing day; st_datetime := t; st_files := [] |} in
  (exists e, covariate_effect st "surfaceairmodel_ice_global" b = Err e) /\
  covariate_effect st "surfaceairmodel_land_global" b = Ok (Some []) /\ covariate_effect st "surfaceairmodel_ocean_global" b = Ok (Some []).
Proof. intros. split; [|split; reflexivity]. destruct table; eexists; reflexivity. Qed.
Print Assumptions C156_no_files_refuted.

(* ---- C157 *)

(* Sources observed as daily means: once its files are written, loading a day gives the observations of that day, each at its place. *)
Theorem C157_direct : forall num root fs base s days day lk ranges o, s = SatOcean \/ s = SatIce \/ s = InsituOcean ->
  plain_base base -> Forall four_digit_day days -> In day days ->
  fs (path_ranges base s Tmean) = Some (write_ranges ranges) -> Forall word ranges -> List.length ranges = List.length (o_cor o) ->
  fs (locations_file base s day) = Some (write_lookup lk) -> lookup_ok lk -> Z.of_nat (List.length (lk_table lk)) <= 2 ^ 63 ->
  fs (path_observation base s Tmean day) = Some (write_day (lk_uuid lk) o day) -> well_formed o -> day_ok o day ->
  Forall (fun r => exists ll, located (lk_table lk) (rec_location r) ll) (kept_records o day) ->
  exists l st cs, source_loader fs base (sourcename s) days = Ok l /\ load_observation_structure num root fs l "Tmean" day = Ok st /\
    time_index st = TScalar (qz day) /\ st_datetime st = EPOCH + day * DAY /\ files_of s st /\ st_files st <> [] /\
    observation_vector st = map (fun r => num (rec_measurement r)) (kept_records o day) /\
    observation_precision st = map (fun r => 1 / (num (rec_error r) * num (rec_error r)))%Qc (kept_records o day) /\
    location_polar_coordinates st = Ok cs /\ Forall2 (fun r c => placed num (lk_table lk) (rec_location r) c) (kept_records o day) cs.
Proof.
  intros num root fs base s days day lk ranges o S P D I R WR C FL L N FO W Dk Loc.
  assert (O : source_observables s = Some [Tmean]) by (destruct S as [-> |[-> | ->]]; reflexivity).
  destruct (loader_locations fs base s [Tmean] (fun _ => ranges) days day lk P O) as (fixed & mobile & E1 & E2); [|assumption|assumption|assumption|assumption|].
  { intros o' [<-|[]]. auto. }
  assert (Fd : four_digit_day day) by (rewrite Forall_forall in D; now apply D).
  destruct (source_read num fs lk (specs_of base s [Tmean] (fun _ => ranges) day) day "Tmean" (path_observation base s Tmean day) ranges o) as (o' & E3 & Rc & Mk & Tm & _ & W');
    [reflexivity|assumption|assumption|assumption|assumption|assumption|].
  set (f := {| fd_set := numbered num o'; fd_float := false |}) in *.
  pose proof (load_made fs base s [Tmean] (fun _ => ranges) num root days fixed mobile (Some lk) "Tmean" f day I Fd E2) as E4.
  specialize (E4 E3). set (st := {| st_table := option_map (numbers num) (Some lk); st_found := f; st_datetime := EPOCH + day * DAY; st_files := map (fun o => day_name s o day) [Tmean] |}) in *.
  assert (n1 : List.length (s_measurement (st_set st)) = List.length (o_measurement o')) by apply map_length.
  destruct (open_structure st (map num (o_measurement o')) (map num (o_unc o')) (o_location o') (List.length (o_measurement o')) Mk eq_refl eq_refl eq_refl) as (_ & V & Pr & Co);
    [apply map_length|rewrite map_length; apply W'|apply W'|].
  specialize (Co (numbers num lk) eq_refl eq_refl).
  destruct (places_found (lk_table lk) num (o_location o') N) as (cs & E5 & Pl).
  { rewrite <- (map_id (o_location o')), (day_places (fun x => x) o' W'), Rc. apply Forall_map. exact Loc. }
  exists (made base s [Tmean] (fun _ => ranges) days fixed mobile), st, cs.
  split; [exact E1|]. split; [exact E4|]. split; [exact Tm|]. split; [reflexivity|].
  split; [unfold files_of; cbn [st st_files map]; repeat apply Forall_cons; [|apply Forall_nil]; exists base, Tmean, day; now rewrite basename_observation|].
  split; [discriminate|].
  split; [rewrite V, day_measurements, Rc; reflexivity|].
  split; [rewrite Pr, (day_errors num o' W'), Rc, map_map; reflexivity|].
  split; [rewrite Co; exact E5|].
  rewrite <- Rc. clear - Pl W'. rewrite <- (map_id (o_location o')), (day_places (fun x => x) o' W') in Pl. revert Pl. generalize (records o'). intro R. revert cs.
  induction R as [|r R IH]; intros cs Pl; inversion_clear Pl; constructor; auto.
Qed.
Print Assumptions C157_direct.
Definition demo_obs : observations :=
  {| o_mask := [false; true; false; false]; o_time := TArray [qz 7; qz 7; qz 8; (qz 7 + 1 / qz 2)%Qc]; o_location := [1; 0; 0; 2]; o_measurement := [100; 200; 300; 400];
     o_unc := [1; 2; 3; 4]; o_cor := [[11; 12; 13; 14]] |}.
Definition demo_lookup : lookup := {| lk_uuid := repeat 9 16; lk_table := [(10, 20); (30, 200); (50, 359)] |}.
Lemma demo_obs_ok : well_formed demo_obs.
Proof. unfold well_formed, demo_obs, word. cbn [o_mask o_time o_location o_measurement o_unc o_cor]. repeat (split; [first [reflexivity|exact I|repeat constructor; lia]|]). repeat constructor; lia. Qed.
Lemma demo_lookup_ok : lookup_ok demo_lookup.
Proof. split; [reflexivity|]. cbn [demo_lookup lk_table]. unfold word. repeat apply Forall_cons; [cbn; lia..|apply Forall_nil]. Qed.
Lemma data_plain : plain_base "/data".
Proof. split; [discriminate|]. split; [reflexivity|]. cbn. intuition discriminate. Qed.
Definition demo_fs : files := fun path =>
  if String.eqb path (path_ranges "/data" SatOcean Tmean) then Some (write_ranges [5])
  else if String.eqb path (locations_file "/data" SatOcean 7) then Some (write_lookup demo_lookup)
  else if String.eqb path (path_observation "/data" SatOcean Tmean 7) then Some (write_day (lk_uuid demo_lookup) demo_obs 7)
  else None.
Example C157_direct_nonvacuous : plain_base "/data" /\ Forall four_digit_day [7; 8] /\ demo_fs (path_ranges "/data" SatOcean Tmean) = Some (write_ranges [5]) /\
  demo_fs (locations_file "/data" SatOcean 7) = Some (write_lookup demo_lookup) /\ lookup_ok demo_lookup /\
  demo_fs (path_observation "/data" SatOcean Tmean 7) = Some (write_day (lk_uuid demo_lookup) demo_obs 7) /\ well_formed demo_obs /\ day_ok demo_obs 7 /\
  kept_records demo_obs 7 = [(1, 100, 1, [11]); (2, 400, 4, [14])] /\
  Forall (fun r => exists ll, located (lk_table demo_lookup) (rec_location r) ll) (kept_records demo_obs 7).
Proof.
  assert (kept_records demo_obs 7 = [(1, 100, 1, [11]); (2, 400, 4, [14])]) as K by (vm_compute; reflexivity).
  split; [apply data_plain|]. split; [repeat apply Forall_cons; [..|apply Forall_nil]; split; vm_compute; discriminate|].
  split; [vm_compute; reflexivity|]. split; [vm_compute; reflexivity|]. split; [apply demo_lookup_ok|]. split; [vm_compute; reflexivity|]. split; [apply demo_obs_ok|].
  split; [left; lia|]. split; [exact K|]. rewrite K. repeat apply Forall_cons; [..|apply Forall_nil]; eexists; (split; [vm_compute; discriminate|reflexivity]).
Qed.
