(* The theorems about output files and their verification, for the properties C116-C118 and C120. *)
From Coq Require Import QArith String Ascii.
From Verif Require Import Base Name_Model Time_Model Out_Model Out_Spec Out_Proofs.
Local Open Scope string_scope.
Local Open Scope list_scope.
Local Open Scope Z_scope.

(* ---- C116: verification ends with status 0 exactly for the files that meet the specification *)

(* For any specification whose lists of numbers have two different numbers. *)
Theorem C116_passes_iff : forall fs path sp, proper sp ->
  exit_status (check_file fs (Some path) sp) = 0 <-> exists ds, fs path = Some ds /\ conforms sp ds.
Proof.
  intros fs path sp Hp. rewrite (exit_zero_iff fs (Some path) sp Hp). split.
  - intros (q & ds & Hq & H). injection Hq as <-. exists ds. exact H.
  - intros (ds & H). exists path, ds. split; [reflexivity|exact H].
Qed.
Print Assumptions C116_passes_iff.

Theorem C116_global_field : forall fs path,
  exit_status (verify_globalfield fs path) = 0 <-> exists ds, fs path = Some ds /\ conforms SpecificationGlobalField ds.
Proof. intros fs path. apply C116_passes_iff, proper_global. Qed.
Print Assumptions C116_global_field.

(* Station files: both files of the prefix. *)
Theorem C116_stations : forall fs prefix,
  exit_status (verify_stations fs prefix) = 0 <->
  prefix <> "" /\ exists t s, fs (prefix ++ "_temperature.nc")%string = Some t /\ conforms SpecificationStationTemperature t /\
    fs (prefix ++ "_status.nc")%string = Some s /\ conforms SpecificationStationStatus s.
Proof.
  intros fs prefix. unfold verify_stations. rewrite exit_zero_app, !exit_zero_iff by (apply proper_temperature || apply proper_status).
  split.
  - intros [(q & ds & Hq & Hf & Hc) (q' & ds' & Hq' & Hf' & Hc')]. destruct prefix as [|a p]; [discriminate|].
    injection Hq as <-. injection Hq' as <-. split; [discriminate|]. exists ds, ds'. split; [exact Hf|split; [exact Hc|split; [exact Hf'|exact Hc']]].
  - intros [Hne (t & s & H1 & H2 & H3 & H4)]. destruct prefix as [|a p]; [congruence|]. split; [exists (String a p ++ "_temperature.nc")%string, t|exists (String a p ++ "_status.nc")%string, s]; (split; [reflexivity|split; assumption]).
Qed.
Print Assumptions C116_stations.

(* Each outcome reported says truly whether what it is about holds. *)
Theorem C116_outcomes_sound : forall fs path sp ds os c b, proper sp -> fs path = Some ds -> check_file fs (Some path) sp = Ok os ->
  In (c, b) os -> (b = true <-> holds ds c).
Proof. intros fs path sp ds os c b. apply check_file_sound. Qed.
Print Assumptions C116_outcomes_sound.

(* What cannot be opened is reported as such and nothing else is checked. *)
Theorem C116_missing_file : forall fs path sp, fs path = None -> check_file fs (Some path) sp = Ok [(Opens, false)].
Proof. intros fs path sp H. unfold check_file. rewrite H. reflexivity. Qed.
Print Assumptions C116_missing_file.

(* Finding: not every readable file gets a report. The verification breaks off with a TypeError, and only so, when metadata that
   should be a list of numbers is text or a list of another length. *)
Theorem C116_breaks_off : forall fs path sp e, check_file fs (Some path) sp = Err e ->
  e = TypeError /\ exists ds v var k l x, fs path = Some ds /\ In v (fs_vars sp) /\ lookup (d_vars ds) (vs_name v) = Some var /\
    In (k, Numbers l) (vs_meta v) /\ lookup (v_atts var) k = Some x /\ match x with VStr _ => True | VNum _ => False | VArr a => length a <> length l end.
Proof. intros fs path sp e. apply check_file_error. Qed.
Print Assumptions C116_breaks_off.
Definition one_variable (name : string) (v : ncvar) : dataset := {| d_atts := []; d_dims := []; d_vars := [(name, v)] |}.
Definition wrong_range : ncvar := {| v_type := UInt8; v_dims := []; v_atts := [("valid_range", VArr [0; 1; 2])]; v_data := [] |}.
Theorem C116_report_refuted : ~ (forall fs path ds, fs path = Some ds -> exists os, check_file fs (Some path) SpecificationStationStatus = Ok os).
Proof.
  intros H. destruct (H (fun _ => Some (one_variable "tasmin_detection_qc" wrong_range)) "x" _ eq_refl) as (os & E). vm_compute in E. discriminate.
Qed.
Print Assumptions C116_report_refuted.

(* Finding: a file of global fields with no temperature at all passes, as any one of the variables named is enough. *)
Theorem C116_no_temperature_passes : forall day n i c h s, exists ds, global_field day n i c h s = Ok ds /\
  (forall name, In name ["tas"; "tasmin"; "tasmax"] -> lookup (d_vars ds) name = None) /\ exit_status (verify_globalfield (fun _ => Some ds) "x") = 0.
Proof.
  intros day n i c h s. exists (base_file day n i c h s). split; [apply global_field_eq|]. split.
  - intros name Hin. cbn in Hin. repeat (destruct Hin as [<-|Hin]; [reflexivity|]). destruct Hin.
  - apply C116_global_field. exists (base_file day n i c h s). split; [reflexivity|].
    apply (grows_conforms _ (base_file day n i c h s)); [|exists (spec "timebounds" Float32 []); split; [right; left; reflexivity|discriminate]| |apply grows_refl|apply base_vars].
    + apply (create_attributes SpecificationGlobalField (TITLE_PREFIX ++ n)%string i c h s eq_refl). reflexivity.
    + intros k size Hin. cbn in Hin. repeat (destruct Hin as [Hin|Hin]; [injection Hin as <- <-; reflexivity|]). destruct Hin.
Qed.
Print Assumptions C116_no_temperature_passes.

(* Beside them: a file that passes, and the same file failing once a name is changed. *)
Definition small_file (calendar : string) : dataset :=
  {| d_atts := [("title", VStr "t"); ("institution", VStr "i"); ("source", VStr "s"); ("history", VStr "h"); ("Conventions", VStr "CF-1.6")];
     d_dims := [("time", None); ("station", Some 3)];
     d_vars := [("time", {| v_type := Float32; v_dims := ["time"]; v_data := [];
                            v_atts := [("standard_name", VStr "time"); ("long_name", VStr "Time at zero longitude"); ("units", VStr days_since);
                                       ("calendar", VStr calendar)] |})] |}.
Example C116_passes_iff_nonvacuous :
  exit_status (check_file (fun _ => Some (small_file "gregorian")) (Some "x") SpecificationStationTemperature) = 0 /\
  exit_status (check_file (fun _ => Some (small_file "julian")) (Some "x") SpecificationStationTemperature) = 1 /\
  exit_status (check_file (fun _ => None) (Some "x") SpecificationStationTemperature) = 1.
Proof. vm_compute. repeat split. Qed.
Example C116_outcomes_sound_nonvacuous : exists os,
  check_file (fun _ => Some (small_file "julian")) (Some "x") SpecificationStationTemperature = Ok os /\
  In (MetadataValue "time" "calendar" (Is "gregorian"), false) os /\ In (Dimension "time" None, true) os.
Proof. eexists. split; [vm_compute; reflexivity|]. split; cbn; repeat (try (left; reflexivity); right). Qed.

(* ---- C117: files of global fields *)

(* The file is built exactly when the names of the fields differ from one another and from those of the axes. *)
Theorem C117_built_iff : forall day n i c h s (l : list (variable * list Q)),
  (exists ds, (do ds <- global_field day n i c h s; add_global_fields ds l) = Ok ds) <->
  NoDup (map (fun f => o_name (fst f)) l) /\
  forall f, In f l -> ~ In (o_name (fst f)) ["time"; "timebounds"; "latitude"; "longitude"; "timeoffset"].
Proof.
  intros day n i c h s l. rewrite global_field_eq. cbn [bind]. rewrite <- add_fields_ok.
  - split; intros [H1 H2]; (split; [exact H1|]); intros f Hf; specialize (H2 f Hf); apply (lookup_None (d_vars (base_file day n i c h s))); exact H2.
  - intros k Hk. cbn in Hk. repeat (destruct Hk as [<-|Hk]; [discriminate|]). destruct Hk.
Qed.
Print Assumptions C117_built_iff.

(* A built file passes verification if its fields are as the specification describes variables of their names. *)
Theorem C117_passes : forall fs path day n i c h s l ds, (do ds <- global_field day n i c h s; add_global_fields ds l) = Ok ds ->
  (forall f, In f l -> agrees SpecificationGlobalField (fst f) /\ tidy (fst f)) -> fs path = Some ds ->
  exit_status (verify_globalfield fs path) = 0.
Proof.
  intros fs path day n i c h s l ds Hb Hf Hp. rewrite global_field_eq in Hb. cbn [bind] in Hb.
  destruct (add_fields_inv _ _ proper_global _ _ Hf (base_vars day n i c h s) Hb) as (H1 & H2 & _).
  apply C116_global_field. exists ds. split; [exact Hp|]. apply (grows_conforms _ (base_file day n i c h s)); [| | |exact H2|exact H1].
  - apply (create_attributes SpecificationGlobalField (TITLE_PREFIX ++ n)%string i c h s eq_refl). reflexivity.
  - exists (spec "timebounds" Float32 []). split; [right; left; reflexivity|discriminate].
  - intros k size Hin. cbn in Hin. repeat (destruct Hin as [Hin|Hin]; [injection Hin as <- <-; reflexivity|]). destruct Hin.
Qed.
Print Assumptions C117_passes.

(* So are all the fields of the definitions, and ancillary uncertainties of any other name. *)
Theorem C117_fields_agree : forall v, In v [TAS; TASMIN; TASMAX; TASUNCERTAINTY; TASMINUNCERTAINTY; TASMAXUNCERTAINTY; TASPERTURBATION; TASMINPERTURBATION; TASMAXPERTURBATION] ->
  agrees SpecificationGlobalField v /\ tidy v.
Proof.
  intros v Hv. cbn [In] in Hv. repeat (destruct Hv as [<-|Hv]; [split; [apply agrees_decide|apply tidy_decide]; vm_compute; reflexivity|]). destruct Hv.
Qed.
Print Assumptions C117_fields_agree.
Theorem C117_uncertainties_agree : forall name long, ~ In name ["time"; "timebounds"; "latitude"; "longitude"; "timeoffset"; "tas"; "tasmin"; "tasmax"] ->
  agrees SpecificationGlobalField (uncertainty_parameter name long) /\ tidy (uncertainty_parameter name long).
Proof.
  intros name long Hn. split; [|apply tidy_decide; reflexivity]. apply agrees_other. intros vs Hvs E. apply Hn. cbn [o_name uncertainty_parameter plain] in E.
  cbn [In fs_vars SpecificationGlobalField] in Hvs. cbn [In].
  repeat (destruct Hvs as [<-|Hvs]; [cbn [vs_name spec spec_temperature] in E; tauto|]). destruct Hvs.
Qed.
Print Assumptions C117_uncertainties_agree.

(* What the file holds: the attributes given, the day and its bounds, the axes, the offsets, and each field with its data and
   metadata. *)
Theorem C117_contents : forall day n i c h s l ds, (do ds <- global_field day n i c h s; add_global_fields ds l) = Ok ds ->
  lookup (d_atts ds) "title" = Some (VStr ("EUSTACE Surface Air Temperature Estimates " ++ n)) /\ lookup (d_atts ds) "institution" = Some (VStr i) /\
  lookup (d_atts ds) "comment" = Some (VStr c) /\ lookup (d_atts ds) "history" = Some (VStr h) /\ lookup (d_atts ds) "source" = Some (VStr s) /\
  stores ds TIME ["time"] [day] /\ stores ds TIME_BOUNDS ["time"; "bounds"] [day; (day + 1)%Q] /\
  stores ds LATITUDE ["latitude"] file_latitudes /\ stores ds LONGITUDE ["longitude"] file_longitudes /\
  stores ds TIME_OFFSET ["longitude"] (map (fun x => (x / 360)%Q) file_longitudes) /\
  forall v values, In (v, values) l -> stores ds v ["time"; "latitude"; "longitude"] values.
Proof.
  intros day n i c h s l ds Hb. rewrite global_field_eq in Hb. cbn [bind] in Hb. destruct (add_fields_grow _ _ _ Hb) as [(H1 & _ & H2) H3].
  rewrite H1. cbn [base_file d_atts]. split; [reflexivity|]. split; [reflexivity|]. split; [reflexivity|]. split; [reflexivity|]. split; [reflexivity|].
  split; [apply written_stores, H2; reflexivity|]. split; [apply written_stores, H2; reflexivity|]. split; [apply written_stores, H2; reflexivity|].
  split; [apply written_stores, H2; reflexivity|]. split; [apply written_stores, H2; reflexivity|].
  intros v values Hin. apply written_stores, H3, Hin.
Qed.
Print Assumptions C117_contents.

(* The axes: centres of cells of a quarter of a degree that cover the globe from the south pole and from 180 degrees west. *)
Theorem C117_axes : zlen file_latitudes = 720 /\ zlen file_longitudes = 1440 /\
  (forall i, 0 <= i < 720 -> (nth (Z.to_nat i) file_latitudes 0 == (- (720) + (2 * inject_Z i + 1)) / 8)%Q) /\
  (forall i, 0 <= i < 1440 -> (nth (Z.to_nat i) file_longitudes 0 == (- (1440) + (2 * inject_Z i + 1)) / 8)%Q).
Proof.
  split; [apply zlen_linspace; lia|split; [apply zlen_linspace; lia|split]]; intros i Hi.
  - unfold file_latitudes. rewrite linspace_nth by lia. change (inject_Z (720 - 1)) with 719%Q. unfold RESOLUTION. field.
  - unfold file_longitudes. rewrite linspace_nth by lia. change (inject_Z (1440 - 1)) with 1439%Q. unfold RESOLUTION. field.
Qed.
Print Assumptions C117_axes.
(* The cubes handed to the file builder have the same axes. *)
Theorem C117_cube_axes : Forall2 Qeq cube_latitudes file_latitudes /\ Forall2 Qeq cube_longitudes file_longitudes.
Proof.
  assert (Hgo : forall a b x d n, (forall i, (x + d * inject_Z (i + 1) == a + inject_Z i * ((b - a) / inject_Z (n - 1)))%Q) -> Forall2 Qeq (grid_axis x d n) (linspace a b n)).
  { intros a b x d n H. unfold grid_axis, linspace. induction (zrange 0 n) as [|i l IH]; cbn [map]; constructor; [apply H|exact IH]. }
  split; apply Hgo; intros i; rewrite inject_Z_plus; unfold RESOLUTION.
  - change (inject_Z (720 - 1)) with 719%Q. change (inject_Z 1) with 1%Q. field.
  - change (inject_Z (1440 - 1)) with 1439%Q. change (inject_Z 1) with 1%Q. field.
Qed.
Print Assumptions C117_cube_axes.
Example C117_nonvacuous : exists ds, (do ds <- global_field 57500 "test" "i" "c" "h" "s";
    add_global_fields ds [(TAS, [280%Q]); (TASUNCERTAINTY, [1%Q]); (uncertainty_parameter "obs" "Observation uncertainty", [2%Q])]) = Ok ds.
Proof.
  apply C117_built_iff. split.
  - apply distinct_nodup. vm_compute. reflexivity.
  - intros f Hf Hin. cbn in Hf. repeat (destruct Hf as [<-|Hf]; [cbn in Hin; repeat (destruct Hin as [Hin|Hin]; [discriminate Hin|]); destruct Hin|]). destruct Hf.
Qed.
(* a second field of the same name is refused *)
Example C117_built_iff_nonvacuous : ~ exists ds, (do ds <- global_field 57500 "test" "i" "c" "h" "s"; add_global_fields ds [(TAS, []); (TAS, [])]) = Ok ds.
Proof. rewrite C117_built_iff. intros [H _]. inversion H as [|? ? Hn _]. apply Hn. left. reflexivity. Qed.

(* ---- C118: station files *)

(* The prefix given to the verification for files made by the builder. *)
Definition station_prefix (directory region version : string) : string :=
  join_one directory ("eustace_stations_" ++ lower region ++ "_" ++ version)%string.
Theorem C118_pathnames : forall directory region version,
  station_pathname directory region version "temperature" = (station_prefix directory region version ++ "_temperature.nc")%string /\
  station_pathname directory region version "status" = (station_prefix directory region version ++ "_status.nc")%string.
Proof. intros. split; apply station_pathname_eq. Qed.
Print Assumptions C118_pathnames.

(* Whatever the order of the calls: when all of them are accepted and the variables added are as the specifications describe
   those of their names, then the two files pass exactly if the dimensions of temperatures were set, the three dimensions of the
   status were added as unlimited ones, and at least one of the variables of the status is there. *)
Theorem C118_passes_iff : forall fs directory region version i c h s cs b,
  (do b <- station_builder i c h s; perform_all b cs) = Ok b ->
  (forall v values, In (AddTemperatureVariable v values) cs -> agrees SpecificationStationTemperature v /\ tidy v) ->
  (forall dim v values bounds, In (AddStatusVariable dim v values bounds) cs -> agrees SpecificationStationStatus v /\ tidy v) ->
  fs (station_pathname directory region version "temperature") = Some (b_temperature b) ->
  fs (station_pathname directory region version "status") = Some (b_status b) ->
  exit_status (verify_stations fs (station_prefix directory region version)) = 0 <->
  (exists names times, In (SetTemperatureDimensions names times) cs) /\
  (forall n, In n ["detection_time"; "tasmin_break"; "tasmax_break"] -> In (AddStatusDimension n None) cs) /\
  (exists dim v values bounds, In (AddStatusVariable dim v values bounds) cs /\ In (o_name v) (map vs_name (fs_vars SpecificationStationStatus))).
Proof.
  intros fs directory region version i c h s cs b Hb Ht Hs Hf1 Hf2.
  destruct (C118_pathnames directory region version) as [P1 P2]. rewrite P1 in Hf1. rewrite P2 in Hf2.
  destruct (station_builder i c h s) as [b0|] eqn:E0; [|discriminate]. cbn [bind] in Hb.
  assert (B1 : d_dims (b_temperature b0) = [] /\ d_vars (b_temperature b0) = [] /\ d_dims (b_status b0) = [("bounds", Some 2)] /\ d_vars (b_status b0) = []).
  { vm_compute in E0. injection E0 as <-. repeat split. }
  assert (B2 : (forall k w, In (k, w) common_attributes -> attribute_met (b_temperature b0) k w) /\
               (forall k w, In (k, w) common_attributes -> attribute_met (b_status b0) k w)).
  { vm_compute in E0. injection E0 as <-. split; intros k w Hin; cbn in Hin;
      repeat (destruct Hin as [Hin|Hin]; [injection Hin as <- <-; cbn; try discriminate; reflexivity|]); destruct Hin. }
  destruct B1 as (D1 & V1 & D2 & V2). destruct B2 as [A1 A2]. clear E0.
  assert (O1 : vars_ok SpecificationStationTemperature (b_temperature b0)) by (intros v var _ Hl; rewrite V1 in Hl; discriminate).
  assert (O2 : vars_ok SpecificationStationStatus (b_status b0)) by (intros v var _ Hl; rewrite V2 in Hl; discriminate).
  destruct (perform_temperature cs b0 b) as (T1 & (T2 & T3 & T4) & T5 & T6 & T7); [|exact O1|exact Hb|].
  { intros c0 v Hin Hv. destruct c0; try destruct Hv. apply (Ht v0 values Hin). }
  pose proof (perform_status_vars cs b0 b (fun c0 v Hin Hv => match c0 return In c0 cs -> status_variable c0 v -> _ with
     | AddStatusVariable dim v0 values bounds => fun Hin Hv => match Hv in _ = v return agrees SpecificationStationStatus v /\ tidy v with eq_refl => Hs dim v0 values bounds Hin end
     | _ => fun _ Hv => match Hv with end end Hin Hv) O2 Hb) as S1.
  destruct (perform_status cs b0 b Hb) as (S2 & S3 & S4). rewrite D2 in S3. rewrite V2 in S4. cbn [app] in S4.
  rewrite C116_stations. split.
  - intros (_ & t & st & F1 & (_ & _ & _ & C1) & F2 & (_ & (vs & Hvs & C3) & _ & C4)).
    assert (Et : t = b_temperature b) by congruence. assert (Es : st = b_status b) by congruence. subst t st. split; [|split].
    + destruct (existsb (fun c0 => match c0 with SetTemperatureDimensions _ _ => true | _ => false end) cs) eqn:E.
      * apply existsb_exists in E. destruct E as (c0 & Hin & Hc). destruct c0; try discriminate. exists names, times. exact Hin.
      * specialize (C1 "time" None (or_introl eq_refl)). rewrite T7, D1 in C1; [discriminate|]. intros names times Hin.
        assert (K : existsb (fun c0 => match c0 with SetTemperatureDimensions _ _ => true | _ => false end) cs = true)
          by (apply existsb_exists; exists (SetTemperatureDimensions names times); split; [exact Hin|reflexivity]). congruence.
    + intros n Hn. assert (Hl : lookup (d_dims (b_status b)) n = Some None).
      { apply C4. cbn in Hn. cbn. destruct Hn as [<-|[<-|[<-|[]]]]; auto. }
      rewrite S3 in Hl. cbn [app lookup] in Hl. destruct (String.eqb_spec "bounds" n) as [En|_]; [exfalso; subst n; cbn in Hn; repeat (destruct Hn as [Hn|Hn]; [discriminate|]); destruct Hn|].
      apply lookup_In in Hl. unfold status_dims in Hl. apply in_flat_map in Hl. destruct Hl as (c0 & Hin & Hc). destruct c0; cbn [In] in Hc; try contradiction. destruct Hc as [Hc|[]].
      injection Hc as <- <-. exact Hin.
    + destruct (lookup (d_vars (b_status b)) (vs_name vs)) as [var|] eqn:El; [|congruence]. rewrite S4 in El. apply lookup_In in El.
      unfold status_vars in El. apply in_flat_map in El. destruct El as (c0 & Hin & Hc). destruct c0; cbn [In] in Hc; try contradiction. destruct Hc as [Hc|[]].
      exists dim, v, values, bounds. split; [exact Hin|]. pose proof (f_equal fst Hc) as Hn. cbn [fst] in Hn. rewrite Hn. apply in_map, Hvs.
  - intros ((names & times & Hset) & Hdims & (dim & v & values & bounds & Hin & Hn)). split; [apply join_nonempty|].
    exists (b_temperature b), (b_status b). destruct (T5 names times Hset) as (U1 & U2 & _).
    split; [exact Hf1|]. split; [|split; [exact Hf2|]].
    + split; [|split; [|split]].
      * intros k w Hk. specialize (A1 k w Hk). unfold attribute_met in *. rewrite T2. exact A1.
      * exists (spec "time" Float32 [("standard_name", Is "time"); ("long_name", Is "Time at zero longitude"); ("units", Is days_since); ("calendar", Is "gregorian")]).
        split; [left; reflexivity|]. cbn [vs_name spec]. rewrite U2. discriminate.
      * exact T1.
      * intros k size [Hk|[]]. injection Hk as <- <-. exact U1.
    + split; [|split; [|split]].
      * intros k w Hk. specialize (A2 k w Hk). unfold attribute_met in *. rewrite S2. exact A2.
      * apply in_map_iff in Hn. destruct Hn as (vs & En & Hvs). exists vs. split; [exact Hvs|]. rewrite En, S4. intros Hnone. apply (proj1 (lookup_None _ _)) in Hnone.
        apply Hnone. unfold status_vars. apply in_map_iff. exists (o_name v, written v (dim :: if bounds then ["bounds"] else []) values). split; [reflexivity|].
        apply in_flat_map. exists (AddStatusVariable dim v values bounds). split; [exact Hin|left; reflexivity].
      * exact S1.
      * intros k size Hk. destruct (perform_status_lookup cs b0 b Hb) as ((_ & G & _) & L & _). cbn in Hk.
        destruct Hk as [Hk|[Hk|[Hk|[Hk|[]]]]]; injection Hk as <- <-; [apply L, Hdims; cbn; auto|apply L, Hdims; cbn; auto|apply L, Hdims; cbn; auto|].
        apply G. rewrite D2. reflexivity.
Qed.
Print Assumptions C118_passes_iff.

(* The variables of the definitions are as described. *)
Theorem C118_variables_agree :
  (forall v, In v [TIME; STATION_NAME; LATITUDE; LONGITUDE; ELEVATION; TASMIN; TASMAX; TASMIN_QC; TASMAX_QC] -> agrees SpecificationStationTemperature v /\ tidy v) /\
  (forall v, In v [DETECTION_TIME; TASMIN_DETECTION_QC; TASMAX_DETECTION_QC; TASMIN_BREAK_STATION; TASMAX_BREAK_STATION; TASMIN_BREAK_AMPLITUDE;
                   TASMAX_BREAK_AMPLITUDE; TASMIN_BREAK_TIME_BOUNDS; TASMAX_BREAK_TIME_BOUNDS; TASMIN_BREAK_TIME_AFFECTED_BOUNDS;
                   TASMAX_BREAK_TIME_AFFECTED_BOUNDS] -> agrees SpecificationStationStatus v /\ tidy v).
Proof.
  split; intros v Hv; cbn [In] in Hv; repeat (destruct Hv as [<-|Hv]; [split; [apply agrees_decide|apply tidy_decide]; vm_compute; reflexivity|]); destruct Hv.
Qed.
Print Assumptions C118_variables_agree.

(* What the files hold. *)
Theorem C118_contents : forall i c h s cs b, (do b <- station_builder i c h s; perform_all b cs) = Ok b ->
  (forall names times, In (SetTemperatureDimensions names times) cs ->
     stores (b_temperature b) TIME ["time"] times /\
     stores (b_temperature b) TIME_BOUNDS ["time"; "bounds"] (flat_map (fun x => [x; (x + 1)%Q]) times) /\
     stores (b_temperature b) STATION_NAME ["station"; "name_strlen"] (map inject_Z (flat_map name_characters names))) /\
  (forall v values, In (AddTemperatureVariable v values) cs -> stores (b_temperature b) v ["time"; "station"] values) /\
  (forall n size, In (AddStatusDimension n size) cs -> lookup (d_dims (b_status b)) n = Some size) /\
  (forall dim v values bounds, In (AddStatusVariable dim v values bounds) cs ->
     stores (b_status b) v (if bounds then [dim; "bounds"] else [dim]) values).
Proof.
  intros i c h s cs b Hb. destruct (station_builder i c h s) as [b0|] eqn:E0; [|discriminate]. cbn [bind] in Hb.
  destruct (perform_temperature_grow cs b0 b Hb) as (_ & T1 & T2 & _). destruct (perform_status_lookup cs b0 b Hb) as (_ & S1 & S2).
  split; [|split; [|split; [exact S1|]]].
  - intros names times Hin. destruct (T1 names times Hin) as (K1 & K2 & K3). split; [apply written_stores, K1|split; [apply written_stores, K2|apply written_stores, K3]].
  - intros v values Hin. apply written_stores, T2, Hin.
  - intros dim v values bounds Hin. apply written_stores. rewrite (S2 _ _ _ _ Hin). destruct bounds; reflexivity.
Qed.
Print Assumptions C118_contents.

(* Temperatures before the dimensions are set are refused, and so are dimensions set twice. *)
Theorem C118_order : forall i c h s cs b v values names times,
  (do b <- station_builder i c h s; perform_all b cs) = Ok b ->
  ((forall names times, ~ In (SetTemperatureDimensions names times) cs) -> perform b (AddTemperatureVariable v values) = Err KeyError) /\
  (forall names' times', In (SetTemperatureDimensions names' times') cs -> exists e, perform b (SetTemperatureDimensions names times) = Err e).
Proof.
  intros i c h s cs b v values names times Hb. destruct (station_builder i c h s) as [b0|] eqn:E0; [|discriminate]. cbn [bind] in Hb.
  assert (D1 : d_dims (b_temperature b0) = []) by (vm_compute in E0; injection E0 as <-; reflexivity).
  destruct (perform_temperature_grow cs b0 b Hb) as (D & T1 & T2 & _). split.
  - intros Hno. cbn [perform]. unfold add_temperature_variable. rewrite (variable_needs _ _ _ _ "time"); [reflexivity|left; reflexivity|].
    rewrite (D Hno), D1. reflexivity.
  - intros names' times' Hin. destruct (perform b (SetTemperatureDimensions names times)) as [b2|e] eqn:E; [|exists e; reflexivity]. exfalso.
    destruct (T1 names' times' Hin) as (K1 & _ & _). cbn [perform] in E. unfold set_temperature_dimensions, add_dimension_and_variable in E.
    destruct (add_dimension (b_temperature b) "station" _) as [t1|] eqn:E1; [|discriminate]. cbn [bind] in E.
    destruct (add_dimension t1 "name_strlen" _) as [t2|] eqn:E2; [|discriminate]. cbn [bind] in E.
    destruct (add_variable t2 STATION_NAME _ _) as [t3|] eqn:E3; [|discriminate]. cbn [bind] in E.
    destruct (add_dimension t3 "time" None) as [t4|] eqn:E4; [|discriminate]. cbn [bind] in E.
    destruct (add_variable t4 TIME _ _) as [t5|] eqn:E5; [|discriminate].
    destruct (grows_dimension _ _ _ _ E1) as ((_ & _ & G1) & _). destruct (grows_dimension _ _ _ _ E2) as ((_ & _ & G2) & _).
    destruct (grows_variable _ _ _ _ _ E3) as ((_ & _ & G3) & _). destruct (grows_dimension _ _ _ _ E4) as ((_ & _ & G4) & _).
    apply add_variable_inv in E5. destruct E5 as (Hnew & _). change (o_name TIME) with "time" in *. rewrite (G4 _ _ (G3 _ _ (G2 _ _ (G1 _ _ K1)))) in Hnew. discriminate.
Qed.
Print Assumptions C118_order.

(* Names of stations of up to 32 characters are read back. *)
Theorem C118_names_read_back : forall names k n, nth_error names k = Some n -> (String.length n <= 32)%nat -> ~ In "000"%char (list_ascii_of_string n) ->
  shown (firstn 32 (skipn (32 * k) (flat_map name_characters names))) = n.
Proof.
  intros names k n Hn Hl Hz. rewrite (blocks name_characters 32 names (fun x _ => name_characters_length x) k n Hn). apply name_shown; assumption.
Qed.
Print Assumptions C118_names_read_back.
Definition station_files_equal (i c h s : string) (a b : list string) (times : list Q) : Prop :=
  (do b <- station_builder i c h s; perform b (SetTemperatureDimensions a times)) = (do x <- station_builder i c h s; perform x (SetTemperatureDimensions b times)).
(* Finding: longer names are cut without notice, so that two stations can become one. *)
Theorem C118_names_refuted : exists a b, a <> b /\ forall i c h s times, station_files_equal i c h s [a] [b] times.
Proof.
  exists "A STATION WITH A NAME THAT IS TOO LONG 1", "A STATION WITH A NAME THAT IS TOO LONG 2". split; [discriminate|].
  intros i c h s times. unfold station_files_equal. reflexivity.
Qed.
Print Assumptions C118_names_refuted.

Definition example_calls : list call :=
  [AddStatusDimension "tasmin_break" None; SetTemperatureDimensions ["Oslo"; "Exeter"] [57500%Q]; AddStatusDimension "detection_time" None;
   AddStatusVariable "detection_time" DETECTION_TIME [57500%Q] false; AddTemperatureVariable TASMIN [280%Q; 281%Q];
   AddStatusDimension "tasmax_break" None; AddStatusVariable "tasmin_break" TASMIN_BREAK_TIME_BOUNDS [1%Q; 2%Q] true].
Example C118_passes_iff_nonvacuous : exists b, (do b <- station_builder "i" "c" "h" "s"; perform_all b example_calls) = Ok b /\
  exit_status (verify_stations (fun p => if String.eqb p "out/eustace_stations_europe_R1_temperature.nc" then Some (b_temperature b)
                                         else if String.eqb p "out/eustace_stations_europe_R1_status.nc" then Some (b_status b) else None)
                 (station_prefix "out" "Europe" "R1")) = 0.
Proof. eexists. split; [vm_compute; reflexivity|vm_compute; reflexivity]. Qed.
Example C118_passes_iff_nonvacuous2 : exists b, (do b <- station_builder "i" "c" "h" "s"; perform_all b (tl example_calls)) = Err KeyError /\
  (do b <- station_builder "i" "c" "h" "s"; perform_all b (firstn 6 example_calls)) = Ok b /\
  (do b <- station_builder "i" "c" "h" "s"; perform_all b (skipn 5 example_calls)) = Err KeyError.
Proof. eexists. split; [vm_compute; reflexivity|split; vm_compute; reflexivity]. Qed.
Example C118_names_read_back_nonvacuous : shown (firstn 32 (skipn 32 (flat_map name_characters ["Oslo"; "Exeter"]))) = "Exeter".
Proof. reflexivity. Qed.

(* ---- C120: variables made from templates *)

(* When it succeeds: every field of the long name is given as text (unless a long name is given), and other keywords are known. *)
Theorem C120_made_iff : forall base name long kwargs,
  (exists v, from_template base name long kwargs = Ok v) <->
  (long = None -> forall l, t_long base = Some l -> forall k, In k (fields l) -> exists s, lookup kwargs k = Some (Some (VStr s))) /\
  (forall k x, In (k, x) kwargs -> In k (long_name_keywords base) \/ In k keywords).
Proof.
  intros base name long kwargs. unfold from_template.
  assert (Hck : checked (filter (fun kv => negb (existsb (String.eqb (fst kv)) (long_name_keywords base))) kwargs) = Ok tt <->
                (forall k x, In (k, x) kwargs -> In k (long_name_keywords base) \/ In k keywords)).
  { rewrite checked_ok. split.
    - intros H k x Hin. destruct (existsb (String.eqb k) (long_name_keywords base)) eqn:E; [left; apply existsb_eqb, E|right].
      apply existsb_eqb. apply (H k x). apply filter_In. cbn [fst]. rewrite E. split; [exact Hin|reflexivity].
    - intros H k x Hin. apply filter_In in Hin. destruct Hin as [Hin Hf]. cbn [fst] in Hf. apply negb_true_iff in Hf.
      destruct (H k x Hin) as [Hk|Hk]; [apply existsb_eqb in Hk; congruence|apply existsb_eqb, Hk]. }
  rewrite <- Hck. set (r := filter _ kwargs).
  assert (Hend : forall nm, (exists v, (do _ <- checked r; Ok {| o_name := name; o_type := t_type base; o_fill := t_fill base; o_long := nm; o_members := override (t_members base) r |}) = Ok v) <-> checked r = Ok tt).
  { intros nm. destruct (checked_err r) as [-> | ->]; cbn [bind]; split; [reflexivity|intros _; eexists; reflexivity|intros (v & H); discriminate|discriminate]. }
  destruct long as [lg|]; cbn [bind]; [rewrite Hend; split; [intros H; split; [discriminate|exact H]|intros [_ H]; exact H]|].
  destruct (t_long base) as [l|]; cbn [bind]; [|rewrite Hend; split; [intros H; split; [discriminate|exact H]|intros [_ H]; exact H]].
  destruct (format l kwargs) as [t|e] eqn:E; cbn [bind].
  - rewrite Hend. apply (proj1 (format_ok l kwargs t)) in E. destruct E as (g & Hg & _). split; [intros H; split; [|exact H]|intros [_ H]; exact H].
    intros _ l' El k Hk. injection El as <-. exists (g k). apply Hg, Hk.
  - split; [intros (v & H); discriminate|]. intros [H _]. exfalso.
    assert (Hs : format l kwargs = Ok (filled l (fun k => match lookup kwargs k with Some (Some (VStr s)) => s | _ => "" end))).
    { apply format_ok. eexists. split; [|reflexivity]. intros k Hk. destruct (H eq_refl l eq_refl k Hk) as (s & ->). reflexivity. }
    congruence.
Qed.
Print Assumptions C120_made_iff.

(* What is made: name, type and fill value; a long name with its fields filled in; each member as given, or else as in the
   template. *)
Theorem C120_made : forall base name long kwargs v, from_template base name long kwargs = Ok v -> NoDup (map fst kwargs) ->
  o_name v = name /\ o_type v = t_type base /\ o_fill v = t_fill base /\
  (forall s, long = Some s -> o_long v = Some s) /\
  (long = None -> t_long base = None -> o_long v = None) /\
  (forall l, long = None -> t_long base = Some l ->
     exists g, (forall k, In k (fields l) -> lookup kwargs k = Some (Some (VStr (g k)))) /\ o_long v = Some (capitalised (filled l g))) /\
  (forall k, lookup (o_members v) k =
     if existsb (String.eqb k) (long_name_keywords base) then lookup (t_members base) k
     else match lookup kwargs k with Some given => given | None => lookup (t_members base) k end).
Proof.
  intros base name long kwargs v H Hn. unfold from_template in H.
  set (r := filter (fun kv => negb (existsb (String.eqb (fst kv)) (long_name_keywords base))) kwargs) in *.
  assert (Hm : forall k, lookup (override (t_members base) r) k = if existsb (String.eqb k) (long_name_keywords base) then lookup (t_members base) k
     else match lookup kwargs k with Some given => given | None => lookup (t_members base) k end).
  { intros k. rewrite override_lookup by (apply nodup_filter_fst, Hn). unfold r.
    rewrite (lookup_filter (fun k => negb (existsb (String.eqb k) (long_name_keywords base)))). destruct (existsb (String.eqb k) (long_name_keywords base)); reflexivity. }
  destruct long as [lg|]; cbn [bind] in H.
  - destruct (checked r); [|discriminate]. injection H as <-. cbn. split; [reflexivity|split; [reflexivity|split; [reflexivity|split; [auto|split; [discriminate|split; [discriminate|exact Hm]]]]]].
  - destruct (t_long base) as [l|]; cbn [bind] in H.
    + destruct (format l kwargs) as [t|] eqn:E; [|discriminate]. cbn [bind] in H. destruct (checked r); [|discriminate]. injection H as <-. cbn.
      split; [reflexivity|split; [reflexivity|split; [reflexivity|split; [discriminate|split; [discriminate|split; [|exact Hm]]]]]].
      intros l' _ El. injection El as <-. apply (proj1 (format_ok l kwargs t)) in E. destruct E as (g & Hg & ->). exists g. split; [exact Hg|reflexivity].
    + destruct (checked r); [|discriminate]. injection H as <-. cbn. split; [reflexivity|split; [reflexivity|split; [reflexivity|split; [discriminate|split; [reflexivity|split; [discriminate|exact Hm]]]]]].
Qed.
Print Assumptions C120_made.

(* The capital: only the first character changes, and a long name of two characters or more does not begin with a small letter. *)
Theorem C120_capital : forall c d s, exists c', capitalised (String c (String d s)) = String c' (String d s) /\
  (c' = c \/ nat_of_ascii c' = (nat_of_ascii c - 32)%nat) /\ ~ (97 <= nat_of_ascii c' <= 122)%nat.
Proof.
  intros c d s. exists (upper_char c). split; [reflexivity|]. unfold upper_char.
  destruct ((97 <=? nat_of_ascii c)%nat && (nat_of_ascii c <=? 122)%nat) eqn:E.
  - apply andb_true_iff in E. destruct E as [E1 E2]. apply Nat.leb_le in E1, E2. rewrite nat_ascii_embedding by lia. split; [right; reflexivity|lia].
  - split; [left; reflexivity|]. intros [H1 H2]. apply Nat.leb_le in H1, H2. rewrite H1, H2 in E. discriminate.
Qed.
Print Assumptions C120_capital.

(* A field that is missing is a KeyError, an unknown keyword a TypeError. *)
Theorem C120_missing_field : forall base name kwargs l k, t_long base = Some l -> In k (fields l) -> lookup kwargs k = None ->
  (forall k x, In k (fields l) -> lookup kwargs k = Some x -> exists s, x = Some (VStr s)) -> from_template base name None kwargs = Err KeyError.
Proof.
  intros base name kwargs l k El Hk Hl Hs. unfold from_template. rewrite El.
  assert (E : format l kwargs = Err KeyError); [|rewrite E; reflexivity].
  clear El. induction l as [|[t|k0] l IH]; [destruct Hk|cbn [format]; rewrite IH by assumption; reflexivity|].
  cbn [format]. destruct (lookup kwargs k0) as [x|] eqn:E; [|reflexivity]. destruct (Hs k0 x (or_introl eq_refl) E) as (s & ->).
  destruct Hk as [<-|Hk]; [congruence|]. rewrite IH; [reflexivity|exact Hk|]. intros k1 x1 Hk1. apply Hs. right. exact Hk1.
Qed.
Print Assumptions C120_missing_field.
Theorem C120_unknown_keyword : forall base name s kwargs k x, In (k, x) kwargs -> ~ In k (long_name_keywords base) -> ~ In k keywords ->
  from_template base name (Some s) kwargs = Err TypeError.
Proof.
  intros base name s kwargs k x Hin H1 H2. destruct (from_template base name (Some s) kwargs) as [v|e] eqn:E.
  - destruct (proj1 (C120_made_iff base name (Some s) kwargs) (ex_intro _ v E)) as [_ H]. destruct (H k x Hin); contradiction.
  - unfold from_template in E. cbn [bind] in E. destruct (checked_err (filter (fun kv => negb (existsb (String.eqb (fst kv)) (long_name_keywords base))) kwargs)) as [Ec|Ec];
      rewrite Ec in E; cbn [bind] in E; congruence.
Qed.
Print Assumptions C120_unknown_keyword.

(* A template extended: type and fill value stay, members given replace those of the template. *)
Theorem C120_extended : forall base long kwargs t, extend base long kwargs = Ok t -> NoDup (map fst kwargs) ->
  t_type t = t_type base /\ t_fill t = t_fill base /\ t_long t = match long with Some l => Some l | None => t_long base end /\
  forall k, lookup (t_members t) k = match lookup kwargs k with Some given => given | None => lookup (t_members base) k end.
Proof.
  intros base long kwargs t H Hn. unfold extend in H. destruct (checked kwargs); [|discriminate]. cbn [bind] in H. injection H as <-. cbn.
  split; [reflexivity|split; [reflexivity|split; [reflexivity|]]]. intros k. apply override_lookup, Hn.
Qed.
Print Assumptions C120_extended.

(* Findings in the definitions: the long name of the uncertainty of daily minima is misspelt, and the perturbations of minima and
   maxima are described as those of averages. *)
Theorem C120_definitions_refuted :
  ~ (o_long TASMINUNCERTAINTY = Some "Total uncertainty in minimum daily surface air temperature") /\
  get_metadata TASMINPERTURBATION = get_metadata TASPERTURBATION /\ get_metadata TASMAXPERTURBATION = get_metadata TASPERTURBATION /\
  lookup (get_metadata TASMINPERTURBATION) "cell_methods" = Some (VStr "time: mean") /\ lookup (get_metadata TASMIN) "cell_methods" = Some (VStr "time: minimum").
Proof. split; [discriminate|]. repeat split; vm_compute; reflexivity. Qed.
Print Assumptions C120_definitions_refuted.
Example C120_made_nonvacuous : from_template TEMPLATE_TEMPERATURE "tas" None [quantity "average"; methods "time: mean"] =
  Ok {| o_name := "tas"; o_type := Int16; o_fill := Some (VNum (-32768)); o_long := Some "Average daily surface air temperature";
        o_members := [("scale_factor", VNum (5 # 1000)); ("add_offset", VNum (27315 # 100)); ("standard_name", VStr "air_temperature"); ("units", VStr "K");
                      ("cell_methods", VStr "time: mean")] |}.
Proof. reflexivity. Qed.
Example C120_missing_field_nonvacuous : from_template TEMPLATE_TEMPERATURE "tas" None [methods "time: mean"] = Err KeyError /\
  from_template TEMPLATE_TEMPERATURE "tas" None [quantity "average"; ("colour", None)] = Err TypeError.
Proof. split; reflexivity. Qed.
