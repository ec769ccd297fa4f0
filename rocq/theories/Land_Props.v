(* C125-C127: surface-air temperatures over land (and ocean): the filter, the remapping, and runs over several days. *)
From Coq Require Import String Ascii QArith Reals Lra.
From Verif Require Import Base Time_Model Time_Spec Name_Model Land_Model Land_Spec Land_Proofs.
Open Scope Z_scope.
Open Scope string_scope.
Open Scope list_scope.

(* ------------------------------------------------------------------ C125 the filter *)

(* Every variable loses exactly the pixels whose known maximum is below the known minimum; their number is stored;
   everything else stays. *)
Theorem C125_filtered : forall (A : arithmetic) (r r' : results A) (vars : list string) (tasmin tasmax : field A),
  apply_land_post_processing A r vars = Ok r' ->
  has A r "tasmin" tasmin -> has A r "tasmax" tasmax -> clean A tasmin -> clean A tasmax ->
  (forall v f, In v (filtered vars) -> has A r v f -> has_mask A f ->
     exists f', has A r' v f' /\ size A f' = size A f /\
       forall i, known A f' i = if inverted A tasmin tasmax i then None else known A f i) /\
  lookup COUNT r' = Some (V_count A (pixels (size A tasmin) (inverted A tasmin tasmax))) /\
  (forall v, ~ In v (filtered vars) -> v <> COUNT -> lookup v r' = lookup v r).
Proof.
  intros A r r' vars tasmin tasmax H P1 P2 C1 C2. destruct (filtered_main A r vars r' H) as (a & b & u & Pa & Pb & U & C & _ & K & O).
  assert (a = tasmin) as -> by (unfold has in *; congruence). assert (b = tasmax) as -> by (unfold has in *; congruence).
  pose proof (update_mask_inv A _ _ _ U) as (_ & L & _). split; [|split].
  - intros v f I P M. destruct (K v f I P M) as (f' & P' & X). exists f'. split; [exact P'|]. split; [apply X|].
    intros i. rewrite (after_known A u f f' i X), (update_mask_inverted A _ _ u i U C1 C2). reflexivity.
  - rewrite C, count_true_pixels, L. unfold pixels. do 3 f_equal. apply filter_length_ext. intros i _. exact (update_mask_inverted A _ _ u i U C1 C2).
  - exact O.
Qed.
Print Assumptions C125_filtered.

(* Afterwards no pixel has both temperatures with the maximum below the minimum. *)
Theorem C125_ordered : forall (A : arithmetic) (r r' : results A) (vars : list string) (tasmin tasmax tasmin' tasmax' : field A) (i : nat) (a b : num A),
  apply_land_post_processing A r vars = Ok r' ->
  has A r "tasmin" tasmin -> has A r "tasmax" tasmax -> clean A tasmin -> clean A tasmax -> has_mask A tasmin -> has_mask A tasmax ->
  has A r' "tasmin" tasmin' -> has A r' "tasmax" tasmax' ->
  known A tasmin' i = Some a -> known A tasmax' i = Some b -> below A b a = false.
Proof.
  intros A r r' vars tasmin tasmax tasmin' tasmax' i a b H P1 P2 C1 C2 M1 M2 Q1 Q2 K1 K2.
  destruct (C125_filtered A r r' vars tasmin tasmax H P1 P2 C1 C2) as (F & _ & _).
  destruct (F "tasmin" tasmin) as (x & X & _ & Y); [apply in_filtered_four; cbn; auto|exact P1|exact M1|].
  destruct (F "tasmax" tasmax) as (z & Z & _ & W); [apply in_filtered_four; cbn; auto|exact P2|exact M2|].
  assert (x = tasmin') as -> by (unfold has in *; congruence). assert (z = tasmax') as -> by (unfold has in *; congruence).
  rewrite Y in K1. rewrite W in K2. destruct (inverted A tasmin tasmax i) eqn:E; [discriminate|]. unfold inverted in E. rewrite K1, K2 in E. exact E.
Qed.
Print Assumptions C125_ordered.

(* It succeeds whenever every variable is there, with the same number of pixels. *)
Theorem C125_succeeds : forall (A : arithmetic) (r : results A) (vars : list string) (n : nat),
  ~ In COUNT vars -> (forall v, In v (filtered vars) -> exists f, has A r v f /\ well_formed A f /\ size A f = n) ->
  exists r', apply_land_post_processing A r vars = Ok r'.
Proof. exact post_total. Qed.
Print Assumptions C125_succeeds.

(* Filtering a second time changes nothing but the count, which is then zero. *)
Theorem C125_again : forall (A : arithmetic) (r r' : results A) (vars : list string),
  (forall x, same A x x = true) ->
  (forall v, In v (filtered vars) -> exists f, has A r v f /\ has_mask A f) ->
  apply_land_post_processing A r vars = Ok r' ->
  exists r'', apply_land_post_processing A r' vars = Ok r'' /\
    lookup COUNT r'' = Some (V_count A 0) /\ forall v, v <> COUNT -> lookup v r'' = lookup v r'.
Proof.
  intros A r r' vars RF HM H. exists (put COUNT (V_count A 0) r'). split; [now apply (again A r)|]. split; [apply lookup_put_same|].
  intros v NE. apply lookup_put_other. auto.
Qed.
Print Assumptions C125_again.

(* three pixels: good, inverted, minimum missing *)
Definition land_field (d : list Z) (m : list bool) : value integers := V_field integers {| data := d : list (num integers); mask := Some m; fill := -999 : num integers |}.
Definition land_results : results integers :=
  [("daynumber", V_day integers 100);
   ("tasmin", land_field [3; 10; -999] [false; false; true]); ("tasmax", land_field [23; 2; 7] [false; false; false]);
   ("tasminuncertainty", land_field [1; 1; -999] [false; false; true]); ("tasmaxuncertainty", land_field [2; 2; 2] [false; false; false]);
   ("other", land_field [5; 6; 7] [false; false; false])].
Definition tmin_field : field integers := {| data := [3; 10; -999] : list (num integers); mask := Some [false; false; true]; fill := -999 : num integers |}.
Definition tmax_field : field integers := {| data := [23; 2; 7] : list (num integers); mask := Some [false; false; false]; fill := -999 : num integers |}.

Lemma clean_list (f : field integers) : forallb (fun i => match nth_error (data integers f) i with
    | Some x => Bool.eqb (masked integers f i) (same integers x (fill integers f)) | None => true end) (seq 0 (size integers f)) = true -> clean integers f.
Proof.
  intros H i x E. rewrite forallb_forall in H. specialize (H i). rewrite E in H. apply Bool.eqb_prop, H, in_seq.
  assert (i < size integers f)%nat by (apply nth_error_Some; congruence). lia.
Qed.

Example C125_nonvacuous :
  clean integers tmin_field /\ clean integers tmax_field /\ has_mask integers tmin_field /\ has_mask integers tmax_field /\
  has integers land_results "tasmin" tmin_field /\ has integers land_results "tasmax" tmax_field /\
  apply_land_post_processing integers land_results [] = Ok
    [("daynumber", V_day integers 100);
     ("tasmin", land_field [3; -999; -999] [false; true; true]); ("tasmax", land_field [23; -999; 7] [false; true; false]);
     ("tasminuncertainty", land_field [1; -999; -999] [false; true; true]); ("tasmaxuncertainty", land_field [2; -999; 2] [false; true; false]);
     ("other", land_field [5; 6; 7] [false; false; false]); (COUNT, V_count integers 1)].
Proof.
  split; [now apply clean_list|]. split; [now apply clean_list|]. split; [now exists [false; false; true]|]. split; [now exists [false; false; false]|].
  split; [reflexivity|]. split; reflexivity.
Qed.

(* An array without a mask (no value is missing anywhere) is not filtered: the pixel keeps a maximum below the minimum,
   although it is counted as removed. *)
Theorem C125_no_mask_refuted : exists (r r' : results integers) (tasmin tasmax : field integers),
  apply_land_post_processing integers r [] = Ok r' /\
  has integers r "tasmin" tasmin /\ has integers r "tasmax" tasmax /\ clean integers tasmin /\ clean integers tasmax /\
  inverted integers tasmin tasmax 1 = true /\
  lookup COUNT r' = Some (V_count integers 1) /\ has integers r' "tasmin" tasmin /\ has integers r' "tasmax" tasmax.
Proof.
  pose (f := fun d => {| data := d : list (num integers); mask := None; fill := -999 : num integers |}).
  exists [("tasmin", V_field integers (f [3; 10])); ("tasmax", V_field integers (f [23; 2]));
          ("tasminuncertainty", V_field integers (f [1; 1])); ("tasmaxuncertainty", V_field integers (f [1; 1]))].
  eexists. exists (f [3; 10]), (f [23; 2]). split; [reflexivity|]. split; [reflexivity|]. split; [reflexivity|].
  split; [now apply clean_list|]. split; [now apply clean_list|]. repeat split.
Qed.
Print Assumptions C125_no_mask_refuted.

(* Data under a mask take part in the comparison: a known maximum is removed because of a minimum that is missing. *)
Theorem C125_hidden_refuted : exists (r r' : results integers) (tasmin tasmax tasmax' : field integers),
  apply_land_post_processing integers r [] = Ok r' /\
  has integers r "tasmin" tasmin /\ has integers r "tasmax" tasmax /\ has_mask integers tasmin /\ has_mask integers tasmax /\
  inverted integers tasmin tasmax 0 = false /\ known integers tasmin 0 = None /\ known integers tasmax 0 = Some 7 /\
  has integers r' "tasmax" tasmax' /\ known integers tasmax' 0 = None.
Proof.
  pose (f := fun (d : list Z) m => {| data := d : list (num integers); mask := Some m; fill := -999 : num integers |}).
  exists [("tasmin", V_field integers (f [10] [true])); ("tasmax", V_field integers (f [7] [false]));
          ("tasminuncertainty", V_field integers (f [1] [true])); ("tasmaxuncertainty", V_field integers (f [1] [false]))].
  eexists. exists (f [10] [true]), (f [7] [false]). eexists. split; [reflexivity|]. split; [reflexivity|]. split; [reflexivity|].
  split; [now exists [true]|]. split; [now exists [false]|]. repeat split.
Qed.
Print Assumptions C125_hidden_refuted.

(* Of the surfaces that the error message calls valid only one is accepted. *)
Theorem C125_surfaces : forall (A : arithmetic) (vars : list string) (r : results A) (surface : string),
  surface <> "LAND" -> post_process A vars r surface = Err ValueError.
Proof. intros A vars r surface H. unfold post_process. destruct (String.eqb_spec surface "LAND"); [contradiction|reflexivity]. Qed.
Print Assumptions C125_surfaces.
Example C125_surfaces_nonvacuous : post_process integers [] land_results "LAND" <> Err ValueError /\ post_process integers [] land_results "ICE" = Err ValueError.
Proof. split; [discriminate|reflexivity]. Qed.

(* ------------------------------------------------------------------ C126 remapping *)
Definition land_inputs : list string := map snd land_source.
Definition ocean_inputs : list string := "tas" :: map snd ocean_source.

Lemma land_names : NoDup (map outputname land_mapping).
Proof. vm_compute. repeat (constructor; [cbn; intuition discriminate|]). constructor. Qed.
Lemma ocean_names : NoDup (map outputname ocean_mapping).
Proof. vm_compute. repeat (constructor; [cbn; intuition discriminate|]). constructor. Qed.

Lemma day_number t : EPOCH <= t -> whole_seconds_from EPOCH t -> int_days (days_datetime_to_number EPOCH t) = (t - EPOCH) / DAY.
Proof.
  intros G [s ->]. rewrite Time_Proofs.days_number_whole. unfold int_days. replace (EPOCH + s * SECOND - EPOCH) with (s * SECOND) by lia.
  apply Z.quot_div_nonneg; unfold DAY; lia.
Qed.

(* An intermediate land file with all its variables is read, each output variable from its own source; nothing else
   comes out. *)
Theorem C126_land : forall (A : arithmetic) (cells : nat) (d : dataset A) (t : Z),
  complete A cells land_inputs d -> d_time A d = Some t ->
  exists r, read_fields A cells land_mapping d = Ok r /\
    (forall out inp f, In (out, inp) land_source -> variable A d inp f -> has A r out f) /\
    (EPOCH <= t -> whole_seconds_from EPOCH t -> lookup DAYNUMBER r = Some (V_day A ((t - EPOCH) / DAY))) /\
    (forall name, ~ In name (map fst land_source) -> ~ In name (map fst land_total) -> name <> DAYNUMBER -> lookup name r = None).
Proof.
  intros A cells d t C T. destruct (mapping_ok A cells d land_mapping land_inputs C land_names) as (r & E & I & O).
  { intros s S. cbn in S. repeat (destruct S as [<- | S]; [try exact Logic.I; cbv [land_inputs land_source map snd]; try (cbn; tauto); intros x X; cbn in *; tauto|]). destruct S. }
  exists r. split; [exact E|]. split; [|split].
  - intros out inp f J P. assert (S : In (Copy out inp None) land_mapping).
    { cbn in J. repeat (destruct J as [J|J]; [injection J as <- <-; cbn; tauto|]). destruct J. }
    destruct (I _ S) as (v & V & L). cbn [value_of] in V. unfold get in V. unfold variable in P. rewrite P in V. cbn [bind] in V. unfold has. cbn [outputname] in L. congruence.
  - intros G W. destruct (I DayNumber) as (v & V & L); [now left|]. cbn [value_of] in V. rewrite T, (day_number t G W) in V. cbn [outputname] in L. rewrite L. congruence.
  - intros name N1 N2 N3. apply O. intros X. cbn in X. cbn in N1, N2. intuition congruence.
Qed.
Print Assumptions C126_land.

(* The same for the ocean, where temperatures change from Celsius to Kelvin. *)
Theorem C126_ocean : forall (A : arithmetic) (cells : nat) (d : dataset A) (t : Z) (tas : field A),
  complete A cells ocean_inputs d -> d_time A d = Some t -> variable A d "tas" tas ->
  exists r tas', read_fields A cells ocean_mapping d = Ok r /\
    (forall out inp f, In (out, inp) ocean_source -> variable A d inp f -> has A r out f) /\
    has A r "tas" tas' /\ size A tas' = size A tas /\
    (forall i, known A tas' i = option_map (fun x => add A x (of_Q A (27315 # 100))) (known A tas i)) /\
    (EPOCH <= t -> whole_seconds_from EPOCH t -> lookup DAYNUMBER r = Some (V_day A ((t - EPOCH) / DAY))) /\
    (forall name, ~ In name (map fst ocean_source) -> ~ In name (map fst ocean_total) -> name <> "tas" -> name <> DAYNUMBER -> lookup name r = None).
Proof.
  intros A cells d t tas C T Q. destruct (mapping_ok A cells d ocean_mapping ocean_inputs C ocean_names) as (r & E & I & O).
  { intros s S. cbn in S. repeat (destruct S as [<- | S]; [try exact Logic.I; cbv [ocean_inputs ocean_source map snd]; try (cbn; tauto); intros x X; cbn in *; tauto|]). destruct S. }
  assert (W : well_formed A tas). { destruct C as [_ C]. destruct (C "tas") as (f & P & W & _); [now left|]. unfold variable in *. assert (f = tas) as -> by congruence. exact W. }
  exists r, (add_offset A tas (27315 # 100)). split; [exact E|]. split; [|split; [|split; [|split; [|split]]]].
  - intros out inp f J P. assert (S : In (Copy out inp None) ocean_mapping).
    { cbn in J. repeat (destruct J as [J|J]; [injection J as <- <-; cbn; tauto|]). destruct J. }
    destruct (I _ S) as (v & V & L). cbn [value_of] in V. unfold get in V. unfold variable in P. rewrite P in V. cbn [bind] in V. unfold has. cbn [outputname] in L. congruence.
  - destruct (I (Copy "tas" "tas" (Some (27315 # 100)))) as (v & V & L); [now right; left|]. cbn [value_of] in V. unfold get in V. unfold variable in Q. rewrite Q in V. cbn [bind] in V.
    unfold has. cbn [outputname] in L. congruence.
  - now apply offset_size.
  - intros i. now apply known_offset.
  - intros G Wh. destruct (I DayNumber) as (v & V & L); [now left|]. cbn [value_of] in V. rewrite T, (day_number t G Wh) in V. cbn [outputname] in L. rewrite L. congruence.
  - intros name N1 N2 N3 N4. apply O. intros X. cbn in X. cbn in N1, N2. intuition congruence.
Qed.
Print Assumptions C126_ocean.

(* A total uncertainty is missing exactly where one of its components is; elsewhere it is the square root of the sum of
   their squares. [names] are the components of the total in [out] (for land: those of the minimum for the minimum). *)
Theorem C126_total : forall (cells : nat) (mapping : list specification) (totals : list (string * list string)),
  (mapping = land_mapping /\ totals = land_total) \/ (mapping = ocean_mapping /\ totals = ocean_total) ->
  forall (d : dataset reals) (r : results reals) (out : string) (names : list string) (fs : list (field reals)),
  read_fields reals cells mapping d = Ok r -> In (out, names) totals ->
  Forall2 (fun name f => variable reals d name f /\ well_formed reals f) names fs ->
  exists total, has reals r out total /\ size reals total = cells /\ forall i, (i < cells)%nat ->
    (known reals total i = None <-> Exists (fun f => known reals f i = None) fs) /\
    (forall x : R, known reals total i = Some x -> (0 <= x)%R /\
       exists vals : list R, Forall2 (fun f v => known reals f i = Some v) fs vals /\ (x * x)%R = sum_of_squares vals).
Proof.
  intros cells mapping totals HM d r out names fs H I F.
  assert (N : NoDup (map outputname mapping)) by (destruct HM as [[-> _]|[-> _]]; [exact land_names|exact ocean_names]).
  assert (S : In (TotalUncertainty out names) mapping).
  { destruct HM as [[-> ->]|[-> ->]]; cbn in I.
    - destruct I as [I|[I|[]]]; injection I as <- <-; cbn; tauto.
    - destruct I as [I|[]]; injection I as <- <-; cbn; tauto. }
  destruct (read_lookup reals cells d mapping [] r H N) as [J _]. destruct (J _ S) as (v & V & L). cbn [value_of] in V. cbn [outputname] in L.
  destruct (total reals cells d names) as [t|] eqn:E; [|discriminate]. cbn [bind] in V. exists t. split; [unfold has; congruence|].
  exact (total_reals cells d names fs t E F).
Qed.
Print Assumptions C126_total.

(* A file that lacks a variable that is copied is refused. *)
Theorem C126_missing : forall (A : arithmetic) (cells : nat) (mapping : list specification) (d : dataset A) (out inp : string) (offset : option Q),
  In (Copy out inp offset) mapping -> lookup inp (d_variables A d) = None -> exists e, read_fields A cells mapping d = Err e.
Proof.
  intros A cells mapping d out inp offset I N. unfold read_fields. destruct (foldM (operate A cells d) [] mapping) as [r|e] eqn:E; [|eauto].
  destruct (read_needs A cells d mapping [] r E _ I) as [v V]. cbn [value_of] in V. unfold get in V. rewrite N in V. discriminate.
Qed.
Print Assumptions C126_missing.

Definition one_cell (x : Z) (b : bool) : field integers := {| data := [x; x + 1] : list (num integers); mask := Some [b; false]; fill := -999 : num integers |}.
Definition land_file : dataset integers :=
  {| d_time := Some (EPOCH + 3 * DAY + 3600 * SECOND);
     d_variables := map (fun n => (n, one_cell 3 (String.eqb n "unc_sys_tasmin"))) land_inputs |}.
Definition ocean_file : dataset integers := {| d_time := Some EPOCH; d_variables := map (fun n => (n, one_cell 3 false)) ocean_inputs |}.
Lemma complete_map (g : string -> field integers) names : (forall n, well_formed integers (g n) /\ size integers (g n) = 2%nat) ->
  forall time, complete integers 2 names {| d_time := Some time; d_variables := map (fun n => (n, g n)) names |}.
Proof.
  intros H time. split; [discriminate|]. intros name I. exists (g name). split; [|apply H]. unfold variable. cbn [d_variables].
  induction names as [|n names IH]; [destruct I|]. cbn [map lookup]. destruct (String.eqb_spec n name) as [->|NE]; [reflexivity|].
  apply IH. destruct I; [contradiction|assumption].
Qed.
Definition cell_of (r : result (results integers)) (name : string) (i : nat) : result (option Z) :=
  do r <- r; do f <- get_field integers r name; Ok (known integers f i).
Example C126_nonvacuous :
  complete integers 2 land_inputs land_file /\ complete integers 2 ocean_inputs ocean_file /\
  (let r := read_fields integers 2 land_mapping land_file in
   (do r <- r; get r DAYNUMBER) = Ok (V_day integers 3) /\ cell_of r "tasminuncertainty" 0 = Ok None /\ cell_of r "tasminuncertainty" 1 = Ok (Some 8)) /\
  cell_of (read_fields integers 2 ocean_mapping ocean_file) "tas" 0 = Ok (Some 276).
Proof.
  split; [apply complete_map; intros n; now split|]. split; [apply complete_map; intros n; now split|]. split.
  - split; [vm_compute; reflexivity|]. split; vm_compute; reflexivity.
  - vm_compute; reflexivity.
Qed.

(* ------------------------------------------------------------------ C127 dates and several days *)

(* A name with a separator, a date, and the extension, and no earlier eight numerals in a row, is read as that date. *)
Theorem C127_date : forall (stem rest : string) (c x : ascii) (y m d : Z),
  ~ numeral c -> c <> NEWLINE -> x <> NEWLINE -> ~ eight_numerals_in stem -> calendar_date y m d ->
  read_input_file_time (stem ++ String c (pad4 y ++ pad2 m ++ pad2 d ++ String x ("nc" ++ rest)))%string = Ok (midnight y m d).
Proof. intros. now apply read_date. Qed.
Print Assumptions C127_date.
Example C127_date_nonvacuous : read_input_file_time "/data/eustace_lst_day_20110203.nc" = Ok (midnight 2011 2 3) /\
  ("/data/eustace_lst_day" ++ String "_" (pad4 2011 ++ pad2 2 ++ pad2 3 ++ String "." ("nc" ++ "")))%string = "/data/eustace_lst_day_20110203.nc".
Proof. split; vm_compute; reflexivity. Qed.

Lemma length_append a b : String.length (a ++ b)%string = (String.length a + String.length b)%nat.
Proof. induction a as [|x a IH]; cbn; [reflexivity|]. now rewrite IH. Qed.
(* Without a separator the date is read one numeral too early, and another date comes out. *)
Theorem C127_date_refuted : exists (stem : string) (c : ascii) (y m d : Z),
  ~ eight_numerals_in stem /\ calendar_date y m d /\
  read_input_file_time (stem ++ String c (pad4 y ++ pad2 m ++ pad2 d ++ ".nc"))%string = Ok (midnight 4201 10 20) /\
  midnight y m d <> midnight 4201 10 20.
Proof.
  exists "lst_v", "4"%char, 2011, 2, 3. split; [|split; [|split]].
  - intros (a & e & b & E & N). assert (L : (String.length e = 8)%nat).
    { clear E. revert e N. generalize 8%nat. induction n as [|n IH]; intros [|x e] N; cbn in *; try tauto; try reflexivity. f_equal. apply IH. tauto. }
    apply (f_equal String.length) in E. rewrite !length_append in E. cbn in E. lia.
  - unfold calendar_date. vm_compute. intuition discriminate.
  - vm_compute. reflexivity.
  - vm_compute. discriminate.
Qed.
Print Assumptions C127_date_refuted.

(* Days with the same settings run together succeed exactly when each succeeds alone, and then write the same files
   in the same order (but for the word before the number in the comment). *)
Theorem C127_together : forall (A : arithmetic) (cells : nat) (idl : model -> Z * Z * Z -> satellite -> result (dataset A))
  (tempdir : string) (temporary : nat -> string) (first : daily_inputs) (rest : list daily_inputs),
  (forall j k, temporary j = temporary k -> j = k) ->
  same_settings (first :: rest) ->
  (forall files, run_multiple_days A cells idl tempdir temporary (first :: rest) = (files, Ok tt) ->
     exists fss, Forall2 (fun x fs => run_day A cells idl tempdir temporary x = (fs, Ok tt)) (first :: rest) fss /\ files = map (as_number A) (List.concat fss)) /\
  (forall fss, Forall2 (fun x fs => run_day A cells idl tempdir temporary x = (fs, Ok tt)) (first :: rest) fss ->
     run_multiple_days A cells idl tempdir temporary (first :: rest) = (map (as_number A) (List.concat fss), Ok tt)).
Proof.
  intros A cells idl tempdir temporary first rest distinct S. destruct (multiple_ok A cells idl tempdir temporary distinct first rest) as (_ & M1 & M2).
  assert (EQ : forall x, In x (first :: rest) -> with_settings_of first x = x) by (intros x I; apply S; [now left|exact I]).
  assert (F2 : forall fss, Forall2 (fun x fs => day_alone A cells idl tempdir temporary first x = (fs, Ok tt)) (first :: rest) fss <->
               Forall2 (fun x fs => run_day A cells idl tempdir temporary x = (fs, Ok tt)) (first :: rest) fss).
  { clear M1 M2 S. revert EQ. generalize (first :: rest). induction l as [|x l IH]; intros EQ fss.
    - split; intros H; inversion H; constructor.
    - assert (E := EQ x (or_introl eq_refl)). unfold day_alone in *.
      split; intros H; apply Forall2_cons_l in H; destruct H as (fs & fss' & -> & D & F); (constructor; [rewrite E in *; exact D|]);
        apply (IH (fun y I => EQ y (or_intror I))); exact F. }
  split.
  - intros files H. destruct (M1 files H) as (fss & F & E). exists fss. split; [now apply F2|exact E].
  - intros fss H. apply M2. now apply F2.
Qed.

Print Assumptions C127_together.

(* Whether or not the run succeeds, a file that it writes is one that its day alone, with the settings of the first day,
   writes. *)
Theorem C127_each_file : forall (A : arithmetic) (cells : nat) (idl : model -> Z * Z * Z -> satellite -> result (dataset A))
  (tempdir : string) (temporary : nat -> string) (first : daily_inputs) (rest : list daily_inputs) (f : file A),
  (forall j k, temporary j = temporary k -> j = k) ->
  In f (fst (run_multiple_days A cells idl tempdir temporary (first :: rest))) ->
  exists x, In x (first :: rest) /\ In f (map (as_number A) (fst (run_day A cells idl tempdir temporary (with_settings_of first x)))).
Proof. intros A cells idl tempdir temporary first rest f distinct H. destruct (multiple_ok A cells idl tempdir temporary distinct first rest) as (M & _). exact (M f H). Qed.

Print Assumptions C127_each_file.

(* If the day and night file of any day have different dates, or no date, nothing is written for any day. *)
Theorem C127_mismatch : forall (A : arithmetic) (cells : nat) (idl : model -> Z * Z * Z -> satellite -> result (dataset A))
  (tempdir : string) (temporary : nat -> string) (first : daily_inputs) (rest : list daily_inputs) (x : daily_inputs),
  (forall j k, temporary j = temporary k -> j = k) ->
  In x (first :: rest) ->
  (forall t, ~ (read_input_file_time (input_satellite_land_day x) = Ok t /\ read_input_file_time (input_satellite_land_night x) = Ok t)) ->
  exists e, run_multiple_days A cells idl tempdir temporary (first :: rest) = ([], Err e).
Proof.
  intros A cells idl tempdir temporary first rest x distinct I H.
  assert (exists e, intermediate A idl (model_of first) (sat_in first x) = Err e) as [e E].
  { unfold intermediate, sat_date, sat_in, satellite_of, with_settings_of. cbn [s_lst fst snd input_satellite_land_day input_satellite_land_night].
    destruct (read_input_file_time (input_satellite_land_day x)) as [t|e]; [|cbn [bind]; eauto]. cbn [bind].
    destruct (read_input_file_time (input_satellite_land_night x)) as [t'|e]; [|cbn [bind]; eauto]. cbn [bind].
    destruct (Z.eqb_spec t t') as [->|NE]; cbn [negb bind]; [exfalso; exact (H t' (conj eq_refl eq_refl))|eauto]. }
  exact (multiple_refused A cells idl tempdir temporary distinct first rest x e I E).
Qed.

Print Assumptions C127_mismatch.

(* two days whose intermediate files hold the model settings and the date *)
Definition demo_idl (m : model) (date : Z * Z * Z) (i : satellite) : result (dataset integers) :=
  Ok {| d_time := Some (let '(y, mo, d) := date in midnight y mo d);
        d_variables := map (fun n => (n, one_cell (Z.of_nat (String.length (m_frac m))) false)) land_inputs |}.
Fixpoint unary (k : nat) : string := match k with O => "" | S k => String "x" (unary k) end.
Lemma unary_distinct j : forall k, unary j = unary k -> j = k.
Proof. induction j as [|j IH]; intros [|k] H; cbn in H; try discriminate; [reflexivity|]. injection H as H. f_equal. auto. Qed.
Definition demo_day (day frac : string) : daily_inputs :=
  {| catalogue_id := "c"; institution := "i"; output_main := ("main" ++ day)%string; output_ancillary := ("anc" ++ day)%string;
     input_model_1 := "1"; input_model_2 := "2"; input_model_3 := "3";
     input_satellite_land_day := ("day_" ++ day ++ ".nc")%string; input_satellite_land_night := ("night_" ++ day ++ ".nc")%string;
     input_satellite_land_snow := Some "s"; input_satellite_land_mask_north := "n"; input_satellite_land_mask_south := "s";
     input_satellite_land_DEM := "d"; input_satellite_land_fvc := "f"; frac_sat_obs_threshold := frac; sampling_threshold := "t" |}.
Notation demo_alone := (run_day integers 2 demo_idl "/tmp/" unary).
Notation demo_together := (run_multiple_days integers 2 demo_idl "/tmp/" unary).

Example C127_together_nonvacuous :
  same_settings [demo_day "20110203" "0.2"; demo_day "20110204" "0.2"] /\
  snd (demo_together [demo_day "20110203" "0.2"; demo_day "20110204" "0.2"]) = Ok tt /\
  map (fun f => (f_name integers f, f_day integers f)) (fst (demo_together [demo_day "20110203" "0.2"; demo_day "20110204" "0.2"])) =
    [("main20110203", 58837); ("anc20110203", 58837); ("main20110204", 58838); ("anc20110204", 58838)].
Proof.
  split; [|split].
  - intros x y [<- | [<- | []]] [<- | [<- | []]]; (split; [discriminate|reflexivity]).
  - vm_compute. reflexivity.
  - vm_compute. reflexivity.
Qed.
Example C127_mismatch_nonvacuous :
  let bad := {| catalogue_id := "c"; institution := "i"; output_main := "m"; output_ancillary := "a"; input_model_1 := "1"; input_model_2 := "2"; input_model_3 := "3";
     input_satellite_land_day := "day_20110204.nc"; input_satellite_land_night := "night_20110205.nc";
     input_satellite_land_snow := Some "s"; input_satellite_land_mask_north := "n"; input_satellite_land_mask_south := "s";
     input_satellite_land_DEM := "d"; input_satellite_land_fvc := "f"; frac_sat_obs_threshold := "0.2"; sampling_threshold := "t" |} in
  (forall t, ~ (read_input_file_time (input_satellite_land_day bad) = Ok t /\ read_input_file_time (input_satellite_land_night bad) = Ok t)) /\
  demo_together [demo_day "20110203" "0.2"; bad] = ([], Err ValueError) /\ List.length (fst (demo_alone (demo_day "20110203" "0.2"))) = 2%nat.
Proof.
  intros bad. split; [|split].
  - intros t [H K]. vm_compute in H, K. congruence.
  - vm_compute. reflexivity.
  - vm_compute. reflexivity.
Qed.

(* Settings that differ between the days are ignored but for the first day's: the second day is silently made with the
   wrong ones. *)
Theorem C127_settings_refuted : exists (x y : daily_inputs) (files alone : list (file integers)),
  demo_together [x; y] = (files, Ok tt) /\ demo_alone y = (alone, Ok tt) /\
  map (f_name integers) alone = map (f_name integers) (skipn 2 files) /\
  map (f_fields integers) alone <> map (f_fields integers) (skipn 2 files).
Proof.
  set (x := demo_day "20110203" "0.2"). set (y := demo_day "20110204" "0.25").
  exists x, y, (fst (demo_together [x; y])), (fst (demo_alone y)).
  assert (snd (demo_together [x; y]) = Ok tt) by (vm_compute; reflexivity). assert (snd (demo_alone y) = Ok tt) by (vm_compute; reflexivity).
  split; [destruct (demo_together [x; y]); cbn in *; congruence|]. split; [destruct (demo_alone y); cbn in *; congruence|].
  split; [vm_compute; reflexivity|]. intros E.
  apply (f_equal (map (fun l => match lookup "tasmin" l with Some f => data integers f | None => [] end))) in E. rewrite !map_map in E. vm_compute in E. discriminate.
Qed.
Print Assumptions C127_settings_refuted.

(* The percentage in the comment of a day that is run alone is a number of pixels: one of two pixels is called 1%. *)
Definition inverted_idl (m : model) (date : Z * Z * Z) (i : satellite) : result (dataset integers) :=
  Ok {| d_time := Some (midnight 2011 2 3);
        d_variables := map (fun n => (n, {| data := (if String.eqb n "tasmax" then [5; 2] else [3; 3]) : list (num integers);
                                            mask := Some [false; false]; fill := -999 : num integers |})) land_inputs |}.
Theorem C127_percentage_refuted : exists (x : daily_inputs) (files : list (file integers)),
  run_day integers 2 inverted_idl "/tmp/" unary x = (files, Ok tt) /\
  map (fun f => a_comment (f_attributes integers f)) files = [Some (Percentage 1); Some (Percentage 1)] /\
  option_map (fun tasmin => (size integers tasmin, known integers tasmin 0, known integers tasmin 1))
             (lookup "tasmin" (flat_map (f_fields integers) files)) = Some (2%nat, Some 3, None).
Proof.
  set (x := demo_day "20110203" "0.2"). exists x, (fst (run_day integers 2 inverted_idl "/tmp/" unary x)).
  assert (snd (run_day integers 2 inverted_idl "/tmp/" unary x) = Ok tt) by (vm_compute; reflexivity).
  split; [destruct (run_day integers 2 inverted_idl "/tmp/" unary x); cbn in *; congruence|]. split; vm_compute; reflexivity.
Qed.
Print Assumptions C127_percentage_refuted.
