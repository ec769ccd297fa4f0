(* Theorems about the connector (C155), biases of sources (C156), the loader of raw binary files (C157) and the check of latent
   variables (C158). *)
From Coq Require Import QArith Qcanon String Ascii Sorted.
From Verif Require Import Base Time_Model Time_Spec Time_Proofs Grid_Model Grid_Proofs Lin Ana_Model Comb_Model Flag_Model Name_Model Name_Spec Name_Proofs.
From Verif Require Import Obs_Model Obs_Spec Obs_Proofs Cpp_Model Cpp_Spec Cpp_Names Conn_Model Conn_Spec Conn_Proofs Conn_Proofs2.
Local Open Scope Z_scope.
Local Open Scope list_scope.

Lemma map_Forall2 {A B} (f : A -> B) l : Forall2 (fun a b => b = f a) l (map f l).
Proof. induction l; constructor; auto. Qed.

(* ---- C155 *)

(* The number of observations, the measurements, the precisions and the coordinates all refer to the same positions in the same
   order: those not masked. *)
Theorem C155_aligned : forall st table, set_ok (st_set st) -> st_table st = Some table -> fd_float (st_found st) = false -> Z.of_nat (List.length table) <= 2 ^ 63 ->
  (forall i, nth_error (s_mask (st_set st)) i = Some false -> exists ll, located table (nth i (s_location (st_set st)) 0) ll) ->
  exists ps cs, positions_kept (s_mask (st_set st)) ps /\ number_of_observations st = List.length ps /\ location_polar_coordinates st = Ok cs /\
    Forall2 (fun i m => nth_error (s_measurement (st_set st)) i = Some m) ps (observation_vector st) /\
    Forall2 (fun i q => exists u, nth_error (s_unc (st_set st)) i = Some u /\ (u <> 0 -> q * (u * u) = 1)%Qc) ps (observation_precision st) /\
    Forall2 (fun i c => exists ll, located table (nth i (s_location (st_set st)) 0) ll /\ fst c = fst ll /\ same_meridian (snd c) (snd ll)) ps cs.
Proof.
  intros st table (L1 & L2 & L3 & _) T F N H. pose proof (valid_kept st) as K.
  assert (B : forall i, In i (valid st) -> (i < List.length (s_measurement (st_set st)))%nat).
  { intros i Hi. apply (proj2 K) in Hi. rewrite <- L1. apply nth_error_Some. congruence. }
  destruct (mapM_some (fun i => coordinates_at table (nth i (s_location (st_set st)) 0)) (valid st)) as [cs E].
  { intros i Hi. destruct (H i) as [ll Hll]; [now apply (proj2 K)|]. exists (wrap_longitude ll). exact (coordinates_located table _ ll N Hll). }
  exists (valid st), cs. split; [exact K|]. split; [reflexivity|]. split; [now rewrite (polar_unfold st table)|].
  split; [|split].
  - eapply Forall2_impl'; [|apply map_Forall2]. cbn. intros i m Hi ->. apply nth_error_nth'. now apply B.
  - unfold observation_precision, take. rewrite map_map. eapply Forall2_impl'; [|apply map_Forall2]. cbn. intros i q Hi ->.
    exists (nth i (s_unc (st_set st)) 0%Qc). split; [apply nth_error_nth'; rewrite L3; now apply B|]. intro U. field. exact U.
  - eapply Forall2_impl'; [|apply mapM_Forall2; exact E]. cbn. intros i c Hi C. destruct (H i) as [ll Hll]; [now apply (proj2 K)|].
    exists ll. split; [assumption|]. rewrite (coordinates_located table _ ll N Hll) in C. injection C as <-. apply wrap_longitude_meridian.
Qed.
Print Assumptions C155_aligned.
Definition demo_set : obset := {| s_mask := [false; true; false]; s_time := TScalar (qz 7); s_location := [1; 9; 0]; s_measurement := [qz 20; qz 30; qz 40];
  s_unc := [qz 1; qz 2; qz 4]; s_cor := [] |}.
Definition demo_st : structure := {| st_table := Some [(qz 50, qz 350); (qz (-20), qz 10)]; st_found := {| fd_set := demo_set; fd_float := false |};
  st_datetime := 0; st_files := [] |}.
Example C155_aligned_nonvacuous : set_ok demo_set /\
  (forall i, nth_error (s_mask demo_set) i = Some false -> exists ll, located [(qz 50, qz 350); (qz (-20), qz 10)] (nth i (s_location demo_set) 0) ll) /\
  number_of_observations demo_st = 2%nat /\ observation_vector demo_st = [qz 20; qz 40] /\ location_polar_coordinates demo_st = Ok [(qz (-20), qz 10); (qz 50, (qz 350 - qz 360)%Qc)].
Proof.
  split; [unfold set_ok; cbn; repeat split; constructor|]. split; [|repeat split; reflexivity].
  intros [|[|[|i]]]; cbn; intro H; try discriminate; try (destruct i; discriminate); eexists; (split; [lia|reflexivity]).
Qed.

(* What lies at masked positions has no influence. *)
Theorem C155_masked_ignored : forall st st', set_ok (st_set st) -> set_ok (st_set st') -> st_table st = st_table st' -> fd_float (st_found st) = fd_float (st_found st') ->
  s_mask (st_set st) = s_mask (st_set st') ->
  (forall i, nth_error (s_mask (st_set st)) i = Some false -> nth i (s_location (st_set st)) 0 = nth i (s_location (st_set st')) 0 /\
     nth i (s_measurement (st_set st)) 0%Qc = nth i (s_measurement (st_set st')) 0%Qc /\ nth i (s_unc (st_set st)) 0%Qc = nth i (s_unc (st_set st')) 0%Qc) ->
  observation_vector st = observation_vector st' /\ observation_precision st = observation_precision st' /\
  location_polar_coordinates st = location_polar_coordinates st' /\ number_of_observations st = number_of_observations st'.
Proof.
  intros st st' _ _ T F M H. pose proof (valid_kept st) as K. assert (V : valid st' = valid st) by (unfold valid; now rewrite M).
  assert (A : forall i, In i (valid st) -> nth_error (s_mask (st_set st)) i = Some false) by (intros; now apply (proj2 K)).
  unfold observation_vector, observation_precision, location_polar_coordinates, number_of_observations. rewrite V, T, F. unfold take. split; [|split; [|split; [|reflexivity]]].
  - apply map_ext_in. intros i Hi. apply (H i (A i Hi)).
  - f_equal. apply map_ext_in. intros i Hi. apply (H i (A i Hi)).
  - destruct (st_table st') as [table|]; [|reflexivity]. rewrite ?F. destruct (fd_float (st_found st')); [reflexivity|]. revert A. generalize (valid st). intro l. induction l as [|i l IH]; intro A; [reflexivity|].
    cbn [mapM]. rewrite IH by (intros; apply A; now right). destruct (H i) as (-> & _); [apply A; now left|]. reflexivity.
Qed.
Print Assumptions C155_masked_ignored.
Example C155_masked_ignored_nonvacuous :
  let other := {| s_mask := [false; true; false]; s_time := TScalar (qz 7); s_location := [1; 5; 0]; s_measurement := [qz 20; qz 99; qz 40]; s_unc := [qz 1; qz 0; qz 4]; s_cor := [] |} in
  set_ok other /\ s_mask other = s_mask demo_set /\ forall i, nth_error (s_mask demo_set) i = Some false -> nth i (s_location demo_set) 0 = nth i (s_location other) 0.
Proof.
  cbv zeta. split; [unfold set_ok; cbn; repeat split; constructor|]. split; [reflexivity|]. intros [|[|[|i]]]; cbn; intro H; try discriminate; reflexivity.
Qed.

(* Longitudes from -180 up to 540 come out between -180 and 180, on the same meridian. *)
Theorem C155_longitudes : forall st table cs, st_table st = Some table -> Forall (fun ll => (- qz 180 <= snd ll)%Qc /\ (snd ll < qz 540)%Qc) table ->
  location_polar_coordinates st = Ok cs -> Forall (fun c => (- qz 180 <= snd c)%Qc /\ (snd c < qz 180)%Qc) cs.
Proof.
  intros st table cs T R E. destruct (fd_float (st_found st)) eqn:F; [unfold location_polar_coordinates in E; rewrite T, F in E; discriminate|].
  rewrite (polar_unfold st table T F) in E. apply mapM_Forall2 in E. rewrite Forall_forall in *. intros c Hc.
  induction E as [|i c' l cs C E IH]; [destruct Hc|]. destruct Hc as [<-|Hc]; [|auto]. unfold coordinates_at in C.
  destruct (wrap _ _) as [k|] eqn:W; [|discriminate]. injection C as <-. apply wrap_some in W as [W _].
  destruct (R (nth k table (0, 0)%Qc) (nth_In _ _ W)) as [A B]. now apply wrap_longitude_range.
Qed.
Print Assumptions C155_longitudes.
Example C155_longitudes_nonvacuous : Forall (fun ll : Qc * Qc => (- qz 180 <= snd ll)%Qc /\ (snd ll < qz 540)%Qc) [(qz 50, qz 350); (qz (-20), qz 10)] /\
  location_polar_coordinates demo_st = Ok [(qz (-20), qz 10); (qz 50, (qz 350 - qz 360)%Qc)].
Proof. split; [|reflexivity]. repeat apply Forall_cons; [| |apply Forall_nil]; cbn [snd]; (split; [vm_compute; discriminate|vm_compute; reflexivity]). Qed.

(* An observation that is not masked and whose location is beyond the table is an error; so is any day without a table, and any
   set of no observations at all (its array of locations is not one of whole numbers). *)
Theorem C155_outside : forall st table i, st_table st = Some table -> fd_float (st_found st) = false ->
  (forall j, nth_error (s_mask (st_set st)) j = Some false -> 0 <= nth j (s_location (st_set st)) 0 < 2 ^ 63) -> Z.of_nat (List.length table) <= 2 ^ 63 ->
  nth_error (s_mask (st_set st)) i = Some false -> Z.of_nat (List.length table) <= nth i (s_location (st_set st)) 0 ->
  location_polar_coordinates st = Err IndexError.
Proof.
  intros st table i T F B N M O. pose proof (valid_kept st) as K. rewrite (polar_unfold st table T F). apply mapM_error.
  - intros j Hj. apply (proj2 K) in Hj. specialize (B j Hj). destruct (Z_lt_le_dec (nth j (s_location (st_set st)) 0) (Z.of_nat (List.length table))) as [L|L].
    + right. unfold coordinates_at. rewrite wrap_in by lia. eexists. reflexivity.
    + left. apply coordinates_outside. lia.
  - exists i. split; [now apply (proj2 K)|]. apply coordinates_outside. specialize (B i M). lia.
Qed.
Print Assumptions C155_outside.
Example C155_outside_nonvacuous : let st := {| st_table := Some [(qz 50, qz 350)]; st_found := {| fd_set := demo_set; fd_float := false |}; st_datetime := 0; st_files := [] |} in
  nth_error (s_mask (st_set st)) 0 = Some false /\ 1 <= nth 0 (s_location (st_set st)) 0 /\
  forall j, nth_error (s_mask (st_set st)) j = Some false -> 0 <= nth j (s_location (st_set st)) 0 < 2 ^ 63.
Proof. cbv zeta. split; [reflexivity|]. split; [cbn; lia|]. intros [|[|[|j]]]; cbn; intro H; try discriminate; try lia. destruct j; discriminate. Qed.

Theorem C155_nothing_to_locate_refuted : forall table day t files,
  location_polar_coordinates {| st_table := None; st_found := observations_missing day; st_datetime := t; st_files := files |} = Err TypeError /\
  location_polar_coordinates {| st_table := Some table; st_found := observations_missing day; st_datetime := t; st_files := files |} = Err IndexError /\
  number_of_observations {| st_table := None; st_found := observations_missing day; st_datetime := t; st_files := files |} = 0%nat.
Proof. repeat split; reflexivity. Qed.
Print Assumptions C155_nothing_to_locate_refuted.

(* A location number close to the largest of 64 bits is not refused: it counts from the end of the table. *)
Theorem C155_large_numbers_refuted : forall table, table <> [] -> exists st, st_table st = Some table /\ set_ok (st_set st) /\ s_location (st_set st) = [2 ^ 64 - 1] /\
  location_polar_coordinates st = Ok [wrap_longitude (nth (List.length table - 1) table (0, 0)%Qc)].
Proof.
  intros table Ne.
  exists {| st_table := Some table; st_found := {| fd_set := {| s_mask := [false]; s_time := TScalar (qz 7); s_location := [2 ^ 64 - 1]; s_measurement := [qz 1]; s_unc := [qz 1]; s_cor := [] |}; fd_float := false |};
            st_datetime := 0; st_files := [] |}. split; [reflexivity|]. split; [unfold set_ok; cbn; repeat split; constructor|]. split; [reflexivity|].
  unfold location_polar_coordinates. cbn [st_table st_found fd_float]. change (valid _) with [0%nat]. cbn [mapM]. cbn [st_set st_found fd_set s_location nth].
  change (signed64 (2 ^ 64 - 1)) with (-1). unfold wrap. assert (0 < List.length table)%nat by (destruct table; [congruence|cbn; lia]).
  destruct (Z.leb_spec (- Z.of_nat (List.length table)) (-1)); [|lia]. destruct (Z.ltb_spec (-1) (Z.of_nat (List.length table))); [|lia]. cbn [andb Z.ltb Z.compare bind].
  do 3 f_equal. f_equal. lia.
Qed.
Print Assumptions C155_large_numbers_refuted.
