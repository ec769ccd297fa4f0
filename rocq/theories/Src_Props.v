(* C142-C151: sources of in-situ and lake observations. *)
From Coq Require Import QArith Qcanon String Ascii Psatz.
From Verif Require Import Base Time_Model Time_Proofs Grid_Model Grid_Proofs Land_Model Land_Spec Obs_Model Obs_Spec Cpp_Model Cpp_Spec Src_Model Src_Spec Src_Proofs Src_Proofs2.
From Verif Require Land_Proofs Cpp_Props Diag_Proofs.
Local Open Scope Z_scope.
Local Open Scope list_scope.

Ltac vc := vm_compute; reflexivity.
Definition is_some {A} (x : option A) : bool := match x with Some _ => true | None => false end.

(* ==== C142: observations of stations *)

(* two days of three stations *)
Definition two_days : land_file :=
  {| lf_time := [qz 10; qz 11]; lf_lat := [qz 50; qz 51; qz (-7)]; lf_lon := [qz 10; qz 350; qz (-20)];
     lf_elevation := [(false, qz 2000); (false, qz 100); (true, qz 0)];
     lf_codes := [["A"; "1"; "000"]; ["B"; "2"; "3"]; ["C"; "000"; "000"]]%char;
     lf_tasmin := [[(false, qz 280); (false, qz 270); (false, qz 260)]; [(false, qz 281); (true, qz 0); (false, qz 261)]]; lf_tasmin_qc := [[1; 0; 0]; [0; 0; 4]];
     lf_tasmax := [[(false, qz 290); (false, qz 280); (false, qz 270)]; [(false, qz 291); (false, qz 281); (false, qz 271)]]; lf_tasmax_qc := [[0; 0; 0]; [0; 0; 0]] |}.
Lemma two_days_ok : file_ok two_days.
Proof. repeat (split; [first [reflexivity | repeat (constructor; try reflexivity)]|]); repeat (constructor; try reflexivity). Qed.
Lemma two_days_row : row_of_day two_days 11 1.
Proof. apply single_row. vc. Qed.

(* Every observation names its station by its number, carries the time of its row, the temperature of the file, adjusted if that
   is asked for, and its error; and it is masked for the reasons that masked_by_code lists and no other. *)
Theorem C142_entries : forall root f day codes adjust e qc o, file_ok f -> land_observations root f day codes adjust (observable_name e) qc = Ok (Some o) ->
  exists rows, rows_for f day rows /\ sized o (List.length rows * stations f) /\
    forall k s, (k < List.length rows)%nat -> (s < stations f)%nat ->
      let i := nth k rows O in
      exists masked value error, entry o (k * stations f + s) = (masked, nth i (lf_time f) 0%Qc, Z.of_nat s, value, error) /\
        (masked = true <-> masked_by_code f e day codes (is_some adjust) qc k i s) /\
        (masked = false -> value = at_reference f e adjust i s /\ error = error_of root f adjust s).
Proof. exact station_entries. Qed.
Print Assumptions C142_entries.
Example C142_entries_nonvacuous : file_ok two_days /\
  (forall root, exists o, land_observations root two_days (Some 11) (Some [["C"%char]]) (Some (fun _ => 1%Qc)) "Tmin" true = Ok (Some o) /\
    s_mask o = [true; true; true] /\ s_location o = [0; 1; 2]) /\
  (forall root, exists o, land_observations root two_days None None (Some (fun _ => 1%Qc)) "Tmax" false = Ok (Some o) /\
    s_mask o = [false; false; true; false; false; true] /\ nth 3 (s_measurement o) 0%Qc = (qz 291 + qz 65 / qz 10)%Qc).
Proof.
  split; [exact two_days_ok|split; intros root; eexists; (split; [reflexivity|]); (split; [reflexivity|])].
  - reflexivity.
  - apply Qc_is_canon. vc.
Qed.

(* The two temperatures can always be read; of a day there is a set exactly if the file has one row of it. *)
Theorem C142_found : forall root f day codes adjust e qc, file_ok f ->
  exists answer, land_observations root f day codes adjust (observable_name e) qc = Ok answer /\
    (answer = None <-> exists d, day = Some d /\ ~ exists i, row_of_day f d i).
Proof.
  intros root f day codes adjust e qc W. pose proof (land_observations_is root f day codes adjust e qc W) as H.
  destruct (land_observations root f day codes adjust (observable_name e) qc) as [[o|]|er]; [| |contradiction].
  - exists (Some o). split; [reflexivity|]. split; [discriminate|]. intros (d & -> & N). exfalso. destruct H as (rows & rs & (i & _ & D) & _). apply N. eauto.
  - exists None. split; [reflexivity|]. split; [intros _; exact H|reflexivity].
Qed.
Print Assumptions C142_found.
Example C142_found_nonvacuous : file_ok two_days /\ row_of_day two_days 11 1 /\ ~ (exists i, row_of_day two_days 12 i).
Proof. split; [exact two_days_ok|split; [exact two_days_row|]]. intros (i & H). apply single_row in H. vm_compute in H. discriminate. Qed.

(* The number of observations that is announced is the number given. *)
Theorem C142_count : forall root f day codes adjust e qc o, file_ok f -> land_observations root f day codes adjust (observable_name e) qc = Ok (Some o) ->
  zlen (s_measurement o) = land_number_of_observations f day.
Proof.
  intros root f day codes adjust e qc o W E. destruct (station_entries root f day codes adjust e qc o W E) as (rows & R & (_ & _ & _ & S & _) & _).
  unfold zlen, land_number_of_observations, land_stations. rewrite S. unfold zlen. fold (stations f). destruct day as [d|]; cbn [rows_for] in R.
  - destruct R as (i & -> & _). cbn [List.length]. lia.
  - subst rows. rewrite seq_length. lia.
Qed.
Print Assumptions C142_count.
Example C142_count_nonvacuous : land_number_of_observations two_days None = 6 /\ land_number_of_observations two_days (Some 11) = 3.
Proof. split; reflexivity. Qed.

(* Of a day, nothing unusable is left unmasked; *)
Theorem C142_day_safe : forall root f day codes adjust e qc o i s, file_ok f -> row_of_day f day i -> (s < stations f)%nat ->
  land_observations root f (Some day) codes adjust (observable_name e) qc = Ok (Some o) ->
  unusable f e codes (is_some adjust) qc i s -> nth s (s_mask o) false = true.
Proof.
  intros root f day codes adjust e qc o i s W D S E U. destruct (day_set root f day codes adjust e qc i W D) as (o' & E' & Z & P). assert (o' = o) by congruence. subst o'.
  destruct (P s S) as (m & v & u & EN & M & _). apply entry_parts in EN. destruct EN as (EM & _). destruct Z as (LM & _). rewrite (nth_indep _ false true) by lia. rewrite EM. apply M.
  unfold masked_by_code. destruct U as [U|[[Q F]|[U|U]]]; [left; exact U|right; left; split; [exact Q|split; [discriminate|exact F]]|right; right; left; exact U|right; right; right; right; exact U].
Qed.
Print Assumptions C142_day_safe.
Example C142_day_safe_nonvacuous : row_of_day two_days 11 1 /\ unusable two_days Minimum None false true 1 2 /\ ~ unusable two_days Minimum None false true 1 0.
Proof.
  split; [exact two_days_row|split].
  - right. left. split; [reflexivity|discriminate].
  - intros [H|[[_ H]|[(l & c & H & _)|[H _]]]]; try discriminate. now apply H.
Qed.
(* and unless stations are held out while flags are respected, nothing else is masked. *)
Theorem C142_day_exact : forall root f day codes adjust e qc o i s, file_ok f -> row_of_day f day i -> (s < stations f)%nat ->
  land_observations root f (Some day) codes adjust (observable_name e) qc = Ok (Some o) -> codes = None \/ qc = false ->
  nth s (s_mask o) false = true <-> unusable f e codes (is_some adjust) qc i s.
Proof.
  intros root f day codes adjust e qc o i s W D S E C. destruct (day_set root f day codes adjust e qc i W D) as (o' & E' & Z & P). assert (o' = o) by congruence. subst o'.
  destruct (P s S) as (m & v & u & EN & M & _). apply entry_parts in EN. destruct EN as (EM & _). destruct Z as (LM & _). rewrite (nth_indep _ false true) by lia. rewrite EM, M.
  unfold unusable, masked_by_code. fold (is_some adjust). assert (T : forall x : Z, Some x <> None) by discriminate. specialize (T day). destruct C as [-> | ->]; intuition congruence.
Qed.
Print Assumptions C142_day_exact.
Example C142_day_exact_nonvacuous : forall root, exists o, land_observations root two_days (Some 11) None None "Tmin" true = Ok (Some o) /\ s_mask o = [false; true; true].
Proof. intros root. eexists. split; reflexivity. Qed.

(* If both are asked for, the flags of the first day of the file are applied to every other day as well. *)
Theorem C142_first_day_refuted : exists f day codes e i s, file_ok f /\ row_of_day f day i /\ (s < stations f)%nat /\ ~ unusable f e (Some codes) false true i s /\
  flag_at f e 0 s <> 0 /\ forall root, exists o, land_observations root f (Some day) (Some codes) None (observable_name e) true = Ok (Some o) /\ nth s (s_mask o) false = true.
Proof.
  exists two_days, 11, [["C"%char]], Minimum, 1%nat, 0%nat. split; [exact two_days_ok|]. split; [exact two_days_row|]. split; [vm_compute; lia|]. split.
  - intros [H|[[_ H]|[(l & c & H & I & Cd)|[H _]]]]; try discriminate; [now apply H|]. injection H as <-. destruct I as [<-|[]]. apply same_code_iff in Cd. vm_compute in Cd. discriminate.
  - split; [discriminate|]. intros root. eexists. split; reflexivity.
Qed.
Print Assumptions C142_first_day_refuted.
(* Without a day and without stations to hold out, flags are not looked at, even if that is asked for. *)
Theorem C142_all_days_refuted : forall root f e o k s, file_ok f -> (k < List.length (lf_time f))%nat -> (s < stations f)%nat ->
  land_observations root f None None None (observable_name e) true = Ok (Some o) -> fst (reading f e k s) = false ->
  nth (k * stations f + s) (s_mask o) false = false.
Proof.
  intros root f e o k s W K S E R. destruct (station_entries root f None None None e true o W E) as (rows & R0 & Z & P). cbn [rows_for] in R0. subst rows. rewrite seq_length in *.
  destruct (P k s K S) as (m & v & u & EN & M & _). rewrite seq_nth in EN, M by exact K. cbn [Nat.add] in *. apply entry_parts in EN. destruct EN as (EM & _). destruct Z as (LM & _).
  rewrite (nth_indep _ false true) by nia. rewrite EM. destruct m; [|reflexivity]. exfalso. destruct (proj1 M eq_refl) as [H|[(_ & H & _)|[(l & c & H & _)|[(_ & H & _)|(H & _)]]]]; congruence.
Qed.
Print Assumptions C142_all_days_refuted.
Example C142_all_days_refuted_nonvacuous : file_ok two_days /\ fst (reading two_days Minimum 0 0) = false /\ flag_at two_days Minimum 0 0 = 1 /\
  forall root, exists o, land_observations root two_days None None None "Tmin" true = Ok (Some o) /\ nth 0 (s_mask o) true = false.
Proof. split; [exact two_days_ok|split; [reflexivity|split; [reflexivity|]]]. intros root. eexists. split; reflexivity. Qed.

(* Other temperatures are refused. *)
Theorem C142_observables : forall root f day codes adjust name qc, name <> "Tmin"%string -> name <> "Tmax"%string ->
  land_observations root f day codes adjust name qc = Err KeyError.
Proof.
  intros root f day codes adjust name qc N M. unfold land_observations, land_variable. apply String.eqb_neq in N, M. rewrite N, M. reflexivity.
Qed.
Print Assumptions C142_observables.
Example C142_observables_nonvacuous : "Tmean"%string <> "Tmin"%string /\ "Tmean"%string <> "Tmax"%string.
Proof. split; discriminate. Qed.

(* The table of places has one for every station, with longitudes below 180 degrees. *)
Theorem C142_places : forall f s, file_ok f -> (s < stations f)%nat ->
  nth_error (land_locations f) s = Some (place_at f s) /\
  ((qz (-180) <= nth s (lf_lon f) 0)%Qc -> (nth s (lf_lon f) 0 < qz 360)%Qc -> (qz (-180) <= snd (place_at f s))%Qc /\ (snd (place_at f s) < qz 180)%Qc).
Proof.
  intros f s W S. split.
  - rewrite (nth_error_nth' _ (0%Qc, 0%Qc)) by (rewrite land_locations_length by exact W; exact S). f_equal. now apply land_locations_nth.
  - unfold place_at. cbn [snd]. cbv zeta. set (x := nth s (lf_lon f) 0%Qc). intros A B. destruct (Qclt_le_dec x (qz 180)) as [L|L]; [auto|].
    assert (E1 : qz (-180) = (- qz 180)%Qc) by (apply Qc_is_canon; vc). assert (E2 : qz 360 = (qz 180 + qz 180)%Qc) by (apply Qc_is_canon; vc). assert (E3 : (0 < qz 180)%Qc) by (vm_compute; reflexivity).
    rewrite E1, E2 in *. clear E1 E2 W S. clearbody x. generalize dependent (qz 180). intros. split.
    + qc.
    + qc.
Qed.
Print Assumptions C142_places.
Example C142_places_nonvacuous : place_at two_days 1 = (qz 51, qz (-10)) /\ (1 < stations two_days)%nat.
Proof. split; [reflexivity|vm_compute; lia]. Qed.

(* ==== C143: adjustment for altitude *)

(* A station at the height of the reference is left alone; above it, 6.5 degrees are added for each km; and the adjustment of two
   heights is the sum of the parts. *)
Theorem C143_adjustment : forall reference altitude rise place,
  adjustment reference (reference place) place = 0%Qc /\
  adjustment reference (reference place + 1)%Qc place = (qz 13 / qz 2)%Qc /\
  adjustment reference (altitude + rise)%Qc place = (adjustment reference altitude place + rise * (qz 13 / qz 2))%Qc.
Proof.
  intros r a d p. unfold adjustment. replace (- LAPSE_RATE)%Qc with (qz 13 / qz 2)%Qc by (apply Qc_is_canon; vc). repeat split; ring.
Qed.
Print Assumptions C143_adjustment.
(* Stations of one place whose temperatures fall by 6.5 degrees with each km agree once they are adjusted. *)
Theorem C143_profile : forall f e reference i s s', place_at f s = place_at f s' ->
  (snd (reading f e i s) - snd (reading f e i s') = - (qz 13 / qz 2) * (snd (elevation_at f s) / qz 1000 - snd (elevation_at f s') / qz 1000))%Qc ->
  at_reference f e (Some reference) i s = at_reference f e (Some reference) i s'.
Proof.
  intros f e r i s s' P H. unfold at_reference, height. rewrite P. set (a := (snd (elevation_at f s) / qz 1000)%Qc) in *. set (b := (snd (elevation_at f s') / qz 1000)%Qc) in *.
  set (x := snd (reading f e i s)) in *. set (y := snd (reading f e i s')) in *.
  replace x with (y + (x - y))%Qc by ring. rewrite H. ring.
Qed.
Print Assumptions C143_profile.
Definition hillside : land_file :=
  {| lf_time := [qz 10]; lf_lat := [qz 50; qz 50]; lf_lon := [qz 10; qz 10]; lf_elevation := [(false, qz 2000); (false, qz 0)]; lf_codes := [["A"%char]; ["B"%char]];
     lf_tasmin := [[(false, qz 267); (false, qz 280)]]; lf_tasmin_qc := [[0; 0]]; lf_tasmax := [[(false, qz 290); (false, qz 280)]]; lf_tasmax_qc := [[0; 0]] |}.
Example C143_profile_nonvacuous : place_at hillside 0 = place_at hillside 1 /\
  (snd (reading hillside Minimum 0 0) - snd (reading hillside Minimum 0 1) = - (qz 13 / qz 2) * (snd (elevation_at hillside 0) / qz 1000 - snd (elevation_at hillside 1) / qz 1000))%Qc /\
  at_reference hillside Minimum (Some (fun _ => 1%Qc)) 0 0 = (qz 547 / qz 2)%Qc.
Proof. split; [reflexivity|split; apply Qc_is_canon; vc]. Qed.
(* The error is never below that of the measurement, and equals it only at the height of the reference. *)
Theorem C143_error : forall root f reference s, (forall x, (0 <= x)%Qc -> (0 <= root x)%Qc /\ (root x * root x = x)%Qc) ->
  (qz 3 / qz 10 <= error_of root f (Some reference) s)%Qc /\
  (error_of root f (Some reference) s = qz 3 / qz 10 <-> snd (elevation_at f s) / qz 1000 = reference (place_at f s))%Qc.
Proof.
  intros root f r s R. unfold error_of, variance. cbv zeta. set (h := height f r s).
  assert (SQ : (0 <= h * h)%Qc).
  { destruct (Qclt_le_dec h 0) as [L|L].
    - replace (h * h)%Qc with ((- h) * (- h))%Qc by ring. assert (N : (0 <= - h)%Qc) by (apply Qclt_le_weak in L; qc). replace 0%Qc with (0 * (- h))%Qc by ring. now apply Qcmult_le_compat_r.
    - replace 0%Qc with (0 * h)%Qc by ring. now apply Qcmult_le_compat_r. }
  set (w := (h * h)%Qc) in *. set (k := (qz 121 / qz 100)%Qc). set (c := (qz 9 / qz 100)%Qc).
  assert (K : (0 < k)%Qc) by (vm_compute; reflexivity). assert (KW : (0 <= k * w)%Qc) by (rewrite Qcmult_comm; replace 0%Qc with (0 * k)%Qc by ring; apply Qcmult_le_compat_r; [exact SQ|now apply Qclt_le_weak]).
  assert (C0 : (0 < c)%Qc) by (vm_compute; reflexivity). assert (V : (0 <= k * w + c)%Qc) by (set (z := (k * w)%Qc) in *; clearbody z; clear -KW C0; qc).
  destruct (R _ V) as [R0 R1]. set (y := root (k * w + c)%Qc) in *. set (t := (qz 3 / qz 10)%Qc). assert (T : (t * t = c)%Qc) by (apply Qc_is_canon; vc). assert (T0 : (0 < t)%Qc) by (vm_compute; reflexivity).
  split.
  - apply Qcnot_lt_le. intros L.
    assert (A1 : (y * y <= t * y)%Qc) by (apply Qcmult_le_compat_r; [now apply Qclt_le_weak|exact R0]).
    assert (A2 : (y * t < t * t)%Qc) by (now apply Qcmult_lt_compat_r). rewrite (Qcmult_comm y t) in A2.
    set (z := (k * w)%Qc) in *. set (ty := (t * y)%Qc) in *. rewrite T in A2. rewrite R1 in A1. clearbody z ty c. clear -KW A1 A2. qc.
  - split.
    + intros E. rewrite E, T in R1. assert (W0 : (k * w = 0)%Qc) by (replace (k * w)%Qc with (k * w + c - c)%Qc by ring; rewrite <- R1; ring).
      apply Qcmult_integral in W0. destruct W0 as [W0|W0]; [rewrite W0 in K; vm_compute in K; discriminate|]. unfold w in W0. apply Qcmult_integral in W0. assert (H0 : h = 0%Qc) by tauto. unfold h, height in H0.
      rewrite <- (Qcplus_0_l (r (place_at f s))), <- H0. ring.
    + intros E. assert (H0 : h = 0%Qc) by (unfold h, height; rewrite E; ring). assert (W0 : (k * w + c = t * t)%Qc) by (unfold w; rewrite H0, T; ring). 
      assert (Y : ((y - t) * (y + t) = 0)%Qc) by (replace ((y - t) * (y + t))%Qc with (y * y - t * t)%Qc by ring; rewrite R1, W0; ring).
      apply Qcmult_integral in Y. destruct Y as [Y|Y].
      * replace y with (y - t + t)%Qc by ring. rewrite Y. ring.
      * exfalso. clearbody y t. clear -Y R0 T0. assert (E : y = (- t)%Qc) by (replace y with (y + t - t)%Qc by ring; rewrite Y; ring). rewrite E in R0. qc.
Qed.
Print Assumptions C143_error.
Example C143_error_nonvacuous : variance hillside (fun _ => 0%Qc) 1 = (qz 3 / qz 10 * (qz 3 / qz 10))%Qc /\ variance hillside (fun _ => (qz 2 - qz 4 / qz 11)%Qc) 0 = (1 / qz 2 * (1 / qz 2))%Qc.
Proof. split; apply Qc_is_canon; vc. Qed.

(* ==== C144: daily files of stations *)

(* hold: the file of stations to hold out, if any; codes: their codes *)
Definition setting (nc : string -> option land_file) (hold : option string) (adjust : option (Qc * Qc -> Qc)) (codes : option (list (list ascii))) : Prop :=
  match hold with
  | None => adjust = None /\ codes = None
  | Some h => exists g, nc h = Some g /\ codes = Some (lf_codes g)
  end.
(* A day that the file has is stored, and what is read back are its unmasked observations, in the order of the stations, each with the
   number of its station, its temperature and its error. *)
Theorem C144_station_day : forall root enc num nc uuid verify name name0 f f0 day e hold adjust codes qc i,
  file_ok f -> nc name = Some f -> nc name0 = Some f0 -> lf_lat f0 = lf_lat f -> lf_lon f0 = lf_lon f -> is_uuid uuid -> (forall x, word (enc x)) ->
  (0 < stations f)%nat -> Z.of_nat (stations f) <= 2 ^ 64 -> 0 <= day -> row_of_day f day i -> setting nc hold adjust codes ->
  exists lookup bytes o' used, run_location_lookup enc nc uuid name0 = Ok lookup /\
    run_day_land root enc num nc lookup name day (observable_name e) hold qc adjust = Ok bytes /\ read_day 0 bytes verify day = Ok o' /\
    records o' = map (fun s => (Z.of_nat s, enc (at_reference f e adjust i s), enc (error_of root f adjust s), [])) used /\
    ascending_nat used /\ (forall s, In s used <-> (s < stations f)%nat /\ ~ masked_by_code f e (Some day) codes (is_some adjust) qc 0 i s).
Proof.
  intros root enc num nc uuid verify name name0 f f0 day e hold adjust codes qc i W N N0 LA LO U E S0 SN D R ST.
  assert (LF : land_locations f0 = land_locations f) by (unfold land_locations; now rewrite LA, LO).
  set (table := map (fun ll => (enc (fst ll), enc (snd ll))) (land_locations f)).
  assert (RL : read_lookup (write_lookup {| lk_uuid := uuid; lk_table := table |}) = Ok {| lk_uuid := uuid; lk_table := table |}).
  { apply Obs_Props.C27_location_table; [exact U|]. unfold table. rewrite Forall_map. apply Forall_forall. intros; split; apply E. }
  destruct (day_set root f day codes adjust e qc i W R) as (o & EO & Z & P). fold (is_some adjust) in P.
  set (masked := fun s => nth s (s_mask o) true).
  assert (LOC : forall s, (s < stations f)%nat -> nth s (s_location o) 0 = Z.of_nat s).
  { intros s S. destruct (P s S) as (m & v & u & EN & _). apply entry_parts in EN. tauto. }
  assert (TM : forall s, (s < stations f)%nat -> time_of (words_of enc o) s = qz day).
  { intros s S. destruct (P s S) as (m & v & u & EN & _). apply entry_parts in EN. unfold time_of. cbn [words_of o_time]. tauto. }
  assert (T0 : forall s, (0 <= time_of (words_of enc o) s)%Qc).
  { intros s. destruct (Nat.lt_ge_cases s (stations f)) as [L|L]; [rewrite TM by exact L; now apply zero_le_qz|].
    destruct Z as (_ & Zt & _). unfold time_of. cbn [words_of o_time]. destruct (s_time o) as [t|ts]; [contradiction|]. rewrite nth_overflow by lia. vm_compute. discriminate. }
  destruct (day_records enc uuid verify o (stations f) day masked (fun s => nth s (s_measurement o) 0%Qc) (fun s => nth s (s_unc o) 0%Qc) E U Z SN D LOC ltac:(intros; unfold masked; auto) T0) as (o' & RD & RC).
  set (used := filter (fun s => negb (masked s) && in_day (time_of (words_of enc o) s) day) (seq 0 (stations f))) in *.
  assert (IU : forall s, In s used <-> (s < stations f)%nat /\ masked s = false).
  { intros s. unfold used. rewrite filter_In, in_seq. split.
    - intros [L H]. apply andb_true_iff in H. destruct H as [H _]. apply negb_true_iff in H. split; [lia|exact H].
    - intros [L H]. split; [lia|]. rewrite H, TM by exact L. cbn [negb andb]. apply in_day_qz. }
  exists (write_lookup {| lk_uuid := uuid; lk_table := table |}), (write_day uuid (words_of enc o) day), o', used.
  split; [unfold run_location_lookup, nc_open; rewrite N0; cbn [bind]; now rewrite LF|]. split; [|split; [exact RD|split; [|split]]].
  - unfold run_day_land. rewrite RL. cbn [bind]. unfold nc_open. rewrite N. cbn [bind].
    assert (EH : match hold with
                 | None => match adjust with None => Ok (None, None) | Some _ => Err IOErrorE end
                 | Some h => do g <- match nc h with Some f => Ok f | None => Err IOErrorE end; Ok (Some (lf_codes g), adjust)
                 end = Ok (codes, adjust)).
    { destruct hold as [h|]; cbn [setting] in ST; [destruct ST as (g & -> & ->); reflexivity|destruct ST as [-> ->]; reflexivity]. }
    rewrite EH. cbn [bind fst snd]. rewrite EO. cbn [bind]. fold table. apply prepare_same; [exact RL| |].
    + cbn [words_of o_location]. destruct Z as (_ & _ & L & _). intros C. rewrite C in L. cbn in L. lia.
    + cbn [words_of o_location]. apply Forall_forall. intros l I. apply In_nth with (d := 0) in I. destruct I as (s & S & <-). destruct Z as (_ & _ & L & _). rewrite L in S. rewrite LOC by exact S.
      unfold zlen, table. rewrite map_length, land_locations_length by exact W. lia.
  - rewrite RC. apply map_ext_in. intros s I. apply IU in I. destruct I as [L M]. destruct (P s L) as (m & v & u & EN & _ & V). apply entry_parts in EN. destruct EN as (A1 & _ & A2 & A3 & _).
    unfold masked in M. rewrite M in A1. subst m. destruct (V eq_refl) as [-> ->]. now rewrite A2, A3.
  - unfold used. apply nth_seq_filter_ascending.
  - intros s. rewrite IU. split; intros [L M]; (split; [exact L|]); destruct (P s L) as (m & v & u & EN & ME & _); apply entry_parts in EN; destruct EN as (A1 & _); unfold masked in *.
    + intros C. apply ME in C. congruence.
    + rewrite A1. destruct m; [|reflexivity]. exfalso. apply M. now apply ME.
Qed.
Print Assumptions C144_station_day.
Definition one_file (name : string) : option land_file := if String.eqb name "days.nc" then Some two_days else None.
Definition u16 : list byte := zrange 0 16.
Definition low_word (x : Qc) : Z := trunc x mod 2 ^ 64.
Example C144_station_day_nonvacuous : file_ok two_days /\ one_file "days.nc" = Some two_days /\ is_uuid u16 /\ (forall x, word (low_word x)) /\ (0 < stations two_days)%nat /\ row_of_day two_days 11 1 /\
  setting one_file None None None /\ setting one_file (Some "days.nc"%string) (Some (fun _ => 1%Qc)) (Some (lf_codes two_days)) /\
  (forall root, exists lookup bytes o', run_location_lookup low_word one_file u16 "days.nc" = Ok lookup /\
     run_day_land root low_word (fun _ => 0%Qc) one_file lookup "days.nc" 11 "Tmin" None true None = Ok bytes /\ read_day 0 bytes u16 11 = Ok o' /\ records o' = [(0, 281, 0, [])]).
Proof.
  split; [exact two_days_ok|split; [reflexivity|split; [reflexivity|split; [intros x; apply Z.mod_pos_bound; reflexivity|split; [vm_compute; lia|split; [exact two_days_row|split; [split; reflexivity|split]]]]]]].
  - exists two_days. split; reflexivity.
  - intros root. do 3 eexists. split; [vc|]. split; [vc|]. split; vc.
Qed.
(* A day that the file does not have stops the step, where a file without observations could have been stored. *)
Theorem C144_missing_day_refuted : forall root enc num nc lookupfile name f day e hold adjust codes qc,
  file_ok f -> nc name = Some f -> is_ok (read_lookup lookupfile) = true -> setting nc hold adjust codes -> (~ exists i, row_of_day f day i) ->
  run_day_land root enc num nc lookupfile name day (observable_name e) hold qc adjust = Err AttributeError.
Proof.
  intros root enc num nc lf name f day e hold adjust codes qc W N L ST A. unfold run_day_land. destruct (read_lookup lf); [|discriminate]. cbn [bind]. unfold nc_open. rewrite N. cbn [bind].
  assert (EH : match hold with
               | None => match adjust with None => Ok (None, None) | Some _ => Err IOErrorE end
               | Some h => do g <- match nc h with Some f => Ok f | None => Err IOErrorE end; Ok (Some (lf_codes g), adjust)
               end = Ok (codes, adjust)).
  { destruct hold as [h|]; cbn [setting] in ST; [destruct ST as (g & -> & ->); reflexivity|destruct ST as [-> ->]; reflexivity]. }
  rewrite EH. cbn [bind fst snd]. pose proof (land_observations_is root f (Some day) codes adjust e qc W) as H.
  destruct (land_observations root f (Some day) codes adjust (observable_name e) qc) as [[o|]|er]; [| reflexivity | contradiction].
  exfalso. destruct H as (rows & rs & (i & _ & D) & _). apply A. eauto.
Qed.
Print Assumptions C144_missing_day_refuted.
Example C144_missing_day_refuted_nonvacuous : ~ (exists i, row_of_day two_days 12 i) /\ is_ok (read_lookup (write_lookup {| lk_uuid := u16; lk_table := [] |})) = true.
Proof. split; [|vc]. intros (i & H). apply single_row in H. vm_compute in H. discriminate. Qed.
(* An adjustment for altitude cannot be had without a file of stations to hold out. *)
Theorem C144_adjustment_alone_refuted : forall root enc num nc lookupfile name day observable reference qc,
  is_ok (run_day_land root enc num nc lookupfile name day observable None qc (Some reference)) = false.
Proof.
  intros. unfold run_day_land. destruct (read_lookup lookupfile); [|reflexivity]. cbn [bind]. unfold nc_open. destruct (nc name); reflexivity.
Qed.
Print Assumptions C144_adjustment_alone_refuted.
(* Stations that are no longer where the table of places has them are refused. *)
Theorem C144_moved : forall root enc num nc lookupfile lk name f day e qc i s a b,
  file_ok f -> nc name = Some f -> read_lookup lookupfile = Ok lk -> row_of_day f day i -> (s < stations f)%nat ->
  nth_error (lk_table lk) s = Some (a, b) -> (stations f <= List.length (lk_table lk))%nat ->
  (1 / qz 10000 < num a - num (enc (fst (place_at f s))) \/ 1 / qz 10000 < num (enc (fst (place_at f s))) - num a \/
   1 / qz 10000 < num b - num (enc (snd (place_at f s))) \/ 1 / qz 10000 < num (enc (snd (place_at f s))) - num b)%Qc ->
  run_day_land root enc num nc lookupfile name day (observable_name e) None qc None = Err ValueError.
Proof.
  intros root enc num nc lf lk name f day e qc i s a b W N L R S T B M. unfold run_day_land. rewrite L. cbn [bind]. unfold nc_open. rewrite N. cbn [bind fst snd].
  destruct (day_set root f day None None e qc i W R) as (o & EO & Z & P). rewrite EO. cbn [bind].
  unfold prepare_day. rewrite L. cbn [bind]. set (locs := map (fun ll => (enc (fst ll), enc (snd ll))) (land_locations f)).
  assert (LOC : o_location (words_of enc o) = map Z.of_nat (seq 0 (stations f))).
  { cbn [words_of o_location]. destruct Z as (_ & _ & ZL & _). apply nth_ext with (d := 0) (d' := 0); [now rewrite map_length, seq_length|]. rewrite ZL. intros n Hn. destruct (P n Hn) as (m & v & u & EN & _). apply entry_parts in EN.
    rewrite (nth_map _ _ _ _ 0%nat) by (now rewrite seq_length). rewrite seq_nth by exact Hn. tauto. }
  assert (LL : List.length locs = stations f) by (unfold locs; rewrite map_length; now apply land_locations_length).
  set (close := fun l : BinNums.Z => match nth_error (lk_table lk) (Z.to_nat l), nth_error locs (Z.to_nat l) with Some x, Some y => within_tolerance num x y | _, _ => true end).
  rewrite (mapM_all _ close).
  - cbn [bind]. destruct (map close (o_location (words_of enc o))) as [|c cs] eqn:EC; [reflexivity|]. rewrite <- EC.
    assert (F : forallb (fun d => d) (map close (o_location (words_of enc o))) = false); [|now rewrite F].
    apply not_true_is_false. intros F. rewrite forallb_forall in F. specialize (F (close (Z.of_nat s))).
    assert (I : In (close (Z.of_nat s)) (map close (o_location (words_of enc o)))) by (rewrite LOC; apply in_map, in_map, in_seq; lia). specialize (F I).
    unfold close in F. rewrite Nat2Z.id, T in F.
    assert (NS : nth_error locs s = Some (enc (fst (place_at f s)), enc (snd (place_at f s)))).
    { unfold locs. rewrite nth_error_map, (nth_error_nth' _ (0%Qc, 0%Qc)) by (rewrite land_locations_length by exact W; exact S). rewrite land_locations_nth by assumption. reflexivity. }
    rewrite NS in F. unfold within_tolerance in F. cbv zeta in F. cbn [fst snd] in F. rewrite !andb_true_iff, !Qle_bool_iff in F. destruct F as [[F1 F2] [F3 F4]].
    destruct M as [M|[M|[M|M]]]; apply Qclt_not_le in M; apply M; assumption.
  - intros l I. rewrite LOC in I. apply in_map_iff in I. destruct I as (n & <- & I). apply in_seq in I. unfold close. rewrite Nat2Z.id.
    destruct (nth_error (lk_table lk) n) eqn:E1; [|apply nth_error_None in E1; lia]. destruct (nth_error locs n) eqn:E2; [|apply nth_error_None in E2; lia]. reflexivity.
Qed.
Print Assumptions C144_moved.
Example C144_moved_nonvacuous : exists lookupfile lk, read_lookup lookupfile = Ok lk /\ nth_error (lk_table lk) 1 = Some (51, 2 ^ 64 - 11) /\ (stations two_days <= List.length (lk_table lk))%nat /\
  (1 / qz 10000 < qz (low_word (snd (place_at two_days 1))) - qz (2 ^ 64 - 11))%Qc.
Proof.
  exists (write_lookup {| lk_uuid := u16; lk_table := [(50, 10); (51, 2 ^ 64 - 11); (2 ^ 64 - 7, 2 ^ 64 - 20)] |}). eexists. split; [vc|]. split; [vc|]. split; [vm_compute; lia|]. vm_compute. reflexivity.
Qed.

(* ==== C145: reports of ships *)

(* Columns are numbered by the words of the third line of the description: those of the eight fields are found, each where it stands
   first; and the description is refused if one of them is missing. *)
Lemma mapM_forall2 {A B} (g : A -> result B) l v : mapM g l = Ok v <-> Forall2 (fun x y => g x = Ok y) l v.
Proof.
  revert v; induction l as [|x l IH]; intros v; cbn [mapM].
  - split; [intros E; injection E as <-; constructor|]. inversion 1. reflexivity.
  - split.
    + intros E. destruct (g x) as [y|] eqn:G; [|discriminate]. cbn [bind] in E. destruct (mapM g l) as [ys|] eqn:M; [|discriminate]. cbn [bind] in E. injection E as <-. constructor; [exact G|]. now apply IH.
    + inversion 1 as [|? y ? ys G F]; subst. rewrite G. cbn [bind]. apply IH in F. now rewrite F.
Qed.
Theorem C145_titles : forall lines ws cols, spaced (nth 2 lines []) ws ->
  (format_columns lines = Ok cols <-> Forall2 (fun title c => first_at (list_ascii_of_string title) ws c) field_titles cols) /\
  (is_ok (format_columns lines) = true <-> forall title, In title field_titles -> In (list_ascii_of_string title) ws).
Proof.
  intros lines ws cols S. unfold format_columns. rewrite (words_in_spaced _ _ S).
  assert (G : forall t c, (match index_of (list_ascii_of_string t) ws with Some i => Ok i | None => Err ValueError end = Ok c) <-> first_at (list_ascii_of_string t) ws c).
  { intros t c. rewrite <- index_of_iff. destruct (index_of _ ws); split; congruence. }
  assert (F : forall cs, Forall2 (fun f c => match index_of f ws with Some i => Ok i | None => Err ValueError end = Ok c) FIELDS cs <-> Forall2 (fun title c => first_at (list_ascii_of_string title) ws c) field_titles cs).
  { change FIELDS with (map list_ascii_of_string field_titles). generalize field_titles. intros l. induction l as [|t l IH]; intros cs; cbn [map].
    - split; inversion 1; constructor.
    - split; inversion 1; subst; constructor; try (apply G; assumption); apply IH; assumption. }
  split; [rewrite mapM_forall2; apply F|]. split.
  - intros O t I. destruct (mapM _ FIELDS) as [cs|] eqn:M; [|discriminate]. apply (proj1 (mapM_forall2 _ _ _)) in M. apply F in M.
    clear - M I. induction M as [|x c l cs H M IH]; [destruct I|]. destruct I as [<-|I]; [|now apply IH]. destruct H as [H _]. eapply nth_error_In. exact H.
  - intros A. assert (X : exists cs, mapM (fun f => match index_of f ws with Some i => Ok i | None => Err ValueError end) FIELDS = Ok cs).
    { change FIELDS with (map list_ascii_of_string field_titles). revert A. generalize field_titles. intros l. induction l as [|t l IH]; intros A; [exists []; reflexivity|].
      destruct IH as [cs Hc]; [intros; apply A; right; assumption|]. cbn [map mapM].
      assert (I : In (list_ascii_of_string t) ws) by (apply A; left; reflexivity).
      assert (Y : exists i, index_of (list_ascii_of_string t) ws = Some i).
      { clear - I. induction ws as [|w ws IH]; [destruct I|]. cbn [index_of]. destruct (ascii_list_eqb w (list_ascii_of_string t)) eqn:E; [eauto|]. destruct I as [Ew|I]; [rewrite (proj2 (ascii_list_eqb_iff _ _) Ew) in E; discriminate|].
        destruct (IH I) as [i Hi]. rewrite Hi. exists (S i). reflexivity. }
      destruct Y as [i Hi]. rewrite Hi. cbn [bind]. rewrite Hc. exists (i :: cs). reflexivity. }
    destruct X as [cs ->]. reflexivity.
Qed.
Print Assumptions C145_titles.
Definition text (s : string) : list ascii := list_ascii_of_string s.
Definition plain_titles : list ascii := text "      ID     Lat     Lon    year   month     day    hour     Air".
Lemma spaced_by_words l ws : spaced l ws -> forall w s, Forall white s -> w <> [] -> Forall (fun c => ~ white c) w -> spaced (s ++ w ++ " "%char :: l) (w :: ws).
Proof.
  intros H w s S N V. apply spaced_word; try assumption; [right; eexists; eexists; split; [reflexivity|left; reflexivity]|].
  inversion H as [s' W|s' w' rest ws' W N' V' R H']; subst.
  - apply spaced_end. constructor; [left; reflexivity|exact W].
  - change (" "%char :: s' ++ w' ++ rest) with ((" "%char :: s') ++ w' ++ rest). apply spaced_word; try assumption. constructor; [left; reflexivity|exact W].
Qed.
Ltac plain := repeat constructor; intros HW; apply is_space_iff in HW; vm_compute in HW; discriminate.
Ltac blank := repeat constructor; now apply is_space_iff.
Lemma plain_titles_spaced : spaced plain_titles (map text field_titles).
Proof.
  change plain_titles with (text "      " ++ text "ID" ++ " "%char :: (text "    " ++ text "Lat" ++ " "%char :: (text "    " ++ text "Lon" ++ " "%char :: (text "   " ++ text "year" ++ " "%char ::
    (text "  " ++ text "month" ++ " "%char :: (text "    " ++ text "day" ++ " "%char :: (text "   " ++ text "hour" ++ " "%char :: (text "    " ++ text "Air" ++ [])))))))).
  repeat (apply spaced_by_words; [|blank|discriminate|plain]). apply spaced_word; [blank|discriminate|plain|left; reflexivity|]. apply spaced_end. constructor.
Qed.
Example C145_titles_nonvacuous : spaced plain_titles (map text field_titles) /\ format_columns [[]; []; plain_titles] = Ok [0; 1; 2; 3; 4; 5; 6; 7]%nat.
Proof. split; [exact plain_titles_spaced|reflexivity]. Qed.
(* Titles of two words count twice, so that the columns after them are looked for one place too far. *)
Theorem C145_two_words_refuted : exists titles line, spaced titles (map text ["ID"; "Lat"; "Lon"; "Air"; "T"; "year"; "month"; "day"; "hour"]%string) /\
  format_columns [[]; []; titles] = Ok [0; 1; 2; 5; 6; 7; 8; 3]%nat /\
  line_of [text "    SHIP"; text "     500"; text "    -100"; text "    1234"; text "    1900"; text "       6"; text "      15"; text "      12"] line /\
  genfromtxt [0; 1; 2; 5; 6; 7; 8; 3]%nat [line] = Err ValueError.
Proof.
  exists (text "      ID     Lat     Lon   Air T    year   month     day    hour"), (text "    SHIP     500    -100    1234    1900       6      15      12"). split; [|split; [reflexivity|split; [|vc]]].
  - change (spaced (text "      " ++ text "ID" ++ " "%char :: (text "    " ++ text "Lat" ++ " "%char :: (text "    " ++ text "Lon" ++ " "%char :: (text "  " ++ text "Air" ++ " "%char :: (text "" ++ text "T" ++ " "%char :: (text "   " ++ text "year" ++ " "%char ::
      (text "  " ++ text "month" ++ " "%char :: (text "    " ++ text "day" ++ " "%char :: (text "   " ++ text "hour" ++ []))))))))) (map text ["ID"; "Lat"; "Lon"; "Air"; "T"; "year"; "month"; "day"; "hour"]%string)).
    repeat (apply spaced_by_words; [|blank|discriminate|plain]). apply spaced_word; [blank|discriminate|plain|left; reflexivity|]. apply spaced_end. constructor.
  - exists (text "    SHIP     500    -100    1234    1900       6      15      12"). split; [|split; [|left; reflexivity]].
    + change (text "    SHIP     500    -100    1234    1900       6      15      12") with
        (text "    SHIP" ++ text "     500" ++ text "    -100" ++ text "    1234" ++ text "    1900" ++ text "       6" ++ text "      15" ++ text "      12" ++ []).
      repeat (apply eights_cons; [reflexivity|]). apply eights_nil.
    + split; cbn; intuition discriminate.
Qed.
Print Assumptions C145_two_words_refuted.

(* Reports that are written as decimal numbers in columns of eight characters are read as written: places in tenths of a degree,
   temperatures in hundredths above 273.15, dates as days since 1850. *)
Theorem C145_reports : forall usecols lines rows, reports usecols lines rows -> Forall real_date rows -> List.length rows <> 1%nat ->
  ocean_open usecols lines = Ok {| oc_coords := map (fun r => (degrees (or_lat r), degrees (or_lon r))) rows; oc_time := map (fun r => qz (day_of_report r)) rows;
                                   oc_tmean := map (fun r => kelvin (or_air r)) rows |}.
Proof. exact ocean_open_is. Qed.
Print Assumptions C145_reports.
(* samples: a report, and another with an end of line *)
Definition columns_a : list (list ascii) := [text "    SHIP"; text "     500"; text "    -100"; text "    1900"; text "       6"; text "      15"; text "      12"; text "    1234"].
Definition columns_b : list (list ascii) := [text "   SHIP2"; text "    -300"; text "    1795"; text "    1900"; text "       6"; text "      16"; text "       0"; text "    -250"].
Definition report_a : ocean_row := {| or_lat := 500; or_lon := -100; or_year := 1900; or_month := 6; or_day := 15; or_air := 1234 |}.
Definition report_b : ocean_row := {| or_lat := -300; or_lon := 1795; or_year := 1900; or_month := 6; or_day := 16; or_air := -250 |}.
Definition line_a : list ascii := concat columns_a.
Definition line_b : list ascii := concat columns_b ++ ["010"%char].
Definition first_eight : list nat := [0; 1; 2; 3; 4; 5; 6; 7]%nat.
Ltac said a b ds neg := eexists; split; [reflexivity|]; exists a, b, ds, neg; split; [repeat constructor; lia|split; [discriminate|split; reflexivity]].
Lemma sample_report_a : report first_eight columns_a report_a.
Proof.
  exists 0%nat, 1%nat, 2%nat, 3%nat, 4%nat, 5%nat, 6%nat, 7%nat. split; [reflexivity|]. split; [vm_compute; lia|]. split; [vm_compute; lia|].
  split; [said 5%nat 0%nat [5; 0; 0] false|]. split; [said 4%nat 0%nat [1; 0; 0] true|]. split; [said 4%nat 0%nat [1; 9; 0; 0] false|].
  split; [said 7%nat 0%nat [6] false|]. split; [said 6%nat 0%nat [1; 5] false|said 4%nat 0%nat [1; 2; 3; 4] false].
Qed.
Lemma sample_report_b : report first_eight columns_b report_b.
Proof.
  exists 0%nat, 1%nat, 2%nat, 3%nat, 4%nat, 5%nat, 6%nat, 7%nat. split; [reflexivity|]. split; [vm_compute; lia|]. split; [vm_compute; lia|].
  split; [said 4%nat 0%nat [3; 0; 0] true|]. split; [said 4%nat 0%nat [1; 7; 9; 5] false|]. split; [said 4%nat 0%nat [1; 9; 0; 0] false|].
  split; [said 7%nat 0%nat [6] false|]. split; [said 6%nat 0%nat [1; 6] false|said 4%nat 0%nat [2; 5; 0] true].
Qed.
Lemma eights_concat cs : Forall (fun c => List.length c = 8%nat) cs -> eights (concat cs) cs.
Proof. induction 1; cbn [concat]; constructor; assumption. Qed.
Lemma sample_lines : reports first_eight [line_a; ["010"%char]; line_b] [report_a; report_b].
Proof.
  apply reports_cons with (columns := columns_a); [|discriminate|exact sample_report_a|].
  { exists line_a. split; [apply eights_concat; repeat constructor|]. split; [|left; reflexivity]. split; cbn; intuition discriminate. }
  apply reports_blank. { exists []. split; [constructor|]. split; [split; intros []|right; left; reflexivity]. }
  apply reports_cons with (columns := columns_b); [|discriminate|exact sample_report_b|constructor].
  exists (concat columns_b). split; [apply eights_concat; repeat constructor|]. split; [|right; left; reflexivity]. split; cbn; intuition discriminate.
Qed.
Example C145_reports_nonvacuous : reports first_eight [line_a; ["010"%char]; line_b] [report_a; report_b] /\ Forall real_date [report_a; report_b] /\
  map day_of_report [report_a; report_b] = [18427; 18428].
Proof. split; [exact sample_lines|split; [repeat constructor; vm_compute; discriminate|reflexivity]]. Qed.
(* One line that ends too soon makes the whole file unreadable; so does one date that does not exist. *)
Theorem C145_short_line : forall usecols lines line, In line lines -> fixed_width line <> [] -> Exists (fun k => (List.length (fixed_width line) <= k)%nat) usecols ->
  exists e, ocean_open usecols lines = Err e.
Proof.
  intros usecols lines line I N X. assert (R : exists e, ocean_row_of usecols (fixed_width line) = Err e).
  { unfold ocean_row_of. clear -X. assert (M : exists e, mapM (fun k => match nth_error (fixed_width line) k with Some t => Ok t | None => Err ValueError end) usecols = Err e).
    { induction X as [k ks H|k ks _ [e IH]]; cbn [mapM]; [apply nth_error_None in H; rewrite H; eexists; reflexivity|]. destruct (nth_error (fixed_width line) k); [|eexists; reflexivity]. cbn [bind]. rewrite IH. eexists; reflexivity. }
    destruct M as [e ->]. eexists; reflexivity. }
  destruct R as [e R]. assert (G : exists e, genfromtxt usecols lines = Err e).
  { unfold genfromtxt. assert (IF : In (fixed_width line) (filter (fun c => match c with [] => false | _ => true end) (map fixed_width lines))).
    { apply filter_In. split; [apply in_map; exact I|]. destruct (fixed_width line); [congruence|reflexivity]. }
    revert IF. generalize (filter (fun c : list (list ascii) => match c with [] => false | _ => true end) (map fixed_width lines)). intros l IF. induction l as [|c l IH]; [destruct IF|].
    cbn [mapM]. destruct IF as [->|IF]; [rewrite R; eexists; reflexivity|]. destruct (ocean_row_of usecols c); [|eexists; reflexivity]. cbn [bind]. destruct (IH IF) as [e' ->]. eexists; reflexivity. }
  destruct G as [e' G]. exists e'. unfold ocean_open. now rewrite G.
Qed.
Print Assumptions C145_short_line.
Example C145_short_line_nonvacuous : fixed_width (firstn 56 line_a) = firstn 7 columns_a /\ Exists (fun k => (7 <= k)%nat) first_eight.
Proof. split; [vc|]. do 7 apply Exists_cons_tl. apply Exists_cons_hd. lia. Qed.
Theorem C145_bad_date : forall usecols lines rows r, reports usecols lines rows -> In r rows -> ~ real_date r -> exists e, ocean_open usecols lines = Err e.
Proof.
  intros usecols lines rows r R I N. unfold ocean_open. rewrite (reports_read _ _ _ R). cbn [bind].
  assert (M : exists e, mapM (fun r => date_number (or_year r) (or_month r) (or_day r)) rows = Err e).
  { clear R. induction rows as [|x rows IH]; [destruct I|]. cbn [mapM]. destruct I as [->|I]; [rewrite (date_number_bad r N); eexists; reflexivity|].
    destruct (date_number (or_year x) (or_month x) (or_day x)); [|eexists; reflexivity]. cbn [bind]. destruct (IH I) as [e ->]. eexists; reflexivity. }
  destruct M as [e M]. destruct rows as [|r1 [|r2 rows]]; [destruct I|eexists; reflexivity|]. rewrite M. eexists; reflexivity.
Qed.
Print Assumptions C145_bad_date.
Example C145_bad_date_nonvacuous : ~ real_date {| or_lat := 0; or_lon := 0; or_year := 1900; or_month := 2; or_day := 29; or_air := 0 |}.
Proof. intros (_ & _ & H). vm_compute in H. destruct H as [_ H]. now apply H. Qed.
(* A file of a single report cannot be read. *)
Theorem C145_single_refuted : forall usecols lines r, reports usecols lines [r] -> ocean_open usecols lines = Err IndexError.
Proof. intros usecols lines r R. unfold ocean_open. rewrite (reports_read _ _ _ R). reflexivity. Qed.
Print Assumptions C145_single_refuted.
Example C145_single_refuted_nonvacuous : reports first_eight [line_a] [report_a].
Proof.
  apply reports_cons with (columns := columns_a); [|discriminate|exact sample_report_a|constructor].
  exists line_a. split; [apply eights_concat; repeat constructor|]. split; [|left; reflexivity]. split; cbn; intuition discriminate.
Qed.
(* A column of blanks is read as -1: a report without a temperature becomes a valid one of 273.14 kelvin. *)
Theorem C145_blank_refuted : forall usecols columns line k, line_of columns line -> columns <> [] -> List.length usecols = 8%nat -> Forall (fun c => (c < List.length columns)%nat) usecols ->
  nth 7 usecols 0%nat = k -> nth k columns [] = repeat " "%char 8 ->
  exists r, genfromtxt usecols [line] = Ok [r] /\ or_air r = -1 /\ ocean_temperature (or_air r) = (qz 27314 / qz 100)%Qc.
Proof.
  intros usecols columns line k L N U F K B. destruct usecols as [|a0 [|a1 [|a2 [|a3 [|a4 [|a5 [|a6 [|a7 [|a8 us]]]]]]]]]; try discriminate U. cbn [nth] in K. subst k.
  assert (G : forall c, (c < List.length columns)%nat -> nth_error columns c = Some (nth c columns [])) by (intros c H; now apply nth_error_nth').
  rewrite Forall_forall in F. unfold genfromtxt. cbn [map filter]. rewrite (fixed_width_line _ _ L). destruct columns as [|c0 cs] eqn:EC; [congruence|]. rewrite <- EC in *. cbn [mapM].
  unfold ocean_row_of. cbn [mapM]. rewrite !G by (apply F; cbn; tauto). cbn [bind]. eexists. split; [reflexivity|]. cbn [or_air]. rewrite B. split; [reflexivity|apply Qc_is_canon; vc].
Qed.
Print Assumptions C145_blank_refuted.
Example C145_blank_refuted_nonvacuous : let columns := firstn 7 columns_a ++ [repeat " "%char 8] in
  line_of columns (concat columns) /\ nth 7 columns [] = repeat " "%char 8 /\ Forall (fun c => (c < List.length columns)%nat) first_eight.
Proof.
  split; [|split; [reflexivity|repeat constructor]]. eexists. split; [apply eights_concat; repeat constructor|]. split; [|left; reflexivity]. split; cbn; intuition discriminate.
Qed.

(* ==== C146: daily files of ships *)

(* Of a day's reports both files carry one identifier; the day file gives back the reports of that day, and the table of places has, at
   the number of each, its coordinates. *)
Theorem C146_ship_day : forall enc uuid verify formatlines lines usecols rows day,
  (forall x, word (enc x)) -> is_uuid uuid -> format_columns formatlines = Ok usecols -> reports usecols lines rows -> Forall real_date rows -> List.length rows <> 1%nat ->
  Z.of_nat (List.length rows) <= 2 ^ 64 -> 1 <= day ->
  exists dayfile placefile o' table used, run_day_mobile enc uuid formatlines lines day "Tmean" = Ok (dayfile, placefile) /\
    read_day 0 dayfile verify day = Ok o' /\ read_lookup placefile = Ok {| lk_uuid := uuid; lk_table := table |} /\
    (exists rest, dayfile = firstn 32 dayfile ++ uuid ++ rest) /\
    Forall2 (fun n rec => exists r, nth_error rows n = Some r /\ day_of_report r = day /\ rec = (Z.of_nat n, enc (kelvin (or_air r)), enc (qz 11 / qz 10)%Qc, []) /\
               nth_error table n = Some (enc (degrees (or_lat r)), enc (degrees (or_lon r)))) used (records o') /\
    ascending_nat used /\ (forall n r, nth_error rows n = Some r -> day_of_report r = day -> In n used) /\ List.length table = List.length rows.
Proof.
  intros enc uuid verify fl lines usecols rows day E U F R D N S DY. unfold run_day_mobile. rewrite F. cbn [bind]. rewrite (ocean_open_is _ _ _ R D N). cbn [bind].
  unfold ocean_observations. cbn [String.eqb Ascii.eqb Bool.eqb oc_tmean oc_coords oc_time].
  set (o := {| s_mask := map (fun _ : Qc => false) (map (fun r => kelvin (or_air r)) rows); s_time := TArray (map (fun r => qz (day_of_report r)) rows);
               s_location := zrange 0 (zlen (map (fun r => kelvin (or_air r)) rows)); s_measurement := map (fun r => kelvin (or_air r)) rows;
               s_unc := map (fun _ : Qc => OCEAN_UNCERTAINTY) (map (fun r => kelvin (or_air r)) rows); s_cor := [] |}).
  set (table := map (fun ll => (enc (fst ll), enc (snd ll))) (map (fun r => (degrees (or_lat r), degrees (or_lon r))) rows)).
  set (n := List.length rows) in *.
  assert (ZL : zrange 0 (zlen (map (fun r => kelvin (or_air r)) rows)) = map Z.of_nat (seq 0 n)).
  { unfold zlen. rewrite map_length. fold n. unfold zrange. rewrite Z.sub_0_r, Nat2Z.id. apply map_ext. intros. lia. }
  assert (SZ : sized o n) by (unfold sized, o; cbn [s_mask s_time s_location s_measurement s_unc s_cor]; rewrite ZL, !map_length, seq_length; fold n; repeat split).
  assert (LOC : forall s, (s < n)%nat -> nth s (s_location o) 0 = Z.of_nat s).
  { intros s L. unfold o. cbn [s_location]. rewrite ZL. rewrite (nth_map _ _ _ _ 0%nat) by (now rewrite seq_length). now rewrite seq_nth by exact L. }
  set (blank := {| or_lat := 0; or_lon := 0; or_year := 0; or_month := 0; or_day := 0; or_air := 0 |}). set (row := fun s => nth s rows blank).
  assert (TM : forall s, (s < n)%nat -> time_of (words_of enc o) s = qz (day_of_report (row s))).
  { intros s L. unfold time_of, o. cbn [words_of o_time s_time]. now rewrite (nth_map _ _ _ _ blank) by exact L. }
  assert (VAL : forall s, (s < n)%nat -> nth s (s_mask o) true = false /\ nth s (s_measurement o) 0%Qc = kelvin (or_air (row s)) /\ nth s (s_unc o) 0%Qc = OCEAN_UNCERTAINTY).
  { intros s L. unfold o. cbn [s_mask s_measurement s_unc]. rewrite !map_map. rewrite !(nth_map _ rows _ _ blank) by exact L. auto. }
  pose proof (words_of_ok enc o n E SZ LOC S) as WF.
  assert (D1 : day >= 1) by lia.
  destruct (Obs_Props.C28_day_file (words_of enc o) uuid verify day WF U (or_introl D1)) as (o' & RD & RC). cbn [words_of o_cor] in RD. change (s_cor o) with (@nil (list Qc)) in RD. cbn [map List.length] in RD. fold (words_of enc o) in RD.
  assert (LM : List.length (o_measurement (words_of enc o)) = n) by (cbn [words_of o_measurement]; rewrite map_length; apply SZ). rewrite LM in RC.
  set (used := filter (fun i => unmasked (words_of enc o) i && in_day (time_of (words_of enc o) i) day) (seq 0 n)) in *.
  assert (INQ : forall a, in_day (qz a) day = (a =? day)).
  { intros a. unfold in_day. rewrite !qle_qz. destruct (Z.eqb_spec a day); destruct (day <=? a) eqn:E1; destruct (day + 1 <=? a) eqn:E2; cbn; try reflexivity; lia. }
  assert (IU : forall s, In s used <-> (s < n)%nat /\ day_of_report (row s) = day).
  { intros s. unfold used. rewrite filter_In, in_seq, andb_true_iff. split.
    - intros (L & _ & T). assert (L' : (s < n)%nat) by lia. rewrite TM, INQ in T by exact L'. apply Z.eqb_eq in T. auto.
    - intros (L & T). rewrite TM, INQ by exact L. split; [lia|]. split; [|now apply Z.eqb_eq]. unfold unmasked. cbn [words_of o_mask]. destruct (VAL s L) as [-> _]. reflexivity. }
  exists (write_day uuid (words_of enc o) day), (write_lookup {| lk_uuid := uuid; lk_table := table |}), o', table, used.
  split; [reflexivity|]. split; [exact RD|]. split.
  { apply Obs_Props.C27_location_table; [exact U|]. unfold table. rewrite Forall_map. apply Forall_forall. intros; split; apply E. }
  split.
  { unfold write_day. eexists. reflexivity. }
  split; [|split; [apply nth_seq_filter_ascending|split]].
  - rewrite RC. assert (AL : Forall (fun s => In s used) used) by (now apply Forall_forall). revert AL. generalize used at 2 3 4. intros l AL. induction AL as [|s l I _ IH]; cbn [map]; [constructor|]. constructor; [|exact IH].
    apply IU in I. destruct I as [L T]. exists (row s). split; [unfold row; now apply nth_error_nth'|]. split; [exact T|]. destruct (VAL s L) as (_ & V & W). split.
    + unfold record_at. cbn [words_of o_location o_measurement o_unc o_cor]. change (s_cor o) with (@nil (list Qc)). cbn [map]. rewrite LOC by exact L.
      rewrite !(nth_map enc _ _ _ 0%Qc) by (destruct SZ as (_ & _ & _ & S1 & S2 & _); lia). now rewrite V, W.
    + unfold table. rewrite !nth_error_map. unfold row. now rewrite (nth_error_nth' rows blank) by exact L.
  - intros k r K T. apply IU. assert (L : (k < n)%nat) by (apply nth_error_Some; congruence). split; [exact L|]. unfold row. now rewrite (nth_error_nth rows k blank K).
  - unfold table. now rewrite !map_length.
Qed.
Print Assumptions C146_ship_day.
Example C146_ship_day_nonvacuous : format_columns [[]; []; plain_titles] = Ok first_eight /\ reports first_eight [line_a; ["010"%char]; line_b] [report_a; report_b] /\
  exists d p o', run_day_mobile low_word u16 [[]; []; plain_titles] [line_a; ["010"%char]; line_b] 18428 "Tmean" = Ok (d, p) /\ read_day 0 d u16 18428 = Ok o' /\ records o' = [(1, 270, 1, [])].
Proof. split; [reflexivity|split; [exact sample_lines|]]. do 3 eexists. split; [vc|]. split; vc. Qed.
(* Other quantities than the daily mean stop the step. *)
Theorem C146_observable : forall enc uuid formatlines lines day observable, observable <> "Tmean"%string ->
  is_ok (run_day_mobile enc uuid formatlines lines day observable) = false.
Proof.
  intros enc uuid fl lines day ob N. unfold run_day_mobile. destruct (format_columns fl); [|reflexivity]. cbn [bind]. destruct (ocean_open a lines); [|reflexivity]. cbn [bind].
  unfold ocean_observations. apply String.eqb_neq in N. now rewrite N.
Qed.
Print Assumptions C146_observable.

(* ==== C147: lakes *)

(* A place stands for all rows of its signature, and has the coordinates of the first of them. *)
Theorem C147_place : forall rows k r, nth_error rows k = Some r ->
  exists j r' l, nth_error (lake_ids rows) k = Some (Z.of_nat l) /\ nth_error (lake_lookup rows) l = Some (lr_lat r', lr_lon r') /\
    nth_error rows j = Some r' /\ signature r' = signature r /\ (j <= k)%nat /\ forall i x, (i < j)%nat -> nth_error rows i = Some x -> signature x <> signature r.
Proof. exact lake_place. Qed.
Print Assumptions C147_place.
Definition lake (d lat lon t : Z) : lake_row := {| lr_day := d; lr_lat := qz lat; lr_lon := qz lon; lr_temperature := qz t |}.
Example C147_place_nonvacuous : lake_ids [lake 1 60 20 5; lake 1 10 5 20; lake 2 60 20 6] = [1; 0; 1] /\ lake_lookup [lake 1 60 20 5; lake 1 10 5 20; lake 2 60 20 6] = [(qz 10, qz 5); (qz 60, qz 20)].
Proof. split; vc. Qed.
(* The observations are those of the rows, in kelvin. *)
Theorem C147_rows : forall rows k r, nth_error rows k = Some r ->
  sized (lake_observations rows) (List.length rows) /\
  exists id, nth_error (lake_ids rows) k = Some id /\ entry (lake_observations rows) k = (false, qz (lr_day r), id, (lr_temperature r + qz 27315 / qz 100)%Qc, qz 5).
Proof.
  intros rows k r K. split.
  - unfold sized, lake_observations. cbn [s_mask s_time s_location s_measurement s_unc s_cor]. unfold lake_ids. cbv zeta. rewrite !map_length. repeat split.
  - destruct (lake_place rows k r K) as (j & r' & l & I & _). exists (Z.of_nat l). split; [exact I|]. unfold entry, lake_observations. cbn [s_mask s_time s_location s_measurement s_unc].
    assert (L : (k < List.length rows)%nat) by (apply nth_error_Some; congruence). rewrite !(nth_map _ rows _ _ r) by exact L. rewrite (nth_error_nth _ _ r K). now rewrite (nth_error_nth _ _ 0 I).
Qed.
Print Assumptions C147_rows.
Example C147_rows_nonvacuous : nth_error [lake 1 60 20 5; lake 2 60 20 6] 1 = Some (lake 2 60 20 6). Proof. reflexivity. Qed.
(* So every observation is at its own coordinates wherever signatures tell places apart; *)
Theorem C147_own_place : forall rows, (forall r r', In r rows -> In r' rows -> signature r = signature r' -> (lr_lat r, lr_lon r) = (lr_lat r', lr_lon r')) ->
  forall k r, nth_error rows k = Some r -> exists l, nth_error (lake_ids rows) k = Some (Z.of_nat l) /\ nth_error (lake_lookup rows) l = Some (lr_lat r, lr_lon r).
Proof.
  intros rows H k r K. destruct (lake_place rows k r K) as (j & r' & l & I & P & J & S & _). exists l. split; [exact I|]. rewrite P. f_equal. apply H; [eapply nth_error_In; exact J|eapply nth_error_In; exact K|exact S].
Qed.
Print Assumptions C147_own_place.
(* as they do for whole degrees of latitude and longitudes given to a millionth of a degree; *)
Theorem C147_whole_degrees : forall r r' lat lat' m m', lr_lat r = qz lat -> lr_lat r' = qz lat' -> lr_lon r = (qz m / qz 1000000)%Qc -> lr_lon r' = (qz m' / qz 1000000)%Qc ->
  -180000000 <= m < 180000000 -> -180000000 <= m' < 180000000 -> signature r = signature r' -> (lr_lat r, lr_lon r) = (lr_lat r', lr_lon r').
Proof.
  intros r r' a a' m m' A A' L L' M M' S. unfold signature in S. rewrite A, A', L, L' in *.
  assert (Q : forall n, (qz 1000000 * (qz n / qz 1000000) = qz n)%Qc) by (intros n; apply Qcmult_div_r; apply qz_nonzero; discriminate).
  rewrite !Q in S. rewrite <- !qz_mult in S. rewrite !Diag_Proofs.trunc_qz in S. assert (a = a' /\ m = m') as [-> ->] by lia. reflexivity.
Qed.
Print Assumptions C147_whole_degrees.
Example C147_whole_degrees_nonvacuous : signature (lake 1 60 (-20) 5) = 21580000000 /\ lr_lon (lake 1 60 (-20) 5) = (qz (-20000000) / qz 1000000)%Qc.
Proof. split; [vc|apply Qc_is_canon; vc]. Qed.
(* but in general they do not: a lake at 10.01 degrees north, 1.4 degrees east is put at 10 degrees north, 5 degrees east, if the file has
   one there. *)
Theorem C147_collision_refuted : exists rows r, nth_error rows 1 = Some r /\ exists l, nth_error (lake_ids rows) 1 = Some (Z.of_nat l) /\ nth_error (lake_lookup rows) l = Some (qz 10, qz 5) /\
  (lr_lat r, lr_lon r) = (qz 1001 / qz 100, qz 14 / qz 10)%Qc.
Proof.
  exists [lake 1 10 5 20; {| lr_day := 1; lr_lat := (qz 1001 / qz 100)%Qc; lr_lon := (qz 14 / qz 10)%Qc; lr_temperature := qz 20 |}]. eexists. split; [reflexivity|].
  exists 0%nat. split; [vc|]. split; [vc|reflexivity].
Qed.
Print Assumptions C147_collision_refuted.

(* ==== C148: break points *)

(* The break points given are those of the station, or all, whose likelihood is known, in the order of the file. *)
Theorem C148_breaks : forall f station r, break_file_ok f -> break_observations f station = Ok r ->
  exists kept, ascending_nat kept /\
    (forall i, In i kept <-> (i < List.length (bf_time f))%nat /\ fst (nth i (bf_likelihood f) (true, 0)) = false /\ (forall s, station = Some s -> nth i (bf_station f) 0 = s)) /\
    bs_time r = map (fun i => nth i (bf_time f) 0) kept /\ bs_station r = map (fun i => nth i (bf_station f) 0) kept /\ bs_likelihood r = map (fun i => snd (nth i (bf_likelihood f) (true, 0))) kept.
Proof.
  intros f station r W E. rewrite (break_observations_is f station W) in E. exists (kept_breaks f station). split; [apply nth_seq_filter_ascending|]. split.
  - intros i. unfold kept_breaks. rewrite filter_In, in_seq, andb_true_iff. unfold wanted, break_known. rewrite negb_true_iff. destruct station as [s|].
    + rewrite Z.eqb_eq. split; [intros (L & S & K); repeat split; [lia|exact K|intros s' Es; congruence]|]. intros (L & K & S). split; [lia|]. split; [now apply S|exact K].
    + split; [intros (L & _ & K); repeat split; [lia|exact K|discriminate]|]. intros (L & K & _). split; [lia|]. auto.
  - destruct (match station with Some s => do v <- at_index (bf_feasibility f) s; Ok [v] | None => Ok (bf_feasibility f) end); [|discriminate]. cbn [bind] in E. injection E as <-. auto.
Qed.
Print Assumptions C148_breaks.
Definition some_breaks : break_file := {| bf_time := [100; 200; 300]; bf_station := [0; 1; 0]; bf_likelihood := [(false, 7); (false, 8); (true, 0)]; bf_feasibility := [1; 0] |}.
Example C148_breaks_nonvacuous : break_file_ok some_breaks /\ break_observations some_breaks (Some 0) = Ok {| bs_time := [100]; bs_station := [0]; bs_likelihood := [7]; bs_feasibility := [1] |}.
Proof. split; [split; reflexivity|reflexivity]. Qed.
(* The feasibility of detection is that of the station, or of all; there is none for a station the file does not have. *)
Theorem C148_feasibility : forall f station, break_file_ok f ->
  match station with
  | None => exists r, break_observations f None = Ok r /\ bs_feasibility r = bf_feasibility f
  | Some s => 0 <= s -> if s <? zlen (bf_feasibility f) then exists r, break_observations f (Some s) = Ok r /\ bs_feasibility r = [nth (Z.to_nat s) (bf_feasibility f) 0]
              else break_observations f (Some s) = Err IndexError
  end.
Proof.
  intros f [s|] W; [intros S|]; rewrite (break_observations_is f _ W); [|eexists; split; reflexivity].
  unfold at_index. cbv zeta. replace (s <? 0) with false by lia. replace (0 <=? s) with true by lia. cbn [andb]. destruct (s <? zlen (bf_feasibility f)); [|reflexivity]. cbn [bind]. eexists. split; reflexivity.
Qed.
Print Assumptions C148_feasibility.
Example C148_feasibility_nonvacuous : (1 <? zlen (bf_feasibility some_breaks)) = true /\ (2 <? zlen (bf_feasibility some_breaks)) = false.
Proof. split; reflexivity. Qed.
(* The number announced is that of the break points given if all likelihoods are known; *)
Theorem C148_count : forall f station r, break_file_ok f -> break_observations f station = Ok r -> Forall (fun l => fst l = false) (bf_likelihood f) ->
  zlen (bs_time r) = break_count f station.
Proof.
  intros f station r W E K. assert (KN : forall i, (i < List.length (bf_time f))%nat -> break_known f i = true).
  { intros i L. unfold break_known. rewrite Forall_forall in K. rewrite K; [reflexivity|]. apply nth_In. destruct W as [_ ->]. exact L. }
  rewrite (break_observations_is f station W) in E. destruct (match station with Some s => do v <- at_index (bf_feasibility f) s; Ok [v] | None => Ok (bf_feasibility f) end); [|discriminate]. cbn [bind] in E. injection E as <-. cbn [bs_time].
  unfold zlen, break_count. rewrite map_length. unfold kept_breaks. rewrite (filter_ext_in _ (wanted station f)) by (intros i I; apply in_seq in I; rewrite KN by lia; apply andb_true_r).
  destruct station as [s|]; unfold wanted, zlen.
  - destruct W as [L1 _]. rewrite <- L1. f_equal. clear. set (l := bf_station f). clearbody l.
    assert (G : forall a, List.length (filter (fun i => nth (i - a) l 0 =? s) (seq a (List.length l))) = List.length (filter (fun x => x =? s) l)).
    { induction l as [|x l IH]; intros a; [reflexivity|]. cbn [List.length seq filter]. rewrite Nat.sub_diag. cbn [nth].
      rewrite (filter_ext_in (fun i => nth (i - a) (x :: l) 0 =? s) (fun i => nth (i - S a) l 0 =? s)) by (intros i I; apply in_seq in I; replace (i - a)%nat with (S (i - S a)) by lia; reflexivity).
      destruct (x =? s); cbn [List.length]; now rewrite IH. }
    rewrite <- (G 0%nat). f_equal. apply filter_ext. intros i. now rewrite Nat.sub_0_r.
  - replace (filter (fun _ : nat => true) (seq 0 (List.length (bf_time f)))) with (seq 0 (List.length (bf_time f))); [now rewrite seq_length|].
    generalize (seq 0 (List.length (bf_time f))). intros l. induction l as [|x l IH]; [reflexivity|]. cbn [filter]. now f_equal.
Qed.
Print Assumptions C148_count.
Example C148_count_nonvacuous : Forall (fun l : bool * Z => fst l = false) (firstn 2 (bf_likelihood some_breaks)). Proof. repeat constructor. Qed.
(* otherwise it is too large. *)
Theorem C148_count_refuted : exists f station r, break_file_ok f /\ break_observations f station = Ok r /\ zlen (bs_time r) = 1 /\ break_count f station = 2.
Proof. exists some_breaks, (Some 0). eexists. split; [split; reflexivity|]. split; [reflexivity|]. split; reflexivity. Qed.
Print Assumptions C148_count_refuted.

(* ==== C149: decimal years *)

(* A decimal year is the year and the part of it, of 365 or 366 days, that has gone by. *)
Theorem C149_fraction : forall t, 1 <= dt_year t <= 9998 ->
  let y := dt_year t in let days := if is_leap y then 366 else 365 in
  decimal_year t = Ok (qz y + qz (t - year_begins y) / qz (days * DAY))%Qc /\ 0 <= t - year_begins y < days * DAY.
Proof.
  intros t Y y days. pose proof (decimal_year_is t Y) as E. pose proof (in_year t) as I. fold y in E, I.
  assert (D : year_begins (y + 1) - year_begins y = days * DAY) by (unfold year_begins, ymd2ord; rewrite !days_before_month_1, days_before_year_next; fold days; lia).
  rewrite D in E. split; [exact E|]. lia.
Qed.
Print Assumptions C149_fraction.
Example C149_fraction_nonvacuous : decimal_year (ymd2ord 1904 7 2 * DAY) = Ok (qz 3809 / qz 2)%Qc.
Proof. vc. Qed.
(* It lies in its year, and is whole at the beginning of the year only. *)
Theorem C149_year : forall t v, 1 <= dt_year t <= 9998 -> decimal_year t = Ok v ->
  (qz (dt_year t) <= v)%Qc /\ (v < qz (dt_year t + 1))%Qc /\ (v = qz (dt_year t) <-> t = year_begins (dt_year t)).
Proof.
  intros t v Y E. destruct (C149_fraction t Y) as [F B]. cbv zeta in *. set (y := dt_year t) in *. set (days := if is_leap y then 366 else 365) in *. set (a := t - year_begins y) in *. set (n := days * DAY) in *.
  assert (V : v = (qz y + qz a / qz n)%Qc) by congruence. assert (NP : (0 < qz n)%Qc) by (rewrite <- qz_0; apply qz_lt; lia). assert (NZ : qz n <> 0%Qc) by (apply qz_nonzero; lia).
  assert (M : (qz a / qz n * qz n = qz a)%Qc) by (field; exact NZ). set (x := (qz a / qz n)%Qc) in *.
  assert (X0 : (0 <= x)%Qc). { apply Qcnot_lt_le. intros L. assert (C : (x * qz n < 0 * qz n)%Qc) by (now apply Qcmult_lt_compat_r). rewrite M, Qcmult_0_l, <- qz_0 in C. apply (proj1 (qz_lt _ _)) in C. lia. }
  assert (X1 : (x < 1)%Qc). { apply Qcnot_le_lt. intros L. assert (C : (1 * qz n <= x * qz n)%Qc) by (apply Qcmult_le_compat_r; [exact L|now apply Qclt_le_weak]). rewrite M, Qcmult_1_l in C. apply (proj1 (qz_le _ _)) in C. lia. }
  rewrite V, qz_plus, qz_1. split; [|split].
  - clear -X0. generalize dependent (qz y). intros. qc.
  - clear -X1. generalize dependent (qz y). intros. qc.
  - split; intros H.
    + assert (x = 0%Qc) as X by (replace x with (qz y + x - qz y)%Qc by ring; rewrite H; ring). rewrite X, Qcmult_0_l, <- qz_0 in M. apply qz_inj in M. lia.
    + assert (a = 0) as A by lia. unfold x. rewrite A. rewrite qz_0. unfold Qcdiv. ring.
Qed.
Print Assumptions C149_year.
Example C149_year_nonvacuous : dt_year (year_begins 1850) = 1850 /\ decimal_year (year_begins 1850) = Ok (qz 1850). Proof. split; vc. Qed.
(* Later moments have larger numbers. *)
Theorem C149_order : forall t t' v v', 1 <= dt_year t <= 9998 -> 1 <= dt_year t' <= 9998 -> decimal_year t = Ok v -> decimal_year t' = Ok v' -> (t < t' <-> (v < v')%Qc).
Proof.
  assert (M : forall t t' v v', 1 <= dt_year t <= 9998 -> 1 <= dt_year t' <= 9998 -> decimal_year t = Ok v -> decimal_year t' = Ok v' -> t < t' -> (v < v')%Qc).
  { intros t t' v v' Y Y' E E' L. destruct (C149_year t v Y E) as (A & B & _). destruct (C149_year t' v' Y' E') as (A' & B' & _).
    destruct (Z.lt_trichotomy (dt_year t) (dt_year t')) as [H|[H|H]].
    - apply Qclt_le_trans with (y := qz (dt_year t + 1)); [exact B|]. apply Qcle_trans with (y := qz (dt_year t')); [apply qz_le; lia|exact A'].
    - destruct (C149_fraction t Y) as [F F1]. destruct (C149_fraction t' Y') as [F' F1']. cbv zeta in *. rewrite <- H in *. set (y := dt_year t) in *. set (n := (if is_leap y then 366 else 365) * DAY) in *.
      assert (V : v = (qz y + qz (t - year_begins y) / qz n)%Qc) by congruence. assert (V' : v' = (qz y + qz (t' - year_begins y) / qz n)%Qc) by congruence.
      assert (NP : (0 < qz n)%Qc) by (rewrite <- qz_0; apply qz_lt; lia). assert (NZ : qz n <> 0%Qc) by (apply qz_nonzero; lia).
      rewrite V, V'. apply Qcnot_le_lt. intros C. assert (C1 : (qz (t' - year_begins y) / qz n <= qz (t - year_begins y) / qz n)%Qc) by (clear -C; generalize dependent (qz y); intros; qc).
      assert (C2 : (qz (t' - year_begins y) / qz n * qz n <= qz (t - year_begins y) / qz n * qz n)%Qc) by (apply Qcmult_le_compat_r; [exact C1|now apply Qclt_le_weak]).
      replace (qz (t' - year_begins y) / qz n * qz n)%Qc with (qz (t' - year_begins y)) in C2 by (field; exact NZ). replace (qz (t - year_begins y) / qz n * qz n)%Qc with (qz (t - year_begins y)) in C2 by (field; exact NZ).
      apply (proj1 (qz_le _ _)) in C2. lia.
    - exfalso. pose proof (in_year t). pose proof (in_year t'). pose proof (year_begins_mono _ _ H). lia. }
  intros t t' v v' Y Y' E E'. split; [now apply M|]. intros H. destruct (Z.lt_trichotomy t t') as [L|[L|L]]; [exact L| |].
  - exfalso. subst t'. rewrite E in E'. injection E' as Ev. subst v'. revert H. apply Qcle_not_lt, Qcle_refl.
  - exfalso. pose proof (M t' t v' v Y' Y E' E L) as H'. apply (Qclt_not_le _ _ H). now apply Qclt_le_weak.
Qed.
Print Assumptions C149_order.
Example C149_order_nonvacuous : dt_year (year_begins 1904 - 1) = 1903 /\ year_begins 1904 - 1 < year_begins 1904. Proof. split; [vc|lia]. Qed.
(* Moments of the last year of the calendar have none. *)
Theorem C149_last_year_refuted : forall t, dt_year t = 9999 -> decimal_year t = Err ValueError.
Proof. intros t Y. unfold decimal_year. rewrite Y. rewrite year_start_ok by lia. reflexivity. Qed.
Print Assumptions C149_last_year_refuted.
Example C149_last_year_refuted_nonvacuous : dt_year (year_begins 9999) = 9999. Proof. vc. Qed.

(* ==== C150: day numbers from the names of files *)

Lemma append_length a b : String.length (a ++ b) = (String.length a + String.length b)%nat.
Proof. induction a as [|c a IH]; [reflexivity|]. cbn. now rewrite IH. Qed.
Lemma substring_tail a b n : n = String.length b -> substring (String.length a) n (a ++ b) = b.
Proof.
  intros ->. induction a as [|c a IH]; cbn [String.length append].
  - induction b as [|c b IH]; [reflexivity|]. cbn. now rewrite IH.
  - cbn [substring]. exact IH.
Qed.
Lemma substring_head a b : substring 0 (String.length a) (a ++ b) = a.
Proof. induction a as [|c a IH]; [destruct b; reflexivity|]. cbn. now rewrite IH. Qed.
Lemma suffix_app a b n : n = String.length b -> suffix n (a ++ b) = b.
Proof.
  intros E. unfold suffix. rewrite append_length. replace (n <=? String.length a + String.length b)%nat with true by (symmetry; apply Nat.leb_le; lia).
  replace (String.length a + String.length b - n)%nat with (String.length a) by lia. now apply substring_tail.
Qed.
Lemma append_assoc a b c : ((a ++ b) ++ c = a ++ (b ++ c))%string.
Proof. induction a as [|x a IH]; [reflexivity|]. cbn. now rewrite IH. Qed.
Lemma extract_dated x y m d : calendar_date y m d -> extract_day_number (x ++ (pad4 y ++ pad2 m ++ pad2 d) ++ ".bin") = Ok (ymd2ord y m d - ymd2ord 1850 1 1).
Proof.
  intros C. set (date := (pad4 y ++ pad2 m ++ pad2 d)%string). assert (L : String.length date = 8%nat) by reflexivity. unfold extract_day_number.
  rewrite <- append_assoc, suffix_app by reflexivity. cbn [String.eqb Ascii.eqb Bool.eqb negb]. rewrite append_assoc, suffix_app by reflexivity. cbv zeta.
  replace (String.length (date ++ ".bin") - 4)%nat with (String.length date) by reflexivity. rewrite substring_head. unfold date. rewrite (Land_Proofs.strptime_ok y m d C). cbn [bind]. f_equal. unfold midnight.
  replace (ymd2ord y m d * DAY) with (EPOCH + ((ymd2ord y m d - ymd2ord 1850 1 1) * 86400) * SECOND) by (unfold EPOCH; change (ymd2ord 1850 1 1) with 675334; unfold DAY, SECOND; lia).
  rewrite days_number_whole. unfold int_days. replace ((ymd2ord y m d - ymd2ord 1850 1 1) * 86400 * SECOND) with ((ymd2ord y m d - ymd2ord 1850 1 1) * DAY) by (unfold DAY, SECOND; lia). apply Z.quot_mul. discriminate.
Qed.
Lemma extract_datestring x d : four_digit_day d -> extract_day_number (x ++ datestring d ++ ".bin") = Ok d.
Proof.
  intros F. unfold four_digit_day in F. unfold datestring. destruct (ord2ymd_spec (ymd2ord 1850 1 1 + d)) as [V O]. destruct (ord2ymd (ymd2ord 1850 1 1 + d)) as [[y m] dd]. cbn [valid_date ord_of] in V, O. destruct V as [M D].
  rewrite (extract_dated x y m dd); [f_equal; lia|]. split; [|split; assumption].
  assert (LO : date_lt (y, m, dd) (1000, 1, 1) -> False). { intros H. apply ord_lt in H; [|split; assumption|vm_compute; intuition discriminate]. cbn [ord_of] in H. lia. }
  assert (HI : date_lt (9999, 12, 31) (y, m, dd) -> False). { intros H. apply ord_lt in H; [|vm_compute; intuition discriminate|split; assumption]. cbn [ord_of] in H. lia. }
  cbn [date_lt] in LO, HI. lia.
Qed.
(* The day number is recovered from the names under which files of observations and of places of ships are stored. *)
Theorem C150_names : forall base s o d name, plain_base base -> four_digit_day d ->
  py_filename_observations base (sourcename s) (observablename o) d = Ok name \/ py_filename_mobile_locations base (sourcename s) (observablename o) d = Ok name ->
  extract_day_number name = Ok d.
Proof.
  intros base s o d name P F H. destruct (Cpp_Props.C111_python_names base s o d P F) as (E1 & E2 & _). destruct H as [H|H].
  - rewrite E1 in H. injection H as <-. unfold path_observation. cbv zeta. rewrite <- !append_assoc. rewrite (append_assoc _ (datestring d)). now apply extract_datestring.
  - rewrite E2 in H. injection H as <-. unfold path_mobile. cbv zeta. rewrite <- !append_assoc. rewrite (append_assoc _ (datestring d)). now apply extract_datestring.
Qed.
Print Assumptions C150_names.
Example C150_names_nonvacuous : plain_base "/data" /\ four_digit_day 61000 /\ extract_day_number "/data/surfaceairmodel_land/2017/surfaceairmodel_land_Tmean_20170105.bin" = Ok 61000.
Proof.
  split; [|split; [split; vm_compute; discriminate|vc]]. split; [discriminate|]. split; [reflexivity|]. cbn. intuition discriminate.
Qed.
(* Names with another ending are refused. *)
Theorem C150_ending : forall x ending, String.length ending = 4%nat -> ending <> ".bin"%string -> extract_day_number (x ++ ending) = Err ValueError.
Proof. intros x e L N. unfold extract_day_number. rewrite suffix_app by (symmetry; exact L). apply String.eqb_neq in N. now rewrite N. Qed.
Print Assumptions C150_ending.
Example C150_ending_nonvacuous : extract_day_number "Tmean_20170105.nc4" = Err ValueError. Proof. reflexivity. Qed.

(* ==== C151: ranges of correlation as attributes *)

(* Each variable is given the length and time of its own place in the lists, and the two units. *)
Theorem C151_own_ranges : forall keys ul ut more lengths times k name l t, NoDup keys -> nth_error keys k = Some name -> nth_error lengths k = Some l -> nth_error times k = Some t ->
  update_ranges keys (ul :: ut :: more) lengths times name = Ok {| ri_length := l; ri_length_units := ul; ri_time := t; ri_time_units := ut |}.
Proof.
  intros keys ul ut more lengths times k name l t ND K L T. unfold update_ranges, scales_dictionary.
  set (info := fun klt : string * (Qc * Qc) => let '(k, (l, t)) := klt in (k, {| ri_length := l; ri_length_units := ul; ri_time := t; ri_time_units := ut |})).
  rewrite (mapM_all _ info) by (intros [a [b c]] _; reflexivity). cbn [bind]. set (z := combine keys (combine lengths times)).
  assert (I : In (name, (l, t)) z).
  { unfold z. clear ND z info. revert k lengths times K L T. induction keys as [|x keys IH]; intros [|k] [|l0 ls] [|t0 ts] K L T; cbn in *; try discriminate; [left; congruence|right; eauto]. }
  assert (KS : map fst (map info z) = map fst z) by (rewrite map_map; apply map_ext; intros [a [b c]]; reflexivity).
  destruct (last_of name (map info z)) as [v|] eqn:E.
  - apply last_of_in in E. apply in_map_iff in E. destruct E as ([a [b c]] & E & J). cbn in E. injection E as -> <-.
    assert (U : forall p q : Qc * Qc, In (name, p) z -> In (name, q) z -> p = q).
    { unfold z. clear - ND. generalize (combine lengths times). intros w. revert w. induction keys as [|x keys IH]; intros [|y w] p q P Q; cbn in *; try contradiction. inversion ND as [|? ? NI ND']; subst.
      destruct P as [P|P], Q as [Q|Q]; [congruence| | |now apply (IH ND' w)]; exfalso; apply NI; [injection P as -> _; eapply in_combine_l; exact Q|injection Q as -> _; eapply in_combine_l; exact P]. }
    pose proof (U _ _ I J) as E. now injection E as -> ->.
  - exfalso. apply (proj1 (last_of_none name (map info z)) E). rewrite KS. change name with (fst (name, (l, t))). now apply in_map.
Qed.
Print Assumptions C151_own_ranges.
Example C151_own_ranges_nonvacuous : NoDup ["a"; "b"]%string /\ update_ranges ["a"; "b"] ["km"; "day"] [qz 1; qz 2] [qz 3; qz 4] "b" = Ok {| ri_length := qz 2; ri_length_units := "km"; ri_time := qz 4; ri_time_units := "day" |}.
Proof. split; [repeat constructor; cbn; intuition discriminate|reflexivity]. Qed.
(* A variable without a length or a time gets nothing, and the lists are not checked until then. *)
Theorem C151_missing : forall keys units lengths times name, (2 <= List.length units)%nat ->
  (forall k, nth_error keys k = Some name -> (Nat.min (List.length lengths) (List.length times) <= k)%nat) ->
  update_ranges keys units lengths times name = Err KeyError.
Proof.
  intros keys units lengths times name U H. destruct units as [|ul [|ut more]]; cbn in U; try lia. unfold update_ranges, scales_dictionary.
  set (info := fun klt : string * (Qc * Qc) => let '(k, (l, t)) := klt in (k, {| ri_length := l; ri_length_units := ul; ri_time := t; ri_time_units := ut |})).
  rewrite (mapM_all _ info) by (intros [a [b c]] _; reflexivity). cbn [bind]. set (z := combine keys (combine lengths times)).
  assert (E : last_of name (map info z) = None); [|now rewrite E]. apply last_of_none. intros I. rewrite map_map in I. apply in_map_iff in I. destruct I as ([a [b c]] & E & I). cbn in E. subst a.
  apply In_nth_error in I. destruct I as [k I]. assert (K : (k < List.length z)%nat) by (apply nth_error_Some; congruence). unfold z in K. rewrite !combine_length in K.
  assert (N : nth_error keys k = Some name).
  { unfold z in I. revert I. generalize (combine lengths times). clear. revert k. induction keys as [|x keys IH]; intros [|k] [|y w] I; cbn in *; try discriminate; [congruence|eauto]. }
  specialize (H k N). lia.
Qed.
Print Assumptions C151_missing.
Example C151_missing_nonvacuous : update_ranges ["a"; "b"] ["km"; "day"] [qz 1; qz 2] [qz 3] "b" = Err KeyError. Proof. reflexivity. Qed.
