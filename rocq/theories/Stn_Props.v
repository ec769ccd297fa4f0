(* The theorems about station data, for the property C119. *)
From Coq Require Import QArith Qabs Qround String Ascii Lqa.
From Verif Require Import Base Stn_Model Stn_Spec Stn_Proofs.
Local Open Scope string_scope.
Local Open Scope list_scope.
Local Open Scope nat_scope.

(* ---- C119: the axis of times *)

(* Strictly increasing, made of times of samples, with a point near the time of every sample. *)
Theorem C119_axis : forall d,
  increasing (unique_times d) /\ (forall t, In t (unique_times d) -> exists s, In s (samples d) /\ s_time s = t) /\
  (forall s, In s (samples d) -> exists t, In t (unique_times d) /\ near t (s_time s)).
Proof. intros d. destruct (unique_times_spec d) as (H1 & H2 & H3 & _). auto. Qed.
Print Assumptions C119_axis.
(* Two points of it that are near each other lie on either side of a whole day (for times that are not negative). *)
Theorem C119_close_points : forall d u v, In u (unique_times d) -> In v (unique_times d) -> (0 <= u)%Q -> (u < v)%Q -> near u v ->
  exists n, (u < inject_Z n)%Q /\ (inject_Z n <= v)%Q.
Proof.
  intros d u v Hu Hv H0 Hlt Hn. destruct (unique_times_spec d) as (_ & _ & _ & Ha).
  assert (Hh : time_hash u <> time_hash v) by (intros E; pose proof (Ha u v Hu Hv E Hn) as K; subst v; apply (Qlt_irrefl _ Hlt)).
  assert (H0v : (0 <= v)%Q) by (apply (Qle_trans _ u); [exact H0|apply Qlt_le_weak, Hlt]).
  assert (Et : forall t, (0 <= t)%Q -> time_hash t = Qfloor t).
  { intros t Ht. unfold time_hash, truncate. apply Qle_bool_iff in Ht as Hb. rewrite Hb.
    assert (Hf : (0 <= Qfloor t)%Z) by (change 0%Z with (Qfloor 0); apply Qfloor_resp_le, Ht). destruct (Z.eqb_spec (Qfloor t) (-1)); [lia|reflexivity]. }
  rewrite (Et u H0), (Et v H0v) in Hh. assert (Hle : (Qfloor u <= Qfloor v)%Z) by (apply Qfloor_resp_le, Qlt_le_weak, Hlt).
  exists (Qfloor v). split; [|apply Qfloor_le]. apply (Qlt_le_trans _ (inject_Z (Qfloor u + 1))); [apply Qlt_floor|]. rewrite <- Zle_Qle. lia.
Qed.
Print Assumptions C119_close_points.
(* Finding: such points do occur, as times are looked up by their whole number first. *)
Definition at_time (station : string) (t v : Q) : sample :=
  {| s_station := station; s_time := t; s_tasmin := v; s_tasmin_qc := 0; s_tasmax := v; s_tasmax_qc := 0 |}.
Definition across_midnight : station_data :=
  add_temperature_sample (add_temperature_sample (station_data_new ["Oslo"]) (at_time "Oslo" (99999 # 100000) 10)) (at_time "Oslo" (100001 # 100000) 20).
Theorem C119_close_points_refuted : ~ (forall d u v, In u (unique_times d) -> In v (unique_times d) -> near u v -> u = v).
Proof.
  intros H. specialize (H across_midnight (99999 # 100000)%Q (100001 # 100000)%Q). discriminate H; [left; reflexivity|right; left; reflexivity|reflexivity].
Qed.
Print Assumptions C119_close_points_refuted.

(* ---- the table of a variable *)

(* On any axis with a point near each sample, and on that of the data themselves: the table has a row for each time and a column
   for each station, and a cell holds the value of the last sample of its time and station, or is masked if there is none. *)
Definition numbers : list (string * (sample -> Q)) := [("tasmin", s_tasmin); ("tasmin_qc", s_tasmin_qc); ("tasmax", s_tasmax); ("tasmax_qc", s_tasmax_qc)].
Theorem C119_cells : forall d axis variable val, In (variable, val) numbers -> (forall s, In s (samples d) -> In (s_station s) (names d)) ->
  (forall s, In s (samples d) -> exists a, In a axis /\ near a (s_time s)) ->
  exists c, get_temperature_samples d axis variable = Ok c /\ length c = length axis /\ (forall row, In row c -> length row = length (names d)) /\
    forall i j, i < length axis -> j < length (names d) ->
      (exists s, last_with (fun s => row_of axis (s_time s) i /\ column_of (names d) (s_station s) j) (samples d) s /\ cell c i j = Some (Some (val s))) \/
      ((forall s, In s (samples d) -> ~ (row_of axis (s_time s) i /\ column_of (names d) (s_station s) j)) /\ cell c i j = Some None).
Proof.
  intros d axis variable val Hv Hk Ha.
  assert (Hm : forall s, member s variable = Some (val s)) by (intros s; cbn in Hv; repeat (destruct Hv as [Hv|Hv]; [injection Hv as <- <-; reflexivity|]); destruct Hv).
  unfold get_temperature_samples.
  destruct (place_all_spec (names d) axis variable (samples d) _ _ _ (blank_shape (length axis) (length (names d)))) as (c & H1 & [H2 H3] & H4).
  { intros s Hs. split; [apply time_index_exists, Ha, Hs|rewrite Hm; discriminate]. }
  exists c. split; [exact H1|split; [exact H2|split; [exact H3|]]]. intros i j Hi Hj. rewrite (H4 i j Hi Hj None (blank_cell _ _ _ _ Hi Hj)).
  destruct (fold_last (covers (names d) axis i j) (fun s => member s variable) (samples d) None) as [(s & (b & af & E & Hc & Hl) & Hf)|[Hno Hf]]; rewrite Hf.
  - left. exists s. split; [|rewrite Hm; reflexivity]. exists b, af. split; [exact E|].
    assert (Hin : In s (samples d)) by (rewrite E; apply in_or_app; right; left; reflexivity). split; [apply covers_known; [apply Hk, Hin|exact Hc]|].
    intros y Hy Hcy. apply (Hl y Hy). apply covers_known; [|exact Hcy]. apply Hk. rewrite E. apply in_or_app. right. right. exact Hy.
  - right. split; [|reflexivity]. intros s Hs Hc. apply (covers_known (names d) axis i j s (Hk s Hs)) in Hc. rewrite (Hno s Hs) in Hc. discriminate.
Qed.
Print Assumptions C119_cells.
(* An axis with no point near some sample is refused. *)
Theorem C119_axis_refused : forall d axis variable val, In (variable, val) numbers ->
  (exists s, In s (samples d) /\ forall a, In a axis -> ~ near a (s_time s)) -> get_temperature_samples d axis variable = Err ValueError.
Proof.
  intros d axis variable val Hv (s & Hs & Hno). apply place_all_err.
  - exists s. split; [exact Hs|]. destruct (time_index axis (s_time s)) as [i|] eqn:E; [|reflexivity]. exfalso.
    assert (K : time_index axis (s_time s) <> None) by congruence. apply time_index_exists in K. destruct K as (a & Hin & Hn). apply (Hno a Hin Hn).
  - intros s' _. cbn in Hv. repeat (destruct Hv as [Hv|Hv]; [injection Hv as <- <-; discriminate|]). destruct Hv.
Qed.
Print Assumptions C119_axis_refused.
(* Finding: on the axis of the data themselves a sample can be lost: two samples on either side of midnight get a row each, but are
   both put into the first. *)
Theorem C119_sample_lost_refuted : exists d, (forall s, In s (samples d) -> In (s_station s) (names d)) /\ length (samples d) = 2 /\ length (unique_times d) = 2 /\
  get_temperature_samples d (unique_times d) "tasmin" = Ok [[Some 20%Q]; [None]].
Proof.
  exists across_midnight. split; [intros s Hs; cbn in Hs; destruct Hs as [<-|[<-|[]]]; left; reflexivity|]. split; [reflexivity|split; vm_compute; reflexivity].
Qed.
Print Assumptions C119_sample_lost_refuted.
(* Finding: a sample of a station that is not described replaces the values of all stations at its time. *)
Theorem C119_unknown_station_refuted : forall ns t v, exists c, 
  get_temperature_samples (fold_left add_temperature_sample (map (fun n => at_time n t 1) ns ++ [at_time "elsewhere" t v]) (station_data_new ns)) [t] "tasmin" = Ok c /\
  (~ In "elsewhere" ns -> c = [repeat (Some v) (length ns)]).
Proof.
  intros ns t v.
  assert (Hs : forall l d, names (fold_left add_temperature_sample l d) = names d /\ samples (fold_left add_temperature_sample l d) = samples d ++ l).
  { induction l as [|x l IH]; intros d; cbn [fold_left]; [rewrite app_nil_r; split; reflexivity|]. destruct (IH (add_temperature_sample d x)) as [K1 K2].
    rewrite K1, K2. cbn. rewrite <- app_assoc. split; reflexivity. }
  destruct (Hs (map (fun n => at_time n t 1) ns ++ [at_time "elsewhere" t v]) (station_data_new ns)) as [N S]. unfold get_temperature_samples. rewrite N, S.
  cbn [names samples station_data_new app length repeat].
  assert (Ht : time_index [t] t = Some 0) by (cbn; rewrite (proj2 (same_time_near t t)); [reflexivity|apply near_refl; reflexivity]).
  assert (Hput : forall row j w, put [row] 0 j w = [match j with Some j => update row j (fun _ => Some w) | None => map (fun _ => Some w) row end]) by (intros; reflexivity).
  assert (Hrun : forall l row, exists row', length row' = length row /\ place_all ns [t] "tasmin" [row] (map (fun n => at_time n t 1) l ++ [at_time "elsewhere" t v]) = place_all ns [t] "tasmin" [row'] [at_time "elsewhere" t v]).
  { induction l as [|n l IH]; intros row; [exists row; split; reflexivity|]. cbn [map app place_all]. unfold place at 1. cbn [s_time at_time]. rewrite Ht. cbn [member bind].
    change (member (at_time n t 1) "tasmin") with (Some 1%Q). cbn [bind]. rewrite Hput.
    destruct (station_index ns (s_station (at_time n t 1))) as [j|].
    - destruct (IH (update row j (fun _ => Some 1%Q))) as (row' & L & E). exists row'. rewrite update_length in L. split; [exact L|exact E].
    - destruct (IH (map (fun _ => Some 1%Q) row)) as (row' & L & E). exists row'. rewrite map_length in L. split; [exact L|exact E]. }
  destruct (Hrun ns (repeat None (length ns))) as (row' & L & E). rewrite E. cbn [place_all]. unfold place. cbn [s_time at_time]. rewrite Ht.
  change (member (at_time "elsewhere" t v) "tasmin") with (Some v). cbn [bind]. eexists. split; [reflexivity|]. intros Hno. rewrite Hput.
  change (s_station (at_time "elsewhere" t v)) with "elsewhere".
  destruct (station_index ns "elsewhere") as [j|] eqn:Ej; [apply station_index_spec in Ej; destruct Hno; apply (nth_error_In _ _ (proj1 Ej))|].
  rewrite repeat_length in L. f_equal. rewrite <- L. clear. induction row' as [|x r IH]; [reflexivity|]. cbn. rewrite IH. reflexivity.
Qed.
Print Assumptions C119_unknown_station_refuted.

(* ---- breaks *)

(* Whatever the order in which breaks of the two measurements are added: each variable lists those of its measurement in the order
   added, with the index of the last station of that name. *)
Theorem C119_breaks : forall ns l d m, In m ["tasmin"; "tasmax"] -> add_breaks (station_data_new ns) l = Ok d ->
  let bs := breaks_of m l in
  get_break_variable d (m ++ "_break_amplitude")%string = Ok (Amounts (map k_amplitude bs)) /\
  get_break_variable d (m ++ "_break_time_bounds")%string = Ok (Bounds (map k_bounds bs)) /\
  get_break_variable d (m ++ "_break_time_affected_bounds")%string = Ok (Bounds (map k_affected bs)) /\
  (forall js, get_break_variable d (m ++ "_break_station")%string = Ok (Indices js) <-> Forall2 (fun b j => column_of ns (k_station b) j) bs js) /\
  ((exists b, In b bs /\ ~ In (k_station b) ns) -> get_break_variable d (m ++ "_break_station")%string = Err TypeError).
Proof.
  intros ns l d m Hm Hd. destruct (add_breaks_spec l _ _ Hd) as (N & _ & B1 & B2). cbn in N, B1, B2. cbn zeta.
  destruct Hm as [<-|[<-|[]]]; unfold get_break_variable; cbn [String.append].
  - assert (E1 : split "_break_" "tasmin_break_amplitude" = ["tasmin"; "amplitude"]) by reflexivity.
    assert (E2 : split "_break_" "tasmin_break_time_bounds" = ["tasmin"; "time_bounds"]) by reflexivity.
    assert (E3 : split "_break_" "tasmin_break_time_affected_bounds" = ["tasmin"; "time_affected_bounds"]) by reflexivity.
    assert (E4 : split "_break_" "tasmin_break_station" = ["tasmin"; "station"]) by reflexivity.
    rewrite E1, E2, E3, E4, N, B1. cbn. split; [reflexivity|split; [reflexivity|split; [reflexivity|split]]].
    + intros js. rewrite <- station_indices_spec. destruct (station_indices ns (breaks_of "tasmin" l)); cbn; split; congruence.
    + intros H. rewrite (station_indices_err ns _ H). reflexivity.
  - assert (E1 : split "_break_" "tasmax_break_amplitude" = ["tasmax"; "amplitude"]) by reflexivity.
    assert (E2 : split "_break_" "tasmax_break_time_bounds" = ["tasmax"; "time_bounds"]) by reflexivity.
    assert (E3 : split "_break_" "tasmax_break_time_affected_bounds" = ["tasmax"; "time_affected_bounds"]) by reflexivity.
    assert (E4 : split "_break_" "tasmax_break_station" = ["tasmax"; "station"]) by reflexivity.
    rewrite E1, E2, E3, E4, N, B2. cbn. split; [reflexivity|split; [reflexivity|split; [reflexivity|split]]].
    + intros js. rewrite <- station_indices_spec. destruct (station_indices ns (breaks_of "tasmax" l)); cbn; split; congruence.
    + intros H. rewrite (station_indices_err ns _ H). reflexivity.
Qed.
Print Assumptions C119_breaks.
(* Breaks of other measurements are refused. *)
Theorem C119_breaks_refused : forall d m b, ~ In m ["tasmin"; "tasmax"] -> add_break d m b = Err KeyError.
Proof.
  intros d m b H. unfold add_break. destruct (String.eqb_spec m "tasmin") as [->|]; [destruct H; left; reflexivity|].
  destruct (String.eqb_spec m "tasmax") as [->|]; [destruct H; right; left; reflexivity|reflexivity].
Qed.
Print Assumptions C119_breaks_refused.

(* ---- examples *)

Definition example_data : station_data :=
  fold_left add_temperature_sample
    [at_time "Exeter" 8 281; at_time "Oslo" (80001 # 10000) 270; at_time "Oslo" 7 271; at_time "Exeter" (79999 # 10000) 282; at_time "Oslo" 8 272] (station_data_new ["Oslo"; "Exeter"; "Rome"]).
Example C119_cells_nonvacuous : (forall s, In s (samples example_data) -> In (s_station s) (names example_data)) /\
  unique_times example_data = [7%Q; 79999 # 10000; 8%Q]%Q /\
  get_temperature_samples example_data [7%Q; 8%Q] "tasmin" = Ok [[Some 271%Q; None; None]; [Some 272%Q; Some 282%Q; None]].
Proof. split; [intros s Hs; cbn in Hs; cbn; repeat (destruct Hs as [<-|Hs]; [auto|]); destruct Hs|]. split; vm_compute; reflexivity. Qed.
Example C119_close_points_nonvacuous : near (99999 # 100000) (100001 # 100000).
Proof. reflexivity. Qed.
Definition example_break (n : string) (a : Q) : station_break := {| k_station := n; k_amplitude := a; k_bounds := (1, 2)%Q; k_affected := (3, 4)%Q |}.
Example C119_breaks_nonvacuous : exists d,
  add_breaks (station_data_new ["Oslo"; "Exeter"]) [("tasmin", example_break "Exeter" 1); ("tasmax", example_break "Oslo" 2); ("tasmin", example_break "Oslo" 3)] = Ok d /\
  get_break_variable d "tasmin_break_station" = Ok (Indices [1; 0]) /\ get_break_variable d "tasmin_break_amplitude" = Ok (Amounts [1%Q; 3%Q]).
Proof. eexists. split; [reflexivity|split; reflexivity]. Qed.
Example C119_axis_refused_nonvacuous : get_temperature_samples example_data [7%Q] "tasmax" = Err ValueError.
Proof. vm_compute. reflexivity. Qed.
