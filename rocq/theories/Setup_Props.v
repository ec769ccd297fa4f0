(* C159: monthly gridded data *)
From Coq Require Import QArith Qcanon String Ascii Sorted.
From Verif Require Import Base Time_Model Time_Spec Time_Proofs Grid_Model Grid_Proofs Lin Ana_Model Comb_Model Obs_Model Obs_Spec Src_Model Src_Spec Src_Proofs2 Spde_Model Lat_Model Lat_Spec Lat_Proofs Lat_Props
  Conn_Model Conn_Spec Conn_Proofs Conn_Proofs2 Conn_Props Conn_Props2 Setup_Model Setup_Spec Setup_Proofs.
Local Open Scope Z_scope.
Local Open Scope list_scope.

(* Month number [k] is the month [k] months after January of the year of the epoch: its time lies in that month, as far from its
   beginning as from its end, and later months have later times. *)
Theorem C159_month : forall epoch k, let n := 12 * dt_year epoch + k in 12 <= n -> n + 1 < 120000 ->
  exists t, midmonth epoch k = Ok t /\ dt_year t = n / 12 /\ dt_month t = n mod 12 + 1 /\ t - month_begins n = month_begins (n + 1) - t /\
    forall k' t', k < k' -> midmonth epoch k' = Ok t' -> t < t'.
Proof.
  intros epoch k n A B. exists (mid n). split; [exact (midmonth_ok epoch k n eq_refl A B)|]. destruct (mid_fields n) as [Y M]. split; [exact Y|]. split; [exact M|]. split; [apply mid_middle|].
  intros k' t' L E. exact (midmonth_later epoch k k' n eq_refl A L t' E).
Qed.
Print Assumptions C159_month.
Example C159_month_nonvacuous : 12 <= 12 * dt_year EPOCH + 13 /\ midmonth EPOCH 13 = Ok (ymd2ord 1851 2 15 * DAY).
Proof. split; [vm_compute; discriminate|vm_compute; reflexivity]. Qed.

(* The month of the epoch is not taken into account: counted from an epoch later in the year, month 0 lies before it. *)
Theorem C159_epoch_refuted : forall epoch, 1 <= dt_year epoch <= 9998 -> 2 <= dt_month epoch -> exists t, midmonth epoch 0 = Ok t /\ t < epoch.
Proof.
  intros epoch Y M. destruct (C159_month epoch 0 ltac:(lia) ltac:(lia)) as (t & E & Yt & Mt & _). exists t. split; [exact E|].
  assert (N : month_number t < month_number epoch) by (unfold month_number; lia). pose proof (proj2 (month_ge (month_number t + 1) epoch) ltac:(lia)) as G.
  pose proof (proj1 (month_iff _ t) eq_refl) as I. assert (L : t / DAY < epoch / DAY) by lia. assert (DP : DAY > 0) by reflexivity. clear - L DP. generalize dependent DAY. intros d L DP.
  pose proof (Z.div_mod t d ltac:(lia)). pose proof (Z.div_mod epoch d ltac:(lia)). pose proof (Z.mod_pos_bound t d ltac:(lia)). pose proof (Z.mod_pos_bound epoch d ltac:(lia)). nia.
Qed.
Print Assumptions C159_epoch_refuted.
Example C159_epoch_refuted_nonvacuous : let epoch := ymd2ord 1850 6 1 * DAY in 1 <= dt_year epoch <= 9998 /\ 2 <= dt_month epoch. Proof. vm_compute. repeat split; discriminate. Qed.

Lemma select_one (ts : list Qc) (fs : list cells) k r f : NoDup ts -> nth_error ts k = Some r -> nth_error fs k = Some f ->
  map snd (filter (fun p => if Qc_eq_dec (fst p) r then true else false) (combine ts fs)) = [f].
Proof.
  revert fs k. induction ts as [|t ts IH]; intros fs k N T F; [destruct k; discriminate|]. apply NoDup_cons_iff in N as [N1 N2].
  destruct fs as [|g fs]; [destruct k; discriminate|]. cbn [combine filter fst]. destruct k as [|k]; cbn [nth_error] in T, F.
  - injection T as ->. injection F as ->. destruct (Qc_eq_dec r r) as [_|C]; [|now destruct C]. cbn [map snd]. f_equal.
    assert (Z0 : filter (fun p : Qc * cells => if Qc_eq_dec (fst p) r then true else false) (combine ts fs) = []).
    { clear IH N2. revert fs. induction ts as [|u ts IH]; intros [|g fs]; try reflexivity. cbn [combine filter fst]. destruct (Qc_eq_dec u r) as [-> |]; [destruct N1; now left|]. apply IH. intros I. apply N1. now right. }
    now rewrite Z0.
  - destruct (Qc_eq_dec t r) as [-> |]; [destruct N1; now apply nth_error_In in T|]. now apply (IH fs k).
Qed.
Lemma axis_nodup epoch v : monthly_axis epoch v -> NoDup (v_times v).
Proof.
  intros [_ H]. apply NoDup_nth_error. intros i j Hi E. destruct (nth_error (v_times v) i) as [x|] eqn:Ei; [|now apply nth_error_None in Ei; lia].
  pose proof (H i x Ei) as A. pose proof (H j x (eq_sym E)) as B. rewrite A in B. apply qz_inj in B.
  pose proof begins_sum_lt as S.
  destruct (Nat.lt_trichotomy i j) as [L|[L|L]]; [|exact L|].
  - specialize (S (12 * dt_year epoch + Z.of_nat i) (12 * dt_year epoch + Z.of_nat j) ltac:(lia)). lia.
  - specialize (S (12 * dt_year epoch + Z.of_nat j) (12 * dt_year epoch + Z.of_nat i) ltac:(lia)). lia.
Qed.
Lemma request_is epoch k : 1 <= dt_year epoch -> 12 * dt_year epoch + Z.of_nat k + 1 < 120000 ->
  exists r, monthnumber_to_decimal epoch (Z.of_nat k) = Ok r /\ forall v x, monthly_axis epoch v -> nth_error (v_times v) k = Some x -> x = r.
Proof.
  intros Y H. exists (qz (mid (12 * dt_year epoch + Z.of_nat k) - epoch) / qz DAY)%Qc. split; [apply decimal_ok; lia|]. intros v x [_ A] E.
  exact (proj1 (mid_days x _ epoch _ (midmonth_twice _)) (A k x E)).
Qed.
Lemma load_one epoch k v f r : monthly_axis epoch v -> nth_error (v_fields v) k = Some f -> (forall x, nth_error (v_times v) k = Some x -> x = r) -> load r [v] = [f].
Proof.
  intros A F R. assert (K : exists x, nth_error (v_times v) k = Some x).
  { destruct (nth_error (v_times v) k) as [x|] eqn:E; [now exists x|]. exfalso. destruct A as [L _]. apply nth_error_None in E. assert (k < List.length (v_fields v))%nat by (apply nth_error_Some; congruence). lia. }
  destruct K as (x & K). pose proof (R x K) as ->. unfold load. cbn [flat_map]. unfold select_time. rewrite (select_one _ _ k r f (axis_nodup _ _ A) K F). cbn [concat app]. now rewrite app_nil_r.
Qed.
Lemma load_two epoch k v v' f f' r : monthly_axis epoch v -> monthly_axis epoch v' -> nth_error (v_fields v) k = Some f -> nth_error (v_fields v') k = Some f' ->
  (forall w x, monthly_axis epoch w -> nth_error (v_times w) k = Some x -> x = r) -> load r [v; v'] = [f; f'].
Proof.
  intros A A' F F' R. change (load r [v; v']) with (match select_time r v with [] => [] | fs => [concat fs] end ++ load r [v']).
  rewrite (load_one epoch k v' f' r A' F' (fun x => R v' x A')). pose proof (load_one epoch k v f r A F (fun x => R v x A)) as E. unfold load in E. cbn [flat_map] in E. rewrite app_nil_r in E. now rewrite E.
Qed.

Lemma triples_nth {A B C} (t : list A) (u : list B) (w : list C) p x : nth_error (combine t (combine u w)) p = Some x <->
  nth_error t p = Some (fst x) /\ nth_error u p = Some (fst (snd x)) /\ nth_error w p = Some (snd (snd x)).
Proof.
  revert u w p. induction t as [|a t IH]; intros u w p; [cbn; split; [destruct p; discriminate|intros (H & _); destruct p; discriminate]|].
  destruct u as [|b u]; [cbn; split; [destruct p; discriminate|intros (_ & H & _); destruct p; discriminate]|].
  destruct w as [|c w]; [cbn; split; [destruct p; discriminate|intros (_ & _ & H); destruct p; discriminate]|].
  destruct p as [|p]; cbn [combine nth_error]; [|apply IH]. destruct x as [x [y z]]. cbn [fst snd]. split; [intros H; injection H as -> -> ->; auto|intros (H1 & H2 & H3); congruence].
Qed.

(* The observations of a month are the cells of its field: cell number p is the observation at location p, masked as the
   temperature is, and its error comes from both standard errors. *)
Theorem C159_observations : forall root vt v0 v1 epoch k t u0 u1, 1 <= dt_year epoch -> 12 * dt_year epoch + Z.of_nat k + 1 < 120000 ->
  monthly_axis epoch vt -> monthly_axis epoch v0 -> monthly_axis epoch v1 ->
  nth_error (v_fields vt) k = Some t -> nth_error (v_fields v0) k = Some u0 -> nth_error (v_fields v1) k = Some u1 ->
  List.length u0 = List.length t -> List.length u1 = List.length t ->
  (forall p x, nth_error t p = Some (false, x) -> exists a b, nth_error u0 p = Some (false, a) /\ nth_error u1 p = Some (false, b)) ->
  exists o, hadcrut_observations root [vt] [v0; v1] epoch (Z.of_nat k) "Tmean" = Ok (Some o) /\ set_ok o /\ s_time o = TScalar (qz (Z.of_nat k)) /\ s_cor o = [] /\
    (forall p m x, nth_error t p = Some (m, x) -> nth_error (s_mask o) p = Some m /\ nth_error (s_measurement o) p = Some x /\ nth_error (s_location o) p = Some (Z.of_nat p)) /\
    List.length (s_measurement o) = List.length t /\
    forall p x a b, nth_error t p = Some (false, x) -> nth_error u0 p = Some (false, a) -> nth_error u1 p = Some (false, b) -> nth_error (s_unc o) p = Some (error_of root a b).
Proof.
  intros root vt v0 v1 epoch k t u0 u1 Y H At A0 A1 Ft F0 F1 L0 L1 C. destruct (request_is epoch k Y H) as (r & Er & R). unfold hadcrut_observations. rewrite Er. cbn [bind].
  change (negb (String.eqb "Tmean" "Tmean")) with false. cbv iota. rewrite (load_one epoch k vt t r At Ft (fun x => R vt x At)), (load_two epoch k v0 v1 u0 u1 r A0 A1 F0 F1 R).
  cbn [concat]. rewrite app_nil_r. cbv zeta.
  match goal with |- context [existsb ?f ?l] => assert (EX : existsb f l = false) end.
  { apply Bool.not_true_iff_false. intros E. apply existsb_exists in E as (x & I & B). apply In_nth_error in I as (p & I). apply triples_nth in I as (I1 & I2 & I3). apply andb_prop in B as [B1 B2].
    destruct x as [[m x] [[m0 a] [m1 b]]]. cbn [fst snd] in *. destruct m; [discriminate|]. destruct (C p x I1) as (a' & b' & J1 & J2). assert (m0 = false) by congruence. assert (m1 = false) by congruence. subst. discriminate. }
  rewrite EX. eexists. split; [reflexivity|]. unfold set_ok. cbn [s_mask s_time s_location s_measurement s_unc s_cor]. rewrite !map_length, !combine_length, seq_length.
  split; [repeat apply conj; try reflexivity; [lia|constructor]|]. split; [reflexivity|]. split; [reflexivity|]. split; [|split; [reflexivity|]].
  - intros p m x E. rewrite !nth_error_map, E. split; [reflexivity|]. split; [reflexivity|]. assert (p < List.length t)%nat by (apply nth_error_Some; congruence).
    rewrite nth_error_nth' with (d := 0%nat) by (rewrite seq_length; lia). rewrite seq_nth by lia. reflexivity.
  - intros p x a b Et E0 E1. rewrite nth_error_map. rewrite (proj2 (triples_nth t u0 u1 p ((false, x), ((false, a), (false, b))))) by (cbn; auto). reflexivity.
Qed.
Print Assumptions C159_observations.
Definition ex_mid (k : Z) : Qc := (qz (month_begins (12 * 1850 + k) + month_begins (12 * 1850 + k + 1) - 2 * EPOCH) / qz (2 * DAY))%Qc.
Definition ex_var (fs : list cells) : variable := {| v_times := [ex_mid 0; ex_mid 1]; v_fields := fs |}.
Definition ex_t := ex_var [[(true, 0%Qc); (false, qz 9)]; [(false, qz 3); (true, 0%Qc)]].
Definition ex_u := ex_var [[(true, 0%Qc); (false, qz 3)]; [(false, qz 0); (true, 0%Qc)]].
Definition ex_w := ex_var [[(true, 0%Qc); (false, qz 4)]; [(false, qz 0); (true, 0%Qc)]].
Lemma ex_axis fs : List.length fs = 2%nat -> monthly_axis EPOCH (ex_var fs).
Proof.
  intros L. split; [exact L|]. intros k x E. destruct k as [|[|k]]; [| |destruct k; discriminate]; cbn in E; injection E as <-; apply Qc_is_canon; vm_compute; reflexivity.
Qed.
Example C159_observations_nonvacuous : monthly_axis EPOCH ex_t /\ monthly_axis EPOCH ex_u /\ monthly_axis EPOCH ex_w /\
  exists o, hadcrut_observations (fun q => if Qc_eq_dec q (qz 25) then qz 5 else q) [ex_t] [ex_u; ex_w] EPOCH 0 "Tmean" = Ok (Some o) /\ s_mask o = [true; false] /\ nth_error (s_unc o) 1 = Some (qz 5) /\
  exists o', hadcrut_observations (fun q => q) [ex_t] [ex_u; ex_w] EPOCH 1 "Tmean" = Ok (Some o') /\ nth_error (s_unc o') 0 = Some (1 / qz 10)%Qc.
Proof.
  split; [now apply ex_axis|]. split; [now apply ex_axis|]. split; [now apply ex_axis|]. eexists. split; [vm_compute; reflexivity|]. split; [reflexivity|]. split; [reflexivity|].
  eexists. split; [vm_compute; reflexivity|]. reflexivity.
Qed.

(* A temperature without both standard errors is refused. *)
Theorem C159_missing_error : forall root vt v0 v1 epoch k t u0 u1 p x, 1 <= dt_year epoch -> 12 * dt_year epoch + Z.of_nat k + 1 < 120000 ->
  monthly_axis epoch vt -> monthly_axis epoch v0 -> monthly_axis epoch v1 ->
  nth_error (v_fields vt) k = Some t -> nth_error (v_fields v0) k = Some u0 -> nth_error (v_fields v1) k = Some u1 ->
  List.length u0 = List.length t -> List.length u1 = List.length t ->
  nth_error t p = Some (false, x) -> (exists a, nth_error u0 p = Some (true, a) \/ nth_error u1 p = Some (true, a)) ->
  hadcrut_observations root [vt] [v0; v1] epoch (Z.of_nat k) "Tmean" = Err ValueError.
Proof.
  intros root vt v0 v1 epoch k t u0 u1 p x Y H At A0 A1 Ft F0 F1 L0 L1 Ep (a & M). destruct (request_is epoch k Y H) as (r & Er & R). unfold hadcrut_observations. rewrite Er. cbn [bind].
  change (negb (String.eqb "Tmean" "Tmean")) with false. cbv iota. rewrite (load_one epoch k vt t r At Ft (fun x => R vt x At)), (load_two epoch k v0 v1 u0 u1 r A0 A1 F0 F1 R).
  cbn [concat]. rewrite app_nil_r. cbv zeta. assert (P : (p < List.length t)%nat) by (apply nth_error_Some; congruence).
  destruct (nth_error u0 p) as [[m0 a0]|] eqn:E0; [|apply nth_error_None in E0; lia]. destruct (nth_error u1 p) as [[m1 a1]|] eqn:E1; [|apply nth_error_None in E1; lia].
  match goal with |- context [existsb ?f ?l] => assert (EX : existsb f l = true) end; [|now rewrite EX].
  apply existsb_exists. exists ((false, x), ((m0, a0), (m1, a1))). split; [apply nth_error_In with p, triples_nth; cbn; auto|]. cbn [fst snd negb andb]. destruct M as [M|M]; injection M as -> _; [reflexivity|apply orb_true_r].
Qed.
Print Assumptions C159_missing_error.
Example C159_missing_error_nonvacuous : hadcrut_observations (fun q => q) [ex_t] [ex_u; ex_var [[(true, 0%Qc); (true, 0%Qc)]; [(false, 0%Qc); (true, 0%Qc)]]] EPOCH 0 "Tmean" = Err ValueError.
Proof. vm_compute. reflexivity. Qed.

(* A month that is not on the time axis is refused. *)
Theorem C159_absent : forall root vt errors epoch k, 1 <= dt_year epoch -> 12 * dt_year epoch + Z.of_nat k + 1 < 120000 -> monthly_axis epoch vt ->
  (List.length (v_times vt) <= k)%nat -> hadcrut_observations root [vt] errors epoch (Z.of_nat k) "Tmean" = Err ValueError.
Proof.
  intros root vt errors epoch k Y H A L. destruct (request_is epoch k Y H) as (r & Er & _). unfold hadcrut_observations. rewrite Er. cbn [bind].
  change (negb (String.eqb "Tmean" "Tmean")) with false. cbv iota. replace (load r [vt]) with (@nil cells); [reflexivity|]. unfold load. cbn [flat_map].
  replace (select_time r vt) with (@nil cells); [reflexivity|]. unfold select_time. symmetry. match goal with |- map _ (filter ?f ?l) = [] => assert (E : filter f l = []); [|now rewrite E] end.
  destruct (filter _ _) as [|[x f] rest] eqn:F; [reflexivity|]. exfalso. assert (I : In (x, f) (filter (fun p : Qc * cells => if Qc_eq_dec (fst p) r then true else false) (combine (v_times vt) (v_fields vt)))) by (rewrite F; now left).
  apply filter_In in I as [I D]. cbn [fst] in D. destruct (Qc_eq_dec x r) as [-> |]; [|discriminate]. apply in_combine_l in I. apply In_nth_error in I as (j & I).
  pose proof (proj1 (mid_days r _ epoch _ (midmonth_twice _)) (proj2 A j r I)) as B. rewrite (decimal_ok epoch _ _ eq_refl) in Er by lia.
  assert (B' : (qz (mid (12 * dt_year epoch + Z.of_nat k) - epoch) / qz DAY)%Qc = r) by congruence. rewrite B in B'. apply (f_equal (fun q => q * qz DAY)%Qc) in B'.
  rewrite !qdiv_mul in B' by (apply qz_nonzero; discriminate). apply qz_inj in B'. assert (j < k)%nat by (assert (j < List.length (v_times vt))%nat by (apply nth_error_Some; congruence); lia).
  pose proof (mid_lt (12 * dt_year epoch + Z.of_nat j) (12 * dt_year epoch + Z.of_nat k) ltac:(lia)). lia.
Qed.
Print Assumptions C159_absent.
Example C159_absent_nonvacuous : (List.length (v_times ex_t) <= 2)%nat /\ monthly_axis EPOCH ex_t /\ hadcrut_observations (fun q => q) [ex_t] [ex_u; ex_w] EPOCH 2 "Tmean" = Err ValueError.
Proof. split; [cbn; lia|]. split; [now apply ex_axis|vm_compute; reflexivity]. Qed.

(* Only the mean temperature is observed.  Of any other observable nothing is returned, and the connector fails on it. *)
Theorem C159_other_observable_refuted : forall root lats lons ts us epoch k observable, observable <> "Tmean"%string -> 12 <= 12 * dt_year epoch + k -> 12 * dt_year epoch + k + 1 < 120000 ->
  hadcrut_observations root ts us epoch k observable = Ok None /\ hadcrut_structure root lats lons ts us epoch k observable = Err AttributeError.
Proof.
  intros root lats lons ts us epoch k observable N A B. assert (E : hadcrut_observations root ts us epoch k observable = Ok None).
  { unfold hadcrut_observations, monthnumber_to_decimal. rewrite (midmonth_ok epoch k _ eq_refl) by lia. cbn [bind]. destruct (String.eqb_spec observable "Tmean"); [contradiction|reflexivity]. }
  split; [exact E|]. unfold hadcrut_structure. rewrite E, (midmonth_ok epoch k _ eq_refl) by lia. reflexivity.
Qed.
Print Assumptions C159_other_observable_refuted.
Example C159_other_observable_refuted_nonvacuous : "Tmin"%string <> "Tmean"%string /\ 12 <= 12 * dt_year EPOCH + 0. Proof. split; [discriminate|vm_compute; discriminate]. Qed.

Lemma lookup_nth lats lons i j lat lon : nth_error lats i = Some lat -> nth_error lons j = Some lon -> nth_error (hadcrut_lookup lats lons) (i * List.length lons + j) = Some (lat, lon).
Proof.
  intros A B. revert i A. induction lats as [|a lats IH]; intros i A; [destruct i; discriminate|]. unfold hadcrut_lookup. cbn [flat_map].
  assert (J : (j < List.length lons)%nat) by (apply nth_error_Some; congruence).
  destruct i as [|i]; cbn [nth_error] in A.
  - injection A as ->. rewrite nth_error_app1 by (rewrite map_length; lia). cbn [Nat.mul Nat.add]. now rewrite nth_error_map, B.
  - rewrite nth_error_app2 by (rewrite map_length; cbn; lia). rewrite map_length. replace (S i * List.length lons + j - List.length lons)%nat with (i * List.length lons + j)%nat by (cbn; lia). now apply IH.
Qed.
Lemma lookup_length lats lons : List.length (hadcrut_lookup lats lons) = (List.length lats * List.length lons)%nat.
Proof. unfold hadcrut_lookup. induction lats; [reflexivity|]. cbn [flat_map]. rewrite app_length, map_length, IHlats. reflexivity. Qed.

(* The analysis places every observation in the cell it comes from: fields run through the longitudes of the first latitude, then
   the second and so on.  Each cell that is not masked gives one observation, with its temperature, latitude and longitude. *)
Theorem C159_cells : forall root lats lons vt v0 v1 epoch k t u0 u1, 1 <= dt_year epoch -> 12 * dt_year epoch + Z.of_nat k + 1 < 120000 ->
  monthly_axis epoch vt -> monthly_axis epoch v0 -> monthly_axis epoch v1 ->
  nth_error (v_fields vt) k = Some t -> nth_error (v_fields v0) k = Some u0 -> nth_error (v_fields v1) k = Some u1 ->
  List.length u0 = List.length t -> List.length u1 = List.length t ->
  (forall p x, nth_error t p = Some (false, x) -> exists a b, nth_error u0 p = Some (false, a) /\ nth_error u1 p = Some (false, b)) ->
  List.length t = (List.length lats * List.length lons)%nat -> Z.of_nat (List.length t) <= 2 ^ 63 ->
  exists st ps cs, hadcrut_structure root lats lons [vt] [v0; v1] epoch (Z.of_nat k) "Tmean" = Ok st /\
    midmonth epoch (Z.of_nat k) = Ok (st_datetime st) /\
    positions_kept (map fst t) ps /\ location_polar_coordinates st = Ok cs /\
    Forall2 (fun p m => nth_error t p = Some (false, m)) ps (observation_vector st) /\
    Forall2 (fun p c => exists lon, nth_error lats (p / List.length lons) = Some (fst c) /\ nth_error lons (p mod List.length lons) = Some lon /\ same_meridian (snd c) lon) ps cs.
Proof.
  intros root lats lons vt v0 v1 epoch k t u0 u1 Y H At A0 A1 Ft F0 F1 L0 L1 C LT LM.
  destruct (C159_observations root vt v0 v1 epoch k t u0 u1 Y H At A0 A1 Ft F0 F1 L0 L1 C) as (o & Eo & OK & _ & _ & Cells & Lo & _).
  unfold hadcrut_structure. rewrite Eo, (midmonth_ok epoch _ _ eq_refl) by lia. cbn [bind]. generalize (mid (12 * dt_year epoch + Z.of_nat k)). intros t0. set (st := {| st_table := _; st_found := _; st_datetime := _; st_files := _ |}).
  assert (Mk : s_mask o = map fst t).
  { apply nth_ext with (d := true) (d' := true); [rewrite map_length; destruct OK as (Q & _); lia|]. intros p Hp. assert (P : (p < List.length t)%nat) by (destruct OK as (Q & _); lia).
    destruct (nth_error t p) as [[m x]|] eqn:E; [|apply nth_error_None in E; lia]. destruct (Cells p m x E) as (M & _). erewrite nth_error_nth by exact M. symmetry. apply nth_error_nth. now rewrite nth_error_map, E. }
  assert (Loc : forall p, (p < List.length t)%nat -> nth p (s_location o) 0 = Z.of_nat p).
  { intros p Hp. destruct (nth_error t p) as [[m x]|] eqn:E; [|apply nth_error_None in E; lia]. destruct (Cells p m x E) as (_ & _ & L). now apply nth_error_nth. }
  assert (Cell : forall p, (p < List.length t)%nat -> exists lat lon, nth_error lats (p / List.length lons) = Some lat /\ nth_error lons (p mod List.length lons) = Some lon /\ nth_error (hadcrut_lookup lats lons) p = Some (lat, lon)).
  { intros p Hp. assert (List.length lons <> 0)%nat by (intros E; rewrite E in LT; lia). pose proof (Nat.div_mod p (List.length lons) H0) as D. pose proof (Nat.mod_upper_bound p (List.length lons) H0) as B.
    assert (p / List.length lons < List.length lats)%nat by (apply Nat.div_lt_upper_bound; lia).
    destruct (nth_error lats (p / List.length lons)) as [lat|] eqn:E1; [|apply nth_error_None in E1; lia]. destruct (nth_error lons (p mod List.length lons)) as [lon|] eqn:E2; [|apply nth_error_None in E2; lia].
    exists lat, lon. split; [reflexivity|]. split; [reflexivity|]. rewrite D at 1. rewrite (Nat.mul_comm (List.length lons)). now apply lookup_nth. }
  assert (Lt : List.length (hadcrut_lookup lats lons) = List.length t) by (rewrite lookup_length; lia).
  destruct (C155_aligned st (hadcrut_lookup lats lons)) as (ps & cs & K & _ & Ec & Vm & _ & Vc); [exact OK|reflexivity|reflexivity|rewrite Lt; lia| |].
  { intros i Hi. change (st_set st) with o in *. assert (P : (i < List.length t)%nat). { assert (i < List.length (s_mask o))%nat by (apply nth_error_Some; congruence). rewrite Mk, map_length in H0. exact H0. }
    rewrite Loc by exact P. destruct (Cell i P) as (lat & lon & _ & _ & E). exists (lat, lon). split; [lia|]. now rewrite Nat2Z.id. }
  change (st_set st) with o in *. rewrite Mk in K. exists st, ps, cs. split; [reflexivity|]. split; [reflexivity|]. split; [exact K|]. split; [exact Ec|].
  assert (In_t : forall i, In i ps -> exists x, nth_error t i = Some (false, x)).
  { intros i I. apply (proj2 K) in I. rewrite nth_error_map in I. destruct (nth_error t i) as [[m x]|]; [|discriminate]. cbn in I. injection I as ->. now exists x. }
  clear Ec. split.
  - clear Vc. clear K; induction Vm as [|i m ps2 ms E Vm IH] in In_t |- *; constructor; [|apply IH; intros j J; apply In_t; now right].
    destruct (In_t i (or_introl eq_refl)) as (x & Ei). destruct (Cells i false x Ei) as (_ & M & _). congruence.
  - clear Vm. clear K; induction Vc as [|i c ps2 cs2 E Vc IH] in In_t |- *; constructor; [|apply IH; intros j J; apply In_t; now right].
    destruct (In_t i (or_introl eq_refl)) as (x & Ei). assert (P : (i < List.length t)%nat) by (apply nth_error_Some; congruence).
    destruct E as (ll & [_ Hl] & E1 & E2). rewrite Loc, Nat2Z.id in Hl by exact P. destruct (Cell i P) as (lat & lon & N1 & N2 & N3). assert (ll = (lat, lon)) by congruence. subst ll. cbn [fst snd] in *.
    exists lon. rewrite E1. auto.
Qed.
Print Assumptions C159_cells.
Example C159_cells_nonvacuous : List.length [(true, 0%Qc); (false, qz 9)] = (List.length [qz 5] * List.length [qz 10; qz 190])%nat /\
  exists st, hadcrut_structure (fun q => q) [qz 5] [qz 10; qz 190] [ex_t] [ex_u; ex_w] EPOCH 0 "Tmean" = Ok st /\ location_polar_coordinates st = Ok [(qz 5, qz (-170))].
Proof. split; [reflexivity|]. eexists. split; [vm_compute; reflexivity|]. vm_compute. reflexivity. Qed.
