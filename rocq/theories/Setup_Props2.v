(* C160: nodes in time and latitude, and the elements built on them *)
From Coq Require Import QArith Qcanon String Ascii.
From Verif Require Import Base Time_Model Time_Spec Time_Proofs Grid_Model Grid_Proofs Lin Ana_Model Comb_Model Obs_Model Obs_Spec Cpp_Model Src_Model Src_Spec Src_Proofs2 Src_Props Spde_Model Lat_Model Lat_Spec Lat_Proofs Lat_Props
  Conn_Model Conn_Spec Conn_Proofs Conn_Proofs2 Conn_Props Conn_Props2 Setup_Model Setup_Spec Setup_Proofs.
Local Open Scope Z_scope.
Local Open Scope list_scope.

(* The nodes of the slow component: whole multiples of the spacing, from the last one not after the start of the period to the
   first one not before its end, and exactly that far apart. *)
Theorem C160_slow_nodes : forall start_time end_time node_spacing, (0 < node_spacing)%Qc -> (start_time <= end_time)%Qc ->
  let d := slow_lattice start_time end_time node_spacing in
  multiple_of node_spacing (d_lo d) /\ multiple_of node_spacing (d_hi d) /\
  (d_lo d <= start_time)%Qc /\ (start_time < d_lo d + node_spacing)%Qc /\ (end_time <= d_hi d)%Qc /\ (d_hi d < end_time + node_spacing)%Qc /\
  (1 <= d_n d)%nat /\ (d_lo d + qn (d_n d - 1) * node_spacing)%Qc = d_hi d /\
  ((d_lo d < d_hi d)%Qc -> proper d /\ spacing d = node_spacing /\ forall i, (i < d_n d)%nat -> multiple_of node_spacing (coordinate d i) /\ (d_lo d <= coordinate d i)%Qc /\ (coordinate d i <= d_hi d)%Qc).
Proof.
  intros s e sp P L. cbv zeta. destruct (slow_below s sp P) as [A B]. destruct (slow_above e sp P) as [C D]. destruct (slow_last s e sp P L) as [E F].
  split; [eexists; apply slow_lo|]. split; [eexists; apply slow_hi|]. split; [exact A|]. split; [exact B|]. split; [exact C|]. split; [exact D|]. split; [exact E|]. split; [exact F|].
  intros H. destruct (slow_proper s e sp P L H) as [PR S]. split; [exact PR|]. split; [exact S|]. intros i Hi. destruct (C43_coordinates _ PR) as (K & _ & M & _). rewrite K, S. rewrite slow_lo. split; [exists (qfloor (s / sp) + Z.of_nat i); rewrite qz_plus; unfold qn; ring|].
  rewrite <- (slow_lo s e sp). rewrite <- F. set (lo := d_lo (slow_lattice s e sp)) in *. 
  assert (Q1 : (0 * sp <= qn i * sp)%Qc) by (apply qmul_le; [exact P|]; unfold qn; rewrite <- qz_0; apply qz_le; lia).
  assert (Q2 : (qn i * sp <= qn (d_n (slow_lattice s e sp) - 1) * sp)%Qc) by (apply qmul_le; [exact P|]; unfold qn; apply qz_le; lia). rewrite Qcmult_0_l in Q1.
  set (u := (qn i * sp)%Qc) in *. set (v := (qn (d_n (slow_lattice s e sp) - 1) * sp)%Qc) in *. clearbody u v lo. split; qc.
Qed.
Print Assumptions C160_slow_nodes.
(* the settings of the analysis: 45 nodes, four years apart, from 1860 to 2036 *)
Example C160_slow_nodes_nonvacuous : exists d, slow_settings = Ok d /\ d_lo d = qz 1860 /\ d_hi d = qz 2036 /\ d_n d = 45%nat /\ (d_lo d < d_hi d)%Qc.
Proof. eexists. split; [vm_compute; reflexivity|]. cbn [d_lo d_hi d_n]. split; [apply Qc_is_canon; reflexivity|]. split; [apply Qc_is_canon; reflexivity|]. split; reflexivity. Qed.
(* A period that begins and ends at one node has a single node, which no design ever uses. *)
Theorem C160_one_node_refuted : forall k sp basis overlap x, (0 < sp)%Qc ->
  let d := slow_lattice (qz k * sp) (qz k * sp) sp in d_n d = 1%nat /\ m_at (lattice_matrix basis d overlap [x]) 0 0 = 0%Qc.
Proof.
  intros k sp basis overlap x P. cbv zeta. assert (N : d_n (slow_lattice (qz k * sp) (qz k * sp) sp) = 1%nat).
  { rewrite (slow_n _ _ sp P (Qcle_refl _)). assert (E : (qz k * sp / sp = qz k)%Qc) by (field; now apply qpos_nonzero). rewrite E.
    assert (F : qfloor (qz k) = k) by (apply qfloor_unique; [apply Qcle_refl|qc]). assert (G : qceil (qz k) = k).
    { unfold qceil. rewrite <- qz_opp. assert (qfloor (qz (- k)) = - k) as -> by (apply qfloor_unique; [apply Qcle_refl|qc]). lia. }
    rewrite F, G. lia. }
  split; [exact N|]. unfold lattice_matrix. cbn [m_at]. unfold build_A_row, nearby. set (d := slow_lattice _ _ _) in *.
  assert (F : filter (in_bounds [d]) (cube (shift_lists [d] [(spacing d * overlap)%Qc] [nth 0 [x] 0%Qc])) = []).
  { cbn [nth shift_lists]. generalize (shifts d (spacing d * overlap) x). intros l. cbn [cube].
    assert (G : forall m, (forall y, In y m -> y <> []) -> filter (in_bounds [d]) m = []).
    { induction m as [|y m IH]; intros M; [reflexivity|]. cbn [filter]. assert (B : in_bounds [d] y = false).
      { destruct y as [|z zs]; [exfalso; apply (M []); [now left|reflexivity]|]. unfold in_bounds. cbn [combine forallb fst snd]. rewrite N. cbn [Nat.leb]. rewrite ?andb_false_r. reflexivity. }
      rewrite B. apply IH. intros w I. apply M. now right. }
    apply G. intros y I Z. subst y. apply in_flat_map in I. destruct I as (w & _ & I). apply in_map_iff in I. destruct I as (v & Z & _). discriminate Z. }
  rewrite F. reflexivity.
Qed.
Print Assumptions C160_one_node_refuted.
Example C160_one_node_refuted_nonvacuous : (0 < qz 4)%Qc. Proof. reflexivity. Qed.
(* The function that rounds up does not look at the step it is asked for. *)
Theorem C160_ceil_refuted : forall node_spacing value q q', ceil_to_quantisation node_spacing value q = ceil_to_quantisation node_spacing value q'.
Proof. reflexivity. Qed.
Print Assumptions C160_ceil_refuted.
Example C160_ceil_refuted_nonvacuous : ceil_to_quantisation (qz 4) (qz 5) (qz 3) = qz 8. Proof. apply Qc_is_canon. reflexivity. Qed.

(* The nodes of the monthly component: from the first of January [extension] years before the first year to the first of January as
   many years after the last, on average at least [avg] months apart, and no more if [avg] divides the number of months. *)
Theorem C160_monthly_nodes : forall first last extension avg, 0 < avg -> 1 <= first - extension -> last + extension <= 9999 -> avg <= 12 * (last + extension - (first - extension)) ->
  exists d, monthly_lattice first last extension avg = Ok d /\ proper d /\ d_wrap d = false /\
    d_lo d = qz (ymd2ord (first - extension) 1 1 - ymd2ord 1850 1 1) /\ d_hi d = qz (ymd2ord (last + extension) 1 1 - ymd2ord 1850 1 1) /\
    (qz (365 * avg) <= spacing d * qz 12)%Qc /\
    (12 * (last + extension - (first - extension)) mod avg = 0 -> (spacing d * qz 12 <= qz (366 * avg))%Qc).
Proof.
  intros first last ext avg P A C N. set (a := first - ext) in *. set (b := last + ext) in *. assert (B : a < b) by lia.
  rewrite monthly_is by (fold a b; lia). fold a b. eexists. split; [reflexivity|]. pose proof (year_days a b ltac:(lia)) as Y.
  assert (Q : 1 <= 12 * (b - a) / avg) by (apply Z.div_le_lower_bound; lia).
  assert (PR : proper {| d_lo := qz (ymd2ord a 1 1 - ymd2ord 1850 1 1); d_hi := qz (ymd2ord b 1 1 - ymd2ord 1850 1 1); d_n := Z.to_nat (12 * (b - a) / avg + 1); d_wrap := false |}).
  { split; cbn [d_lo d_hi d_n]; [apply qz_lt; lia|lia]. }
  split; [exact PR|]. split; [reflexivity|]. split; [reflexivity|]. split; [reflexivity|]. pose proof (spacing_span _ PR) as S. unfold wrap_one in S. cbn [d_lo d_hi d_n d_wrap] in S.
  unfold qn in S. rewrite Z2Nat.id in S by lia. rewrite qz_plus, qz_1 in S. set (x := spacing _) in *. clearbody x. set (m := 12 * (b - a) / avg) in *.
  assert (E : (x * qz m = qz (ymd2ord b 1 1 - ymd2ord a 1 1))%Qc).
  { replace (ymd2ord b 1 1 - ymd2ord a 1 1) with (ymd2ord b 1 1 - ymd2ord 1850 1 1 - (ymd2ord a 1 1 - ymd2ord 1850 1 1)) by lia. rewrite (qz_minus (ymd2ord b 1 1 - _)), <- S. ring. }
  assert (MP : (0 < qz m)%Qc) by (rewrite <- qz_0; apply qz_lt; lia). pose proof (Z.mul_div_le (12 * (b - a)) avg P) as DM. fold m in DM.
  split.
  - apply (qmul_le_inv _ _ _ MP). replace (x * qz 12 * qz m)%Qc with (x * qz m * qz 12)%Qc by ring. rewrite E, <- !qz_mult. apply qz_le. nia.
  - intros D. pose proof (Z.div_mod (12 * (b - a)) avg ltac:(lia)) as DV. rewrite D in DV. fold m in DV.
    apply (qmul_le_inv _ _ _ MP). replace (x * qz 12 * qz m)%Qc with (x * qz m * qz 12)%Qc by ring. rewrite E, <- !qz_mult. apply qz_le. nia.
Qed.
Print Assumptions C160_monthly_nodes.
Example C160_monthly_nodes_nonvacuous : exists d, midscale_settings = Ok d /\ d_n d = 561%nat /\ 12 * (2016 + 2 - (1880 - 2)) mod 3 = 0.
Proof. unfold midscale_settings. rewrite monthly_is by lia. eexists. split; [reflexivity|]. split; reflexivity. Qed.

(* The latitude spline: nodes [180 / (n - 1)] degrees apart, one on each pole and 180 more beyond it, so that every node that could
   reach a latitude on the globe exists as long as basis functions reach no further than 180 nodes. *)
Theorem C160_latitude_nodes : forall n, (2 <= n)%nat -> let sep := (qz 180 / (qn n - 1))%Qc in
  exists d, latitude_lattice n = Ok d /\ proper d /\ d_n d = (n + 360)%nat /\ spacing d = sep /\
    (forall k, coordinate d (180 + k) = (- qz 90 + qn k * sep)%Qc) /\ coordinate d 180 = (- qz 90)%Qc /\ coordinate d (180 + (n - 1)) = qz 90 /\
    forall overlap lat (k : Z), (overlap <= qz 180)%Qc -> (- qz 90 <= lat)%Qc -> (lat <= qz 90)%Qc ->
      (- (sep * overlap) < lat - (- qz 90 + qz k * sep))%Qc -> (lat - (- qz 90 + qz k * sep) < sep * overlap)%Qc -> 0 <= 180 + k < Z.of_nat (n + 360).
Proof.
  intros n H sep. destruct (latitude_facts n H) as (d & E & P & N & W & S & L). fold sep in S, L. exists d. split; [exact E|]. split; [exact P|]. split; [exact N|]. split; [exact S|].
  assert (K : forall k, coordinate d (180 + k) = (- qz 90 + qn k * sep)%Qc).
  { intros k. rewrite (coordinate_spaced d _ P), S, L, qn_plus. change (qn 180) with (qz 180). ring. }
  assert (NN : (0 < qn n - 1)%Qc). { unfold qn. rewrite <- qz_1, <- qz_minus, <- qz_0. apply qz_lt. lia. }
  assert (M : (sep * (qn n - 1) = qz 180)%Qc) by (unfold sep; field; now apply qpos_nonzero).
  split; [exact K|]. split; [rewrite <- (Nat.add_0_r 180), K; change (qn 0) with 0%Qc; ring|].
  split. { rewrite K. replace (qn (n - 1)) with (qn n - 1)%Qc by (unfold qn; rewrite <- qz_1, <- qz_minus; f_equal; lia). rewrite Qcmult_comm, M. reflexivity. }
  intros overlap lat k O A B C D. assert (SP : (0 < sep)%Qc) by (rewrite <- S; now apply spacing_pos).
  assert (OS : (overlap * sep <= qz 180 * sep)%Qc) by now apply qmul_le. rewrite (Qcmult_comm sep overlap) in *.
  assert (X : (qz (- 181) * sep < qz k * sep)%Qc).
  { change (qz (-181)) with (- qz 180 - 1)%Qc. replace ((- qz 180 - 1) * sep)%Qc with (- (qz 180 * sep) - sep)%Qc by ring. set (u := (overlap * sep)%Qc) in *. set (v := (qz 180 * sep)%Qc) in *. set (w := (qz k * sep)%Qc) in *. set (q := qz 90) in *. clearbody u v w q. clear - OS A B C D SP. qc. }
  assert (Y : (qz k * sep < qz (Z.of_nat n + 180) * sep)%Qc).
  { rewrite qz_plus. replace ((qz (Z.of_nat n) + qz 180) * sep)%Qc with (sep * (qn n - 1) + sep + qz 180 * sep)%Qc by (unfold qn; ring). rewrite M.
    change (qz 180) with (qz (90 + 90)) at 1. rewrite qz_plus. set (u := (overlap * sep)%Qc) in *. set (v := (qz 180 * sep)%Qc) in *. set (w := (qz k * sep)%Qc) in *. set (q := qz 90) in *. clearbody u v w q. clear - OS A B C D SP. qc. }
  apply (qmul_lt_inv _ _ _ SP) in X. apply (qmul_lt_inv _ _ _ SP) in Y. apply (proj1 (qz_lt _ _)) in X. apply (proj1 (qz_lt _ _)) in Y. lia.
Qed.
Print Assumptions C160_latitude_nodes.
Example C160_latitude_nodes_nonvacuous : exists d, latitude_lattice 361 = Ok d /\ d_n d = 721%nat /\ spacing d = (1 / qz 2)%Qc.
Proof. eexists. split; [vm_compute; reflexivity|]. split; [reflexivity|]. apply Qc_is_canon. vm_compute. reflexivity. Qed.

(* The spline resolves all latitudes alike: moving a location by the distance of two nodes moves its weights by one node. *)
Theorem C160_latitude_shift : forall basis n overlap lats lats' d i k, (2 <= n)%nat -> latitude_lattice n = Ok d -> compact (basis (spacing d * overlap)%Qc) [(spacing d * overlap)%Qc] ->
  nth i lats' 0%Qc = (nth i lats 0 + qz 180 / (qn n - 1))%Qc -> (S k < n + 360)%nat ->
  m_at (lattice_matrix basis d overlap lats') i (S k) = m_at (lattice_matrix basis d overlap lats) i k.
Proof.
  intros basis n overlap lats lats' d i k H E C X K. destruct (latitude_facts n H) as (d' & E' & P & N & W & S & _). assert (d' = d) by congruence. subst d'.
  unfold lattice_matrix. cbn [m_at]. cbv zeta. rewrite !row1 by (assumption || lia). do 2 f_equal. rewrite !displacement_plain by exact W. rewrite !(coordinate_spaced d _ P), X, S, qn_S. ring.
Qed.
Print Assumptions C160_latitude_shift.
Definition hat1 (span : Qc) : list Qc -> Qc := piecewise_linear [span].
Example C160_latitude_shift_nonvacuous : (forall d overlap, (0 < spacing d * overlap)%Qc -> compact (hat1 (spacing d * overlap)%Qc) [(spacing d * overlap)%Qc]) /\
  exists d, latitude_lattice 5 = Ok d /\ (0 < spacing d * qz 2)%Qc /\ m_at (lattice_matrix hat1 d (qz 2) [qz 45]) 0 183 = 1%Qc /\ m_at (lattice_matrix hat1 d (qz 2) [0%Qc]) 0 182 = 1%Qc.
Proof.
  split; [intros d overlap S; apply pl_compact; constructor; [exact S|constructor]|]. eexists. split; [reflexivity|]. split; [vm_compute; reflexivity|]. split; apply Qc_is_canon; vm_compute; reflexivity.
Qed.
(* One node cannot be spread over the latitudes. *)
Theorem C160_one_latitude : latitude_lattice 1 = Err ZeroDivisionError.
Proof. reflexivity. Qed.
Print Assumptions C160_one_latitude.

(* The seasonal component repeats every year: the same moment of two years of the same length gives the same design at the same
   places. *)
Theorem C160_seasons : forall basis build_A overlap st st' y y' s cs, 1 <= y <= 9998 -> 1 <= y' <= 9998 -> is_leap y = is_leap y' ->
  0 <= s < (if is_leap y then 366 else 365) * DAY -> st_datetime st = year_begins y + s -> st_datetime st' = year_begins y' + s ->
  location_polar_coordinates st = Ok cs -> location_polar_coordinates st' = Ok cs ->
  compact (basis (spacing seasonal_lattice * overlap)%Qc) [(spacing seasonal_lattice * overlap)%Qc] ->
  exists A A', annual_design basis build_A seasonal_lattice overlap st = Ok A /\ annual_design basis build_A seasonal_lattice overlap st' = Ok A' /\
    m_rows A = m_rows A' /\ m_cols A = m_cols A' /\ forall i j, (i < m_rows A)%nat -> (j < m_cols A)%nat -> m_at A i j = m_at A' i j.
Proof.
  intros basis build_A overlap st st' y y' s cs Y Y' Lp S T T' C C' K.
  assert (F : forall y, 1 <= y <= 9998 -> 0 <= s < (if is_leap y then 366 else 365) * DAY -> decimal_year (year_begins y + s) = Ok (qz y + qz s / qz ((if is_leap y then 366 else 365) * DAY))%Qc).
  { intros w W V. assert (Yw : dt_year (year_begins w + s) = w). { apply year_of_iff. unfold year_begins, ymd2ord. rewrite !days_before_month_1, days_before_year_next. unfold DAY in *. destruct (is_leap w); lia. }
    destruct (C149_fraction (year_begins w + s)) as [E _]; [rewrite Yw; exact W|]. rewrite E. cbv zeta. rewrite Yw. do 4 f_equal. lia. }
  unfold annual_design. rewrite C, C', T, T'. cbn [bind]. rewrite (F y Y S), (F y' Y') by (rewrite <- Lp; exact S). cbn [bind]. eexists. eexists. split; [reflexivity|]. split; [reflexivity|].
  cbn [kron m_rows m_cols m_at]. split; [reflexivity|]. split; [reflexivity|]. intros i j Hi Hj. cbn [lattice_matrix m_rows m_cols m_at List.length] in *. rewrite <- Lp.
  set (fr := (qz s / qz ((if is_leap y then 366 else 365) * DAY))%Qc). f_equal. assert (I0 : (i / m_rows (build_A cs) = 0)%nat) by (apply Nat.div_small; lia). rewrite I0. cbn [nth].
  assert (J : (j / m_cols (build_A cs) < 12)%nat) by (apply Nat.div_lt_upper_bound; [intros Z0; rewrite Z0 in Hj; lia|cbn [seasonal_lattice d_n] in Hj; lia]).
  replace (qz y' + fr)%Qc with (qz y + fr + qz (y' - y))%Qc by (rewrite qz_minus; ring). now rewrite seasonal_row by assumption.
Qed.
Print Assumptions C160_seasons.
Definition ex_build (cs : list (Qc * Qc)) : matrix := {| m_rows := List.length cs; m_cols := 1; m_at := fun _ _ => 1%Qc |}.
Definition ex_st (t : Z) : structure :=
  {| st_table := Some [(qz 10, qz 20)]; st_found := {| fd_set := {| s_mask := [false]; s_time := TScalar (qz 7); s_location := [0]; s_measurement := [qz 1]; s_unc := [qz 1]; s_cor := [] |}; fd_float := false |};
     st_datetime := t; st_files := [] |}.
Example C160_seasons_nonvacuous : (exists cs, location_polar_coordinates (ex_st 0) = Ok cs) /\ is_leap 2001 = is_leap 2002 /\
  compact (hat1 (spacing seasonal_lattice * qz 2)%Qc) [(spacing seasonal_lattice * qz 2)%Qc] /\
  exists A, annual_design hat1 ex_build seasonal_lattice (qz 2) (ex_st (year_begins 2001)) = Ok A /\ m_at A 0 0 = 1%Qc /\ m_at A 0 11 = (1 / qz 2)%Qc.
Proof.
  split; [eexists; vm_compute; reflexivity|]. split; [reflexivity|]. split; [apply pl_compact; constructor; [vm_compute; reflexivity|constructor]|].
  eexists. split; [reflexivity|]. split; apply Qc_is_canon; vm_compute; reflexivity.
Qed.
(* The same day of the calendar is not the same moment in a leap year. *)
Theorem C160_calendar_day_refuted : exists basis build_A overlap A A', let d := seasonal_lattice in compact (basis (spacing d * overlap)%Qc) [(spacing d * overlap)%Qc] /\
  annual_design basis build_A d overlap (ex_st (ymd2ord 2000 3 1 * DAY)) = Ok A /\ annual_design basis build_A d overlap (ex_st (ymd2ord 2001 3 1 * DAY)) = Ok A' /\ m_at A 0 2 <> m_at A' 0 2.
Proof.
  exists hat1, ex_build, (qz 2). eexists. eexists. cbv zeta. split; [apply pl_compact; constructor; [vm_compute; reflexivity|constructor]|]. split; [reflexivity|]. split; [reflexivity|].
  intros E. apply (f_equal this) in E. vm_compute in E. discriminate.
Qed.
Print Assumptions C160_calendar_day_refuted.

(* A component in decimal years gives no weight, and no error, to observations farther from its period than its basis functions
   reach. *)
Theorem C160_outside_period_refuted : forall basis build_A d overlap st cs year, proper d -> d_wrap d = false -> compact (basis (spacing d * overlap)%Qc) [(spacing d * overlap)%Qc] ->
  location_polar_coordinates st = Ok cs -> decimal_year (st_datetime st) = Ok year -> (year <= d_lo d - spacing d * overlap \/ d_hi d + spacing d * overlap <= year)%Qc ->
  exists A, annual_design basis build_A d overlap st = Ok A /\ forall i j, (i < m_rows A)%nat -> (j < m_cols A)%nat -> m_at A i j = 0%Qc.
Proof.
  intros basis build_A d overlap st cs year P W K C E O. unfold annual_design. rewrite C, E. cbn [bind]. eexists. split; [reflexivity|]. cbn [kron lattice_matrix m_rows m_cols m_at List.length].
  intros i j Hi Hj. assert (I0 : (i / m_rows (build_A cs) = 0)%nat) by (apply Nat.div_small; lia). rewrite I0. cbn [nth].
  rewrite row1_outside; [apply Qcmult_0_l|exact P|exact W|exact K| |exact O]. apply Nat.div_lt_upper_bound; [intros Z0; rewrite Z0 in Hj; lia|lia].
Qed.
Print Assumptions C160_outside_period_refuted.
Example C160_outside_period_refuted_nonvacuous : exists d, slow_settings = Ok d /\ (d_lo d < d_hi d)%Qc /\ decimal_year (ymd2ord 2047 1 1 * DAY) = Ok (qz 2047) /\ (d_hi d + spacing d * (qz 5 / qz 2) <= qz 2047)%Qc.
Proof. eexists. split; [vm_compute; reflexivity|]. split; [reflexivity|]. split; [vm_compute; reflexivity|]. vm_compute. discriminate. Qed.
(* Entry by entry, the design of such a component is the weight in time times the weight in space. *)
Theorem C160_annual : forall basis build_A d overlap st cs year, location_polar_coordinates st = Ok cs -> decimal_year (st_datetime st) = Ok year ->
  exists A, annual_design basis build_A d overlap st = Ok A /\ m_rows A = m_rows (build_A cs) /\ m_cols A = (d_n d * m_cols (build_A cs))%nat /\
    forall i t s, (i < m_rows (build_A cs))%nat -> (t < d_n d)%nat -> (s < m_cols (build_A cs))%nat ->
      m_at A i (t * m_cols (build_A cs) + s) = (build_A_row (basis (spacing d * overlap)%Qc) [d] [(spacing d * overlap)%Qc] [year] t * m_at (build_A cs) i s)%Qc.
Proof.
  intros basis build_A d overlap st cs year C E. unfold annual_design. rewrite C, E. cbn [bind]. eexists. split; [reflexivity|]. cbn [kron lattice_matrix m_rows m_cols m_at List.length].
  split; [lia|]. split; [reflexivity|]. intros i t s Hi Ht Hs. set (R := m_rows (build_A cs)) in *. set (S := m_cols (build_A cs)) in *.
  rewrite (Nat.div_small i R) by exact Hi. rewrite (Nat.mod_small i R) by exact Hi. rewrite Nat.div_add_l by lia. rewrite (Nat.div_small s S) by exact Hs. rewrite Nat.add_0_r.
  rewrite Nat.add_comm, Nat.mod_add by lia. rewrite (Nat.mod_small s S) by exact Hs. reflexivity.
Qed.
Print Assumptions C160_annual.
Example C160_annual_nonvacuous : exists cs, location_polar_coordinates (ex_st (year_begins 2001)) = Ok cs /\ decimal_year (st_datetime (ex_st (year_begins 2001))) = Ok (qz 2001).
Proof. eexists. split; vm_compute; reflexivity. Qed.

(* The grand mean has one variable, on which every observation has weight one. *)
Theorem C160_grand_mean : forall st cs, location_polar_coordinates st = Ok cs ->
  exists A, grand_mean_design st = Ok A /\ m_rows A = number_of_observations st /\ m_cols A = 1%nat /\ forall i, m_at A i 0 = 1%Qc.
Proof. intros st cs C. unfold grand_mean_design. rewrite C. cbn [bind]. eexists. split; [reflexivity|]. cbn [m_rows m_cols m_at]. split; [now apply polar_length|]. split; reflexivity. Qed.
Print Assumptions C160_grand_mean.
Example C160_grand_mean_nonvacuous : exists cs, location_polar_coordinates (ex_st 0) = Ok cs /\ cs <> [].
Proof. eexists. split; [vm_compute; reflexivity|discriminate]. Qed.

(* A bias that varies in space acts on the observations of its satellite source by their places and on no others. *)
Theorem C160_spatial_bias_own : forall latents build_A st s group cs, s = SatLand \/ s = SatOcean \/ s = SatIce -> group_of s = Some group -> files_of s st ->
  location_polar_coordinates st = Ok cs -> spatial_bias_design latents build_A st group = Ok (build_A cs).
Proof.
  intros latents build_A st s group cs S G F C. unfold spatial_bias_design. assert (E : exists e, covariate_effect st group None = Ok (Some e)).
  { destruct S as [-> |[-> | ->]]; [destruct (C156_global st SatLand group None (or_introl eq_refl) G F) as (e & E & _)|destruct (C156_global st SatOcean group None (or_intror eq_refl) G F) as (e & E & _)|cbn in G; injection G as <-; destruct (C156_ice st None cs F C) as (e & E & _)]; now exists e. }
  destruct E as [e E]. rewrite E. cbn [bind]. rewrite C. reflexivity.
Qed.
Print Assumptions C160_spatial_bias_own.
Example C160_spatial_bias_own_nonvacuous : files_of SatIce ice_st /\ exists cs, location_polar_coordinates ice_st = Ok cs.
Proof. destruct C156_ice_nonvacuous as (F & C & _). split; [exact F|]. eexists. exact C. Qed.
Theorem C160_spatial_bias_other : forall latents build_A st s group, st_files st <> [] -> files_of s st -> (exists s', group_of s' = Some group) -> group_of s <> Some group ->
  exists A, spatial_bias_design latents build_A st group = Ok A /\ m_rows A = number_of_observations st /\ m_cols A = latents /\ forall i j, m_at A i j = 0%Qc.
Proof.
  intros latents build_A st s group Ne F G N. unfold spatial_bias_design. rewrite (C156_other_source st s group None Ne F G N). cbn [bind]. eexists. split; [reflexivity|]. split; [reflexivity|]. split; reflexivity.
Qed.
Print Assumptions C160_spatial_bias_other.
Example C160_spatial_bias_other_nonvacuous : st_files land_st <> [] /\ files_of SatLand land_st /\ group_of SatLand <> Some "surfaceairmodel_ice_global"%string.
Proof. split; [discriminate|]. split; [apply C156_other_source_nonvacuous|discriminate]. Qed.

(* The design of the latitude spline looks at the latitudes of the observations only. *)
Theorem C160_latitude_design : forall basis n overlap st cs, (2 <= n)%nat -> location_polar_coordinates st = Ok cs ->
  exists d A, latitude_lattice n = Ok d /\ latitude_design basis n overlap st = Ok A /\ m_rows A = number_of_observations st /\ m_cols A = (n + 360)%nat /\
    forall i lat lon k, nth_error cs i = Some (lat, lon) -> (k < n + 360)%nat -> compact (basis (spacing d * overlap)%Qc) [(spacing d * overlap)%Qc] ->
      m_at A i k = basis (spacing d * overlap)%Qc [(lat - coordinate d k)%Qc].
Proof.
  intros basis n overlap st cs H C. destruct (latitude_facts n H) as (d & E & P & N & W & S & _). exists d. eexists. split; [exact E|]. unfold latitude_design. rewrite E, C. cbn [bind]. split; [reflexivity|].
  cbn [lattice_matrix m_rows m_cols m_at]. cbv zeta. rewrite map_length. split; [now apply polar_length|]. split; [exact N|]. intros i lat lon k I K B. rewrite row1 by (assumption || lia). rewrite displacement_plain by exact W.
  assert (nth i (map fst cs) 0%Qc = lat) as ->; [|reflexivity]. apply nth_error_nth. rewrite nth_error_map, I. reflexivity.
Qed.
Print Assumptions C160_latitude_design.
Example C160_latitude_design_nonvacuous : exists cs, location_polar_coordinates (ex_st 0) = Ok cs /\ nth_error cs 0 = Some (qz 10, qz 20).
Proof. eexists. split; vm_compute; reflexivity. Qed.

(* The settings of the analysis: the slow component has a node every fourth year from 1860 to 2036, the monthly one 561 nodes from
   January 1878 to January 2018, the seasonal one twelve in a year. *)
Theorem C160_settings : (exists d, slow_settings = Ok d /\ proper d /\ spacing d = qz 4 /\ d_lo d = qz 1860 /\ d_hi d = qz 2036) /\
  (exists d, midscale_settings = Ok d /\ d_n d = 561%nat /\ d_lo d = qz (ymd2ord 1878 1 1 - ymd2ord 1850 1 1) /\ d_hi d = qz (ymd2ord 2018 1 1 - ymd2ord 1850 1 1)) /\
  (proper seasonal_lattice /\ d_wrap seasonal_lattice = true /\ (spacing seasonal_lattice * qz 12)%Qc = 1%Qc).
Proof.
  split; [|split].
  - eexists. split; [vm_compute; reflexivity|]. split; [split; [vm_compute; reflexivity|cbn; lia]|]. split; [apply Qc_is_canon; vm_compute; reflexivity|]. split; apply Qc_is_canon; reflexivity.
  - unfold midscale_settings. rewrite monthly_is by lia. eexists. split; [reflexivity|]. split; [reflexivity|]. split; reflexivity.
  - split; [exact seasonal_proper|]. split; [reflexivity|]. apply Qc_is_canon. vm_compute. reflexivity.
Qed.
Print Assumptions C160_settings.
