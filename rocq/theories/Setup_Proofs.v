(* Proofs about the settings, elements and monthly data. *)
From Coq Require Import QArith Qcanon String Ascii.
From Verif Require Import Base Time_Model Time_Spec Time_Proofs Grid_Model Grid_Proofs Lin Ana_Model Comb_Model Obs_Model Src_Model Src_Spec Src_Proofs2 Spde_Model Lat_Model Lat_Spec Lat_Proofs Lat_Props
  Conn_Model Conn_Spec Conn_Proofs Conn_Proofs2 Setup_Model Setup_Spec.
Local Open Scope Z_scope.
Local Open Scope list_scope.

(* ---- quantisation *)
Lemma qceil_ge q : (q <= qz (qceil q))%Qc.
Proof. unfold qceil. pose proof (qfloor_le (- q)). rewrite qz_opp. set (x := qz (qfloor (- q))) in *. clearbody x. qc. Qed.
Lemma qceil_lt q : (qz (qceil q) < q + 1)%Qc.
Proof. unfold qceil. pose proof (qfloor_lt (- q)). rewrite qz_opp. set (x := qz (qfloor (- q))) in *. clearbody x. qc. Qed.
Lemma half_pos : (0 < / qz 2)%Qc /\ (/ qz 2 < 1)%Qc. Proof. split; reflexivity. Qed.
Lemma py_round_whole n : 0 <= n -> py_round (qz n) = n.
Proof.
  intros H. unfold py_round. destruct (Qclt_le_dec (qz n) 0) as [L|_]; [rewrite <- qz_0 in L; apply (proj1 (qz_lt _ _)) in L; lia|].
  destruct half_pos as [A B]. set (h := (/ qz 2)%Qc) in *. clearbody h. apply qfloor_unique; qc.
Qed.
Lemma qdiv_mul a b : b <> 0%Qc -> (a / b * b = a)%Qc. Proof. intros. field. assumption. Qed.
Lemma qdiv_le a b s : (0 < s)%Qc -> (a <= b)%Qc -> (a / s <= b / s)%Qc.
Proof. intros H L. apply qmul_le_inv with (c := s); [exact H|]. rewrite !qdiv_mul by now apply qpos_nonzero. exact L. Qed.

Lemma qcancel a b c : c <> 0%Qc -> (a * c = b * c)%Qc -> a = b.
Proof. intros N E. replace a with (a * c / c)%Qc by (field; exact N). rewrite E. field. exact N. Qed.

Section Slow.
  Variables (s e sp : Qc).
  Hypothesis (P : (0 < sp)%Qc).
  Let a := qfloor (s / sp). Let b := qceil (e / sp).
  Let NZ : sp <> 0%Qc := qpos_nonzero sp P.
  Lemma slow_lo : d_lo (slow_lattice s e sp) = (qz a * sp)%Qc. Proof. reflexivity. Qed.
  Lemma slow_hi : d_hi (slow_lattice s e sp) = (qz b * sp)%Qc. Proof. reflexivity. Qed.
  Lemma slow_order : (s <= e)%Qc -> a <= b.
  Proof.
    intros L. apply qz_le. apply Qcle_trans with (y := (s / sp)%Qc); [apply qfloor_le|]. apply Qcle_trans with (y := (e / sp)%Qc); [now apply qdiv_le|apply qceil_ge].
  Qed.
  Lemma slow_n : (s <= e)%Qc -> d_n (slow_lattice s e sp) = Z.to_nat (b - a + 1).
  Proof.
    intros L. pose proof (slow_order L). unfold slow_lattice. cbn [d_n]. f_equal.
    unfold floor_to_quantisation, ceil_to_quantisation. fold a b.
    replace ((qz b * sp - qz a * sp) / sp + 1)%Qc with (qz (b - a + 1)); [apply py_round_whole; lia|].
    rewrite qz_plus, qz_minus, qz_1. field. exact NZ.
  Qed.
  Lemma slow_below : (qz a * sp <= s)%Qc /\ (s < qz a * sp + sp)%Qc.
  Proof.
    pose proof (qfloor_le (s / sp)) as A. pose proof (qfloor_lt (s / sp)) as B. fold a in A, B.
    apply (qmul_le _ _ sp P) in A. apply (qmul_lt _ _ sp P) in B. rewrite qdiv_mul in A, B by exact NZ. split; [exact A|].
    replace (qz a * sp + sp)%Qc with ((qz a + 1) * sp)%Qc by ring. exact B.
  Qed.
  Lemma slow_above : (e <= qz b * sp)%Qc /\ (qz b * sp < e + sp)%Qc.
  Proof.
    pose proof (qceil_ge (e / sp)) as A. pose proof (qceil_lt (e / sp)) as B. fold b in A, B.
    apply (qmul_le _ _ sp P) in A. apply (qmul_lt _ _ sp P) in B. rewrite qdiv_mul in A by exact NZ. split; [exact A|].
    replace (e + sp)%Qc with ((e / sp + 1) * sp)%Qc; [exact B|]. field. exact NZ.
  Qed.
  Lemma slow_last : (s <= e)%Qc -> (1 <= d_n (slow_lattice s e sp))%nat /\
    (d_lo (slow_lattice s e sp) + qn (d_n (slow_lattice s e sp) - 1) * sp)%Qc = d_hi (slow_lattice s e sp).
  Proof.
    intros L. pose proof (slow_order L). rewrite (slow_n L), slow_lo, slow_hi. split; [lia|]. unfold qn. replace (Z.of_nat (Z.to_nat (b - a + 1) - 1)) with (b - a) by lia. rewrite qz_minus. ring.
  Qed.
  Lemma slow_proper : (s <= e)%Qc -> (d_lo (slow_lattice s e sp) < d_hi (slow_lattice s e sp))%Qc ->
    proper (slow_lattice s e sp) /\ spacing (slow_lattice s e sp) = sp.
  Proof.
    intros L H. pose proof (slow_order L) as O. assert (a < b).
    { rewrite slow_lo, slow_hi in H. apply (qmul_lt_inv _ _ _ P) in H. now apply (proj1 (qz_lt _ _)) in H. }
    assert (PR : proper (slow_lattice s e sp)) by (split; [exact H|rewrite (slow_n L); lia]). split; [exact PR|].
    pose proof (spacing_span _ PR) as S. pose proof (den_pos _ PR) as [D _]. unfold wrap_one in S, D. cbn [slow_lattice d_wrap] in S, D. fold (slow_lattice s e sp) in S, D.
    apply qpos_nonzero in D. rewrite (slow_n L) in S, D. rewrite slow_lo, slow_hi in S. unfold qn in S, D. rewrite Z2Nat.id in S, D by lia.
    rewrite qz_plus, qz_minus, qz_1 in S, D.
    set (x := spacing (slow_lattice s e sp)) in *. clearbody x.
    assert (E : (x * (qz b - qz a + 1 + 0 - 1) = sp * (qz b - qz a + 1 + 0 - 1))%Qc) by (rewrite S; ring).
    exact (qcancel _ _ _ D E).
  Qed.
End Slow.

(* ---- months *)
Lemma month_begins_start n : month_begins n = month_start n * DAY. Proof. reflexivity. Qed.
Lemma month_start_strict n k : 0 < k -> month_start n < month_start (n + k).
Proof.
  intros H. pose proof (month_start_mono (n + 1) (k - 1) ltac:(lia)) as M. replace (n + 1 + (k - 1)) with (n + k) in M by lia. rewrite month_start_next in M. pose proof (month_length_range n). lia.
Qed.
Lemma month_start_le n m : month_start n <= month_start m <-> n <= m.
Proof.
  split; intros H.
  - destruct (Z_lt_le_dec m n) as [L|]; [|assumption]. pose proof (month_start_strict m (n - m) ltac:(lia)) as K. replace (m + (n - m)) with n in K by lia. lia.
  - pose proof (month_start_mono n (m - n) ltac:(lia)) as K. now replace (n + (m - n)) with m in K by lia.
Qed.
Lemma january_start y : ymd2ord y 1 1 = month_start (12 * y).
Proof. unfold month_start. replace (12 * y / 12) with y by lia. replace (12 * y mod 12 + 1) with 1 by lia. reflexivity. Qed.
Lemma january y : date_of (month_start (12 * y) * DAY) = (y, 1, 1).
Proof. replace (month_start (12 * y) * DAY) with (month_start (12 * y) * DAY + 0) by lia. rewrite month_start_date by (unfold DAY; lia). replace (12 * y / 12) with y by lia. now replace (12 * y mod 12 + 1) with 1 by lia. Qed.
Lemma filter_le_seq (m N : nat) : (m < N)%nat -> List.length (filter (fun k => k <=? m)%nat (seq 0 N)) = S m.
Proof.
  intros H. assert (G : forall n a, List.length (filter (fun k => k <=? m)%nat (seq a n)) = Nat.min n (S m - a)).
  { induction n; intros a; [reflexivity|]. cbn [seq filter]. destruct (Nat.leb_spec a m); cbn [List.length]; rewrite IHn; lia. }
  rewrite G. lia.
Qed.
Lemma filter_map_length {A B} (f : A -> B) p l : List.length (filter p (map f l)) = List.length (filter (fun x => p (f x)) l).
Proof. induction l; [reflexivity|]. cbn [map filter]. destruct (p (f a)); cbn [List.length]; now rewrite IHl. Qed.
Lemma january_fields y : dt_year (month_start (12 * y) * DAY) = y /\ dt_month (month_start (12 * y) * DAY) = 1.
Proof. pose proof (january y) as D. unfold date_of in D. split; congruence. Qed.
Lemma leb_scaled x y d : 0 < d -> (x * d <=? y * d) = (x <=? y).
Proof. intros H. destruct (Z.leb_spec (x * d) (y * d)), (Z.leb_spec x y); try reflexivity; nia. Qed.
Lemma months_until_years a b : a <= b -> List.length (months_until (ymd2ord a 1 1 * DAY) (ymd2ord b 1 1 * DAY)) = Z.to_nat (12 * (b - a) + 1).
Proof.
  intros H. unfold months_until. rewrite !january_start. destruct (january_fields a) as [-> ->]. destruct (january_fields b) as [-> _].
  rewrite filter_map_length.
  transitivity (List.length (filter (fun k => k <=? Z.to_nat (12 * (b - a)))%nat (seq 0 (Z.to_nat (12 * (b - a + 1)))))); [|rewrite filter_le_seq by lia; lia].
  f_equal. apply filter_ext. intros k. cbv zeta. fold (month_start (12 * a + (1 - 1) + Z.of_nat k)).
  rewrite leb_scaled by reflexivity. pose proof (month_start_le (12 * a + (1 - 1) + Z.of_nat k) (12 * b)) as E.
  generalize dependent (month_start (12 * a + (1 - 1) + Z.of_nat k)). generalize (month_start (12 * b)). intros u v E.
  destruct (Z.leb_spec v u); destruct (Nat.leb_spec k (Z.to_nat (12 * (b - a)))); try reflexivity; lia.
Qed.
Lemma year_days a b : a <= b -> 365 * (b - a) <= ymd2ord b 1 1 - ymd2ord a 1 1 <= 366 * (b - a).
Proof.
  intros H. unfold ymd2ord. rewrite !days_before_month_1. pattern b. replace b with (a + (b - a)) by lia. pattern (b - a). apply natlike_ind; [rewrite Z.add_0_r; lia| |lia].
  intros k Hk IH. replace (a + Z.succ k) with (a + k + 1) by lia. rewrite days_before_year_next. destruct (is_leap (a + k)); lia.
Qed.
Lemma midnight_days o : days_datetime_to_number EPOCH (o * DAY) = (o - ymd2ord 1850 1 1) * DAY.
Proof.
  unfold EPOCH. replace (o * DAY) with (ymd2ord 1850 1 1 * DAY + (o - ymd2ord 1850 1 1) * 86400 * SECOND) by (unfold DAY, SECOND; lia). rewrite days_number_whole. unfold DAY, SECOND. lia.
Qed.
Lemma day_of_number z : (qz (z * DAY) / qz DAY = qz z)%Qc.
Proof. rewrite qz_mult. field. apply qz_nonzero. discriminate. Qed.
Lemma monthly_is first last ext avg : 1 <= first - ext -> first - ext <= last + ext -> last + ext <= 9999 -> avg <> 0 ->
  monthly_lattice first last ext avg =
  Ok {| d_lo := qz (ymd2ord (first - ext) 1 1 - ymd2ord 1850 1 1); d_hi := qz (ymd2ord (last + ext) 1 1 - ymd2ord 1850 1 1);
        d_n := Z.to_nat (12 * (last + ext - (first - ext)) / avg + 1); d_wrap := false |}.
Proof.
  intros A B C N. unfold monthly_lattice. rewrite !year_start_ok by lia. cbn [bind]. destruct (Z.eqb_spec avg 0); [contradiction|]. unfold year_begins.
  rewrite months_until_years by lia. rewrite !midnight_days, !day_of_number. rewrite Z2Nat.id by lia.
  replace (12 * (last + ext - (first - ext)) + 1 - 1) with (12 * (last + ext - (first - ext))) by lia. reflexivity.
Qed.

(* ---- lattices in one dimension *)
Lemma row1 basis d span x k : proper d -> compact basis [span] -> (k < d_n d)%nat -> build_A_row basis [d] [span] [x] k = basis [displacement d x (coordinate d k)].
Proof.
  intros P C H. pose proof (C80_entries basis [d] [span] [x] (Forall_cons _ P (Forall_nil _)) eq_refl eq_refl C [k]) as E.
  cbn [sizes map number] in E. rewrite Nat.mul_1_r, Nat.add_0_r in E. rewrite E; [reflexivity|]. constructor; [exact H|constructor].
Qed.
Lemma row1_outside basis d span x k : proper d -> d_wrap d = false -> compact basis [span] -> (k < d_n d)%nat ->
  (x <= d_lo d - span \/ d_hi d + span <= x)%Qc -> build_A_row basis [d] [span] [x] k = 0%Qc.
Proof.
  intros P W C H O. rewrite row1 by assumption. apply C. cbn [combine]. apply Exists_cons_hd. cbn [fst snd]. rewrite displacement_plain by exact W.
  destruct (C43_coordinates d P) as (E & S & L & _). specialize (L W).
  assert (A : (d_lo d <= coordinate d k)%Qc /\ (coordinate d k <= d_hi d)%Qc).
  { rewrite <- L, !E. assert (Q1 : (0 * spacing d <= qn k * spacing d)%Qc) by (apply qmul_le; [exact S|]; unfold qn; rewrite <- qz_0; apply qz_le; lia).
    assert (Q2 : (qn k * spacing d <= qn (d_n d - 1) * spacing d)%Qc) by (apply qmul_le; [exact S|]; unfold qn; apply qz_le; lia). rewrite Qcmult_0_l in Q1.
    set (u := (qn k * spacing d)%Qc) in *. set (v := (qn (d_n d - 1) * spacing d)%Qc) in *. clearbody u v. split; qc. }
  destruct A as [A B]. set (c := coordinate d k) in *. clearbody c. destruct O as [O|O]; [right|left]; qc.
Qed.

Lemma latitude_facts n : (2 <= n)%nat -> exists d, latitude_lattice n = Ok d /\ proper d /\ d_n d = (n + 360)%nat /\ d_wrap d = false /\ spacing d = (qz 180 / (qn n - 1))%Qc /\
  d_lo d = (- qz 90 - qz 180 * (qz 180 / (qn n - 1)))%Qc.
Proof.
  intros H. unfold latitude_lattice. destruct (Nat.eqb_spec n 1); [lia|]. eexists. split; [reflexivity|].
  assert (N : (0 < qn n - 1)%Qc). { unfold qn. rewrite <- qz_1, <- qz_minus, <- qz_0. apply qz_lt. lia. }
  assert (SP : (0 < qz 180 / (qn n - 1))%Qc). { unfold Qcdiv. rewrite <- (Qcmult_0_l (/ (qn n - 1))%Qc). apply qmul_lt; [now apply qpos_inv|]. rewrite <- qz_0. apply qz_lt. lia. }
  assert (PR : proper {| d_lo := (- qz 90 - qn PADDING_NODES * (qz 180 / (qn n - 1)))%Qc; d_hi := (qz 90 + qn PADDING_NODES * (qz 180 / (qn n - 1)))%Qc; d_n := (n + PADDING_NODES * 2)%nat; d_wrap := false |}).
  { split; cbn [d_lo d_hi d_n]; [|lia]. change (qn PADDING_NODES) with (qz 180). set (s := (qz 180 / (qn n - 1))%Qc) in *. clearbody s.
    assert (M : (0 * qz 180 < s * qz 180)%Qc) by (apply qmul_lt; [reflexivity|exact SP]). replace (qz 180 * s)%Qc with (s * qz 180)%Qc by ring. rewrite Qcmult_0_l in M. assert (Q : (0 < qz 90)%Qc) by reflexivity.
    set (u := (s * qz 180)%Qc) in *. set (v := qz 90) in *. clearbody u v. qc. }
  split; [exact PR|]. split; [reflexivity|]. split; [reflexivity|]. split; [|reflexivity].
  pose proof (spacing_span _ PR) as S. destruct (den_pos _ PR) as [D _]. apply qpos_nonzero in D. apply (qcancel _ _ _ D). rewrite S. cbn [d_lo d_hi d_n d_wrap wrap_one].
  change (qn PADDING_NODES) with (qz 180). unfold wrap_one. cbn [d_wrap]. rewrite qn_plus. change (qn (PADDING_NODES * 2)) with (qz 180 + qz 180)%Qc. 
  replace (qz 90 + qz 180 * (qz 180 / (qn n - 1)) - (- qz 90 - qz 180 * (qz 180 / (qn n - 1))))%Qc with (qz 180 + (qz 180 + qz 180) * (qz 180 / (qn n - 1)))%Qc.
  - field. now apply qpos_nonzero.
  - change (qz 180) with (qz (90 + 90)). rewrite qz_plus. ring.
Qed.

Lemma seasonal_proper : proper seasonal_lattice. Proof. split; [reflexivity|cbn; lia]. Qed.
Lemma seasonal_period : period seasonal_lattice = 1%Qc. Proof. unfold period. cbn. ring. Qed.
Lemma seasonal_row basis span x (z : Z) k : compact basis [span] -> (k < 12)%nat ->
  build_A_row basis [seasonal_lattice] [span] [(x + qz z)%Qc] k = build_A_row basis [seasonal_lattice] [span] [x] k.
Proof.
  intros C H. rewrite !row1 by (assumption || apply seasonal_proper). do 2 f_equal.
  rewrite <- (displacement_periodic seasonal_lattice x _ z seasonal_proper eq_refl). rewrite seasonal_period, Qcmult_1_r. reflexivity.
Qed.

(* ---- the middle of a month *)
Lemma month_begins_ok n : 12 <= n < 120000 -> mk_datetime (n / 12) (1 + n mod 12) 1 0 0 0 = Ok (month_begins n).
Proof.
  intros H. unfold mk_datetime. pose proof (days_in_month_range (n / 12) (1 + n mod 12)) as R.
  assert (E1 : (1 <=? n / 12) = true) by (apply Z.leb_le; lia). assert (E2 : (n / 12 <=? 9999) = true) by (apply Z.leb_le; lia).
  assert (E3 : (1 <=? 1 + n mod 12) = true) by (apply Z.leb_le; lia). assert (E4 : (1 + n mod 12 <=? 12) = true) by (apply Z.leb_le; lia).
  assert (E5 : (1 <=? days_in_month (n / 12) (1 + n mod 12)) = true) by (apply Z.leb_le; lia). rewrite E1, E2, E3, E4, E5. cbn [andb Z.leb Z.compare].
  change (1 <=? 1) with true. cbn [andb]. f_equal. unfold month_begins. replace (1 + n mod 12) with (n mod 12 + 1) by lia. change (0 * 3600 + 0 * 60 + 0) with 0. lia.
Qed.
Lemma half_difference a l d h : d = 2 * h -> ((a + l) * d - a * d) / 2 = l * h.
Proof. intros ->. replace ((a + l) * (2 * h) - a * (2 * h)) with (l * h * 2) by ring. apply Z.div_mul. lia. Qed.
Lemma half_sum_is a l d h : d = 2 * h -> (a * d + (a + l) * d) / 2 = a * d + l * h.
Proof. intros ->. replace (a * (2 * h) + (a + l) * (2 * h)) with ((a * (2 * h) + l * h) * 2) by ring. apply Z.div_mul. lia. Qed.
Definition HALF_DAY : Z := 43200000000.
Lemma day_halves : DAY = 2 * HALF_DAY. Proof. reflexivity. Qed.
Definition mid (n : Z) : Z := (month_begins n + month_begins (n + 1)) / 2.
Lemma midmonth_mid n : (month_begins n + month_begins (n + 1)) / 2 = month_start n * DAY + month_length n * HALF_DAY.
Proof. rewrite !month_begins_start, month_start_next. apply half_sum_is, day_halves. Qed.
Lemma mid_is n : mid n = month_start n * DAY + month_length n * HALF_DAY. Proof. exact (midmonth_mid n). Qed.
Lemma within_days a l d h : d = 2 * h -> 0 < h -> 1 <= l -> a <= (a * d + l * h) / d < a + l.
Proof.
  intros -> H L. split; [apply Z.div_le_lower_bound; nia|apply Z.div_lt_upper_bound; nia].
Qed.
Lemma midmonth_day n : month_start n <= (month_start n * DAY + month_length n * HALF_DAY) / DAY < month_start (n + 1).
Proof. rewrite month_start_next. pose proof (month_length_range n). apply within_days; [apply day_halves|reflexivity|lia]. Qed.
Lemma month_start_valid n : 12 <= n < 120000 -> 1 <= month_start n <= 3652059.
Proof.
  intros H. pose proof (proj1 (valid_datetime_iff (month_start n * DAY + 0)) (proj2 (month_start_year n 0 ltac:(split; [lia|reflexivity])) ltac:(lia))) as V. rewrite Z.add_0_r, Z.div_mul in V by discriminate. exact V.
Qed.
Lemma midmonth_valid n : 12 <= n -> n + 1 < 120000 -> valid_datetime (month_start n * DAY + month_length n * HALF_DAY) = true.
Proof.
  intros A B. apply valid_datetime_iff. pose proof (midmonth_day n). pose proof (month_start_valid n ltac:(lia)). pose proof (month_start_valid (n + 1) ltac:(lia)). lia.
Qed.
Lemma midmonth_ok epoch k n : n = 12 * dt_year epoch + k -> 12 <= n -> n + 1 < 120000 -> midmonth epoch k = Ok (mid n).
Proof.
  intros En A B. unfold midmonth. rewrite <- En. cbv zeta. rewrite !month_begins_ok by lia. cbn [bind]. rewrite mid_is.
  rewrite !month_begins_start, month_start_next, (half_difference _ _ _ _ day_halves). unfold dt_add. rewrite midmonth_valid by assumption. reflexivity.
Qed.
Lemma midmonth_twice n : 2 * mid n = month_begins n + month_begins (n + 1).
Proof. rewrite mid_is, !month_begins_start, month_start_next, day_halves. ring. Qed.
Lemma midmonth_number n : month_number (mid n) = n.
Proof. rewrite mid_is. apply month_iff, midmonth_day. Qed.
Lemma number_fields t n : month_number t = n -> dt_year t = n / 12 /\ dt_month t = n mod 12 + 1.
Proof. unfold month_number. destruct (fields_range t) as (R & _). revert R. generalize (dt_year t) (dt_month t). intros. lia. Qed.
Lemma mid_fields n : dt_year (mid n) = n / 12 /\ dt_month (mid n) = n mod 12 + 1.
Proof. apply number_fields, midmonth_number. Qed.
Lemma begins_sum_lt a b : a < b -> month_begins a + month_begins (a + 1) < month_begins b + month_begins (b + 1).
Proof.
  intros L. rewrite !month_begins_start. pose proof (month_start_strict a (b - a) ltac:(lia)) as S1. pose proof (month_start_strict (a + 1) (b - a) ltac:(lia)) as S2.
  replace (a + (b - a)) with b in S1 by lia. replace (a + 1 + (b - a)) with (b + 1) in S2 by lia.
  assert (G : forall x y u v d, 0 < d -> x < y -> u < v -> x * d + u * d < y * d + v * d) by (intros; nia). now apply G.
Qed.
Lemma midmonth_late epoch k n : n = 12 * dt_year epoch + k -> 120000 <= n + 1 -> forall t, midmonth epoch k <> Ok t.
Proof.
  intros En H t. unfold midmonth. rewrite <- En. cbv zeta. destruct (mk_datetime (n / 12) _ _ _ _ _); [|discriminate]. cbn [bind].
  unfold mk_datetime. replace ((n + 1) / 12 <=? 9999) with false by (symmetry; apply Z.leb_gt; lia). rewrite andb_false_r. cbn [andb bind]. discriminate.
Qed.
Lemma mid_middle n : mid n - month_begins n = month_begins (n + 1) - mid n.
Proof. pose proof (midmonth_twice n) as M. lia. Qed.
Lemma mid_lt n n' : n < n' -> mid n < mid n'.
Proof. intros L. pose proof (midmonth_twice n) as M. pose proof (midmonth_twice n') as M'.  pose proof (begins_sum_lt n n' L). lia. Qed.
Lemma midmonth_later epoch k k' n : n = 12 * dt_year epoch + k -> 12 <= n -> k < k' -> forall t', midmonth epoch k' = Ok t' -> mid n < t'.
Proof.
  intros En A L t' E. set (n' := 12 * dt_year epoch + k'). destruct (Z_lt_le_dec (n' + 1) 120000) as [H|H].
  - rewrite (midmonth_ok epoch k' n' eq_refl) in E by lia. assert (t' = mid n') as -> by congruence. apply mid_lt. lia.
  - exfalso. exact (midmonth_late epoch k' n' eq_refl H t' E).
Qed.
Lemma mid_days x t e s : 2 * t = s -> (x * qz (2 * DAY) = qz (s - 2 * e))%Qc <-> x = (qz (t - e) / qz DAY)%Qc.
Proof.
  intros <-. assert (NZ : qz DAY <> 0%Qc) by (apply qz_nonzero; discriminate). assert (N2 : qz (2 * DAY) <> 0%Qc) by (apply qz_nonzero; discriminate).
  assert (E : (qz (t - e) / qz DAY * qz (2 * DAY) = qz (2 * t - 2 * e))%Qc) by (replace (2 * t - 2 * e) with ((t - e) * 2) by ring; rewrite !qz_mult; field; exact NZ).
  split; [intros H; apply (qcancel _ _ _ N2); now rewrite E|now intros ->].
Qed.
Lemma decimal_ok epoch k n : n = 12 * dt_year epoch + k -> 12 <= n -> n + 1 < 120000 -> monthnumber_to_decimal epoch k = Ok (qz (mid n - epoch) / qz DAY)%Qc.
Proof. intros En A B. unfold monthnumber_to_decimal. rewrite (midmonth_ok epoch k n En A B). reflexivity. Qed.
