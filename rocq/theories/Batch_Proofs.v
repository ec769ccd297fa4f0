From Coq Require Import String Ascii.
From Verif Require Import Base Work_Model Work_Proofs Cat_Model Cat_Spec Cat_Proofs Time_Model Time_Spec Time_Proofs Batch_Model Batch_Spec.
Local Open Scope Z_scope.
Local Open Scope list_scope.

(* ------------------------------------------------------------------ days and years *)

Definition E0 : Z := ymd2ord 1850 1 1.

Lemma EPOCH_E0 : EPOCH = E0 * DAY.
Proof. reflexivity. Qed.

Lemma midnight_day d : midnight d / DAY = d + E0.
Proof. unfold midnight. rewrite EPOCH_E0. unfold DAY. lia. Qed.

Lemma days_since_whole t : whole_seconds_from EPOCH t -> days_since_epoch t = t - EPOCH.
Proof. intros (s & ->). unfold days_since_epoch. rewrite days_number_whole. lia. Qed.

Lemma days_since_midnight n : days_since_epoch (n * DAY) = (n - E0) * DAY.
Proof.
  rewrite days_since_whole; [rewrite EPOCH_E0; lia|]. exists ((n - E0) * 86400). rewrite EPOCH_E0. unfold DAY, SECOND. lia.
Qed.

Lemma day_number_whole t : whole_seconds_from EPOCH t -> day_number t = day_of t.
Proof. intros W. unfold day_number, floor_days, day_of. now rewrite days_since_whole. Qed.

Lemma day_of_ord t : day_of t = t / DAY - E0.
Proof. unfold day_of. rewrite EPOCH_E0. unfold DAY. lia. Qed.

Definition y0 (y : Z) : Z := ymd2ord y 1 1 - E0.     (* day number of 1 January *)

Lemma y0_next y : y0 y + 365 <= y0 (y + 1) <= y0 y + 366.
Proof. unfold y0. rewrite year_days. destruct (is_leap y); lia. Qed.

Lemma y0_mono_nat y k : y0 y + 365 * Z.of_nat k <= y0 (y + Z.of_nat k).
Proof.
  induction k as [|k IH]; [change (Z.of_nat 0) with 0; rewrite (Z.add_0_r y), Z.mul_0_r; apply Z.eq_le_incl, Z.add_0_r|]. pose proof (y0_next (y + Z.of_nat k)).
  replace (y + Z.of_nat (S k)) with (y + Z.of_nat k + 1) by lia. lia.
Qed.

Lemma y0_mono y y' : y <= y' -> y0 y + 365 * (y' - y) <= y0 y'.
Proof. intros H. pose proof (y0_mono_nat y (Z.to_nat (y' - y))) as P. rewrite !Z2Nat.id in P by lia. replace (y + (y' - y)) with y' in P by lia. exact P. Qed.

Lemma in_year_days t : y0 (dt_year t) <= day_of t < y0 (dt_year t + 1).
Proof.
  rewrite day_of_ord. unfold y0. generalize (in_year t). generalize (ymd2ord (dt_year t) 1 1), (ymd2ord (dt_year t + 1) 1 1), (t / DAY), E0.
  intros; lia.
Qed.

Lemma year_of_time t y : dt_year t = y <-> y0 y <= day_of t < y0 (y + 1).
Proof.
  generalize (in_year_days t). generalize (day_of t), (dt_year t). intros d z I. split; [intros <-; exact I|]. intros H.
  destruct (Z.lt_trichotomy z y) as [L|[L|L]]; [|exact L|]; exfalso.
  - assert (z + 1 <= y) as L' by lia. apply y0_mono in L'. lia.
  - assert (y + 1 <= z) as L' by lia. apply y0_mono in L'. lia.
Qed.

Lemma day_of_midnight d : day_of (midnight d) = d.
Proof. rewrite day_of_ord, midnight_day. lia. Qed.

Lemma day_of_mono t t' : t <= t' -> day_of t <= day_of t'.
Proof. intros H. unfold day_of. apply Z.div_le_mono; [unfold DAY; lia|lia]. Qed.

(* ------------------------------------------------------------------ ranges *)

Lemma filter_zrange (f : Z -> bool) lo hi a b : (forall d, a <= d < b -> f d = (lo <=? d) && (d <? hi)) ->
  filter f (zrange a b) = zrange (Z.max a lo) (Z.min b hi).
Proof.
  remember (Z.to_nat (b - a)) as n eqn:Hn. revert a Hn. induction n as [|n IH]; intros a Hn H.
  - rewrite (zrange_empty a b) by lia. rewrite zrange_empty by lia. reflexivity.
  - rewrite (zrange_cons a b) by lia. cbn [filter]. rewrite H by lia.
    rewrite (IH (a + 1)) by (lia || (intros; apply H; lia)).
    destruct ((lo <=? a) && (a <? hi)) eqn:E.
    + rewrite (zrange_cons (Z.max a lo)) by lia. f_equal; [lia|]. f_equal; lia.
    + destruct (Z.le_gt_cases hi a); [rewrite !zrange_empty by lia; reflexivity|]. f_equal; lia.
Qed.

Lemma days_of_operation_range start end_ k :
  days_of_operation start end_ k = zrange (Z.max (day_of start) (y0 (dt_year start + k))) (Z.min (day_of end_ + 1) (y0 (dt_year start + k + 1))).
Proof.
  unfold days_of_operation, days_of_period. apply filter_zrange. intros d _. pose proof (year_of_time (midnight d) (dt_year start + k)) as Y.
  rewrite day_of_midnight in Y. destruct (dt_year (midnight d) =? dt_year start + k) eqn:E; lia.
Qed.

Lemma int_days_whole n : int_days (n * DAY) = n.
Proof. unfold int_days. apply Z.quot_mul. unfold DAY; lia. Qed.

Lemma annual_time_value start i : 1 <= dt_year start + i <= 9998 ->
  annual_time_at_index start i = Ok (ymd2ord (dt_year start + i) 1 1 * DAY).
Proof.
  intros H. unfold annual_time_at_index, annual_number_to_datetime. rewrite annual_base_year.
  rewrite !mk_date_midnight by (lia || (assert (forall y, days_in_month y 1 = 31) as -> by reflexivity; lia)). reflexivity.
Qed.

Lemma day_numbers_value start i : 1 <= dt_year start + i <= 9997 ->
  day_numbers_in_year start i = Ok (zrange (y0 (dt_year start + i)) (y0 (dt_year start + i + 1))).
Proof.
  intros H. unfold day_numbers_in_year. rewrite !annual_time_value by lia. cbn [bind]. rewrite !days_since_midnight, !int_days_whole.
  unfold y0. now rewrite Z.add_assoc.
Qed.

Lemma batch_days_value start end_ i : whole_seconds_from EPOCH start -> whole_seconds_from EPOCH end_ -> 1 <= dt_year start + i <= 9997 ->
  batch_days start end_ i = Ok (days_of_operation start end_ i).
Proof.
  intros Ws We H. unfold batch_days. rewrite day_numbers_value by assumption. cbn [bind]. f_equal. unfold within.
  rewrite !day_number_whole by assumption. rewrite days_of_operation_range.
  rewrite (filter_zrange _ (day_of start) (day_of end_ + 1)) by (intros; lia). f_equal; lia.
Qed.

Lemma last_second_spec t : last_second_of_year t = true <-> in_last_second t.
Proof.
  unfold last_second_of_year, in_last_second. rewrite !andb_true_iff, !Z.eqb_eq. split.
  - intros ((((-> & ->) & ->) & ->) & ->). reflexivity.
  - intros E. repeat split; congruence.
Qed.

Definition operations (start end_ : Z) : Z := dt_year end_ - dt_year start + 1 + (if last_second_of_year end_ then 1 else 0).

Lemma year_mono t t' : t <= t' -> dt_year t <= dt_year t'.
Proof.
  intros H. apply day_of_mono in H. pose proof (proj1 (year_of_time t _) eq_refl). pose proof (proj1 (year_of_time t' _) eq_refl).
  destruct (Z.le_gt_cases (dt_year t) (dt_year t')); [assumption|]. pose proof (y0_mono (dt_year t' + 1) (dt_year t) ltac:(lia)). lia.
Qed.

Lemma annual_count_value start end_ : period start end_ -> annual_count start end_ = Ok (operations start end_).
Proof.
  intros (_ & _ & L & H1 & H2). apply year_mono in L. unfold annual_count. rewrite annual_floor_value by lia. rewrite annual_base_year. cbn [bind].
  unfold operations. f_equal. lia.
Qed.

Lemma operations_range start end_ : period start end_ -> 1 <= operations start end_ /\ dt_year start + operations start end_ <= 9998 /\
  dt_year end_ < dt_year start + operations start end_.
Proof. intros (_ & _ & L & H1 & H2). apply year_mono in L. unfold operations. destruct (last_second_of_year end_); lia. Qed.

Lemma mapM_value {A B} (f : A -> result B) (g : A -> B) l : (forall x, In x l -> f x = Ok (g x)) -> mapM f l = Ok (map g l).
Proof.
  induction l as [|x l IH]; intros H; cbn [mapM map]; [reflexivity|]. rewrite H by now left. cbn [bind]. rewrite IH by (intros; apply H; now right). reflexivity.
Qed.

Lemma batch_day_indices_value start end_ : period start end_ ->
  batch_day_indices start end_ = Ok (map (days_of_operation start end_) (zrange 0 (operations start end_))).
Proof.
  intros P. unfold batch_day_indices. rewrite annual_count_value by assumption. cbn [bind]. apply mapM_value. intros k Hk. apply zrange_In in Hk.
  pose proof (operations_range _ _ P). destruct P as (? & ? & ? & ? & ?). apply batch_days_value; (assumption || lia).
Qed.

Lemma concat_operations start end_ n : start <= end_ -> 0 <= n ->
  concat (map (days_of_operation start end_) (zrange 0 n)) = zrange (day_of start) (Z.min (day_of end_ + 1) (y0 (dt_year start + n))).
Proof.
  intros L Hn. apply day_of_mono in L. pose proof (proj1 (year_of_time start _) eq_refl) as Ys. revert n Hn. apply natlike_ind.
  - cbn [zrange Z.sub Z.to_nat seq map concat]. change (zrange 0 0) with (@nil Z). cbn [map concat]. rewrite zrange_empty by (rewrite Z.add_0_r; lia). reflexivity.
  - intros n Hn IH. replace (Z.succ n) with (n + 1) by lia. rewrite zrange_snoc by lia. rewrite map_app, concat_app, IH. cbn [map concat]. rewrite app_nil_r.
    rewrite days_of_operation_range. rewrite Z.add_assoc. pose proof (y0_next (dt_year start + n)).
    destruct (Z.le_gt_cases (y0 (dt_year start + n)) (day_of start)).
    + rewrite (zrange_empty (day_of start) (Z.min (day_of end_ + 1) (y0 (dt_year start + n)))) by lia. cbn [app]. f_equal; lia.
    + destruct (Z.le_gt_cases (y0 (dt_year start + n)) (day_of end_ + 1)).
      * replace (Z.min (day_of end_ + 1) (y0 (dt_year start + n))) with (y0 (dt_year start + n)) by lia.
        replace (Z.max (day_of start) (y0 (dt_year start + n))) with (y0 (dt_year start + n)) by lia. apply zrange_app. lia.
      * rewrite (zrange_empty (Z.max _ _)) by lia. rewrite app_nil_r. f_equal; lia.
Qed.

Lemma concat_all start end_ : period start end_ ->
  concat (map (days_of_operation start end_) (zrange 0 (operations start end_))) = days_of_period start end_.
Proof.
  intros P. pose proof (operations_range _ _ P). destruct P as (_ & _ & L & _). rewrite concat_operations by lia. unfold days_of_period. f_equal.
  pose proof (proj1 (year_of_time end_ _) eq_refl). pose proof (y0_mono (dt_year end_ + 1) (dt_year start + operations start end_) ltac:(lia)). lia.
Qed.

Lemma midnight_valid d : 1 <= dt_year (midnight d) <= 9999 -> days_number_to_datetime EPOCH (d * DAY) = Ok (midnight d).
Proof. intros H. unfold days_number_to_datetime, dt_add. cbv zeta. change (EPOCH + d * DAY) with (midnight d). apply valid_year in H. now rewrite H. Qed.

Lemma day_in_operation start end_ k d : In d (days_of_operation start end_ k) <->
  day_of start <= d <= day_of end_ /\ dt_year (midnight d) = dt_year start + k.
Proof. unfold days_of_operation, days_of_period. rewrite filter_In, zrange_In. lia. Qed.

Lemma day_years start end_ k d : period start end_ -> In d (days_of_operation start end_ k) -> 1 <= dt_year (midnight d) <= 9996.
Proof.
  intros (_ & _ & L & H1 & H2) I. apply day_in_operation in I. destruct I as (I & _). rewrite <- (day_of_midnight d) in I.
  pose proof (proj1 (year_of_time start _) eq_refl). pose proof (proj1 (year_of_time end_ _) eq_refl). pose proof (proj1 (year_of_time (midnight d) _) eq_refl). split.
  - destruct (Z.le_gt_cases 1 (dt_year (midnight d))); [assumption|]. pose proof (y0_mono (dt_year (midnight d) + 1) (dt_year start) ltac:(lia)). lia.
  - destruct (Z.le_gt_cases (dt_year (midnight d)) (dt_year end_)); [lia|]. pose proof (y0_mono (dt_year end_ + 1) (dt_year (midnight d)) ltac:(lia)). lia.
Qed.

Lemma times_of_days start end_ k : period start end_ ->
  mapM (fun d => days_number_to_datetime EPOCH (d * DAY)) (days_of_operation start end_ k) = Ok (map midnight (days_of_operation start end_ k)).
Proof. intros P. apply mapM_value. intros d I. apply midnight_valid. pose proof (day_years _ _ _ _ P I). lia. Qed.

(* ------------------------------------------------------------------ files by day *)

Lemma searchsorted_range A B d : A <= d <= B -> searchsorted (zrange A B) d = d - A.
Proof.
  intros H. unfold searchsorted. rewrite (filter_zrange _ A d) by (intros; lia). rewrite zlen_zrange by lia. lia.
Qed.

Lemma update_map_range A B i g x : A <= i < B ->
  update_nth (Z.to_nat (i - A)) (fun _ : Z => x) (map g (zrange A B)) = map (fun d => if d =? i then x else g d) (zrange A B).
Proof.
  remember (Z.to_nat (i - A)) as n eqn:Hn. revert A Hn. induction n as [|n IH]; intros A Hn H.
  - assert (A = i) as -> by lia. rewrite (zrange_cons i B) by lia. cbn [map update_nth]. rewrite Z.eqb_refl. f_equal.
    apply map_ext_in. intros d Hd. apply zrange_In in Hd. destruct (d =? i) eqn:E; [lia|reflexivity].
  - rewrite (zrange_cons A B) by lia. cbn [map update_nth]. rewrite (IH (A + 1)) by lia. destruct (A =? i) eqn:E; [lia|reflexivity].
Qed.

Definition assign (g : Z -> Z) (pairs : list (Z * Z)) : Z -> Z :=
  fold_left (fun g p => fun d => if d =? snd p then fst p else g d) pairs g.

Lemma set_all_value A B pairs : forall g, Forall (fun p => A <= snd p < B) pairs ->
  set_all (map g (zrange A B)) (map (fun p => (searchsorted (zrange A B) (snd p), fst p)) pairs) = Ok (map (assign g pairs) (zrange A B)).
Proof.
  induction pairs as [|[i d] pairs IH]; intros g F; cbn [map set_all fst snd]; [reflexivity|]. inversion F as [|p ps Hd Fr]; subst. cbn [snd] in Hd.
  rewrite searchsorted_range by lia. unfold py_set. rewrite zlen_map, zlen_zrange by lia.
  assert ((0 <=? d - A) && (d - A <? B - A) = true) as -> by lia. cbn [bind]. rewrite update_map_range by lia. rewrite IH by assumption. reflexivity.
Qed.

Lemma assign_spec pairs : forall g d e, assign g pairs d = e <->
  (exists a b, pairs = a ++ (e, d) :: b /\ Forall (fun p => snd p <> d) b) \/ (e = g d /\ Forall (fun p => snd p <> d) pairs).
Proof.
  induction pairs as [|[i x] pairs IH]; intros g d e.
  - cbn. split; [intros <-; right; split; [reflexivity|constructor]|]. intros [(a & b & E & _)|(-> & _)]; [destruct a; discriminate|reflexivity].
  - unfold assign. cbn [fold_left fst snd]. fold (assign (fun d0 => if d0 =? x then i else g d0) pairs). rewrite IH. clear IH. split.
    + intros [(a & b & -> & F)|(E & F)].
      * left. exists ((i, x) :: a), b. split; [reflexivity|exact F].
      * destruct (d =? x) eqn:Ed; [|right; split; [exact E|constructor; [cbn; lia|exact F]]].
        left. exists [], pairs. apply Z.eqb_eq in Ed. subst. split; [reflexivity|exact F].
    + intros [(a & b & E & F)|(E & F)].
      * destruct a as [|p a]; cbn [app] in E; injection E as E1 E2.
        -- subst. right. split; [now rewrite Z.eqb_refl|exact F].
        -- left. exists a, b. split; [exact E2|exact F].
      * inversion F as [|p ps Hp Fr]; subst. cbn [snd] in Hp. right. split; [|exact Fr]. destruct (d =? x) eqn:Ed; [lia|reflexivity].
Qed.

(* ------------------------------------------------------------------ grouping the files *)

Lemma mapM_map {A B C} (f : B -> result C) (g : A -> B) l : mapM f (map g l) = mapM (fun x => f (g x)) l.
Proof. induction l as [|x l IH]; cbn [map mapM]; [reflexivity|]. now rewrite IH. Qed.

Lemma filter_map_comm {A B} (f : B -> bool) (g : A -> B) l : filter f (map g l) = map g (filter (fun x => f (g x)) l).
Proof. induction l as [|x l IH]; cbn [map filter]; [reflexivity|]. destruct (f (g x)); cbn [map]; now rewrite IH. Qed.

Lemma sorted_fst_map {A B} (g : Z * A -> Z * B) l : (forall p, fst (g p) = fst p) ->
  StronglySorted (fun a b => fst a < fst b) l -> StronglySorted (fun a b => fst a < fst b) (map g l).
Proof.
  intros H. induction 1 as [|p l S IH F]; cbn [map]; constructor; [exact IH|]. rewrite Forall_forall in *. intros q I.
  apply in_map_iff in I. destruct I as (r & <- & I). rewrite !H. now apply F.
Qed.

Lemma enumerate_sorted {A} (l : list A) : StronglySorted (fun a b => fst a < fst b) (enumerate l).
Proof.
  unfold enumerate. generalize 0%nat. induction l as [|x l IH]; intros n; [constructor|]. cbn [length seq map combine]. constructor; [apply IH|].
  rewrite Forall_forall. intros [i y] I. apply in_combine_l in I. apply in_map_iff in I. destruct I as (m & <- & I). apply in_seq in I. cbn [fst]. lia.
Qed.

(* The files of a year: their numbers and days. *)
Definition year_files (start k : Z) (times : list Z) : list (Z * Z) :=
  map (fun it => (fst it, day_of (snd it))) (filter (fun it => dt_year (snd it) - dt_year start =? k) (enumerate times)).
Definition year_pairs (start end_ k : Z) (times : list Z) : list (Z * Z) :=
  filter (fun p => (day_of start <=? snd p) && (snd p <=? day_of end_)) (year_files start k times).

Lemma year_pairs_In start end_ k times e d : In (e, d) (year_pairs start end_ k times) <->
  0 <= e /\ exists t, nth_error times (Z.to_nat e) = Some t /\ day_of t = d /\ dt_year t = dt_year start + k /\ day_of start <= d <= day_of end_.
Proof.
  unfold year_pairs, year_files. rewrite filter_In, in_map_iff. cbn [snd]. split.
  - intros ((( i & t) & E & I) & H). cbn [fst snd] in E. injection E as <- <-. apply filter_In in I. destruct I as (I & Y). cbn [snd] in Y. apply In_enumerate in I.
    destruct I as (Hi & I). split; [exact Hi|]. exists t. repeat split; (assumption || lia).
  - intros (He & t & I & <- & Y & L). split; [|lia]. exists (e, t). split; [reflexivity|]. apply filter_In. split; [apply In_enumerate; auto|]. cbn [snd]. lia.
Qed.

Lemma year_pairs_sorted start end_ k times : StronglySorted (fun a b => fst a < fst b) (year_pairs start end_ k times).
Proof. apply StronglySorted_filter. apply sorted_fst_map; [reflexivity|]. apply StronglySorted_filter, enumerate_sorted. Qed.

Lemma sorted_last (l : list (Z * Z)) a e d b e' : StronglySorted (fun p q => fst p < fst q) l -> l = a ++ (e, d) :: b -> In (e', d) l -> e < e' -> In (e', d) b.
Proof.
  intros S -> I L. apply in_app_or in I. destruct I as [I|[I|I]]; [|injection I as ->; lia|exact I]. exfalso.
  induction a as [|p a IH]; [destruct I|]. cbn [app] in S. inversion S as [|p' l' S' F]; subst. destruct I as [->|I]; [|now apply IH].
  rewrite Forall_forall in F. specialize (F (e, d) ltac:(apply in_or_app; right; now left)). cbn [fst] in F. lia.
Qed.

Lemma time_in_operation start end_ k t : day_of start <= day_of t <= day_of end_ -> dt_year t = dt_year start + k ->
  In (day_of t) (days_of_operation start end_ k).
Proof.
  intros H Y. apply day_in_operation. split; [exact H|]. apply year_of_time. rewrite day_of_midnight. now apply year_of_time.
Qed.

Section Files.
  Variables (start end_ : Z) (files : list entry) (times : list Z).
  Hypothesis P : period start end_.
  Hypothesis D : Forall2 dated files times.

  Lemma files_time e t : nth_error times e = Some t <-> exists f, nth_error files e = Some f /\ en_time f = Some t.
  Proof using D.
    split.
    - intros E. destruct (Forall2_nth_r _ _ _ _ _ D E) as (f & Ef & H). exists f. split; [exact Ef|apply H].
    - intros (f & Ef & H). destruct (Forall2_nth_l _ _ _ _ _ D Ef) as (t' & Et & H' & _). congruence.
  Qed.

  Lemma is_file_times d e : is_file_of_day files d e <-> 0 <= e /\ exists t, nth_error times (Z.to_nat e) = Some t /\ day_of t = d.
  Proof using D.
    unfold is_file_of_day. split.
    - intros (He & f & t & Ef & Et & Ed). split; [exact He|]. exists t. split; [|exact Ed]. apply files_time. eauto.
    - intros (He & t & Et & Ed). split; [exact He|]. apply files_time in Et. destruct Et as (f & Ef & Et). exists f, t. auto.
  Qed.

  Lemma pairs_of_day k d e : In d (days_of_operation start end_ k) -> (In (e, d) (year_pairs start end_ k times) <-> is_file_of_day files d e).
  Proof using D.
    intros I. rewrite year_pairs_In, is_file_times. apply day_in_operation in I. destruct I as (I & Y). split.
    - intros (He & t & Et & Ed & _). eauto.
    - intros (He & t & Et & Ed). split; [exact He|]. exists t. repeat split; [exact Et|exact Ed| |lia|lia].
      apply year_of_time. rewrite Ed. rewrite <- (day_of_midnight d). now apply year_of_time.
  Qed.

  Lemma assign_file k d : In d (days_of_operation start end_ k) ->
    file_of_day files d (assign (fun _ => -1) (year_pairs start end_ k times) d).
  Proof using D.
    intros I. pose proof (proj1 (assign_spec (year_pairs start end_ k times) (fun _ => -1) d _) eq_refl) as A.
    set (e := assign (fun _ => -1) (year_pairs start end_ k times) d) in *. destruct A as [(a & b & E & F)|(E & F)].
    - left. split.
      + apply (pairs_of_day k); [exact I|]. rewrite E. apply in_or_app. right. now left.
      + intros e' L C. apply (pairs_of_day k) in C; [|exact I].
        pose proof (sorted_last _ _ _ _ _ _ (year_pairs_sorted start end_ k times) E C L) as Ib. rewrite Forall_forall in F. now apply (F _ Ib).
    - right. split; [exact E|]. intros e' C. apply (pairs_of_day k) in C; [|exact I]. rewrite Forall_forall in F. now apply (F _ C).
  Qed.

  Lemma times_whole t : In t times -> whole_seconds_from EPOCH t /\ 1 <= dt_year t <= 9996 /\ last_second_of_year t = false.
  Proof using D.
    intros I. apply In_nth_error in I. destruct I as (n & E). destruct (Forall2_nth_r _ _ _ _ _ D E) as (f & _ & _ & W & Y & N).
    split; [exact W|]. split; [exact Y|]. destruct (last_second_of_year t) eqn:L; [|reflexivity]. now apply last_second_spec in L.
  Qed.

  Definition mws : list (Z * Z) := map (fun it => (fst it, dt_year (snd it) - dt_year start)) (enumerate times).

  Lemma mws_value : mapM (fun im => do s <- annual_index_at_time start (snd im); Ok (fst im, s)) (enumerate times) = Ok mws.
  Proof using D.
    unfold mws. apply mapM_value. intros [i t] I. apply In_enumerate in I. destruct I as (_ & I). apply nth_error_In in I.
    destruct (times_whole _ I) as (_ & Y & L). cbn [fst snd]. unfold annual_index_at_time. rewrite annual_floor_value by lia. rewrite annual_base_year, L. cbn [bind].
    do 2 f_equal. lia.
  Qed.

  Lemma group_of k : map fst (filter (fun p => snd p =? k) mws) = map fst (year_files start k times).
  Proof. unfold mws, year_files. rewrite filter_map_comm, !map_map. reflexivity. Qed.

  Lemma files_by_day_value k : 1 <= dt_year start + k <= 9997 ->
    files_by_day start end_ times k (map fst (year_files start k times)) =
    Ok (map (assign (fun _ => -1) (year_pairs start end_ k times)) (days_of_operation start end_ k)).
  Proof using P D.
    intros Hk. destruct P as (Ws & We & _). unfold files_by_day.
    assert (mapM (fun i => do t <- py_index times i; Ok (i, day_number t)) (map fst (year_files start k times)) = Ok (year_files start k times)) as ->.
    { unfold year_files. rewrite map_map, mapM_map. cbn [fst]. apply mapM_value. intros [i t] I. apply filter_In in I. destruct I as (I & _). apply In_enumerate in I.
      destruct I as (Hi & I). cbn [fst snd]. rewrite py_index_nonneg by exact Hi. rewrite I. cbn [bind]. apply nth_error_In in I.
      rewrite day_number_whole by apply (times_whole _ I). reflexivity. }
    cbn [bind]. rewrite batch_days_value by assumption. cbn [bind]. rewrite !day_number_whole by assumption. fold (year_pairs start end_ k times).
    rewrite days_of_operation_range. apply set_all_value. rewrite Forall_forall. intros [e d] I. apply year_pairs_In in I.
    destruct I as (_ & t & _ & Ed & Y & L). cbn [snd]. apply year_of_time in Y. lia.
  Qed.

  Lemma dict_get_mapped {V W} (F : Z * V -> W) (l : list (Z * V)) k :
    dict_get Z.eqb (map (fun sg => (fst sg, F sg)) l) k = option_map (fun v => F (k, v)) (dict_get Z.eqb l k).
  Proof.
    induction l as [|[s v] l IH] using rev_ind; [reflexivity|]. rewrite map_app. cbn [map]. rewrite !dict_get_app, !dict_get_one. cbn [fst snd].
    destruct (Z.eqb_spec s k) as [->|]; [reflexivity|exact IH].
  Qed.

  Lemma year_files_nil k : year_files start k times = [] <-> ~ year_has_file files (dt_year start + k).
  Proof using D.
    unfold year_has_file. split.
    - intros E (f & t & If & Et & Y). apply In_nth_error in If. destruct If as (n & Ef). assert (nth_error times n = Some t) as En by (apply files_time; eauto).
      assert (In (Z.of_nat n, day_of t) (year_files start k times)) as I; [|rewrite E in I; exact I].
      unfold year_files. apply in_map_iff. exists (Z.of_nat n, t). split; [reflexivity|]. apply filter_In. split; [|cbn [snd]; lia]. apply In_enumerate.
      split; [lia|]. now rewrite Nat2Z.id.
    - intros N. destruct (year_files start k times) as [|[e d] l] eqn:E; [reflexivity|]. exfalso. apply N.
      assert (In (e, d) (year_files start k times)) as I by (rewrite E; now left). unfold year_files in I. apply in_map_iff in I.
      destruct I as ((i & t) & _ & I). apply filter_In in I. destruct I as (I & Y). cbn [snd] in Y. apply In_enumerate in I. destruct I as (_ & I).
      apply files_time in I. destruct I as (f & Ef & Et). exists f, t. split; [eapply nth_error_In; exact Ef|]. split; [exact Et|lia].
  Qed.

  Definition entries_by_time (k : Z) : list Z := map (assign (fun _ => -1) (year_pairs start end_ k times)) (days_of_operation start end_ k).

  Lemma groups_by_time_value : exists groups, batch_groups_by_time start end_ files = Ok groups /\
    forall k, dict_get Z.eqb groups k = match year_files start k times with [] => None | _ => Some (entries_by_time k) end.
  Proof using P D.
    unfold batch_groups_by_time.
    assert (mapM entry_time files = Ok times) as ->.
    { apply mapM_ok_Forall2. assert (forall fs ts, Forall2 dated fs ts -> Forall2 (fun x y => entry_time x = Ok y) fs ts) as Q; [|now apply Q].
      induction 1 as [|f t fs ts (E & _) _ IH]; constructor; [unfold entry_time; now rewrite E|exact IH]. }
    cbn [bind]. rewrite mws_value. cbn [bind]. set (G := groupby_step (sorted_by_step mws)).
    assert (mapM (fun sg => do l <- files_by_day start end_ times (fst sg) (snd sg); Ok (fst sg, l)) G = Ok (map (fun sg => (fst sg, entries_by_time (fst sg))) G)) as ->.
    { apply mapM_value. intros [s g] I. cbn [fst snd]. destruct (groupby_spec _ (sorted_by_step_sorted mws)) as (_ & H). apply H in I. destruct I as (Ng & Eg).
      rewrite filter_sorted, group_of in Eg. rewrite Eg. rewrite files_by_day_value; [reflexivity|].
      assert (year_files start s times <> []) as N by (intros C; rewrite C in Eg; cbn in Eg; congruence).
      destruct (year_files start s times) as [|[e d] l] eqn:E; [congruence|].
      assert (In (e, d) (year_files start s times)) as I by (rewrite E; now left). unfold year_files in I. apply in_map_iff in I.
      destruct I as ((i & t) & _ & I). apply filter_In in I. destruct I as (I & Y). cbn [snd] in Y. apply In_enumerate in I. destruct I as (_ & I).
      apply nth_error_In in I. destruct (times_whole _ I) as (_ & Hy & _). lia. }
    eexists. split; [reflexivity|]. intros k. rewrite (dict_get_mapped (fun sg => entries_by_time (fst sg)) G k). unfold G. rewrite group_lookup, group_of.
    destruct (year_files start k times) as [|p l]; reflexivity.
  Qed.

  Lemma entries_by_time_files k : Forall2 (file_of_day files) (days_of_operation start end_ k) (entries_by_time k).
  Proof using D.
    unfold entries_by_time. pose proof (assign_file k) as A. revert A. generalize (assign (fun _ => -1) (year_pairs start end_ k times)). intros g.
    induction (days_of_operation start end_ k) as [|d l IH]; intros A; cbn [map]; constructor; [apply A; now left|]. apply IH. intros d' I. apply A. now right.
  Qed.

  Lemma no_files_default k : ~ year_has_file files (dt_year start + k) -> map (fun _ => -1) (days_of_operation start end_ k) = entries_by_time k.
  Proof using D.
    intros N. apply year_files_nil in N. unfold entries_by_time, year_pairs. rewrite N. reflexivity.
  Qed.

  Lemma year_files_dec k : {year_files start k times = []} + {year_files start k times <> []}.
  Proof. destruct (year_files start k times); [now left|right; discriminate]. Defined.
End Files.

(* ------------------------------------------------------------------ policies *)

(* The last part of find_references: trios, missing operations and the policy. *)
Definition by_policy (i : nat) (inp : input_file) (entries : list (list Z)) (skip : list bool) : result (list (list Z) * list bool) :=
  let references := map (as_trios i (in_subset inp)) entries in
  let missing := flat_map (fun sr => if zlen (snd sr) =? 0 then [fst sr] else []) (enumerate references) in
  match in_missing inp with
  | NotAllowed => if 0 <? zlen missing then Err NameError else Ok (references, skip)
  | SkipMissing => Ok (references, fold_left (fun l i => update_nth (Z.to_nat i) (fun _ => true) l) missing skip)
  | _ => Ok (references, skip)
  end.

Lemma as_trios_nil i k es : zlen (as_trios i k es) = 0 <-> es = [].
Proof.
  unfold as_trios. destruct es as [|e es]; cbn [flat_map app]; [split; reflexivity|]. rewrite !zlen_cons.
  pose proof (zlen_nonneg (flat_map (fun e0 => [Z.of_nat i; k; e0]) es)). split; [lia|discriminate].
Qed.

Definition missing_of (i : nat) (k : Z) (entries : list (list Z)) : list Z :=
  flat_map (fun sr : Z * list Z => if zlen (snd sr) =? 0 then [fst sr] else []) (enumerate (map (as_trios i k) entries)).

Lemma missing_In i k entries n : In n (missing_of i k entries) <-> 0 <= n /\ nth_error entries (Z.to_nat n) = Some [].
Proof.
  unfold missing_of. rewrite in_flat_map. split.
  - intros ([s r] & I & H). cbn [fst snd] in H. destruct (zlen r =? 0) eqn:E; [|destruct H]. destruct H as [<-|[]]. apply In_enumerate in I.
    destruct I as (Hs & I). split; [exact Hs|]. rewrite nth_error_map in I. destruct (nth_error entries (Z.to_nat s)) as [es|]; [|discriminate]. cbn in I.
    injection I as <-. f_equal. apply (as_trios_nil i k). lia.
  - intros (Hn & E). exists (n, []). split; [|cbn; now left]. apply In_enumerate. split; [exact Hn|]. rewrite nth_error_map, E. reflexivity.
Qed.

Lemma missing_nil i k entries : missing_of i k entries = [] <-> ~ In [] entries.
Proof.
  split.
  - intros E I. apply In_nth_error in I. destruct I as (n & I). assert (In (Z.of_nat n) (missing_of i k entries)) as C; [|rewrite E in C; exact C].
    apply missing_In. split; [lia|]. now rewrite Nat2Z.id.
  - intros N. destruct (missing_of i k entries) as [|n l] eqn:E; [reflexivity|]. exfalso. apply N. assert (In n (missing_of i k entries)) as I by (rewrite E; now left).
    apply missing_In in I. destruct I as (_ & I). eapply nth_error_In. exact I.
Qed.

Lemma by_policy_not_allowed i inp entries skip : in_missing inp = NotAllowed ->
  (~ In [] entries -> by_policy i inp entries skip = Ok (map (as_trios i (in_subset inp)) entries, skip)) /\
  (In [] entries -> by_policy i inp entries skip = Err NameError).
Proof.
  intros Hp. unfold by_policy. rewrite Hp. cbv zeta. fold (missing_of i (in_subset inp) entries). split; intros H.
  - apply (missing_nil i (in_subset inp)) in H. rewrite H. reflexivity.
  - destruct (missing_of i (in_subset inp) entries) as [|n l] eqn:E; [apply missing_nil in E; contradiction|]. rewrite zlen_cons. pose proof (zlen_nonneg l).
    destruct (0 <? 1 + zlen l) eqn:C; [reflexivity|lia].
Qed.

Lemma by_policy_skip i inp entries skip : in_missing inp = SkipMissing -> length skip = length entries ->
  exists skip', by_policy i inp entries skip = Ok (map (as_trios i (in_subset inp)) entries, skip') /\ length skip' = length skip /\
  forall n, (n < length skip)%nat -> (nth_error skip' n = Some true <-> nth_error skip n = Some true \/ nth_error entries n = Some []).
Proof.
  intros Hp L. unfold by_policy. rewrite Hp. cbv zeta. fold (missing_of i (in_subset inp) entries). eexists. split; [reflexivity|].
  split; [apply fold_set_length|]. intros n Hn. rewrite fold_set_nth by (intros x Hx; apply missing_In in Hx; tauto).
  destruct (in_dec Z.eq_dec (Z.of_nat n) (missing_of i (in_subset inp) entries)) as [I|N].
  - apply missing_In in I. rewrite Nat2Z.id in I. destruct (nth_error skip n) eqn:E; [|apply nth_error_None in E; lia]. cbn [option_map]. split; [tauto|reflexivity].
  - split; [tauto|]. intros [H|H]; [exact H|]. exfalso. apply N. apply missing_In. rewrite Nat2Z.id. split; [lia|exact H].
Qed.

Lemma find_unfold ds start end_ inp skip i d ss patterns groups entries :
  period start end_ -> subset_of ds (in_dataset inp) (in_subset inp) i d ss -> ss_patterns ss = Some patterns ->
  (if annual_unique patterns then batch_groups_by_time start end_ (ss_matches ss)
   else batch_groups_by_name start end_ (operations start end_) patterns (ss_matches ss)) = Ok groups ->
  mapM (batch_entries (policy_eqb (in_missing inp) Allowed) (if annual_unique patterns then batch_days start end_ else batch_days_unrounded start end_) groups)
       (zrange 0 (operations start end_)) = Ok entries ->
  batch_find_references ds start end_ inp skip = by_policy i inp entries skip.
Proof.
  intros P Hsub Hp Eg Ee. unfold batch_find_references. rewrite annual_count_value by assumption. cbn [bind].
  assert (datasubset ds (in_dataset inp) (in_subset inp) = Some ss) as -> by (apply datasubset_spec; eauto).
  assert (datasetindex ds (in_dataset inp) = Some i) as -> by (apply datasetindex_spec; exists d; apply Hsub).
  rewrite Hp, Eg. cbn [bind]. cbv zeta. rewrite Ee. reflexivity.
Qed.

(* The entries of the operations when the pattern tells the year. *)
Definition entries_of (start end_ : Z) (files : list entry) (times : list Z) (allowed : bool) (k : Z) : list Z :=
  if allowed then entries_by_time start end_ times k
  else match year_files start k times with [] => [] | _ => entries_by_time start end_ times k end.

Lemma entries_value start end_ files times groups allowed : period start end_ -> Forall2 dated files times ->
  (forall k, dict_get Z.eqb groups k = match year_files start k times with [] => None | _ => Some (entries_by_time start end_ times k) end) ->
  mapM (batch_entries allowed (batch_days start end_) groups) (zrange 0 (operations start end_)) =
  Ok (map (entries_of start end_ files times allowed) (zrange 0 (operations start end_))).
Proof.
  intros P D H. apply mapM_value. intros k Hk. apply zrange_In in Hk. pose proof (operations_range _ _ P) as R.
  pose proof P as (Ws & We & _ & Y1 & _). unfold batch_entries, entries_of. rewrite H. rewrite batch_days_value by (assumption || lia).
  destruct allowed; cbn [bind].
  - destruct (year_files start k times) eqn:E; [|reflexivity]. f_equal. apply (no_files_default start end_ files times D).
    now apply (year_files_nil start files times D).
  - destruct (year_files start k times); reflexivity.
Qed.

Lemma find_by_time ds start end_ inp skip i d ss patterns times :
  period start end_ -> subset_of ds (in_dataset inp) (in_subset inp) i d ss -> ss_patterns ss = Some patterns -> annual_unique patterns = true ->
  Forall2 dated (ss_matches ss) times ->
  batch_find_references ds start end_ inp skip =
  by_policy i inp (map (entries_of start end_ (ss_matches ss) times (policy_eqb (in_missing inp) Allowed)) (zrange 0 (operations start end_))) skip.
Proof.
  intros P Hsub Hp Hu D. destruct (groups_by_time_value start end_ _ _ P D) as (groups & Eg & H).
  eapply find_unfold; eauto; rewrite Hu; [exact Eg|]. now apply entries_value.
Qed.

(* ------------------------------------------------------------------ patterns without the year *)

Lemma replace2_absent c1 c2 r s : contains2 c1 c2 s = false -> replace2 c1 c2 r s = s.
Proof.
  induction s as [|a s IH]; [reflexivity|]. destruct s as [|b s]; [reflexivity|]. intros H.
  cbn [contains2] in H. apply orb_false_iff in H. destruct H as (H1 & H2). cbn [replace2]. rewrite H1. f_equal. now apply IH.
Qed.

Lemma occurs_app_l x a b : occurs x a -> occurs x (a ++ b)%string.
Proof. intros (u & v & ->). exists u, (v ++ b)%string. now rewrite !string_app_assoc. Qed.
Lemma occurs_app_r x a b : occurs x b -> occurs x (a ++ b)%string.
Proof. intros (u & v & ->). exists (a ++ u)%string, v. now rewrite !string_app_assoc. Qed.

Lemma occurs_concat x p ps : In p ps -> occurs x p -> occurs x (String.concat "" ps).
Proof.
  induction ps as [|q ps IH]; intros I O; [destruct I|]. destruct ps as [|q' ps].
  - destruct I as [->|[]]. exact O.
  - change (String.concat "" (q :: q' :: ps)) with (q ++ "" ++ String.concat "" (q' :: ps))%string. destruct I as [->|I]; [now apply occurs_app_l|].
    apply occurs_app_r, occurs_app_r. now apply IH.
Qed.

Lemma name_without_year patterns t t' : annual_unique patterns = false ->
  (dt_month t, dt_day t, dt_hour t, dt_minute t, dt_second t) = (dt_month t', dt_day t', dt_hour t', dt_minute t', dt_second t') ->
  filename_from_patterns patterns t = filename_from_patterns patterns t'.
Proof.
  intros U E. unfold filename_from_patterns. f_equal. apply map_ext_in. intros p I. rewrite !build_from_pattern_eq.
  assert (contains2 "%" "Y" p = false) as N.
  { destruct (contains2 "%" "Y" p) eqn:C; [|reflexivity]. apply contains2_occurs in C. apply (occurs_concat _ _ _ I) in C. apply contains2_occurs in C.
    unfold annual_unique in U. congruence. }
  rewrite !(replace2_absent _ _ _ p N). assert (forall a b c d e a' b' c' d' e' : Z, (a, b, c, d, e) = (a', b', c', d', e') -> a = a' /\ b = b' /\ c = c' /\ d = d' /\ e = e') as Q by (intros; repeat split; congruence).
  apply Q in E. destruct E as (-> & -> & -> & -> & ->). reflexivity.
Qed.

Lemma batch_days_unrounded_value start end_ i : whole_seconds_from EPOCH start -> whole_seconds_from EPOCH end_ -> start mod DAY = 0 ->
  1 <= dt_year start + i <= 9997 -> batch_days_unrounded start end_ i = Ok (days_of_operation start end_ i).
Proof.
  intros Ws We M H. unfold batch_days_unrounded. rewrite day_numbers_value by assumption. cbn [bind]. f_equal.
  rewrite !days_since_whole by assumption. rewrite days_of_operation_range.
  rewrite (filter_zrange _ (day_of start) (day_of end_ + 1)); [f_equal; lia|]. intros d _.
  assert (day_of start * DAY = start - EPOCH) as Es by (rewrite day_of_ord, EPOCH_E0; unfold DAY in *; lia).
  assert (d * DAY <=? end_ - EPOCH = (d <? day_of end_ + 1)) as ->.
  { unfold day_of. unfold DAY. destruct (d * 86400000000 <=? end_ - EPOCH) eqn:X; lia. }
  f_equal. rewrite <- Es. unfold DAY. lia.
Qed.

Lemma first_of_year_fields y : (dt_month (ymd2ord y 1 1 * DAY), dt_day (ymd2ord y 1 1 * DAY), dt_hour (ymd2ord y 1 1 * DAY), dt_minute (ymd2ord y 1 1 * DAY), dt_second (ymd2ord y 1 1 * DAY)) = (1, 1, 0, 0, 0).
Proof.
  unfold dt_month, dt_day, dt_hour, dt_minute, dt_second. rewrite Z.div_mul, Z.mod_mul by (unfold DAY; lia).
  rewrite ord2ymd_ymd2ord by (lia || (assert (days_in_month y 1 = 31) as -> by reflexivity; lia)). reflexivity.
Qed.

Lemma filename_ok patterns t : patterns <> [] -> exists n, filename_from_patterns patterns t = Ok n.
Proof. destruct patterns as [|p ps]; [congruence|]. intros _. eexists. reflexivity. Qed.

Lemma named_dict files name e : dict_get String.eqb (map (fun im => (en_name (snd im), fst im)) (enumerate files)) name = Some e <-> last_named files name e.
Proof.
  rewrite dict_get_last. unfold last_named. split.
  - intros (n & En & L). rewrite nth_error_map, nth_enumerate in En. destruct (nth_error files n) as [f|] eqn:Ef; [|discriminate]. cbn in En.
    injection En as En Ee. subst. split; [lia|]. split; [exists f; now rewrite Nat2Z.id|]. intros e' f' Hl E'.
    apply (L (Z.to_nat e') (en_name f') (Z.of_nat (Z.to_nat e'))); [lia|]. rewrite nth_error_map, nth_enumerate, E'. reflexivity.
  - intros (He & (f & Ef & En) & L). exists (Z.to_nat e). split.
    + rewrite nth_error_map, nth_enumerate, Ef. cbn. rewrite En. do 2 f_equal. lia.
    + intros e' k' v' Hl E'. rewrite nth_error_map, nth_enumerate in E'. destruct (nth_error files e') as [f'|] eqn:Ef'; [|discriminate]. cbn in E'.
      injection E' as <- _. apply (L (Z.of_nat e') f'); [lia|]. now rewrite Nat2Z.id.
Qed.

Lemma enumerate_const {A} (x : A) n : 0 <= n -> enumerate (map (fun _ : Z => x) (zrange 0 n)) = map (fun k => (k, x)) (zrange 0 n).
Proof.
  intros Hn. unfold enumerate, zrange. rewrite !map_length, seq_length, !map_map. generalize (seq 0 (Z.to_nat (n - 0))).
  intros l. induction l as [|a l IH]; [reflexivity|]. cbn [map combine]. f_equal. exact IH.
Qed.

Lemma groups_by_name_value start end_ patterns files name : period start end_ -> start mod DAY = 0 -> patterns <> [] -> annual_unique patterns = false ->
  (forall t, (dt_month t, dt_day t, dt_hour t, dt_minute t, dt_second t) = (1, 1, 0, 0, 0) -> filename_from_patterns patterns t = Ok name) ->
  batch_groups_by_name start end_ (operations start end_) patterns files =
  Ok (match dict_get String.eqb (map (fun im => (en_name (snd im), fst im)) (enumerate files)) name with
      | Some m => map (fun k => (k, map (fun _ => m) (days_of_operation start end_ k))) (zrange 0 (operations start end_))
      | None => []
      end).
Proof.
  intros P M Np U Hn. pose proof (operations_range _ _ P) as R. pose proof P as (Ws & We & _ & Y1 & _). unfold batch_groups_by_name. cbv zeta.
  set (o := dict_get String.eqb _ name).
  rewrite (mapM_value _ (fun _ => o)).
  2:{ intros k Hk. apply zrange_In in Hk. unfold timed_output_entry. rewrite annual_time_value by lia. cbn [bind]. rewrite Hn by apply first_of_year_fields. reflexivity. }
  cbn [bind]. rewrite enumerate_const by lia. destruct o as [m|].
  - rewrite (mapM_value _ (fun sm => [(fst sm, map (fun _ => m) (days_of_operation start end_ (fst sm)))])).
    + cbn [bind]. f_equal. rewrite map_map. cbn [fst]. induction (zrange 0 (operations start end_)) as [|k l IH]; [reflexivity|]. cbn [map concat app]. now rewrite IH.
    + intros sm I. apply in_map_iff in I. destruct I as (k & <- & I). apply zrange_In in I. cbn [fst snd]. rewrite batch_days_unrounded_value by (assumption || lia). reflexivity.
  - rewrite (mapM_value _ (fun _ => [])).
    + cbn [bind]. f_equal. rewrite map_map. induction (zrange 0 (operations start end_)) as [|k l IH]; [reflexivity|exact IH].
    + intros sm I. apply in_map_iff in I. destruct I as (k & <- & I). reflexivity.
Qed.

Lemma dict_get_range {V} (F : Z -> V) n k : 0 <= k < n -> dict_get Z.eqb (map (fun k => (k, F k)) (zrange 0 n)) k = Some (F k).
Proof.
  intros H. apply dict_get_NoDup.
  - intros; lia.
  - rewrite map_map. cbn [fst]. rewrite map_id. apply zrange_NoDup.
  - apply in_map_iff. exists k. split; [reflexivity|]. apply zrange_In. lia.
Qed.

Lemma operation_nonempty start end_ k : period start end_ -> ~ in_last_second end_ -> 0 <= k < operations start end_ -> days_of_operation start end_ k <> [].
Proof.
  intros P N Hk. assert (last_second_of_year end_ = false) as L. { destruct (last_second_of_year end_) eqn:L; [|reflexivity]. apply last_second_spec in L. contradiction. }
  unfold operations in Hk. rewrite L in Hk. destruct P as (_ & _ & Le & _). apply day_of_mono in Le. rewrite days_of_operation_range.
  pose proof (in_year_days start). pose proof (in_year_days end_). pose proof (y0_next (dt_year start + k)).
  assert (y0 (dt_year start + k) <= day_of end_). { pose proof (y0_mono (dt_year start + k) (dt_year end_) ltac:(lia)). lia. }
  assert (day_of start < y0 (dt_year start + k + 1)). { pose proof (y0_mono (dt_year start + 1) (dt_year start + k + 1) ltac:(lia)). lia. }
  rewrite zrange_cons by lia. discriminate.
Qed.

Lemma find_by_name ds start end_ inp skip i d ss patterns e name :
  period start end_ -> ~ in_last_second end_ -> start mod DAY = 0 -> subset_of ds (in_dataset inp) (in_subset inp) i d ss -> ss_patterns ss = Some patterns ->
  annual_unique patterns = false -> patterns <> [] ->
  (forall t, (dt_month t, dt_day t, dt_hour t, dt_minute t, dt_second t) = (1, 1, 0, 0, 0) -> filename_from_patterns patterns t = Ok name) ->
  last_named (ss_matches ss) name e ->
  batch_find_references ds start end_ inp skip =
  Ok (map (fun k => as_trios i (in_subset inp) (map (fun _ => e) (days_of_operation start end_ k))) (zrange 0 (operations start end_)), skip).
Proof.
  intros P N M Hsub Hp U Np Hn He. pose proof (operations_range _ _ P) as R. pose proof P as (Ws & We & _ & Y1 & _).
  pose proof (groups_by_name_value start end_ patterns (ss_matches ss) name P M Np U Hn) as G. rewrite (proj2 (named_dict _ _ _) He) in G.
  set (F := fun k => map (fun _ : Z => e) (days_of_operation start end_ k)) in *.
  assert (mapM (batch_entries (policy_eqb (in_missing inp) Allowed) (batch_days_unrounded start end_) (map (fun k => (k, F k)) (zrange 0 (operations start end_))))
               (zrange 0 (operations start end_)) = Ok (map F (zrange 0 (operations start end_)))) as Ee.
  { apply mapM_value. intros k Hk. apply zrange_In in Hk. unfold batch_entries. rewrite dict_get_range by exact Hk.
    rewrite batch_days_unrounded_value by (assumption || lia). destruct (policy_eqb _ _); reflexivity. }
  rewrite (find_unfold ds start end_ inp skip i d ss patterns (map (fun k => (k, F k)) (zrange 0 (operations start end_))) (map F (zrange 0 (operations start end_))));
    [|assumption|assumption|assumption|rewrite U; exact G|rewrite U; exact Ee].
  assert (~ In [] (map F (zrange 0 (operations start end_)))) as NI.
  { intros C. apply in_map_iff in C. destruct C as (k & C & I). apply zrange_In in I. unfold F in C. apply map_eq_nil in C. now apply (operation_nonempty start end_ k P N I). }
  destruct (in_missing inp) eqn:Em.
  - rewrite (proj1 (by_policy_not_allowed i inp _ skip Em) NI). now rewrite map_map.
  - unfold by_policy. rewrite Em. now rewrite map_map.
  - unfold by_policy. rewrite Em. cbv zeta. fold (missing_of i (in_subset inp) (map F (zrange 0 (operations start end_)))).
    apply (missing_nil i (in_subset inp)) in NI. rewrite NI. cbn [fold_left]. now rewrite map_map.
  - unfold by_policy. rewrite Em. now rewrite map_map.
Qed.

(* ------------------------------------------------------------------ outputs *)

Lemma daily_unique_nonempty patterns : daily_unique patterns = true -> patterns <> [].
Proof. intros H ->. discriminate. Qed.

(* The entry of a day. *)
Definition day_entry (patterns : list string) (d : Z) (f : entry) : Prop :=
  en_time f = Some (midnight d) /\ filename_from_patterns patterns (midnight d) = Ok (en_name f).

Lemma create_value start end_ patterns k : period start end_ -> daily_unique patterns = true -> 0 <= k < operations start end_ ->
  exists new, create_output_entries start end_ patterns k = Ok new /\ Forall2 (day_entry patterns) (days_of_operation start end_ k) new.
Proof.
  intros P U Hk. pose proof (operations_range _ _ P) as R. pose proof P as (Ws & We & _ & Y1 & _). unfold create_output_entries. rewrite U. cbn [negb].
  rewrite batch_days_value by (assumption || lia). cbn [bind]. rewrite times_of_days by assumption. cbn [bind].
  apply daily_unique_nonempty in U. destruct patterns as [|p ps]; [congruence|]. unfold filename_from_patterns at 1. cbn [map].
  set (g := fun t => fold_left join_one (map (fun p0 => build_from_pattern p0 t) ps) (build_from_pattern p t)).
  rewrite (mapM_value _ g) by reflexivity. cbn [bind]. eexists. split; [reflexivity|].
  induction (days_of_operation start end_ k) as [|d l IH]; cbn [map combine]; constructor; [|exact IH]. split; reflexivity.
Qed.

Definition refers (matches : list entry) (o : entry) (e : Z) : Prop :=
  0 <= e /\ exists f, nth_error matches (Z.to_nat e) = Some f /\ en_name f = en_name o.

Lemma refers_app matches more o e : refers matches o e -> refers (matches ++ more) o e.
Proof.
  intros (He & f & Ef & En). split; [exact He|]. exists f. split; [|exact En]. rewrite nth_error_app1; [exact Ef|]. apply nth_error_Some. congruence.
Qed.

Lemma add_entries_spec new : forall matches, NoDup (map en_name matches) ->
  exists es added, add_entries new (name_index matches) matches = (es, (name_index (matches ++ added), matches ++ added)) /\
    NoDup (map en_name (matches ++ added)) /\ Forall2 (refers (matches ++ added)) new es /\ (forall f, In f added -> In f new).
Proof.
  induction new as [|o new IH]; intros matches ND; cbn [add_entries].
  - exists [], []. rewrite app_nil_r. repeat split; [assumption|constructor|intros f []].
  - destruct (dict_get String.eqb (name_index matches) (en_name o)) as [e|] eqn:Ed.
    + destruct (IH matches ND) as (es & added & -> & ND' & F & A). cbn [fst snd]. exists (e :: es), added. split; [reflexivity|]. split; [exact ND'|].
      split; [|intros f I; right; now apply A]. constructor; [|exact F]. apply refers_app. apply dict_get_last in Ed. destruct Ed as (n & En & _).
      apply nth_name_index in En. destruct En as (f & Ef & Enm & ->). split; [lia|]. exists f. rewrite Nat2Z.id. split; [exact Ef|congruence].
    + assert (NoDup (map en_name (matches ++ [o]))) as ND1.
      { rewrite map_app. cbn [map]. apply NoDup_snoc; [assumption|].
        apply dict_get_None in Ed; [|apply String.eqb_eq]. intros C. apply Ed. apply in_map_iff in C. destruct C as (f & Ef & C).
        apply In_nth_error in C. destruct C as [n Cn]. apply in_map_iff. exists (en_name f, Z.of_nat n). split; [exact Ef|].
        apply nth_error_In with (n := n). apply nth_name_index. eauto. }
      rewrite <- name_index_snoc. destruct (IH _ ND1) as (es & added & -> & ND' & F & A). cbn [fst snd]. rewrite <- app_assoc in *. cbn [app] in *.
      exists (zlen matches :: es), (o :: added). split; [reflexivity|]. split; [exact ND'|]. split.
      * constructor; [|exact F]. pose proof (zlen_nonneg matches). split; [lia|]. exists o. split; [|reflexivity].
        rewrite nth_error_app2 by (unfold zlen; lia). replace (Z.to_nat (zlen matches) - length matches)%nat with 0%nat by (unfold zlen; lia). reflexivity.
      * intros f [<-|I]; [now left|right; now apply A].
Qed.

Lemma batch_loop_spec start end_ patterns indices : period start end_ -> daily_unique patterns = true -> Forall (fun k => 0 <= k < operations start end_) indices ->
  forall matches, NoDup (map en_name matches) ->
  exists es added, batch_output_loop start end_ patterns indices (name_index matches) matches = Ok (es, matches ++ added) /\
    NoDup (map en_name (matches ++ added)) /\
    Forall2 (fun k l => Forall2 (output_of_day patterns (matches ++ added)) (days_of_operation start end_ k) l) indices es /\
    (forall f, In f added -> exists k d, In k indices /\ In d (days_of_operation start end_ k) /\ day_entry patterns d f).
Proof.
  intros P U. induction indices as [|k indices IH]; intros Fk matches ND; cbn [batch_output_loop].
  - exists [], []. rewrite app_nil_r. repeat split; [assumption|constructor|intros f []].
  - inversion Fk as [|k' l' Hk Fr]; subst. destruct (create_value start end_ patterns k P U Hk) as (new & -> & Fn). cbn [bind].
    destruct (add_entries_spec new matches ND) as (es1 & added1 & -> & ND1 & F1 & A1). cbv zeta. cbn [fst snd].
    destruct (IH Fr _ ND1) as (es & added & -> & ND2 & F2 & A2). cbn [bind fst snd]. rewrite <- app_assoc in *.
    exists (es1 :: es), (added1 ++ added). split; [reflexivity|]. split; [exact ND2|]. split.
    + constructor; [|exact F2]. rewrite app_assoc. assert (forall m, Forall2 (refers m) new es1 -> Forall2 (output_of_day patterns m) (days_of_operation start end_ k) es1) as Q.
      { intros m. clear - Fn. revert es1. induction Fn as [|d f ds fs (Ht & Hn) _ IHn]; intros es1 F; inversion F as [|? e ? es' R Fr]; subst; constructor; [|now apply IHn].
        destruct R as (He & f' & Ef & En). split; [exact He|]. exists f'. split; [exact Ef|]. now rewrite En. }
      apply Q. clear - F1. induction F1 as [|o e os es R _ IHf]; constructor; [now apply refers_app|exact IHf].
    + intros f I. apply in_app_or in I. destruct I as [I|I].
      * apply A1 in I. apply In_nth_error in I. destruct I as (n & I). destruct (Forall2_nth_r _ _ _ _ _ Fn I) as (d & Ed & H).
        exists k, d. split; [now left|]. split; [eapply nth_error_In; exact Ed|exact H].
      * destruct (A2 f I) as (k' & d & Ik & Id & H). exists k', d. split; [now right|]. auto.
Qed.

Lemma batch_output_value ds start end_ out indices i d ss patterns :
  period start end_ -> Forall (fun k => 0 <= k < operations start end_) indices ->
  subset_of ds (out_dataset out) (out_subset out) i d ss -> ss_matches ss = [] -> ss_patterns ss = Some patterns -> daily_unique patterns = true ->
  exists entries files' ds', batch_output_resolve ds start end_ out indices = Ok (map (as_trios i (out_subset out)) entries, ds') /\
    (exists d' ss', subset_of ds' (out_dataset out) (out_subset out) i d' ss' /\ ss_patterns ss' = Some patterns /\ ss_matches ss' = files') /\
    datasets_kept ds ds' /\
    NoDup (map en_name files') /\
    Forall2 (fun k es => Forall2 (output_of_day patterns files') (days_of_operation start end_ k) es) indices entries /\
    (forall f, In f files' -> exists k d, In k indices /\ In d (days_of_operation start end_ k) /\ day_entry patterns d f).
Proof.
  intros P Fk Hsub Hm Hp U. destruct (batch_loop_spec start end_ patterns indices P U Fk [] (NoDup_nil _)) as (es & added & El & ND & F & A). cbn [app] in *.
  exists es, added.
  set (ds' := update_nth i (fun d => set_subsets d (update_nth (Z.to_nat (out_subset out)) (fun s => set_matches s added) (ds_subsets d))) ds).
  exists ds'. split.
  { unfold batch_output_resolve.
    assert (datasubset ds (out_dataset out) (out_subset out) = Some ss) as -> by (apply datasubset_spec; eauto).
    assert (datasetindex ds (out_dataset out) = Some i) as -> by (apply datasetindex_spec; exists d; apply Hsub).
    rewrite Hm. cbn [zlen length Z.of_nat Z.ltb Z.compare]. rewrite Hp. change (@nil (string * Z)) with (name_index []). rewrite El. cbn [bind fst snd]. reflexivity. }
  assert (datasets_kept ds ds') as K.
  { apply update_nth_kept. intros d' E. destruct Hsub as (R & Hk & Hn). pose proof R as (E' & _). assert (d' = d) by congruence. subst d'.
    repeat split. cbn. apply update_subset_kept. intros s Hs. congruence. }
  split; [|split; [exact K|split; [exact ND|split; [exact F|exact A]]]].
  destruct (subset_of_kept _ _ _ _ _ _ _ K Hsub) as (d' & ss' & Hsub' & Kd & Ks). exists d', ss'. split; [exact Hsub'|]. split; [destruct Ks as [-> _]; assumption|].
  destruct Hsub as (R & Hk & Hn). destruct Hsub' as (R' & _ & Hn'). pose proof R as (En & _). pose proof R' as (En' & _).
  unfold ds' in En'. rewrite nth_error_update_nth, En, Nat.eqb_refl in En'. cbn in En'. injection En' as <-. cbn [ds_subsets set_subsets] in Hn'.
  rewrite nth_error_update_nth, Hn, Nat.eqb_refl in Hn'. cbn in Hn'. injection Hn' as <-. reflexivity.
Qed.
