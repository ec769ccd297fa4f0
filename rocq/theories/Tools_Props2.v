(* C166: the table of station biases; C167: lists of files to be gridded *)
From Coq Require Import QArith Qcanon String Ascii.
From Verif Require Import Base Time_Model Time_Proofs Batch_Model Batch_Proofs Grid_Model Obs_Model Obs_Spec Obs_Proofs NcObj_Model Stn_Model Land_Model Land_Spec Land_Proofs Src_Model Tools_Model Tools_Spec Tools_Proofs.
Local Open Scope Z_scope.
Local Open Scope list_scope.

Lemma set_nth_length {A} i (x : A) l : List.length (set_nth i x l) = List.length l.
Proof. unfold set_nth. rewrite <- (firstn_skipn i l) at 3. rewrite !app_length. f_equal. now destruct (skipn i l). Qed.
Lemma set_nth_get {A} i (x : A) l p : (p < List.length l)%nat -> nth_error (set_nth i x l) p = if (p =? i)%nat then Some x else nth_error l p.
Proof.
  revert i p. induction l as [|y l IH]; intros i p H; [cbn in H; lia|]. destruct i as [|i].
  - unfold set_nth. cbn [firstn skipn app]. destruct p as [|p]; reflexivity.
  - change (set_nth (S i) x (y :: l)) with (y :: set_nth i x l). destruct p as [|p]; [reflexivity|]. cbn [nth_error Nat.eqb]. apply IH. cbn in H. lia.
Qed.
Lemma assigned_length {A} (value : nat -> A) l col : List.length (fold_left (fun col e => set_nth (fst e) (Some (value (snd e))) col) l col) = List.length col.
Proof. revert col. induction l as [|e l IH]; intros col; [reflexivity|]. cbn [fold_left]. now rewrite IH, set_nth_length. Qed.
Lemma assigned {A} (value : nat -> A) l col p i : (forall i i', In (p, i) l -> In (p, i') l -> i = i') -> (p < List.length col)%nat -> In (p, i) l ->
  nth_error (fold_left (fun col e => set_nth (fst e) (Some (value (snd e))) col) l col) p = Some (Some (value i)).
Proof.
  revert col. induction l as [|[q j] l IH] using rev_ind; intros col U P I; [destruct I|]. rewrite fold_left_app. cbn [fold_left fst snd]. rewrite set_nth_get by (rewrite assigned_length; exact P).
  destruct (Nat.eqb_spec p q) as [->|N].
  - do 3 f_equal. apply (U j i); [apply in_app_iff; right; now left|exact I].
  - apply IH; [|exact P|].
    + intros a a' J J'. apply U; apply in_app_iff; now left.
    + apply in_app_iff in I. destruct I as [I|[I|[]]]; [exact I|]. congruence.
Qed.
Lemma unassigned {A} (value : nat -> A) l col p : (forall i, ~ In (p, i) l) -> (p < List.length col)%nat ->
  nth_error (fold_left (fun col e => set_nth (fst e) (Some (value (snd e))) col) l col) p = nth_error col p.
Proof.
  revert col. induction l as [|[q j] l IH]; intros col U P; [reflexivity|]. cbn [fold_left fst snd]. rewrite IH.
  - rewrite set_nth_get by exact P. destruct (Nat.eqb_spec p q) as [->|N]; [|reflexivity]. exfalso. apply (U j). now left.
  - intros i I. apply (U i). now right.
  - now rewrite set_nth_length.
Qed.
Lemma column_length {A} n (value : nat -> A) e : List.length (column_of n value e) = n.
Proof. unfold column_of. now rewrite assigned_length, repeat_length. Qed.
Lemma column_some {A} n (value : nat -> A) e p i : (forall i i', In (p, i) (match e with Some l => l | None => [] end) -> In (p, i') (match e with Some l => l | None => [] end) -> i = i') -> (p < n)%nat ->
  In (p, i) (match e with Some l => l | None => [] end) -> nth_error (column_of n value e) p = Some (Some (value i)).
Proof. intros U P I. unfold column_of. apply assigned; [exact U|now rewrite repeat_length|exact I]. Qed.
Lemma column_none {A} n (value : nat -> A) e p : (forall i, ~ In (p, i) (match e with Some l => l | None => [] end)) -> (p < n)%nat -> nth_error (column_of n value e) p = Some None.
Proof. intros U P. unfold column_of. rewrite unassigned; [|exact U|now rewrite repeat_length]. rewrite (nth_error_nth' _ None) by now rewrite repeat_length. now rewrite nth_repeat. Qed.
Lemma next_break_unique b time s i j : breaks_ordered b -> next_break b time s i -> next_break b time s j -> i = j.
Proof.
  intros [_ O] (I & Si & Ti & Mi) (J & Sj & Tj & Mj). specialize (Mi j J Sj Tj). specialize (Mj i I Si Ti).
  destruct (Nat.lt_trichotomy i j) as [L|[L|L]]; [|exact L|]; [specialize (O i j ltac:(lia))|specialize (O j i ltac:(lia))]; lia.
Qed.
Lemma station_at n p : (p < n)%nat -> nth p (map Z.of_nat (seq 0 n)) 0 = Z.of_nat p.
Proof. intros H. apply nth_error_nth. rewrite nth_error_map, (nth_error_nth' _ 0%nat) by (rewrite seq_length; exact H). cbn [option_map]. now rewrite seq_nth. Qed.
Lemma list_max_spec l m : list_max l = Some m -> In m l /\ forall x, In x l -> x <= m.
Proof.
  destruct l as [|x l]; [discriminate|]. cbn [list_max]. intros E. injection E as <-. revert x. induction l as [|y l IH]; intros x.
  - split; [now left|]. intros z [<-|[]]. cbn. lia.
  - cbn [fold_left]. destruct (IH (Z.max x y)) as [A B]. split.
    + destruct A as [A|A]; [|right; right; exact A]. destruct (Z.max_spec x y) as [[_ M]|[_ M]]; rewrite M in *; [right; left; exact A|left; exact A].
    + intros z I. assert (Z.max x y <= fold_left Z.max l (Z.max x y)) by (apply B; now left). destruct I as [<-|[<-|I]]; [lia|lia|]. apply B. now right.
Qed.
Lemma year_start_value y : 1 <= y <= 9999 -> year_start y = Ok (ymd2ord y 1 1 - ymd2ord 1850 1 1).
Proof.
  intros H. unfold year_start, mk_datetime. match goal with |- context [if ?c then _ else _] => assert (c = true) as -> end.
  { rewrite !andb_true_iff, !Z.leb_le. pose proof (days_in_month_range y 1). lia. }
  cbn [bind]. replace (ymd2ord y 1 1 * DAY + (0 * 3600 + 0 * 60 + 0) * SECOND) with (ymd2ord y 1 1 * DAY) by lia. rewrite days_since_midnight, int_days_whole. reflexivity.
Qed.

(* For every year and every station up to the last one with a break, the table has the bias of the period of the station that the first
   of January is in, which is the one that ends with the next break, and nothing if there is no further break. *)
Theorem C166_table : forall b biases first last, breaks_ordered b -> bk_station b <> [] -> (List.length (bk_station b) <= List.length biases)%nat -> 1 <= first -> last <= 9999 ->
  exists m n, build_bias_matrix b biases first last = Ok m /\
    (forall s, In s (bk_station b) -> s <= Z.of_nat n) /\
    List.length (bm_times m) = Z.to_nat (last + 1 - first) /\ List.length (bm_index m) = Z.to_nat (last + 1 - first) /\ List.length (bm_grid m) = Z.to_nat (last + 1 - first) /\
    forall k, (k < Z.to_nat (last + 1 - first))%nat -> let time := ymd2ord (first + Z.of_nat k) 1 1 - ymd2ord 1850 1 1 in
      nth_error (bm_times m) k = Some time /\ List.length (nth k (bm_index m) []) = n /\ List.length (nth k (bm_grid m) []) = n /\
      forall s, (s < n)%nat ->
        (exists i, next_break b time (Z.of_nat s) i /\ nth_error (nth k (bm_index m) []) s = Some (Some i) /\ nth_error (nth k (bm_grid m) []) s = Some (nth_error biases i)) \/
        ((forall i, ~ next_break b time (Z.of_nat s) i) /\ nth_error (nth k (bm_index m) []) s = Some None /\ nth_error (nth k (bm_grid m) []) s = Some None).
Proof.
  intros b biases first last O N L F1 L1. unfold build_bias_matrix.
  set (time := fun y => ymd2ord y 1 1 - ymd2ord 1850 1 1).
  rewrite (mapM_value _ time). 2:{ intros y I. apply year_start_value. unfold zrange in I. apply in_map_iff in I. destruct I as (k & <- & I). apply in_seq in I. lia. }
  cbn [bind]. destruct (list_max (map (fun s => s - 1) (bk_station b))) as [mx|] eqn:M; [|destruct (bk_station b); [contradiction|discriminate]].
  apply list_max_spec in M. destruct M as [_ M]. set (n := Z.to_nat (mx + 1)). set (si := map Z.of_nat (seq 0 n)).
  assert (A : ascending si). { intros i j H. unfold si in *. rewrite map_length, seq_length in H. rewrite !station_at by lia. lia. }
  assert (E : forall t, exists e, Obs_Model.covariate_effect t si b = Ok e /\ forall p i, In (p, i) (match e with Some l => l | None => [] end) <-> (p < n)%nat /\ next_break b t (Z.of_nat p) i).
  { intros t. destruct (covariate_effect_spec t si b O A) as (e & E & _ & _ & H). exists e. split; [exact E|]. intros p i. rewrite H. unfold si. rewrite map_length, seq_length. split; intros [P Q]; (split; [exact P|]); rewrite station_at in * by exact P; exact Q. }
  set (col := fun t => match Obs_Model.covariate_effect t si b with Ok e => (column_of n (fun k => k) e, column_of n (fun k => nth k biases 0%Qc) e) | Err _ => ([], []) end).
  rewrite (mapM_value _ col).
  2:{ intros t _. unfold col. destruct (E t) as (e & Et & H). rewrite Et. cbn [bind].
      replace (forallb _ _) with true; [reflexivity|]. symmetry. apply forallb_forall. intros [p i] I. apply H in I. destruct I as [_ (I & _)]. cbn [snd]. apply Nat.ltb_lt. lia. }
  cbn [bind]. eexists. exists n. split; [reflexivity|]. cbn [bm_times bm_index bm_grid]. split.
  { intros s I. assert (s - 1 <= mx) by (apply M; apply in_map_iff; now exists s). unfold n. lia. }
  assert (LZ : List.length (map time (zrange first (last + 1))) = Z.to_nat (last + 1 - first)) by (rewrite map_length; unfold zrange; now rewrite map_length, seq_length).
  split; [exact LZ|]. split; [rewrite !map_length in *; exact LZ|]. split; [rewrite !map_length in *; exact LZ|].
  intros k K. cbv zeta. fold (time (first + Z.of_nat k)).
  assert (T : nth_error (map time (zrange first (last + 1))) k = Some (time (first + Z.of_nat k))).
  { unfold zrange. rewrite !nth_error_map. rewrite (nth_error_nth' _ 0%nat) by (rewrite seq_length; lia). rewrite seq_nth by lia. reflexivity. }
  split; [exact T|]. set (t := time (first + Z.of_nat k)) in *.
  assert (CI : nth k (map fst (map col (map time (zrange first (last + 1))))) [] = fst (col t)) by (apply nth_error_nth; do 2 rewrite nth_error_map; now rewrite T).
  assert (CG : nth k (map snd (map col (map time (zrange first (last + 1))))) [] = snd (col t)) by (apply nth_error_nth; do 2 rewrite nth_error_map; now rewrite T).
  rewrite CI, CG. unfold col. destruct (E t) as (e & Et & H). rewrite Et. cbn [fst snd]. split; [apply column_length|]. split; [apply column_length|].
  intros s S. set (es := match e with Some l => l | None => [] end) in *.
  assert (U : forall i i', In (s, i) es -> In (s, i') es -> i = i') by (intros i i' I I'; apply H in I, I'; destruct I as [_ I], I' as [_ I']; now apply (next_break_unique b t (Z.of_nat s))).
  destruct (existsb (fun e => (fst e =? s)%nat) es) eqn:X.
  - left. apply existsb_exists in X. destruct X as ([p i] & I & X). apply Nat.eqb_eq in X. cbn in X. subst p. exists i. pose proof (proj1 (H s i) I) as [_ NB]. split; [exact NB|].
    rewrite !(column_some n _ e s i U S I). split; [reflexivity|]. f_equal. symmetry. apply nth_error_nth'. destruct NB as (NB & _). lia.
  - right. assert (Y : forall i, ~ In (s, i) es). { intros i I. assert (existsb (fun e => (fst e =? s)%nat) es = true) by (apply existsb_exists; exists (s, i); split; [exact I|apply Nat.eqb_refl]). congruence. }
    split; [intros i NB; apply (Y i), H; split; [exact S|exact NB]|]. rewrite !(column_none n _ e s Y S). split; reflexivity.
Qed.
Print Assumptions C166_table.
(* Without breaks there is no table. *)
Theorem C166_no_breaks : forall b biases first last, bk_station b = [] -> 1 <= first -> last <= 9999 -> build_bias_matrix b biases first last = Err ValueError.
Proof.
  intros b biases first last E F L. unfold build_bias_matrix. rewrite (mapM_value _ (fun y => ymd2ord y 1 1 - ymd2ord 1850 1 1)).
  - cbn [bind]. now rewrite E.
  - intros y I. apply year_start_value. unfold zrange in I. apply in_map_iff in I. destruct I as (k & <- & I). apply in_seq in I. lia.
Qed.
Print Assumptions C166_no_breaks.
Definition two_breaks : breaks := {| bk_time := [400; 800; 200]; bk_station := [1; 1; 3]; bk_likelihood := [9; 9; 9] |}.
Example C166_nonvacuous : breaks_ordered two_breaks /\
  exists m, build_bias_matrix two_breaks [Q2Qc (1 # 2); 0%Qc; 1%Qc] 1850 1853 = Ok m /\ bm_times m = [0; 365; 730; 1096] /\
    bm_index m = [[Some 0; None; Some 2]; [Some 0; None; None]; [Some 1; None; None]; [None; None; None]]%nat.
Proof.
  split.
  - split; [reflexivity|]. intros i j H. cbn [two_breaks bk_station bk_time List.length] in *. assert ((i = 0 /\ j = 1) \/ (i = 0 /\ j = 2) \/ (i = 1 /\ j = 2))%nat as K by lia. destruct K as [[-> ->]|[[-> ->]|[-> ->]]]; cbn; lia.
  - eexists. split; [vm_compute; reflexivity|]. split; reflexivity.
Qed.

(* ---- C167 *)
(* A date of 12 digits is one time, to the minute. *)
Theorem C167_one_time : forall y m d hour minute, calendar_date y m d -> 0 <= hour <= 23 -> 0 <= minute <= 59 ->
  requested_times (pad4 y ++ pad2 m ++ pad2 d ++ pad2 hour ++ pad2 minute) = Ok [midnight y m d + (hour * 60 + minute) * 60 * SECOND].
Proof.
  intros y m d hour minute (Y & M & D) H N. assert (D31 : d <= 31) by (unfold days_in_month in D; repeat match type of D with context [if ?b then _ else _] => destruct b end; lia).
  unfold requested_times. cbn [pad4 pad2 String.append String.length]. rewrite Nat.eqb_refl. unfold strptime_minute.
  match goal with |- context [match_fields _ ?s] => change s with (pad4 y ++ pad2 m ++ pad2 d ++ pad2 hour ++ pad2 minute)%string end.
  assert (match_fields [field_Y; field_m; field_d; field_H; field_M] (pad4 y ++ pad2 m ++ pad2 d ++ pad2 hour ++ pad2 minute)%string = Some ([y; m; d; hour; minute], EmptyString)) as ->.
  { eapply match_fields_cons; [apply field_Y_pad4; lia|].
    destruct (field_m_gives m) with (s := (pad2 d ++ pad2 hour ++ pad2 minute)%string) as [l1 E1]; [lia|]. eapply match_fields_cons; [exact E1|].
    destruct (field_d_gives d) with (s := (pad2 hour ++ pad2 minute)%string) as [l2 E2]; [lia|]. eapply match_fields_cons; [exact E2|].
    destruct (field_H_gives hour) with (s := pad2 minute) as [l3 E3]; [lia|]. eapply match_fields_cons; [exact E3|].
    destruct (field_M_gives minute) with (s := ""%string) as [l4 E4]; [lia|]. rewrite <- (append_nil_r (pad2 minute)). eapply match_fields_cons; [exact E4|]. reflexivity. }
  unfold mk_datetime, midnight. match goal with |- context [if ?b then _ else _] => assert (b = true) as -> by lia end. cbn [bind]. do 2 f_equal. lia.
Qed.
Print Assumptions C167_one_time.
(* A date of 8 digits is the whole day in steps of five minutes. *)
Theorem C167_whole_day : forall y m d, calendar_date y m d ->
  requested_times (pad4 y ++ pad2 m ++ pad2 d) = Ok (map (fun k => midnight y m d + Z.of_nat k * (5 * 60 * SECOND)) (seq 0 288)).
Proof.
  intros y m d C. unfold requested_times. change (String.length (pad4 y ++ pad2 m ++ pad2 d) =? 12)%nat with false. rewrite strptime_ok by exact C. cbn [bind].
  assert (DF : dt_year (midnight y m d) = y /\ dt_month (midnight y m d) = m /\ dt_day (midnight y m d) = d).
  { destruct C as (Y & M & D). unfold dt_year, dt_month, dt_day, midnight. rewrite Z.div_mul by (unfold DAY; lia). rewrite (ord2ymd_ymd2ord y m d M D). repeat split. }
  destruct DF as (-> & -> & ->). destruct C as (Y & M & D).
  rewrite (mapM_value _ (fun hm => midnight y m d + (fst hm * 3600 + snd hm * 60) * SECOND)).
  - generalize (midnight y m d). intros t. reflexivity.
  - intros [h k] I. apply in_flat_map in I. destruct I as (hour & I & J). unfold zrange in I, J. apply in_map_iff in I, J. destruct I as (i & <- & I). destruct J as (j' & E & J). apply in_map_iff in J. destruct J as (j & <- & J). assert (h = 0 + Z.of_nat i) as -> by congruence. assert (k = 5 * (0 + Z.of_nat j)) as -> by congruence. clear E. apply in_seq in I, J. cbn [fst snd].
    unfold mk_datetime, midnight. match goal with |- (if ?b then _ else _) = _ => assert (b = true) as -> by lia end. f_equal. lia.
Qed.
Print Assumptions C167_whole_day.
(* So these times are on that day, one after the other. *)
Theorem C167_on_the_day : forall y m d times, calendar_date y m d -> requested_times (pad4 y ++ pad2 m ++ pad2 d) = Ok times ->
  List.length times = 288%nat /\ (forall t, In t times -> midnight y m d <= t < midnight y m d + DAY) /\ (forall i j, (i < j < 288)%nat -> nth i times 0 < nth j times 0).
Proof.
  intros y m d times C E. rewrite C167_whole_day in E by exact C. assert (times = map (fun k => midnight y m d + Z.of_nat k * (5 * 60 * SECOND)) (seq 0 288)) as -> by congruence. clear E.
  split; [now rewrite map_length, seq_length|]. generalize (midnight y m d). intros t0. split.
  - intros t I. apply in_map_iff in I. destruct I as (k & <- & I). apply in_seq in I. unfold SECOND, DAY. lia.
  - intros i j H. assert (K : forall k, (k < 288)%nat -> nth k (map (fun k => t0 + Z.of_nat k * (5 * 60 * SECOND)) (seq 0 288)) 0 = t0 + Z.of_nat k * (5 * 60 * SECOND)).
    { intros k L. apply nth_error_nth. rewrite nth_error_map, (nth_error_nth' _ 0%nat) by (rewrite seq_length; exact L). cbn [option_map]. now rewrite seq_nth. }
    rewrite !K by lia. unfold SECOND. lia.
Qed.
Print Assumptions C167_on_the_day.
(* For each of these times there is one pair of names, both made for that time. *)
Theorem C167_pairs : forall strftime path pattern_lst pattern_aux date times, requested_times date = Ok times ->
  exists files, requested_files strftime path pattern_lst pattern_aux date = Ok files /\ List.length files = List.length times /\
    forall k t, nth_error times k = Some t -> nth_error files k = Some (join_one path (strftime pattern_lst t), join_one path (strftime pattern_aux t)).
Proof.
  intros strftime path pl pa date times E. unfold requested_files. rewrite E. cbn [bind]. eexists. split; [reflexivity|]. split; [apply map_length|]. intros k t H. now rewrite nth_error_map, H.
Qed.
Print Assumptions C167_pairs.
Example C167_nonvacuous : calendar_date 2016 2 29 /\ requested_times "201602291205" = Ok [midnight 2016 2 29 + 725 * 60 * SECOND] /\ requested_times "20150229" = Err ValueError.
Proof. split; [vm_compute; repeat split; discriminate|]. split; vm_compute; reflexivity. Qed.

(* Operations for one day: each observation file is gridded with the first auxiliary file of the same time, in the order of the observation files. *)
Theorem C167_matched : forall A (lst aux : list (A * Z)), (forall r t, In (r, t) lst -> exists x, In (x, t) aux) ->
  exists inputs pairs, matched_inputs lst aux = Ok inputs /\ input_pairs inputs = Ok pairs /\ List.length pairs = List.length lst /\
    forall k r t, nth_error lst k = Some (r, t) -> exists x before after, aux = before ++ (x, t) :: after /\ Forall (fun y => snd y <> t) before /\ nth_error pairs k = Some (r, x).
Proof.
  intros A lst aux. induction lst as [|[r t] lst IH]; intros H.
  - exists [], []. split; [reflexivity|]. split; [reflexivity|]. split; [reflexivity|]. intros [|k]; discriminate.
  - destruct IH as (inputs & pairs & E & P & L & K); [intros r' t' I; apply (H r' t'); now right|]. cbn [matched_inputs]. destruct (find (fun x => snd x =? t) aux) as [[x t']|] eqn:F.
    + rewrite E. cbn [bind fst]. exists (r :: x :: inputs), ((r, x) :: pairs). split; [reflexivity|]. cbn [input_pairs]. rewrite P. cbn [bind]. split; [reflexivity|]. split; [cbn; congruence|].
      intros [|k] r' t0 N; [|now apply K]. cbn in N. injection N as <- <-. exists x.
      clear - F. induction aux as [|[y u] aux IH]; [discriminate|]. cbn [find snd] in F. destruct (Z.eqb_spec u t) as [->|N].
      * injection F as -> ->. exists [], aux. split; [reflexivity|]. split; [constructor|reflexivity].
      * destruct (IH F) as (b & a & -> & B & _). exists ((y, u) :: b), a. split; [reflexivity|]. split; [constructor; [exact N|exact B]|reflexivity].
    + exfalso. destruct (H r t (or_introl eq_refl)) as (x & I). pose proof (find_none _ _ F _ I) as Z. cbn in Z. rewrite Z.eqb_refl in Z. discriminate.
Qed.
Print Assumptions C167_matched.
(* An observation file without auxiliary file fails the whole specification. *)
Theorem C167_unmatched : forall A (lst aux : list (A * Z)) r t, In (r, t) lst -> (forall x, ~ In (x, t) aux) -> matched_inputs lst aux = Err KeyError.
Proof.
  intros A lst aux r t I N. induction lst as [|[r' t'] lst IH]; [destruct I|]. cbn [matched_inputs]. destruct (find (fun x => snd x =? t') aux) as [[x u]|] eqn:F; [|reflexivity].
  destruct I as [I|I].
  - injection I as -> ->. apply find_some in F. destruct F as [F Z]. cbn in Z. apply Z.eqb_eq in Z. subst u. now apply N in F.
  - now rewrite (IH I).
Qed.
Print Assumptions C167_unmatched.
(* Pathnames that are not pairs are refused. *)
Theorem C167_odd : forall A (l : list A), Nat.odd (List.length l) = true <-> input_pairs l = Err IndexError.
Proof.
  assert (G : forall n A (l : list A), (List.length l <= n)%nat -> (Nat.odd (List.length l) = true <-> input_pairs l = Err IndexError)).
  { induction n as [|n IH]; intros A l H.
    - destruct l; [|cbn in H; lia]. split; discriminate.
    - destruct l as [|a [|b l]]; [split; discriminate|split; reflexivity|]. cbn [List.length] in *. cbn [input_pairs]. change (Nat.odd (S (S (List.length l)))) with (Nat.odd (List.length l)). rewrite (IH A l) by lia.
      destruct (input_pairs l) as [p|e]; cbn [bind]; split; try discriminate; intros E; congruence. }
  intros A l. now apply (G (List.length l)).
Qed.
Print Assumptions C167_odd.
Example C167_matched_nonvacuous : matched_inputs [("a", 5); ("b", 10)]%string [("x", 10); ("y", 5); ("z", 5)]%string = Ok ["a"; "y"; "b"; "x"]%string /\
  input_pairs ["a"; "y"; "b"; "x"]%string = Ok [("a", "y"); ("b", "x")]%string.
Proof. split; reflexivity. Qed.
