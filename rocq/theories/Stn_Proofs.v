(* Lemmas about station data. *)
From Coq Require Import QArith Qabs Qround String Ascii Lqa.
From Verif Require Import Base Stn_Model Stn_Spec.
Local Open Scope list_scope.
Local Open Scope nat_scope.

(* ---- times *)

Lemma same_time_near a b : same_time a b = true <-> near a b.
Proof.
  unfold same_time, near, RESOLUTION. rewrite negb_true_iff, Qabs_Qminus. split; intros H.
  - apply Qnot_le_lt. intros Hle. apply Qle_bool_iff in Hle. congruence.
  - destruct (Qle_bool _ _) eqn:E; [|reflexivity]. apply Qle_bool_iff in E. exfalso. apply (Qlt_not_le _ _ H E).
Qed.
Lemma near_refl a b : (a == b)%Q -> near a b.
Proof. intros H. unfold near. setoid_replace (a - b)%Q with 0%Q by (rewrite H; ring). reflexivity. Qed.
Lemma near_sym a b : near a b -> near b a.
Proof. unfold near. rewrite Qabs_Qminus. auto. Qed.
Lemma truncate_comp a b : (a == b)%Q -> truncate a = truncate b.
Proof.
  intros H. unfold truncate. replace (Qle_bool 0 b) with (Qle_bool 0 a).
  - destruct (Qle_bool 0 a); [apply Qfloor_comp, H|apply Qceiling_comp, H].
  - destruct (Qle_bool 0 a) eqn:Ea, (Qle_bool 0 b) eqn:Eb; try reflexivity.
    + apply Qle_bool_iff in Ea. rewrite H in Ea. apply Qle_bool_iff in Ea. congruence.
    + apply Qle_bool_iff in Eb. rewrite <- H in Eb. apply Qle_bool_iff in Eb. congruence.
Qed.
Lemma hash_comp a b : (a == b)%Q -> time_hash a = time_hash b.
Proof. intros H. unfold time_hash. rewrite (truncate_comp a b H). reflexivity. Qed.

Definition apart (l : list Q) : Prop := forall u v, In u l -> In v l -> time_hash u = time_hash v -> near u v -> u = v.
Fixpoint distinctQ (l : list Q) : Prop := match l with [] => True | x :: r => (forall y, In y r -> ~ (x == y)%Q) /\ distinctQ r end.
Lemma distinctQ_snoc l t : distinctQ l -> (forall u, In u l -> ~ (u == t)%Q) -> distinctQ (l ++ [t]).
Proof.
  induction l as [|x l IH]; intros Hd Ht; cbn [app distinctQ]; [split; [intros y []|exact I]|]. destruct Hd as [H1 H2]. split.
  - intros y Hy. apply in_app_or in Hy. destruct Hy as [Hy|[<-|[]]]; [apply H1, Hy|apply Ht; left; reflexivity].
  - apply IH; [exact H2|]. intros u Hu. apply Ht. right. exact Hu.
Qed.
Lemma set_add_spec l t : distinctQ l -> apart l ->
  distinctQ (set_add l t) /\ apart (set_add l t) /\ (forall u, In u (set_add l t) -> In u l \/ u = t) /\ (forall u, In u l -> In u (set_add l t)) /\
  exists u, In u (set_add l t) /\ time_hash u = time_hash t /\ near u t.
Proof.
  intros Hd Ha. unfold set_add. destruct (existsb (fun u => (time_hash u =? time_hash t)%Z && same_time u t) l) eqn:E.
  - split; [exact Hd|split; [exact Ha|split; [auto|split; [auto|]]]]. apply existsb_exists in E. destruct E as (u & Hu & Hb). apply andb_true_iff in Hb.
    destruct Hb as [Hb1 Hb2]. apply Z.eqb_eq in Hb1. apply same_time_near in Hb2. exists u. auto.
  - assert (Hno : forall u, In u l -> time_hash u = time_hash t -> near u t -> False).
    { intros u Hu Hh Hn. assert (K : existsb (fun u => (time_hash u =? time_hash t)%Z && same_time u t) l = true); [|congruence].
      apply existsb_exists. exists u. split; [exact Hu|]. apply andb_true_iff. split; [apply Z.eqb_eq, Hh|apply same_time_near, Hn]. }
    split; [|split; [|split; [|split]]].
    + apply distinctQ_snoc; [exact Hd|]. intros u Hu Hq. apply (Hno u Hu); [apply hash_comp, Hq|apply near_refl, Hq].
    + intros u v Hu Hv Hh Hn. apply in_app_or in Hu, Hv. destruct Hu as [Hu|[<-|[]]], Hv as [Hv|[<-|[]]].
      * apply Ha; assumption.
      * destruct (Hno u Hu Hh Hn).
      * destruct (Hno v Hv (eq_sym Hh) (near_sym _ _ Hn)).
      * reflexivity.
    + intros u Hu. apply in_app_or in Hu. destruct Hu as [Hu|[<-|[]]]; auto.
    + intros u Hu. apply in_or_app. left. exact Hu.
    + exists t. split; [apply in_or_app; right; left; reflexivity|split; [reflexivity|apply near_refl; reflexivity]].
Qed.
Lemma time_set_from ts : forall l0, distinctQ l0 -> apart l0 ->
  distinctQ (fold_left set_add ts l0) /\ apart (fold_left set_add ts l0) /\ (forall u, In u (fold_left set_add ts l0) -> In u l0 \/ In u ts) /\
  (forall u, In u l0 -> In u (fold_left set_add ts l0)) /\
  forall t, In t ts -> exists u, In u (fold_left set_add ts l0) /\ time_hash u = time_hash t /\ near u t.
Proof.
  induction ts as [|t ts IH]; intros l0 Hd Ha; cbn [fold_left].
  - split; [exact Hd|split; [exact Ha|split; [auto|split; [auto|intros t []]]]].
  - destruct (set_add_spec l0 t Hd Ha) as (S1 & S2 & S3 & S4 & (u0 & S5 & S6 & S7)). destruct (IH (set_add l0 t) S1 S2) as (H1 & H2 & H3 & H4 & H5).
    split; [exact H1|split; [exact H2|split; [|split]]].
    + intros u Hu. destruct (H3 u Hu) as [K|K]; [|right; right; exact K]. destruct (S3 u K) as [K2| ->]; [left; exact K2|right; left; reflexivity].
    + intros u Hu. apply H4, S4, Hu.
    + intros t' [<-|Ht']; [|apply H5, Ht']. exists u0. split; [apply H4, S5|split; assumption].
Qed.
Lemma insert_In t l x : In x (insert t l) <-> x = t \/ In x l.
Proof.
  induction l as [|u l IH]; cbn [insert]; [cbn; intuition|]. destruct (Qle_bool t u); cbn [In]; [intuition|]. rewrite IH. intuition.
Qed.
Lemma sort_In l x : In x (sort l) <-> In x l.
Proof. induction l as [|u l IH]; [reflexivity|]. change (sort (u :: l)) with (insert u (sort l)). rewrite insert_In, IH. cbn. intuition. Qed.
Lemma insert_increasing t l : increasing l -> (forall y, In y l -> ~ (t == y)%Q) -> increasing (insert t l).
Proof.
  induction l as [|u l IH]; intros Hi Hn; cbn [insert]; [cbn; split; [intros y []|exact I]|]. destruct (Qle_bool t u) eqn:E.
  - apply Qle_bool_iff in E. assert (Hlt : (t < u)%Q).
    { apply Qle_lteq in E. destruct E as [E|E]; [exact E|]. destruct (Hn u (or_introl eq_refl) E). }
    destruct Hi as [H1 H2]. cbn [increasing]. split; [|split; assumption]. intros y [<-|Hy]; [exact Hlt|]. apply (Qlt_trans _ u); [exact Hlt|apply H1, Hy].
  - assert (Hlt : (u < t)%Q) by (apply Qnot_le_lt; intros Hle; apply Qle_bool_iff in Hle; congruence).
    destruct Hi as [H1 H2]. cbn [increasing]. split; [|apply IH; [exact H2|intros y Hy; apply Hn; right; exact Hy]].
    intros y Hy. apply insert_In in Hy. destruct Hy as [-> |Hy]; [exact Hlt|apply H1, Hy].
Qed.
Lemma sort_increasing l : distinctQ l -> increasing (sort l).
Proof.
  induction l as [|u l IH]; intros Hd; [exact I|]. destruct Hd as [H1 H2]. apply insert_increasing; [apply IH, H2|]. intros y Hy. apply (proj1 (sort_In _ _)) in Hy. apply H1, Hy.
Qed.
Lemma unique_times_spec d :
  increasing (unique_times d) /\ (forall t, In t (unique_times d) -> exists s, In s (samples d) /\ s_time s = t) /\
  (forall s, In s (samples d) -> exists t, In t (unique_times d) /\ near t (s_time s)) /\ apart (unique_times d).
Proof.
  unfold unique_times, time_set. destruct (time_set_from (map s_time (samples d)) [] I) as (H1 & H2 & H3 & _ & H5); [intros u v []|].
  split; [apply sort_increasing, H1|split; [|split]].
  - intros t Ht. apply (proj1 (sort_In _ _)) in Ht. destruct (H3 t Ht) as [[]|K]. apply in_map_iff in K. destruct K as (s & <- & Hs). exists s. auto.
  - intros s Hs. destruct (H5 (s_time s) (in_map s_time _ _ Hs)) as (u & Hu & _ & Hn). exists u. split; [apply sort_In, Hu|exact Hn].
  - intros u v Hu Hv. apply H2; apply sort_In; assumption.
Qed.

(* ---- indices *)

Lemma index_from_spec ns : forall k name j, index_from k ns name = Some j <-> k <= j /\ column_of ns name (j - k).
Proof.
  induction ns as [|n ns IH]; intros k name j; cbn [index_from].
  - split; [discriminate|]. intros [_ [H _]]. destruct (j - k); discriminate.
  - destruct (index_from (S k) ns name) as [i|] eqn:E.
    + split.
      * intros H. injection H as <-. apply IH in E. destruct E as [Hle [Hn Hl]]. split; [lia|]. replace (i - k) with (S (i - S k)) by lia. split; [exact Hn|].
        intros j' Hj'. destruct j' as [|j']; [lia|]. cbn. apply Hl. lia.
      * intros [Hle [Hn Hl]]. apply IH in E. destruct E as [Hle2 [Hn2 Hl2]]. f_equal.
        destruct (Nat.eq_dec i j) as [|Hne]; [assumption|exfalso]. destruct (j - k) as [|m] eqn:Em.
        -- apply (Hl (S (i - S k)) ltac:(lia)). exact Hn2.
        -- cbn in Hn. destruct (lt_eq_lt_dec m (i - S k)) as [[Hm|Hm]|Hm].
           ++ apply (Hl (S (i - S k)) ltac:(lia)). exact Hn2.
           ++ lia.
           ++ apply (Hl2 m Hm Hn).
    + assert (Hno : ~ In name ns).
      { intros Hin. assert (Hex : exists m, column_of ns name m).
        { clear IH E. induction ns as [|x ns IHn]; [destruct Hin|]. destruct (in_dec string_dec name ns) as [Hi|Hi].
          - destruct (IHn Hi) as (m & Hm1 & Hm2). exists (S m). split; [exact Hm1|]. intros [|j'] Hj'; [lia|]. apply Hm2. lia.
          - destruct Hin as [<-|Hin]; [|contradiction]. exists 0. split; [reflexivity|]. intros [|j'] Hj' Hn; [lia|]. cbn in Hn. apply Hi, (nth_error_In _ _ Hn). }
        destruct Hex as (m & Hm). destruct (IH (S k) name (m + S k)) as [_ K]. rewrite K in E; [discriminate|]. split; [lia|]. replace (m + S k - S k) with m by lia. exact Hm. }
      destruct (String.eqb_spec n name) as [-> |Hne].
      * split.
        -- intros H. injection H as <-. split; [lia|]. rewrite Nat.sub_diag. split; [reflexivity|]. intros [|j'] Hj' Hn; [lia|]. cbn in Hn. apply Hno, (nth_error_In _ _ Hn).
        -- intros [Hle [Hn _]]. destruct (j - k) as [|m] eqn:Em; [f_equal; lia|]. cbn in Hn. destruct (Hno (nth_error_In _ _ Hn)).
      * split; [discriminate|]. intros [Hle [Hn _]]. destruct (j - k) as [|m]; cbn in Hn; [congruence|]. destruct (Hno (nth_error_In _ _ Hn)).
Qed.
Lemma station_index_spec ns name j : station_index ns name = Some j <-> column_of ns name j.
Proof. unfold station_index. rewrite index_from_spec, Nat.sub_0_r. split; [intros [_ H]; exact H|intros H; split; [lia|exact H]]. Qed.
Lemma column_exists ns name : In name ns -> exists j, column_of ns name j.
Proof.
  induction ns as [|x ns IHn]; intros Hin; [destruct Hin|]. destruct (in_dec string_dec name ns) as [Hi|Hi].
  - destruct (IHn Hi) as (m & Hm1 & Hm2). exists (S m). split; [exact Hm1|]. intros [|j'] Hj'; [lia|]. apply Hm2. lia.
  - destruct Hin as [<-|Hin]; [|contradiction]. exists 0. split; [reflexivity|]. intros [|j'] Hj' Hn; [lia|]. cbn in Hn. apply Hi, (nth_error_In _ _ Hn).
Qed.
Lemma time_index_spec axis t i : time_index axis t = Some i <-> row_of axis t i.
Proof.
  revert i. induction axis as [|a axis IH]; intros i; cbn [time_index].
  - split; [discriminate|]. intros [(a & H & _) _]. destruct i; discriminate.
  - destruct (same_time a t) eqn:E.
    + apply same_time_near in E. split.
      * intros H. injection H as <-. split; [exists a; split; [reflexivity|exact E]|]. intros i' a' Hi'. lia.
      * intros [_ H]. destruct i as [|i]; [reflexivity|]. destruct (H 0 a ltac:(lia) eq_refl E).
    + assert (Hna : ~ near a t) by (intros Hn; apply same_time_near in Hn; congruence). split.
      * destruct (time_index axis t) as [k|] eqn:Ek; [|discriminate]. intros H. injection H as <-. destruct (proj1 (IH k) eq_refl) as [(b & Hb & Hn) Hl]. split; [exists b; split; assumption|].
        intros [|i'] a' Hi' Ha'; [cbn in Ha'; congruence|]. apply (Hl i' a'); [lia|exact Ha'].
      * intros [(b & Hb & Hn) Hl]. destruct i as [|i]; [cbn in Hb; congruence|]. assert (K : row_of axis t i).
        { split; [exists b; split; assumption|]. intros i' a' Hi' Ha'. apply (Hl (S i') a'); [lia|exact Ha']. }
        apply IH in K. rewrite K. reflexivity.
Qed.
Lemma time_index_exists axis t : (exists a, In a axis /\ near a t) <-> time_index axis t <> None.
Proof.
  induction axis as [|a axis IH]; cbn [time_index].
  - split; [intros (a & [] & _)|congruence].
  - destruct (same_time a t) eqn:E.
    + split; [discriminate|]. intros _. exists a. split; [left; reflexivity|apply same_time_near, E].
    + split.
      * intros (b & [<-|Hb] & Hn); [apply same_time_near in Hn; congruence|]. pose proof (proj1 IH (ex_intro _ b (conj Hb Hn))) as K. destruct (time_index axis t); congruence.
      * intros H. assert (K : time_index axis t <> None) by (destruct (time_index axis t); congruence). destruct (proj2 IH K) as (b & Hb & Hn). exists b. split; [right; exact Hb|exact Hn].
Qed.

(* ---- cells *)

Lemma update_length {A} (l : list A) i f : length (update l i f) = length l.
Proof. revert i. induction l as [|x l IH]; intros [|i]; cbn; auto. Qed.
Lemma update_nth {A} (l : list A) i f k : nth_error (update l i f) k = if i =? k then option_map f (nth_error l k) else nth_error l k.
Proof.
  revert i k. induction l as [|x l IH]; intros i k.
  - replace (update (@nil A) i f) with (@nil A) by (destruct i; reflexivity). destruct (i =? k), k; reflexivity.
  - destruct i as [|i], k as [|k]; cbn [update nth_error Nat.eqb]; try reflexivity. apply IH.
Qed.
Definition shape (c : cells) (m n : nat) : Prop := length c = m /\ forall row, In row c -> length row = n.
Lemma shape_cell c m n i j : shape c m n -> i < m -> j < n -> exists x, cell c i j = Some x.
Proof.
  intros [H1 H2] Hi Hj. unfold cell. destruct (nth_error c i) as [row|] eqn:E; [|apply nth_error_None in E; lia].
  destruct (nth_error row j) as [x|] eqn:E2; [exists x; reflexivity|]. apply nth_error_None in E2. rewrite (H2 row (nth_error_In _ _ E)) in E2. lia.
Qed.
Lemma put_shape c i j v m n : shape c m n -> shape (put c i j v) m n.
Proof.
  intros [H1 H2]. split; [unfold put; rewrite update_length; exact H1|]. intros row Hin. apply In_nth_error in Hin. destruct Hin as (k & Hk). unfold put in Hk. rewrite update_nth in Hk.
  destruct (i =? k); [|apply H2, (nth_error_In _ _ Hk)]. destruct (nth_error c k) as [row0|] eqn:E; [|discriminate]. cbn in Hk. injection Hk as <-.
  pose proof (H2 row0 (nth_error_In _ _ E)). destruct j; [rewrite update_length|rewrite map_length]; assumption.
Qed.
Lemma put_cell c i j v i' j' m n : shape c m n -> i' < m -> j' < n ->
  cell (put c i j v) i' j' = if (i =? i') && match j with Some j => j =? j' | None => true end then Some (Some v) else cell c i' j'.
Proof.
  intros Hs Hi Hj. destruct (shape_cell c m n i' j' Hs Hi Hj) as (x & Hx). rewrite Hx. unfold cell in *. unfold put. rewrite update_nth.
  destruct (i =? i'); [|exact Hx]. cbn [andb]. destruct (nth_error c i') as [row|]; [|discriminate]. cbn [option_map].
  destruct j as [j|].
  - rewrite update_nth, Hx. destruct (j =? j'); reflexivity.
  - rewrite nth_error_map, Hx. reflexivity.
Qed.
Definition covers (ns : list string) (axis : list Q) (i j : nat) (s : sample) : bool :=
  match time_index axis (s_time s) with Some i' => i' =? i | None => false end && match station_index ns (s_station s) with Some j' => j' =? j | None => true end.
Lemma place_all_spec ns axis variable l : forall c m n, shape c m n -> (forall s, In s l -> time_index axis (s_time s) <> None /\ member s variable <> None) ->
  exists c', place_all ns axis variable c l = Ok c' /\ shape c' m n /\
    forall i j, i < m -> j < n -> forall x, cell c i j = Some x ->
      cell c' i j = Some (fold_left (fun acc s => if covers ns axis i j s then member s variable else acc) l x).
Proof.
  induction l as [|s l IH]; intros c m n Hs Hl; cbn [place_all fold_left].
  - exists c. split; [reflexivity|split; [exact Hs|auto]].
  - destruct (Hl s (or_introl eq_refl)) as [Ht Hm]. unfold place. destruct (time_index axis (s_time s)) as [i0|] eqn:E; [|congruence].
    destruct (member s variable) as [v|] eqn:Ev; [|congruence]. cbn [bind].
    destruct (IH (put c i0 (station_index ns (s_station s)) v) m n (put_shape _ _ _ _ _ _ Hs) (fun s' Hs' => Hl s' (or_intror Hs'))) as (c' & H1 & H2 & H3).
    exists c'. split; [exact H1|split; [exact H2|]]. intros i j Hi Hj x Hx. apply (H3 i j Hi Hj). rewrite (put_cell c _ _ _ i j m n Hs Hi Hj). unfold covers at 1. rewrite E.
    destruct ((i0 =? i) && match station_index ns (s_station s) with Some j' => j' =? j | None => true end); [|exact Hx]. reflexivity.
Qed.
Lemma fold_last {A B} (P : A -> bool) (f : A -> B) l : forall a,
  (exists x, last_with (fun y => P y = true) l x /\ fold_left (fun acc s => if P s then f s else acc) l a = f x) \/
  ((forall x, In x l -> P x = false) /\ fold_left (fun acc s => if P s then f s else acc) l a = a).
Proof.
  induction l as [|s l IH]; intros a; cbn [fold_left]; [right; split; [intros x []|reflexivity]|].
  destruct (IH (if P s then f s else a)) as [(x & (b & af & -> & Hx & Hn) & Hf)|[Hn Hf]].
  - left. exists x. split; [|exact Hf]. exists (s :: b), af. auto.
  - destruct (P s) eqn:E.
    + left. exists s. split; [|exact Hf]. exists [], l. split; [reflexivity|split; [exact E|]]. intros y Hy. rewrite (Hn y Hy). discriminate.
    + right. split; [|exact Hf]. intros x [<-|Hx]; auto.
Qed.
Lemma blank_shape m n : shape (repeat (repeat None n) m) m n.
Proof. split; [apply repeat_length|]. intros row Hin. apply repeat_spec in Hin. subst. apply repeat_length. Qed.
Lemma nth_error_repeat {A} (x : A) n k : k < n -> nth_error (repeat x n) k = Some x.
Proof. revert k. induction n as [|n IH]; intros [|k] H; cbn; [lia|lia|reflexivity|apply IH; lia]. Qed.
Lemma blank_cell m n i j : i < m -> j < n -> cell (repeat (repeat None n) m) i j = Some None.
Proof. intros Hi Hj. unfold cell. rewrite nth_error_repeat by exact Hi. apply nth_error_repeat, Hj. Qed.
Lemma covers_known ns axis i j s : In (s_station s) ns -> (covers ns axis i j s = true <-> row_of axis (s_time s) i /\ column_of ns (s_station s) j).
Proof.
  intros Hin. destruct (column_exists ns _ Hin) as (j0 & Hj0). pose proof (proj2 (station_index_spec ns (s_station s) j0) Hj0) as Ej.
  unfold covers. rewrite Ej, andb_true_iff, Nat.eqb_eq, <- time_index_spec, <- station_index_spec, Ej.
  split; intros [H1 H2].
  - destruct (time_index axis (s_time s)) as [i'|]; [|discriminate]. apply Nat.eqb_eq in H1. subst. auto.
  - rewrite H1. injection H2 as ->. split; [apply Nat.eqb_refl|reflexivity].
Qed.

Lemma place_all_err ns axis variable l : forall c, (exists s, In s l /\ time_index axis (s_time s) = None) -> (forall s, In s l -> member s variable <> None) ->
  place_all ns axis variable c l = Err ValueError.
Proof.
  induction l as [|s l IH]; intros c (s0 & Hin & Hn) Hm; [destruct Hin|]. cbn [place_all]. unfold place.
  destruct (time_index axis (s_time s)) as [i|] eqn:E; [|reflexivity].
  destruct (member s variable) as [v|] eqn:Ev; [|destruct (Hm s (or_introl eq_refl) Ev)]. cbn [bind].
  destruct Hin as [<-|Hin]; [congruence|]. apply IH; [exists s0; auto|]. intros s' Hs'. apply Hm. right. exact Hs'.
Qed.

(* ---- breaks *)

Lemma add_breaks_spec l : forall d d', add_breaks d l = Ok d' ->
  names d' = names d /\ samples d' = samples d /\ tasmin_breaks d' = tasmin_breaks d ++ breaks_of "tasmin" l /\ tasmax_breaks d' = tasmax_breaks d ++ breaks_of "tasmax" l.
Proof.
  induction l as [|[v b] l IH]; intros d d' H; cbn [add_breaks] in H.
  - injection H as <-. unfold breaks_of. cbn. rewrite !app_nil_r. repeat split.
  - unfold add_break in H. unfold breaks_of. cbn [filter fst]. destruct (String.eqb_spec v "tasmin") as [-> |H1].
    + cbn [bind] in H. destruct (IH _ _ H) as (K1 & K2 & K3 & K4). cbn in K1, K2, K3, K4. rewrite K1, K2, K3, K4, <- app_assoc. repeat split.
    + destruct (String.eqb_spec v "tasmax") as [-> |H2]; [|discriminate]. cbn [bind] in H. destruct (IH _ _ H) as (K1 & K2 & K3 & K4). cbn in K1, K2, K3, K4.
      rewrite K1, K2, K3, K4, <- app_assoc. repeat split.
Qed.
Lemma station_indices_spec ns l r : station_indices ns l = Ok r <-> Forall2 (fun b j => column_of ns (k_station b) j) l r.
Proof.
  revert r. induction l as [|b l IH]; intros r; cbn [station_indices].
  - split; [intros H; injection H as <-; constructor|intros H; inversion H; reflexivity].
  - split.
    + destruct (station_index ns (k_station b)) as [j|] eqn:E; [|discriminate]. destruct (station_indices ns l) as [q|] eqn:Eq; [|discriminate]. cbn. intros H. injection H as <-.
      constructor; [apply station_index_spec, E|apply IH; reflexivity].
    + intros H. inversion H as [|? j ? q Hb Hq]; subst. apply station_index_spec in Hb. rewrite Hb. apply IH in Hq. rewrite Hq. reflexivity.
Qed.
Lemma station_indices_err ns l : (exists b, In b l /\ ~ In (k_station b) ns) -> station_indices ns l = Err TypeError.
Proof.
  induction l as [|b l IH]; intros (b0 & Hin & Hn); [destruct Hin|]. cbn [station_indices].
  destruct (station_index ns (k_station b)) as [j|] eqn:E; [|reflexivity]. destruct Hin as [<-|Hin].
  - apply station_index_spec in E. destruct Hn. apply (nth_error_In _ _ (proj1 E)).
  - rewrite IH by (exists b0; auto). reflexivity.
Qed.
