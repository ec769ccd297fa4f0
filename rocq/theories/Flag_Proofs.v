(* Proofs about the quality flags. *)
From Coq Require Import String.
From Coq Require Import QArith Qcanon.
From Verif Require Import Base Time_Model Time_Proofs Grid_Model Grid_Proofs Flag_Model Flag_Spec.
Local Open Scope Z_scope.
Local Open Scope list_scope.

(* ------------------------------------------------------------------ bits *)
Lemma has_all q t : has q t = true <-> all_set t q.
Proof.
  unfold has, all_set, flag. rewrite Z.eqb_eq. split.
  - intros E b T. rewrite <- E, Z.land_spec, andb_true_iff in T. apply T.
  - intros H. apply Z.bits_inj'. intros b _. rewrite Z.land_spec. destruct (Z.testbit t b) eqn:T; [rewrite (H b T); reflexivity|apply andb_false_r].
Qed.
Lemma bit_spec n b : 0 <= n -> Z.testbit (bit n) b = (b =? n).
Proof.
  intros N. unfold bit. rewrite Z.shiftl_1_l. destruct (Z_lt_dec b 0) as [B|B].
  - rewrite Z.testbit_neg_r by lia. symmetry. apply Z.eqb_neq. lia.
  - rewrite Z.pow2_bits_eqb by lia. apply Z.eqb_sym.
Qed.
Lemma has_bit q n : 0 <= n -> has q (bit n) = Z.testbit q n.
Proof.
  intros N. apply eq_true_iff_eq. rewrite has_all. unfold all_set, flag. split.
  - intros H. apply H. rewrite bit_spec by lia. apply Z.eqb_refl.
  - intros H b. rewrite bit_spec by lia. rewrite Z.eqb_eq. intros ->. exact H.
Qed.
Lemma mask_one q req forb : (Z.land q (Z.lor req forb) =? req) = true <-> all_set req q /\ forall b, flag forb b -> ~ flag req b -> ~ flag q b.
Proof.
  unfold all_set, flag. rewrite Z.eqb_eq. split.
  - intros E. assert (B : forall b, Z.testbit q b && (Z.testbit req b || Z.testbit forb b) = Z.testbit req b) by (intros b; rewrite <- Z.lor_spec, <- Z.land_spec, E; reflexivity).
    split; intros b; specialize (B b); destruct (Z.testbit q b), (Z.testbit req b), (Z.testbit forb b); cbn in B; congruence.
  - intros [R F]. apply Z.bits_inj'. intros b _. rewrite Z.land_spec, Z.lor_spec. specialize (R b). specialize (F b).
    destruct (Z.testbit q b), (Z.testbit req b), (Z.testbit forb b); cbn; try reflexivity; exfalso; try (apply F; congruence); specialize (R eq_refl); congruence.
Qed.

(* ------------------------------------------------------------------ lists given by their cells *)
Definition cells {A} (n : nat) (g : nat -> A) : list A := map g (seq 0 n).
Lemma cells_length {A} n (g : nat -> A) : length (cells n g) = n.
Proof. unfold cells. rewrite map_length, seq_length. reflexivity. Qed.
Lemma cells_zlen {A} n (g : nat -> A) : zlen (cells n g) = Z.of_nat n.
Proof. unfold zlen. rewrite cells_length. reflexivity. Qed.
Lemma cells_nth {A} n (g : nat -> A) d k : (k < n)%nat -> nth k (cells n g) d = g k.
Proof. intros K. unfold cells. rewrite (nth_indep _ d (g 0%nat)) by (rewrite map_length, seq_length; exact K). rewrite map_nth, seq_nth by exact K. reflexivity. Qed.
Lemma cells_ext {A} n (g h : nat -> A) : (forall k, (k < n)%nat -> g k = h k) -> cells n g = cells n h.
Proof. intros H. unfold cells. apply map_ext_in. intros k K. apply in_seq in K. apply H. lia. Qed.
Lemma cells_map {A B} n (g : nat -> A) (f : A -> B) : map f (cells n g) = cells n (fun k => f (g k)).
Proof. unfold cells. apply map_map. Qed.
Lemma cells_combine {A B} n (g : nat -> A) (h : nat -> B) : combine (cells n g) (cells n h) = cells n (fun k => (g k, h k)).
Proof. unfold cells. induction (seq 0 n) as [|x l IH]; cbn; [reflexivity|rewrite IH; reflexivity]. Qed.
Lemma as_cells {A} (d : A) l : l = cells (length l) (fun k => nth k l d).
Proof.
  apply (nth_ext _ _ d d); [rewrite cells_length; reflexivity|]. intros k K. rewrite cells_nth by exact K. reflexivity.
Qed.
Lemma as_cells_n {A} (d : A) l n : length l = n -> l = cells n (fun k => nth k l d).
Proof. intros <-. apply as_cells. Qed.
Lemma map_field {B} (p : Z -> B) f n : length f = n -> map p f = cells n (fun k => p (nth k f 0)).
Proof. intros L. transitivity (map p (cells n (fun k => nth k f 0))); [f_equal; apply as_cells_n, L|apply cells_map]. Qed.
Lemma set_where_cells n (m : nat -> bool) fl (g : nat -> Z) : set_where (cells n m) fl (cells n g) = Ok (cells n (fun k => if m k then Z.lor (g k) fl else g k)).
Proof. unfold set_where. rewrite !cells_zlen, Z.eqb_refl, cells_combine, cells_map. reflexivity. Qed.
Lemma count_where_cells n (m : nat -> bool) (g : nat -> Z) : count_where (cells n m) (cells n g) = Ok (cells n (fun k => if m k then g k + 1 else g k)).
Proof. unfold count_where. rewrite !cells_zlen, Z.eqb_refl, cells_combine, cells_map. reflexivity. Qed.
Lemma below_cells n c t f : below (Some (cells n c)) t f = cells n (fun k => c k <? t).
Proof. unfold below. apply cells_map. Qed.

Lemma foldM_app {A B} (f : A -> B -> result A) l1 l2 a : foldM f a (l1 ++ l2) = do a' <- foldM f a l1; foldM f a' l2.
Proof. revert a. induction l1 as [|x l1 IH]; intros a; cbn [foldM app bind]; [reflexivity|]. destruct (f a x); cbn [bind]; [apply IH|reflexivity]. Qed.

(* ------------------------------------------------------------------ counts *)
Definition cnt (p : Z -> bool) (l : list Z) : Z := Z.of_nat (length (filter p l)).
Lemma cnt_snoc p l x : cnt p (l ++ [x]) = if p x then cnt p l + 1 else cnt p l.
Proof. unfold cnt. rewrite filter_app, app_length. cbn [filter]. destruct (p x); cbn [length]; lia. Qed.
Lemma cnt_nil p : cnt p [] = 0. Proof. reflexivity. Qed.
Lemma cnt_nonneg p l : 0 <= cnt p l. Proof. unfold cnt. lia. Qed.
Lemma cnt_fewer p l m (P : Z -> Prop) : NoDup l -> (forall d, P d <-> In d l /\ p d = true) -> (cnt p l <? m) = true <-> fewer_than m P.
Proof.
  intros N H. unfold cnt, fewer_than. rewrite Z.ltb_lt. split.
  - intros L. exists (filter p l). split; [exact L|]. intros d D. apply filter_In, H, D.
  - intros (l' & L & I). enough (length (filter p l) <= length l')%nat by lia. apply NoDup_incl_length; [apply NoDup_filter, N|].
    intros d D. apply I, H, filter_In, D.
Qed.
Lemma cnt_at_least p l m (P : Z -> Prop) : NoDup l -> (forall d, P d <-> In d l /\ p d = true) -> (m <=? cnt p l) = true <-> at_least m P.
Proof.
  intros N H. unfold cnt, at_least. rewrite Z.leb_le. split.
  - intros L. exists (filter p l). split; [apply NoDup_filter, N|]. split; [exact L|]. intros d D. apply H, filter_In, D.
  - intros (l' & N' & L & I). enough (length l' <= length (filter p l))%nat by lia. apply NoDup_incl_length; [exact N'|].
    intros d D. apply filter_In, H, I, D.
Qed.
Lemma zrange_nodup a b : NoDup (zrange a b).
Proof. unfold zrange. apply FinFun.Injective_map_NoDup; [intros x y E; lia|apply seq_NoDup]. Qed.
Lemma in_zrange a b x : In x (zrange a b) <-> a <= x < b.
Proof.
  unfold zrange. rewrite in_map_iff. split.
  - intros (k & <- & K). apply in_seq in K. lia.
  - intros H. exists (Z.to_nat (x - a)). split; [lia|apply in_seq; lia].
Qed.

Definition obs (load : store) (target : Z) (k : nat) (d : Z) : bool := match load d with Some f => negb (has (nth k f 0) target) | None => false end.
Lemma obs_spec load target k d : obs load target k d = true <-> constrained load target k d.
Proof.
  unfold obs, constrained. destruct (load d) as [f|]; [|split; [discriminate|intros (f & E & _); discriminate]].
  rewrite negb_true_iff. split.
  - intros H. exists f. split; [reflexivity|]. intros A. apply has_all in A. congruence.
  - intros (f' & E & H). injection E as <-. destruct (has (nth k f 0) target) eqn:A; [|reflexivity]. apply has_all in A. tauto.
Qed.
Definition readable (load : store) (d : Z) : bool := match load d with Some _ => true | None => false end.
Lemma or_zeros_some {A} n (g : nat -> Z) (like : list A) : or_zeros (Some (cells n g)) like = cells n g. Proof. reflexivity. Qed.
Lemma or_zeros_none {A} n (g : nat -> A) : or_zeros None (cells n g) = cells n (fun _ => 0).
Proof. unfold or_zeros. apply cells_map. Qed.
Lemma field_cells (load : store) d f n : same_shape load n -> load d = Some f -> f = cells n (fun k => nth k f 0).
Proof. intros U E. apply as_cells_n, (U d), E. Qed.
Lemma field_cells_ex (load : store) d f n : same_shape load n -> load d = Some f -> exists g, f = cells n g /\ forall k, (k < n)%nat -> nth k (cells n g) 0 = g k.
Proof. intros U E. exists (fun k => nth k f 0). split; [apply (field_cells load d); assumption|]. intros k K. rewrite cells_nth by exact K. reflexivity. Qed.

(* ------------------------------------------------------------------ the window check *)
Lemma dt_add_day t k t' : dt_add t (k * DAY) = Ok t' -> t' / DAY = t / DAY + k.
Proof. unfold dt_add. cbv zeta. destruct (valid_datetime _); intros E; [injection E as <-|discriminate]. apply Z.div_add. discriminate. Qed.

Section Window.
Variables (load : store) (ref target : Z) (n : nat).
Hypothesis U : same_shape load n.
Let day := ref / DAY.
Let rd ds := existsb (fun d => negb (d =? 0) && readable load (day + d)) ds.
Let before ds k := cnt (fun d => (d <? 0) && obs load target k (day + d)) ds.
Let after ds k := cnt (fun d => (0 <? d) && obs load target k (day + d)) ds.
Definition window_after (ds : list Z) : window_state :=
  {| w_flags := if existsb (Z.eqb 0) ds then load day else None;
     w_prior := if rd ds then Some (cells n (before ds)) else None;
     w_post := if rd ds then Some (cells n (after ds)) else None |}.
Lemma rd_none ds : rd ds = false -> forall k, before ds k = 0 /\ after ds k = 0.
Proof.
  intros R k. unfold before, after, cnt. assert (F : forall p, (forall d, In d ds -> p d = false) -> filter p ds = []).
  { intros p. induction ds as [|d l IH]; intros H; [reflexivity|]. cbn. rewrite (H d) by (left; reflexivity). apply IH; [|intros d' D'; apply H; right; exact D'].
    unfold rd in R. cbn in R. apply orb_false_iff in R. apply R. }
  rewrite !F; [split; reflexivity| |]; intros d D; assert (E : negb (d =? 0) && readable load (day + d) = false)
    by (destruct (negb (d =? 0) && readable load (day + d)) eqn:E; [|reflexivity]; unfold rd in R; rewrite <- R; symmetry; apply existsb_exists; exists d; tauto);
    unfold readable in E; unfold obs; destruct (load (day + d)); rewrite ?andb_false_r; try reflexivity; destruct (d =? 0) eqn:Z0; cbn in E; try discriminate;
    apply Z.eqb_eq in Z0; subst d; reflexivity.
Qed.
Lemma window_loop ds : (forall d, In d ds -> is_ok (dt_add ref (d * DAY)) = true) ->
  foldM (window_day load ref target) {| w_flags := None; w_prior := None; w_post := None |} ds = Ok (window_after ds).
Proof.
  induction ds as [|d ds IH] using rev_ind; intros V; [reflexivity|].
  rewrite foldM_app, IH by (intros d' D; apply V, in_or_app; left; exact D). cbn [bind foldM].
  assert (W : window_day load ref target (window_after ds) d = Ok (window_after (ds ++ [d]))); [|rewrite W; reflexivity].
  unfold window_day. specialize (V d ltac:(apply in_or_app; right; left; reflexivity)). destruct (dt_add ref (d * DAY)) as [t|] eqn:T; [|discriminate]. cbn [bind].
  rewrite (dt_add_day _ _ _ T). fold day. unfold window_after.
  assert (R : rd (ds ++ [d]) = rd ds || (negb (d =? 0) && readable load (day + d))) by (unfold rd; rewrite existsb_app; cbn; rewrite orb_false_r; reflexivity).
  assert (B : forall k, before (ds ++ [d]) k = if (d <? 0) && obs load target k (day + d) then before ds k + 1 else before ds k) by (intros k; apply cnt_snoc).
  assert (A : forall k, after (ds ++ [d]) k = if (0 <? d) && obs load target k (day + d) then after ds k + 1 else after ds k) by (intros k; apply cnt_snoc).
  rewrite existsb_app, R. cbn [existsb]. rewrite orb_false_r.
  destruct (load (day + d)) as [f|] eqn:L.
  - assert (RD : readable load (day + d) = true) by (unfold readable; rewrite L; reflexivity). rewrite RD. rewrite andb_true_r.
    assert (OB : forall k, obs load target k (day + d) = negb (has (nth k f 0) target)) by (intros k; unfold obs; rewrite L; reflexivity).
    destruct (d =? 0) eqn:Z0.
    + apply Z.eqb_eq in Z0. subst d. cbn [negb orb w_flags w_prior w_post]. rewrite !orb_false_r, orb_true_r. rewrite Z.add_0_r in L. rewrite L.
      destruct (rd ds); [|reflexivity]. do 2 f_equal; f_equal; apply cells_ext; intros k _; [rewrite B|rewrite A]; reflexivity.
    + cbn [negb]. rewrite orb_true_r. replace (0 =? d) with false by lia. rewrite orb_false_r. cbn [w_flags w_prior w_post].
      rewrite (field_cells load (day + d) f n U L), cells_map.
      assert (P0 : or_zeros (if rd ds then Some (cells n (before ds)) else None) (cells n (fun k => negb (has (nth k f 0) target))) = cells n (before ds)).
      { destruct (rd ds) eqn:Rd; [reflexivity|]. rewrite or_zeros_none. apply cells_ext. intros k _. symmetry. apply (rd_none ds Rd). }
      assert (P1 : or_zeros (if rd ds then Some (cells n (after ds)) else None) (cells n (fun k => negb (has (nth k f 0) target))) = cells n (after ds)).
      { destruct (rd ds) eqn:Rd; [reflexivity|]. rewrite or_zeros_none. apply cells_ext. intros k _. symmetry. apply (rd_none ds Rd). }
      rewrite P0, P1, !count_where_cells.
      destruct (d <? 0) eqn:N0; destruct (0 <? d) eqn:N1; try lia; cbn [bind andb] in *; do 2 f_equal; f_equal; apply cells_ext; intros k _;
        rewrite ?A, ?B, ?OB; reflexivity.
  - assert (RD : readable load (day + d) = false) by (unfold readable; rewrite L; reflexivity). rewrite RD, andb_false_r, orb_false_r.
    assert (OB : forall k, obs load target k (day + d) = false) by (intros k; unfold obs; rewrite L; reflexivity).
    f_equal. f_equal.
    + destruct (0 =? d) eqn:Z0; [|rewrite orb_false_r; reflexivity]. apply Z.eqb_eq in Z0. subst d. rewrite Z.add_0_r in L. rewrite L. destruct (existsb (Z.eqb 0) ds); reflexivity.
    + destruct (rd ds); [|reflexivity]. f_equal. apply cells_ext. intros k _. rewrite B, OB, andb_false_r. reflexivity.
    + destruct (rd ds); [|reflexivity]. f_equal. apply cells_ext. intros k _. rewrite A, OB, andb_false_r. reflexivity.
Qed.
End Window.

Definition days_before (load : store) (target day w : Z) (k : nat) : Z := cnt (fun d => (d <? 0) && obs load target k (day + d)) (zrange (- w) (w + 1)).
Definition days_after (load : store) (target day w : Z) (k : nat) : Z := cnt (fun d => (0 <? d) && obs load target k (day + d)) (zrange (- w) (w + 1)).
Definition other_readable (load : store) (day w : Z) : bool := existsb (fun d => negb (d =? 0) && readable load (day + d)) (zrange (- w) (w + 1)).
Definition orif (b : bool) (flag q : Z) : Z := if b then Z.lor q flag else q.
Definition window_cell (load : store) (target day w thr : Z) (k : nat) (q : Z) : Z :=
  orif (if other_readable load day w then days_after load target day w k <? thr else true) POST_WINDOW_FLAG
    (orif (if other_readable load day w then days_before load target day w k <? thr else true) PRIOR_WINDOW_FLAG q).
Theorem window_check_eq load ref target n w thr : same_shape load n -> 0 <= w -> window_dates ref w ->
  local_window_constraint_checks w thr target load ref =
  match load (ref / DAY) with None => Err NameError | Some f => Ok (cells n (fun k => window_cell load target (ref / DAY) w thr k (nth k f 0))) end.
Proof.
  intros U W D. unfold local_window_constraint_checks.
  rewrite (window_loop load ref target n U) by (intros d I; apply in_zrange in I; unfold dt_add; cbv zeta; rewrite D by lia; reflexivity).
  cbn [bind window_after w_flags w_prior w_post].
  assert (Z0 : existsb (Z.eqb 0) (zrange (- w) (w + 1)) = true) by (apply existsb_exists; exists 0; split; [apply in_zrange; lia|reflexivity]). rewrite Z0.
  destruct (load (ref / DAY)) as [f|] eqn:L; [|reflexivity]. fold (other_readable load (ref / DAY) w). unfold window_cell.
  destruct (field_cells_ex load (ref / DAY) f n U L) as (g & E & N). subst f.
  destruct (other_readable load (ref / DAY) w).
  - rewrite !below_cells, set_where_cells. cbn [bind]. rewrite set_where_cells. f_equal. apply cells_ext. intros k K. rewrite N by exact K. reflexivity.
  - unfold below. rewrite cells_map, set_where_cells. cbn [bind]. rewrite set_where_cells. f_equal. apply cells_ext. intros k K. rewrite N by exact K. reflexivity.
Qed.

(* ------------------------------------------------------------------ the calendar check *)
Lemma add_years t k t' : 1 <= dt_year t + k <= 9999 -> add_months t (12 * k) = Ok t' -> t' / DAY = day_in_year t (dt_year t + k) /\ dt_year t' = dt_year t + k.
Proof.
  intros Y. unfold add_months. cbv zeta. pose proof (date_fields t) as (M & D & _).
  replace ((12 * dt_year t + (dt_month t - 1) + 12 * k) / 12) with (dt_year t + k) by lia.
  replace ((12 * dt_year t + (dt_month t - 1) + 12 * k) mod 12 + 1) with (dt_month t) by lia.
  replace ((1 <=? dt_year t + k) && (dt_year t + k <=? 9999)) with true by lia. intros E. apply (f_equal (fun r => match r with Ok a => a | Err _ => 0 end)) in E. cbv beta iota in E. subst t'.
  assert (Q : (ymd2ord (dt_year t + k) (dt_month t) (Z.min (dt_day t) (days_in_month (dt_year t + k) (dt_month t))) * DAY + t mod DAY) / DAY = day_in_year t (dt_year t + k)).
  { rewrite Z.div_add_l by discriminate. rewrite (Z.div_small (t mod DAY)) by (apply Z.mod_pos_bound; reflexivity). unfold day_in_year. lia. }
  split; [exact Q|]. unfold dt_year at 1. rewrite Q. unfold day_in_year. rewrite ord2ymd_ymd2ord; [reflexivity|exact M|].
  pose proof (days_in_month_range (dt_year t + k) (dt_month t)). lia.
Qed.
Lemma add_years_ok t k : 1 <= dt_year t + k <= 9999 -> exists t', add_months t (12 * k) = Ok t'.
Proof.
  intros Y. unfold add_months. cbv zeta. pose proof (date_fields t) as (M & D & _).
  replace ((12 * dt_year t + (dt_month t - 1) + 12 * k) / 12) with (dt_year t + k) by lia.
  replace ((1 <=? dt_year t + k) && (dt_year t + k <=? 9999)) with true by lia. eexists. reflexivity.
Qed.
Lemma day_in_own_year t : day_in_year t (dt_year t) = t / DAY.
Proof. unfold day_in_year. pose proof (date_fields t) as (M & D & _). rewrite Z.min_l by lia. apply ord_of_fields. Qed.

Lemma none_counted ys p : existsb p ys = false -> forall q, (forall y, q y = true -> p y = true) -> cnt q ys = 0.
Proof.
  intros R q H. unfold cnt. replace (filter q ys) with (@nil Z); [reflexivity|]. symmetry. induction ys as [|y l IH]; [reflexivity|]. cbn in R |- *.
  apply orb_false_iff in R. destruct R as [R0 R]. destruct (q y) eqn:Q; [apply H in Q; congruence|apply IH, R].
Qed.
Lemma obs_readable load target k d : obs load target k d = true -> readable load d = true.
Proof. unfold obs, readable. destruct (load d); congruence. Qed.

Section Calendar.
Variables (load : store) (ref target : Z) (n : nat).
Hypothesis U : same_shape load n.
Let cal y := day_in_year ref (dt_year ref + y).
Let rd ys := existsb (fun y => negb (y =? 0) && readable load (cal y)) ys.
Let rda ys := existsb (fun y => readable load (cal y)) ys.
Let before ys k := cnt (fun y => (y <? 0) && obs load target k (cal y)) ys.
Let after ys k := cnt (fun y => (0 <? y) && obs load target k (cal y)) ys.
Let total ys k := cnt (fun y => obs load target k (cal y)) ys.
Definition calendar_after (ys : list Z) : calendar_state :=
  {| c_flags := if existsb (Z.eqb 0) ys then load (ref / DAY) else None;
     c_prior := if rd ys then Some (cells n (before ys)) else None;
     c_post := if rd ys then Some (cells n (after ys)) else None;
     c_total := if rda ys then Some (cells n (total ys)) else None |}.
Lemma calendar_loop ys : (forall y, In y ys -> 1 <= dt_year ref + y <= 9999) ->
  foldM (calendar_day load ref target) {| c_flags := None; c_prior := None; c_post := None; c_total := None |} ys = Ok (calendar_after ys).
Proof.
  induction ys as [|y ys IH] using rev_ind; intros V; [reflexivity|].
  rewrite foldM_app, IH by (intros y' Y; apply V, in_or_app; left; exact Y). cbn [bind foldM].
  assert (W : calendar_day load ref target (calendar_after ys) y = Ok (calendar_after (ys ++ [y]))); [|rewrite W; reflexivity].
  unfold calendar_day. specialize (V y ltac:(apply in_or_app; right; left; reflexivity)). destruct (add_years_ok ref y V) as (t & T). rewrite T. cbn [bind].
  destruct (add_years ref y t V T) as [TD TY]. rewrite TD, TY. fold (cal y). unfold calendar_after.
  assert (R : rd (ys ++ [y]) = rd ys || (negb (y =? 0) && readable load (cal y))) by (unfold rd; rewrite existsb_app; cbn; rewrite orb_false_r; reflexivity).
  assert (RA : rda (ys ++ [y]) = rda ys || readable load (cal y)) by (unfold rda; rewrite existsb_app; cbn; rewrite orb_false_r; reflexivity).
  assert (B : forall k, before (ys ++ [y]) k = if (y <? 0) && obs load target k (cal y) then before ys k + 1 else before ys k) by (intros k; apply cnt_snoc).
  assert (A : forall k, after (ys ++ [y]) k = if (0 <? y) && obs load target k (cal y) then after ys k + 1 else after ys k) by (intros k; apply cnt_snoc).
  assert (TT : forall k, total (ys ++ [y]) k = if obs load target k (cal y) then total ys k + 1 else total ys k) by (intros k; unfold total; rewrite cnt_snoc; reflexivity).
  rewrite existsb_app, R, RA. cbn [existsb]. rewrite orb_false_r.
  replace (dt_year ref + y =? dt_year ref) with (y =? 0) by lia. replace (dt_year ref + y <? dt_year ref) with (y <? 0) by lia.
  replace (dt_year ref <? dt_year ref + y) with (0 <? y) by lia.
  destruct (load (cal y)) as [f|] eqn:L.
  - assert (RD : readable load (cal y) = true) by (unfold readable; rewrite L; reflexivity). rewrite RD. rewrite andb_true_r, orb_true_r.
    assert (OB : forall k, obs load target k (cal y) = negb (has (nth k f 0) target)) by (intros k; unfold obs; rewrite L; reflexivity).
    cbn [c_flags c_prior c_post c_total].
    assert (F : map (fun q => negb (has q target)) f = cells n (fun k => negb (has (nth k f 0) target))) by (apply map_field, (U _ _ L)).
    rewrite F.
    assert (PT : or_zeros (if rda ys then Some (cells n (total ys)) else None) (cells n (fun k => negb (has (nth k f 0) target))) = cells n (total ys)).
    { destruct (rda ys) eqn:Rd; [reflexivity|]. rewrite or_zeros_none. apply cells_ext. intros k _. symmetry. apply (none_counted ys _ Rd). intros y' Q. apply (obs_readable load target k), Q. }
    rewrite PT, count_where_cells. cbn [bind].
    assert (TC : cells n (fun k => if negb (has (nth k f 0) target) then total ys k + 1 else total ys k) = cells n (total (ys ++ [y]))) by (apply cells_ext; intros k _; rewrite TT, OB; reflexivity).
    rewrite TC.
    destruct (y =? 0) eqn:Z0.
    + apply Z.eqb_eq in Z0. subst y. cbn [negb orb]. rewrite !orb_false_r, orb_true_r.
      assert (CD : cal 0 = ref / DAY) by (unfold cal; rewrite Z.add_0_r; apply day_in_own_year). rewrite CD in L. rewrite L.
      destruct (rd ys); [|reflexivity]. do 2 f_equal; f_equal; apply cells_ext; intros k _; [rewrite B|rewrite A]; reflexivity.
    + cbn [negb]. rewrite orb_true_r. replace (0 =? y) with false by lia. rewrite orb_false_r.
      assert (P0 : or_zeros (if rd ys then Some (cells n (before ys)) else None) (cells n (fun k => negb (has (nth k f 0) target))) = cells n (before ys)).
      { destruct (rd ys) eqn:Rd; [reflexivity|]. rewrite or_zeros_none. apply cells_ext. intros k _. symmetry. apply (none_counted ys _ Rd).
        intros y' Q. apply andb_true_iff in Q. destruct Q as [Q1 Q2]. apply (obs_readable load target k) in Q2. rewrite Q2. lia. }
      assert (P1 : or_zeros (if rd ys then Some (cells n (after ys)) else None) (cells n (fun k => negb (has (nth k f 0) target))) = cells n (after ys)).
      { destruct (rd ys) eqn:Rd; [reflexivity|]. rewrite or_zeros_none. apply cells_ext. intros k _. symmetry. apply (none_counted ys _ Rd).
        intros y' Q. apply andb_true_iff in Q. destruct Q as [Q1 Q2]. apply (obs_readable load target k) in Q2. rewrite Q2. lia. }
      rewrite P0, P1, !count_where_cells.
      destruct (y <? 0) eqn:N0; destruct (0 <? y) eqn:N1; try lia; cbn [bind andb] in *; do 2 f_equal; f_equal; apply cells_ext; intros k _;
        rewrite ?A, ?B, ?OB; reflexivity.
  - assert (RD : readable load (cal y) = false) by (unfold readable; rewrite L; reflexivity). rewrite RD, andb_false_r, !orb_false_r.
    assert (OB : forall k, obs load target k (cal y) = false) by (intros k; unfold obs; rewrite L; reflexivity).
    f_equal. f_equal.
    + destruct (0 =? y) eqn:Z0; [|rewrite orb_false_r; reflexivity]. apply Z.eqb_eq in Z0. subst y.
      assert (CD : cal 0 = ref / DAY) by (unfold cal; rewrite Z.add_0_r; apply day_in_own_year). rewrite CD in L. rewrite L. destruct (existsb (Z.eqb 0) ys); reflexivity.
    + destruct (rd ys); [|reflexivity]. f_equal. apply cells_ext. intros k _. rewrite B, OB, andb_false_r. reflexivity.
    + destruct (rd ys); [|reflexivity]. f_equal. apply cells_ext. intros k _. rewrite A, OB, andb_false_r. reflexivity.
    + destruct (rda ys); [|reflexivity]. f_equal. apply cells_ext. intros k _. rewrite TT, OB. reflexivity.
Qed.
End Calendar.

Definition year_shifts (ref start end_ : Z) : list Z := zrange (start - dt_year ref) (end_ - dt_year ref + 1).
Definition years_before (load : store) (target ref start end_ : Z) (k : nat) : Z :=
  cnt (fun y => (y <? 0) && obs load target k (day_in_year ref (dt_year ref + y))) (year_shifts ref start end_).
Definition years_after (load : store) (target ref start end_ : Z) (k : nat) : Z :=
  cnt (fun y => (0 <? y) && obs load target k (day_in_year ref (dt_year ref + y))) (year_shifts ref start end_).
Definition years_all (load : store) (target ref start end_ : Z) (k : nat) : Z :=
  cnt (fun y => obs load target k (day_in_year ref (dt_year ref + y))) (year_shifts ref start end_).
Definition calendar_cell (load : store) (target ref start end_ : Z) (k : nat) (q : Z) : Z :=
  orif (years_all load target ref start end_ k <? 3) MISSING_FLAG_FLAG
    (orif (years_after load target ref start end_ k <? 1) POST_CALENDAR_FLAG
       (orif (years_before load target ref start end_ k <? 1) PRIOR_CALENDAR_FLAG q)).
Theorem calendar_check_eq load ref target n start end_ : same_shape load n -> start <= dt_year ref <= end_ -> 1 <= start -> end_ <= 9999 ->
  calendar_constraint_checks start end_ target load ref =
  match load (ref / DAY) with None => Err NameError | Some f => Ok (cells n (fun k => calendar_cell load target ref start end_ k (nth k f 0))) end.
Proof.
  intros U Y S E. unfold calendar_constraint_checks. fold (year_shifts ref start end_).
  rewrite (calendar_loop load ref target n U) by (intros y I; apply in_zrange in I; lia).
  cbn [bind calendar_after c_flags c_prior c_post c_total].
  assert (I0 : In 0 (year_shifts ref start end_)) by (apply in_zrange; lia).
  assert (Z0 : existsb (Z.eqb 0) (year_shifts ref start end_) = true) by (apply existsb_exists; exists 0; split; [exact I0|reflexivity]). rewrite Z0.
  destruct (load (ref / DAY)) as [f|] eqn:L; [|reflexivity].
  assert (RA : existsb (fun y => readable load (day_in_year ref (dt_year ref + y))) (year_shifts ref start end_) = true).
  { apply existsb_exists. exists 0. split; [exact I0|]. rewrite Z.add_0_r, day_in_own_year. unfold readable. rewrite L. reflexivity. }
  rewrite RA. unfold calendar_cell. destruct (field_cells_ex load (ref / DAY) f n U L) as (g & EF & N). subst f.
  destruct (existsb (fun y => negb (y =? 0) && readable load (day_in_year ref (dt_year ref + y))) (year_shifts ref start end_)) eqn:R.
  - unfold COUNT_THRESHOLD, TOTAL_COUNT_THRESHOLD. rewrite !below_cells, set_where_cells. cbn [bind]. rewrite set_where_cells. cbn [bind]. rewrite set_where_cells. f_equal. apply cells_ext. intros k K. rewrite N by exact K. reflexivity.
  - unfold COUNT_THRESHOLD, TOTAL_COUNT_THRESHOLD. rewrite below_cells. unfold below. rewrite cells_map, set_where_cells. cbn [bind]. rewrite set_where_cells. cbn [bind]. rewrite set_where_cells. f_equal. apply cells_ext. intros k K. rewrite N by exact K.
    assert (NB : years_before load target ref start end_ k = 0).
    { apply (none_counted _ _ R). intros y Q. apply andb_true_iff in Q. destruct Q as [Q1 Q2]. apply (obs_readable load target k) in Q2. rewrite Q2. lia. }
    assert (NA : years_after load target ref start end_ k = 0).
    { apply (none_counted _ _ R). intros y Q. apply andb_true_iff in Q. destruct Q as [Q1 Q2]. apply (obs_readable load target k) in Q2. rewrite Q2. lia. }
    rewrite NB, NA. reflexivity.
Qed.

(* ------------------------------------------------------------------ the persistent outlier check *)
Definition bad (load : store) (k : nat) (d : Z) : bool := match load d with Some f => existsb (has (nth k f 0)) OUTLIER_FLAGS | None => false end.
Lemma bad_spec load k d : bad load k d = true <-> flagged load [7; 8; 9; 10] k d.
Proof.
  unfold bad, flagged. destruct (load d) as [f|]; [|split; [discriminate|intros (f & b & E & _); discriminate]].
  rewrite existsb_exists. split.
  - intros (x & I & H). exists f. cbn [In OUTLIER_FLAGS] in I.
    assert (exists b, In b [7; 8; 9; 10] /\ x = bit b) as (b & B & ->) by (destruct I as [<-|[<-|[<-|[<-|[]]]]]; [exists 7|exists 8|exists 9|exists 10]; (split; [cbn; tauto|reflexivity])).
    exists b. split; [reflexivity|]. split; [exact B|]. unfold flag. rewrite <- has_bit; [exact H|]. cbn in B. lia.
  - intros (f' & b & E & B & F). injection E as <-. exists (bit b). split; [|rewrite has_bit; [exact F|cbn in B; lia]].
    cbn in B. destruct B as [<-|[<-|[<-|[<-|[]]]]]; cbn; tauto.
Qed.
Section Outlier.
Variables (load : store) (ref : Z) (n : nat).
Hypothesis U : same_shape load n.
Let day := ref / DAY.
Let rda ds := existsb (fun d => readable load (day + d)) ds.
Let bads ds k := cnt (fun d => bad load k (day + d)) ds.
Definition outlier_after (ds : list Z) : outlier_state :=
  {| o_flags := if existsb (Z.eqb 0) ds then load day else None; o_bad := if rda ds then Some (cells n (bads ds)) else None |}.
Lemma outlier_loop ds : (forall d, In d ds -> is_ok (dt_add ref (d * DAY)) = true) ->
  foldM (outlier_day load ref) {| o_flags := None; o_bad := None |} ds = Ok (outlier_after ds).
Proof.
  induction ds as [|d ds IH] using rev_ind; intros V; [reflexivity|].
  rewrite foldM_app, IH by (intros d' D; apply V, in_or_app; left; exact D). cbn [bind foldM].
  assert (W : outlier_day load ref (outlier_after ds) d = Ok (outlier_after (ds ++ [d]))); [|rewrite W; reflexivity].
  unfold outlier_day. specialize (V d ltac:(apply in_or_app; right; left; reflexivity)). destruct (dt_add ref (d * DAY)) as [t|] eqn:T; [|discriminate]. cbn [bind].
  rewrite (dt_add_day _ _ _ T). fold day. unfold outlier_after.
  assert (RA : rda (ds ++ [d]) = rda ds || readable load (day + d)) by (unfold rda; rewrite existsb_app; cbn; rewrite orb_false_r; reflexivity).
  assert (B : forall k, bads (ds ++ [d]) k = if bad load k (day + d) then bads ds k + 1 else bads ds k) by (intros k; unfold bads; rewrite cnt_snoc; reflexivity).
  rewrite existsb_app, RA. cbn [existsb]. rewrite orb_false_r.
  destruct (load (day + d)) as [f|] eqn:L.
  - assert (RD : readable load (day + d) = true) by (unfold readable; rewrite L; reflexivity). rewrite RD. rewrite orb_true_r.
    assert (OB : forall k, bad load k (day + d) = existsb (has (nth k f 0)) OUTLIER_FLAGS) by (intros k; unfold bad; rewrite L; reflexivity).
    cbn [o_flags o_bad].
    assert (F : map (fun q => existsb (has q) OUTLIER_FLAGS) f = cells n (fun k => existsb (has (nth k f 0)) OUTLIER_FLAGS)) by (apply map_field, (U _ _ L)).
    rewrite F.
    assert (P0 : or_zeros (if rda ds then Some (cells n (bads ds)) else None) (cells n (fun k => existsb (has (nth k f 0)) OUTLIER_FLAGS)) = cells n (bads ds)).
    { destruct (rda ds) eqn:Rd; [reflexivity|]. rewrite or_zeros_none. apply cells_ext. intros k _. symmetry. apply (none_counted ds _ Rd).
      intros y Q. unfold bad in Q. unfold readable. destruct (load (day + y)); congruence. }
    rewrite P0, count_where_cells. cbn [bind]. f_equal. f_equal.
    + replace (d =? 0) with (0 =? d) by lia. destruct (0 =? d) eqn:Z0; [|rewrite orb_false_r; reflexivity]. apply Z.eqb_eq in Z0. subst d. rewrite Z.add_0_r in L. rewrite L, orb_true_r. reflexivity.
    + f_equal. apply cells_ext. intros k _. rewrite B, OB. reflexivity.
  - assert (RD : readable load (day + d) = false) by (unfold readable; rewrite L; reflexivity). rewrite RD, orb_false_r.
    f_equal. f_equal.
    + destruct (0 =? d) eqn:Z0; [|rewrite orb_false_r; reflexivity]. apply Z.eqb_eq in Z0. subst d. rewrite Z.add_0_r in L. rewrite L. destruct (existsb (Z.eqb 0) ds); reflexivity.
    + destruct (rda ds); [|reflexivity]. f_equal. apply cells_ext. intros k _. rewrite B. unfold bad. rewrite L. reflexivity.
Qed.
End Outlier.
Definition bad_days (load : store) (day w : Z) (k : nat) : Z := cnt (fun d => bad load k (day + d)) (zrange (- w) (w + 1)).
Definition outlier_cell (load : store) (day w thr : Z) (k : nat) (q : Z) : Z := orif (thr <=? bad_days load day w k) PERSISTANT_OUTLIER_FLAG q.
Theorem outlier_check_eq load ref n w thr : same_shape load n -> 0 <= w -> window_dates ref w ->
  persistant_outlier_check w thr load ref =
  match load (ref / DAY) with None => Err NameError | Some f => Ok (cells n (fun k => outlier_cell load (ref / DAY) w thr k (nth k f 0))) end.
Proof.
  intros U W D. unfold persistant_outlier_check.
  rewrite (outlier_loop load ref n U) by (intros d I; apply in_zrange in I; unfold dt_add; cbv zeta; rewrite D by lia; reflexivity).
  cbn [bind outlier_after o_flags o_bad].
  assert (I0 : In 0 (zrange (- w) (w + 1))) by (apply in_zrange; lia).
  assert (Z0 : existsb (Z.eqb 0) (zrange (- w) (w + 1)) = true) by (apply existsb_exists; exists 0; split; [exact I0|reflexivity]). rewrite Z0.
  destruct (load (ref / DAY)) as [f|] eqn:L; [|reflexivity].
  assert (RA : existsb (fun d => readable load (ref / DAY + d)) (zrange (- w) (w + 1)) = true).
  { apply existsb_exists. exists 0. split; [exact I0|]. rewrite Z.add_0_r. unfold readable. rewrite L. reflexivity. }
  rewrite RA. unfold outlier_cell. destruct (field_cells_ex load (ref / DAY) f n U L) as (g & EF & N). subst f.
  rewrite cells_map, set_where_cells. f_equal. apply cells_ext. intros k K. rewrite N by exact K. reflexivity.
Qed.

(* ------------------------------------------------------------------ bits of the results *)
Lemma orif_flag c fl q b : flag (orif c fl q) b <-> flag q b \/ (c = true /\ flag fl b).
Proof. unfold orif, flag. destruct c; [rewrite Z.lor_spec, orb_true_iff; tauto|split; [tauto|intros [H|[H _]]; [exact H|discriminate]]]. Qed.
Lemma orif_idem c fl q : orif c fl (orif c fl q) = orif c fl q.
Proof. unfold orif. destruct c; [rewrite <- Z.lor_assoc, Z.lor_diag; reflexivity|reflexivity]. Qed.
Lemma orif_swap c fl c' fl' q : orif c fl (orif c' fl' q) = orif c' fl' (orif c fl q).
Proof. unfold orif. destruct c, c'; try reflexivity. rewrite <- !Z.lor_assoc. f_equal. apply Z.lor_comm. Qed.
Lemma bit_flag n b : 0 <= n -> flag (bit n) b <-> b = n.
Proof. intros N. unfold flag. rewrite bit_spec by exact N. apply Z.eqb_eq. Qed.
Lemma orif_word c n q : 0 <= n < 16 -> word q -> word (orif c (bit n) q).
Proof.
  intros N W. unfold orif. destruct c; [|exact W]. unfold word in *. split; [apply Z.lor_nonneg; split; [lia|unfold bit; rewrite Z.shiftl_1_l; apply Z.pow_nonneg; lia]|].
  destruct (Z.eq_dec (Z.lor q (bit n)) 0) as [->|NZ]; [lia|]. change 65536 with (2 ^ 16).
  assert (0 <= Z.lor q (bit n)) by (apply Z.lor_nonneg; split; [lia|unfold bit; rewrite Z.shiftl_1_l; apply Z.pow_nonneg; lia]).
  apply Z.log2_lt_pow2; [lia|]. rewrite Z.log2_lor by (try lia; unfold bit; rewrite Z.shiftl_1_l; apply Z.pow_nonneg; lia).
  apply Z.max_lub_lt.
  - destruct (Z.eq_dec q 0) as [->|]; [cbn; lia|]. apply Z.log2_lt_pow2; lia.
  - unfold bit. rewrite Z.shiftl_1_l, Z.log2_pow2 by lia. lia.
Qed.

(* ------------------------------------------------------------------ checks in place *)
Definition same_on (M : Z) (q q' : Z) : Prop := forall b, flag M b -> Z.testbit q b = Z.testbit q' b.
Definition same_view (M : Z) (s s' : store) : Prop := forall d,
  match s d, s' d with None, None => True | Some f, Some f' => forall k, same_on M (nth k f 0) (nth k f' 0) | _, _ => False end.
Lemma has_same M q q' : same_on M q q' -> has q M = has q' M.
Proof.
  intros S. apply eq_true_iff_eq. rewrite !has_all. unfold all_set. split; intros H b B; specialize (H b B); unfold flag in *; [rewrite <- S|rewrite S]; assumption.
Qed.
Lemma obs_view M s s' k d : same_view M s s' -> obs s M k d = obs s' M k d.
Proof. intros V. specialize (V d). unfold obs. destruct (s d), (s' d); try tauto. rewrite (has_same M _ _ (V k)). reflexivity. Qed.
Lemma readable_view M s s' d : same_view M s s' -> readable s d = readable s' d.
Proof. intros V. specialize (V d). unfold readable. destruct (s d), (s' d); tauto. Qed.
Lemma cnt_ext p q l : (forall d, p d = q d) -> cnt p l = cnt q l.
Proof. intros H. unfold cnt. rewrite (filter_ext _ _ H). reflexivity. Qed.
Lemma existsb_ext_all {A} (p q : A -> bool) l : (forall d, p d = q d) -> existsb p l = existsb q l.
Proof. intros H. induction l as [|x l IH]; cbn; [reflexivity|rewrite H, IH; reflexivity]. Qed.

Section InPlace.
Variables (check : store -> Z -> result field) (C : store -> Z -> nat -> Z -> Z) (M : Z) (n : nat) (ok : Z -> Prop).
Hypothesis check_eq : forall s t, same_shape s n -> ok t -> check s t = match s (t / DAY) with None => Err NameError | Some f => Ok (cells n (fun k => C s t k (nth k f 0))) end.
Hypothesis C_day : forall s t t' k q, t / DAY = t' / DAY -> C s t k q = C s t' k q.
Hypothesis C_view : forall s s' t k q, same_view M s s' -> C s t k q = C s' t k q.
Hypothesis C_keeps : forall s t k q, same_on M (C s t k q) q.
Hypothesis C_idem : forall s t k q, C s t k (C s t k q) = C s t k q.
Definition partly_done (s0 s : store) : Prop := same_shape s n /\ forall d, s d = s0 d \/ exists t f, ok t /\ t / DAY = d /\ s0 d = Some f /\ s d = Some (cells n (fun k => C s0 t k (nth k f 0))).
Lemma done_view s0 s : same_shape s0 n -> partly_done s0 s -> same_view M s0 s.
Proof.
  intros U0 (U & P) d. destruct (P d) as [E|(t & f & O & T & E0 & E)]; [rewrite E; destruct (s0 d); [intros k b _; reflexivity|exact I]|].
  rewrite E0, E. intros k b B. destruct (Nat.lt_ge_cases k n) as [K|K].
  - rewrite cells_nth by exact K. symmetry. apply C_keeps, B.
  - rewrite !nth_overflow; [reflexivity|rewrite cells_length; exact K|rewrite (U0 d f E0); exact K].
Qed.
Lemma done_step s0 s t f0 : same_shape s0 n -> partly_done s0 s -> ok t -> s0 (t / DAY) = Some f0 ->
  check s t = Ok (cells n (fun k => C s0 t k (nth k f0 0))) /\ partly_done s0 (save_day s (t / DAY) (cells n (fun k => C s0 t k (nth k f0 0)))).
Proof.
  intros U0 PD O F0. pose proof (done_view s0 s U0 PD) as V. destruct PD as (U & P). split.
  - rewrite (check_eq s t U O). destruct (P (t / DAY)) as [E|(t' & f & O' & T & E0 & E)].
    + rewrite E, F0. f_equal. apply cells_ext. intros k _. symmetry. apply C_view, V.
    + rewrite E. rewrite F0 in E0. injection E0 as <-. f_equal. apply cells_ext. intros k K. rewrite cells_nth by exact K.
      rewrite (C_day s0 t' t k _ T), <- (C_view s0 s t k _ V). apply C_idem.
  - split.
    + intros d f. unfold save_day. destruct (d =? t / DAY); [intros E; injection E as <-; apply cells_length|apply U].
    + intros d. unfold save_day. destruct (d =? t / DAY) eqn:D; [|apply P]. apply Z.eqb_eq in D. right. exists t, f0. subst d. auto.
Qed.
Theorem in_place s0 dates : same_shape s0 n -> (forall t, In t dates -> ok t /\ s0 (t / DAY) <> None) ->
  exists s', flag_in_place check s0 dates = (s', None) /\
    (forall t, In t dates -> exists f, check s0 t = Ok f /\ s' (t / DAY) = Some f) /\ (forall d, ~ In d (map (fun t => t / DAY) dates) -> s' d = s0 d).
Proof.
  intros U0. assert (G : forall dates s, partly_done s0 s -> (forall t, In t dates -> ok t /\ s0 (t / DAY) <> None) ->
    exists s', flag_in_place check s dates = (s', None) /\ partly_done s0 s' /\
    (forall t, In t dates -> exists f, check s0 t = Ok f /\ s' (t / DAY) = Some f) /\
    (forall d, ~ In d (map (fun t => t / DAY) dates) -> s' d = s d)).
  { clear dates. induction dates as [|t dates IH]; intros s PD H.
    - exists s. split; [reflexivity|]. split; [exact PD|]. split; [intros t []|intros d _; reflexivity].
    - destruct (H t (or_introl eq_refl)) as [O N]. destruct (s0 (t / DAY)) as [f0|] eqn:F0; [|congruence].
      destruct (done_step s0 s t f0 U0 PD O F0) as [E PD']. cbn [flag_in_place]. rewrite E.
      destruct (IH _ PD' (fun t' I => H t' (or_intror I))) as (s' & R & PD'' & A & B). exists s'. split; [exact R|]. split; [exact PD''|]. split.
      + intros t' [<-|I]; [|apply A, I]. exists (cells n (fun k => C s0 t k (nth k f0 0))). split; [rewrite (check_eq s0 t U0 O), F0; reflexivity|].
        destruct (in_dec Z.eq_dec (t / DAY) (map (fun t => t / DAY) dates)) as [I|I].
        * apply in_map_iff in I. destruct I as (t' & T & I). destruct (A t' I) as (f & EC & ES). rewrite <- T, ES. f_equal.
          assert (O' : ok t') by (apply H; right; exact I). rewrite (check_eq s0 t' U0 O'), T, F0 in EC. injection EC as <-. apply cells_ext. intros k _. apply C_day, T.
        * rewrite (B _ I). unfold save_day. rewrite Z.eqb_refl. reflexivity.
      + intros d D. rewrite B by (intros I; apply D; right; exact I). unfold save_day. destruct (d =? t / DAY) eqn:ED; [|reflexivity].
        apply Z.eqb_eq in ED. exfalso. apply D. left. symmetry. exact ED. }
  intros H. destruct (G dates s0 (conj U0 (fun d => or_introl eq_refl)) H) as (s' & R & _ & A & B). exists s'. auto.
Qed.
End InPlace.

Lemma same_on_orif M c n q : 0 <= n -> Z.testbit M n = false -> same_on M (orif c (bit n) q) q.
Proof.
  intros N F b B. unfold orif. destruct c; [|reflexivity]. rewrite Z.lor_spec, bit_spec by exact N. destruct (b =? n) eqn:E; [|apply orb_false_r].
  apply Z.eqb_eq in E. subst b. unfold flag in B. congruence.
Qed.
Lemma same_on_trans M a b c : same_on M a b -> same_on M b c -> same_on M a c.
Proof. intros H1 H2 x X. rewrite (H1 x X). apply H2, X. Qed.

Theorem window_in_place n w thr target s dates : same_shape s n -> 0 <= w -> ~ flag target 1 -> ~ flag target 2 ->
  (forall t, In t dates -> window_dates t w /\ s (t / DAY) <> None) ->
  exists s', flag_in_place (local_window_constraint_checks w thr target) s dates = (s', None) /\
    (forall t, In t dates -> exists f, local_window_constraint_checks w thr target s t = Ok f /\ s' (t / DAY) = Some f) /\
    (forall d, ~ In d (map (fun t => t / DAY) dates) -> s' d = s d).
Proof.
  intros U W N1 N2. assert (B1 : Z.testbit target 1 = false) by (unfold flag in N1; destruct (Z.testbit target 1); congruence).
  assert (B2 : Z.testbit target 2 = false) by (unfold flag in N2; destruct (Z.testbit target 2); congruence).
  apply (in_place _ (fun s t k q => window_cell s target (t / DAY) w thr k q) target n (fun t => window_dates t w)); [..|exact U].
  - intros s0 t U0 D. apply window_check_eq; assumption.
  - intros s0 t t' k q E. rewrite E. reflexivity.
  - intros s0 s1 t k q V. unfold window_cell.
    assert (R : other_readable s0 (t / DAY) w = other_readable s1 (t / DAY) w) by (apply existsb_ext_all; intros d; rewrite (readable_view target s0 s1 _ V); reflexivity).
    assert (A : days_after s0 target (t / DAY) w k = days_after s1 target (t / DAY) w k) by (apply cnt_ext; intros d; rewrite (obs_view target s0 s1 k _ V); reflexivity).
    assert (B : days_before s0 target (t / DAY) w k = days_before s1 target (t / DAY) w k) by (apply cnt_ext; intros d; rewrite (obs_view target s0 s1 k _ V); reflexivity).
    rewrite R, A, B. reflexivity.
  - intros s0 t k q. unfold window_cell. eapply same_on_trans; apply same_on_orif; assumption || lia.
  - intros s0 t k q. unfold window_cell. rewrite (orif_swap _ PRIOR_WINDOW_FLAG _ POST_WINDOW_FLAG), !orif_idem. reflexivity.
Qed.
Lemma day_in_year_day t t' y : t / DAY = t' / DAY -> day_in_year t y = day_in_year t' y /\ dt_year t = dt_year t'.
Proof. intros E. unfold day_in_year, dt_month, dt_day, dt_year. rewrite E. split; reflexivity. Qed.
Theorem calendar_in_place n start end_ target s dates : same_shape s n -> 1 <= start -> end_ <= 9999 -> ~ flag target 3 -> ~ flag target 4 -> ~ flag target 15 ->
  (forall t, In t dates -> start <= dt_year t <= end_ /\ s (t / DAY) <> None) ->
  exists s', flag_in_place (calendar_constraint_checks start end_ target) s dates = (s', None) /\
    (forall t, In t dates -> exists f, calendar_constraint_checks start end_ target s t = Ok f /\ s' (t / DAY) = Some f) /\
    (forall d, ~ In d (map (fun t => t / DAY) dates) -> s' d = s d).
Proof.
  intros U S E N1 N2 N3. assert (B1 : Z.testbit target 3 = false) by (unfold flag in N1; destruct (Z.testbit target 3); congruence).
  assert (B2 : Z.testbit target 4 = false) by (unfold flag in N2; destruct (Z.testbit target 4); congruence).
  assert (B3 : Z.testbit target 15 = false) by (unfold flag in N3; destruct (Z.testbit target 15); congruence).
  apply (in_place _ (fun s t k q => calendar_cell s target t start end_ k q) target n (fun t => start <= dt_year t <= end_)); [..|exact U].
  - intros s0 t U0 D. apply calendar_check_eq; assumption.
  - intros s0 t t' k q T. assert (Y : dt_year t = dt_year t') by apply (day_in_year_day t t' 0 T).
    assert (D : forall y, day_in_year t y = day_in_year t' y) by (intros y; apply (day_in_year_day t t' y T)).
    unfold calendar_cell, years_all, years_before, years_after, year_shifts. rewrite Y.
    rewrite (cnt_ext (fun y => obs s0 target k (day_in_year t (dt_year t' + y))) (fun y => obs s0 target k (day_in_year t' (dt_year t' + y)))) by (intros y; rewrite D; reflexivity).
    rewrite (cnt_ext (fun y => (0 <? y) && obs s0 target k (day_in_year t (dt_year t' + y))) (fun y => (0 <? y) && obs s0 target k (day_in_year t' (dt_year t' + y)))) by (intros y; rewrite D; reflexivity).
    rewrite (cnt_ext (fun y => (y <? 0) && obs s0 target k (day_in_year t (dt_year t' + y))) (fun y => (y <? 0) && obs s0 target k (day_in_year t' (dt_year t' + y)))) by (intros y; rewrite D; reflexivity).
    reflexivity.
  - intros s0 s1 t k q V. unfold calendar_cell.
    assert (T : years_all s0 target t start end_ k = years_all s1 target t start end_ k) by (apply cnt_ext; intros d; apply obs_view, V).
    assert (A : years_after s0 target t start end_ k = years_after s1 target t start end_ k) by (apply cnt_ext; intros d; rewrite (obs_view target s0 s1 k _ V); reflexivity).
    assert (B : years_before s0 target t start end_ k = years_before s1 target t start end_ k) by (apply cnt_ext; intros d; rewrite (obs_view target s0 s1 k _ V); reflexivity).
    rewrite T, A, B. reflexivity.
  - intros s0 t k q. unfold calendar_cell. eapply same_on_trans; [apply same_on_orif; assumption || lia|]. eapply same_on_trans; apply same_on_orif; assumption || lia.
  - intros s0 t k q. unfold calendar_cell.
    set (c1 := _ <? 3). set (c2 := years_after _ _ _ _ _ _ <? 1). set (c3 := years_before _ _ _ _ _ _ <? 1).
    rewrite (orif_swap c3 PRIOR_CALENDAR_FLAG c1), (orif_swap c3 PRIOR_CALENDAR_FLAG c2), orif_idem.
    rewrite (orif_swap c2 POST_CALENDAR_FLAG c1), !orif_idem. reflexivity.
Qed.
Lemma bad_view s s' k d : same_view (Z.lor (Z.lor AREAL_LOW_FLAG AREAL_HIGH_FLAG) (Z.lor EXTREME_LOW_FLAG EXTREME_HIGH_FLAG)) s s' -> bad s k d = bad s' k d.
Proof.
  intros V. specialize (V d). unfold bad. destruct (s d), (s' d); try tauto. specialize (V k). cbn [existsb OUTLIER_FLAGS].
  unfold AREAL_LOW_FLAG, AREAL_HIGH_FLAG, EXTREME_LOW_FLAG, EXTREME_HIGH_FLAG in *. rewrite !has_bit by lia.
  rewrite (V 7), (V 8), (V 9), (V 10) by reflexivity. reflexivity.
Qed.
Theorem outlier_in_place n w thr s dates : same_shape s n -> 0 <= w ->
  (forall t, In t dates -> window_dates t w /\ s (t / DAY) <> None) ->
  exists s', flag_in_place (persistant_outlier_check w thr) s dates = (s', None) /\
    (forall t, In t dates -> exists f, persistant_outlier_check w thr s t = Ok f /\ s' (t / DAY) = Some f) /\
    (forall d, ~ In d (map (fun t => t / DAY) dates) -> s' d = s d).
Proof.
  intros U W.
  apply (in_place _ (fun s t k q => outlier_cell s (t / DAY) w thr k q) (Z.lor (Z.lor AREAL_LOW_FLAG AREAL_HIGH_FLAG) (Z.lor EXTREME_LOW_FLAG EXTREME_HIGH_FLAG)) n (fun t => window_dates t w)); [..|exact U].
  - intros s0 t U0 D. apply outlier_check_eq; assumption.
  - intros s0 t t' k q E. rewrite E. reflexivity.
  - intros s0 s1 t k q V. unfold outlier_cell.
    assert (B : bad_days s0 (t / DAY) w k = bad_days s1 (t / DAY) w k) by (apply cnt_ext; intros d; apply bad_view, V).
    rewrite B. reflexivity.
  - intros s0 t k q. apply same_on_orif; [lia|reflexivity].
  - intros s0 t k q. apply orif_idem.
Qed.

(* ------------------------------------------------------------------ windows of days *)
Lemma fewer_shift m (P : Z -> Prop) day : fewer_than m P <-> fewer_than m (fun d => P (day + d)).
Proof.
  unfold fewer_than. split.
  - intros (l & L & I). exists (map (fun d => d - day) l). rewrite map_length. split; [exact L|]. intros d D. apply in_map_iff. exists (day + d). split; [lia|apply I, D].
  - intros (l & L & I). exists (map (fun d => day + d) l). rewrite map_length. split; [exact L|]. intros d D. apply in_map_iff. exists (d - day). split; [lia|]. apply I.
    replace (day + (d - day)) with d by lia. exact D.
Qed.
Lemma at_least_shift m (P : Z -> Prop) day : at_least m P <-> at_least m (fun d => P (day + d)).
Proof.
  unfold at_least. split.
  - intros (l & N & L & I). exists (map (fun d => d - day) l). rewrite map_length. split; [apply FinFun.Injective_map_NoDup; [intros x y; lia|exact N]|].
    split; [exact L|]. intros d D. apply in_map_iff in D. destruct D as (x & <- & X). replace (day + (x - day)) with x by lia. apply I, X.
  - intros (l & N & L & I). exists (map (fun d => day + d) l). rewrite map_length. split; [apply FinFun.Injective_map_NoDup; [intros x y; lia|exact N]|].
    split; [exact L|]. intros d D. apply in_map_iff in D. destruct D as (x & <- & X). apply I, X.
Qed.
Lemma days_before_spec load target day w k m : (days_before load target day w k <? m) = true <-> fewer_than m (fun d => day - w <= d < day /\ constrained load target k d).
Proof.
  rewrite (fewer_shift _ _ day). apply cnt_fewer; [apply zrange_nodup|]. intros d. rewrite in_zrange, andb_true_iff, obs_spec, Z.ltb_lt. intuition lia.
Qed.
Lemma days_after_spec load target day w k m : (days_after load target day w k <? m) = true <-> fewer_than m (fun d => day < d <= day + w /\ constrained load target k d).
Proof.
  rewrite (fewer_shift _ _ day). apply cnt_fewer; [apply zrange_nodup|]. intros d. rewrite in_zrange, andb_true_iff, obs_spec, Z.ltb_lt. intuition lia.
Qed.
Lemma years_before_spec load target ref s e k m : dt_year ref <= e -> (years_before load target ref s e k <? m) = true <-> fewer_than m (fun y => s <= y < dt_year ref /\ constrained load target k (day_in_year ref y)).
Proof.
  intros Y. rewrite (fewer_shift _ _ (dt_year ref)). apply cnt_fewer; [apply zrange_nodup|]. intros d. unfold year_shifts. rewrite in_zrange, andb_true_iff, obs_spec, Z.ltb_lt. intuition lia.
Qed.
Lemma years_after_spec load target ref s e k m : s <= dt_year ref -> (years_after load target ref s e k <? m) = true <-> fewer_than m (fun y => dt_year ref < y <= e /\ constrained load target k (day_in_year ref y)).
Proof.
  intros Y. rewrite (fewer_shift _ _ (dt_year ref)). apply cnt_fewer; [apply zrange_nodup|]. intros d. unfold year_shifts. rewrite in_zrange, andb_true_iff, obs_spec, Z.ltb_lt. intuition lia.
Qed.
Lemma years_all_spec load target ref s e k m : (years_all load target ref s e k <? m) = true <-> fewer_than m (fun y => s <= y <= e /\ constrained load target k (day_in_year ref y)).
Proof.
  rewrite (fewer_shift _ _ (dt_year ref)). apply cnt_fewer; [apply zrange_nodup|]. intros d. unfold year_shifts. rewrite in_zrange, obs_spec. intuition lia.
Qed.
Lemma bad_days_spec load day w k m : (m <=? bad_days load day w k) = true <-> at_least m (fun d => day - w <= d <= day + w /\ flagged load [7; 8; 9; 10] k d).
Proof.
  rewrite (at_least_shift _ _ day). apply cnt_at_least; [apply zrange_nodup|]. intros d. rewrite in_zrange, bad_spec. intuition lia.
Qed.

(* ------------------------------------------------------------------ merging *)
Lemma merge_spec a b k : flag (merge_cell a b) k <-> flag a k \/ (k <> 7 /\ flag b k) \/ (k = 12 /\ flag b 7).
Proof.
  unfold merge_cell, flag, AREAL_LOW_FLAG, MISSING_MARINE_FLAG. cbv zeta. rewrite has_bit by lia. destruct (Z_lt_dec k 0) as [N|N]; [rewrite !(Z.testbit_neg_r _ k) by lia; intuition (try discriminate; lia)|].
  rewrite Z.lor_spec, Z.land_spec, Z.lnot_spec, bit_spec by lia.
  destruct (Z.testbit b 7) eqn:B7; [rewrite Z.lor_spec, bit_spec by lia|]; destruct (k =? 7) eqn:K7; [apply Z.eqb_eq in K7; subst k| |apply Z.eqb_eq in K7; subst k|];
    cbn [negb andb orb]; rewrite ?andb_false_r, ?andb_true_r, ?orb_false_r, ?orb_true_iff, ?Z.eqb_eq, ?Z.eqb_neq in *; intuition (try discriminate; try lia; try congruence).
Qed.

(* ------------------------------------------------------------------ the coast *)
Lemma set_last_snoc {A} (f : A -> A) l x : set_last f (l ++ [x]) = l ++ [f x].
Proof. unfold set_last. rewrite rev_unit. cbn [rev]. rewrite rev_involutive. reflexivity. Qed.
Lemma set_last_length {A} (f : A -> A) l : length (set_last f l) = length l.
Proof. destruct l as [|x l] using rev_ind; [reflexivity|]. rewrite set_last_snoc, !app_length. reflexivity. Qed.
Lemma set_last_nth {A} (f : A -> A) l d i : (i < length l)%nat -> nth i (set_last f l) d = if Nat.eqb i (length l - 1) then f (nth i l d) else nth i l d.
Proof.
  destruct l as [|x l _] using rev_ind; [cbn; lia|]. rewrite set_last_snoc, app_length. cbn [length]. intros I.
  replace (length l + 1 - 1)%nat with (length l) by lia. destruct (Nat.eqb i (length l)) eqn:E.
  - apply Nat.eqb_eq in E. subst i. rewrite !app_nth2, Nat.sub_diag by lia. reflexivity.
  - apply Nat.eqb_neq in E. rewrite !app_nth1 by lia. reflexivity.
Qed.
Lemma set_first_length {A} (f : A -> A) l : length (set_first f l) = length l.
Proof. destruct l; reflexivity. Qed.
Lemma set_first_nth {A} (f : A -> A) l d i : (i < length l)%nat -> nth i (set_first f l) d = if Nat.eqb i 0 then f (nth i l d) else nth i l d.
Proof. destruct l as [|x l]; [cbn; lia|]. destruct i; reflexivity. Qed.
Lemma py_index_1 {A} (l : list A) d : (2 <= length l)%nat -> py_index l 1 = Ok (nth 1 l d).
Proof. destruct l as [|a [|b l]]; cbn [length]; intros H; try lia. unfold py_index, zlen. cbn [length nth]. replace (1 <? 0) with false by lia.
  replace ((0 <=? 1) && (1 <? Z.of_nat (S (S (length l))))) with true by lia. reflexivity. Qed.
Lemma py_index_m2 {A} (l : list A) d : (2 <= length l)%nat -> py_index l (-2) = Ok (nth (length l - 2) l d).
Proof.
  intros H. unfold py_index, zlen. cbv zeta. replace (-2 <? 0) with true by lia. replace ((0 <=? -2 + Z.of_nat (length l)) && (-2 + Z.of_nat (length l) <? Z.of_nat (length l))) with true by lia.
  replace (Z.to_nat (-2 + Z.of_nat (length l))) with (length l - 2)%nat by lia. destruct (nth_error l (length l - 2)) eqn:E; [rewrite (nth_error_nth _ _ _ E); reflexivity|].
  apply nth_error_None in E. lia.
Qed.
Lemma fix_columns_spec row : (3 <= length row)%nat -> exists out, fix_columns row = Ok out /\ length out = length row /\
  forall j, (j < length row)%nat -> nth j out 0%Qc = nth (column_beside (length row) j) row 0%Qc.
Proof.
  intros W. unfold fix_columns. rewrite (py_index_1 row 0%Qc) by lia. cbn [bind].
  rewrite (py_index_m2 _ 0%Qc) by (rewrite set_first_length; lia). cbn [bind]. eexists. split; [reflexivity|]. split; [rewrite set_last_length, set_first_length; reflexivity|].
  intros j J. rewrite set_last_nth by (rewrite set_first_length; exact J). rewrite !set_first_length, !set_first_nth by lia. unfold column_beside.
  replace (Nat.eqb (length row - 2) 0) with false by lia. destruct (Nat.eqb j 0) eqn:J0; [|destruct (Nat.eqb j (length row - 1)); reflexivity].
  apply Nat.eqb_eq in J0. subst j. replace (Nat.eqb 0 (length row - 1)) with false by lia. reflexivity.
Qed.
Lemma fill_row_nth v row j : (j < length row)%nat -> nth j (fill_row v row) 0%Qc = v.
Proof. revert j. induction row as [|x row IH]; intros j J; [cbn in J; lia|]. destruct j; [reflexivity|]. cbn. apply IH. cbn in J. lia. Qed.
Lemma mapM_rows {A B} (f : A -> result B) l : (forall x, In x l -> exists y, f x = Ok y) -> exists r, mapM f l = Ok r.
Proof.
  induction l as [|x l IH]; intros H; [exists []; reflexivity|]. destruct (H x (or_introl eq_refl)) as (y & Y). destruct IH as (r & R); [intros z Z; apply H; right; exact Z|].
  exists (y :: r). cbn. rewrite Y. cbn. rewrite R. reflexivity.
Qed.
Lemma mapM_nth_ok {A B} (f : A -> result B) l r da db : mapM f l = Ok r -> forall i, (i < length l)%nat -> f (nth i l da) = Ok (nth i r db).
Proof.
  revert r. induction l as [|x l IH]; intros r R i I; [cbn in I; lia|]. cbn in R. destruct (f x) as [y|] eqn:Y; [|discriminate]. cbn in R. destruct (mapM f l) as [ys|] eqn:M; [|discriminate].
  injection R as <-. destruct i as [|i]; [exact Y|]. cbn. apply IH; [reflexivity|cbn in I; lia].
Qed.
Lemma column_beside_lt w j : (3 <= w)%nat -> (j < w)%nat -> (column_beside w j < w)%nat.
Proof. intros W J. unfold column_beside. destruct (Nat.eqb j 0); [lia|]. destruct (Nat.eqb j (w - 1)); lia. Qed.
Lemma fix_coast_spec coast h w : shape coast h w -> (1 <= h)%nat -> (3 <= w)%nat -> exists out, fix_coast coast = Ok out /\ shape out h w /\
  forall i j, (i < h)%nat -> (j < w)%nat -> nth j (nth i out []) 0%Qc =
    if Nat.eqb i (h - 1) then SEA_VALUE else if Nat.eqb i 0 then LAND_VALUE else nth (column_beside w j) (nth i coast []) 0%Qc.
Proof.
  intros [LH LW] H W. unfold fix_coast. destruct coast as [|r0 rest] eqn:EC; [cbn in LH; lia|]. rewrite <- EC in *. clear r0 rest EC.
  set (mid := set_last (fill_row SEA_VALUE) (set_first (fill_row LAND_VALUE) coast)).
  assert (ML : length mid = h) by (unfold mid; rewrite set_last_length, set_first_length; exact LH).
  assert (MN : forall i, (i < h)%nat -> nth i mid [] = if Nat.eqb i (h - 1) then fill_row SEA_VALUE (nth i (set_first (fill_row LAND_VALUE) coast) []) else if Nat.eqb i 0 then fill_row LAND_VALUE (nth i coast []) else nth i coast []).
  { intros i I. unfold mid. rewrite set_last_nth by (rewrite set_first_length; lia). rewrite set_first_length, LH. destruct (Nat.eqb i (h - 1)); [reflexivity|]. apply set_first_nth. lia. }
  assert (RW : forall i, (i < h)%nat -> length (nth i coast []) = w) by (intros i I; apply LW, nth_In; lia).
  assert (FW : forall i, (i < h)%nat -> length (nth i (set_first (fill_row LAND_VALUE) coast) []) = w).
  { intros i I. rewrite set_first_nth by lia. destruct (Nat.eqb i 0); [unfold fill_row; rewrite map_length|]; apply RW, I. }
  assert (MW : forall i, (i < h)%nat -> length (nth i mid []) = w).
  { intros i I. rewrite MN by exact I. destruct (Nat.eqb i (h - 1)); [unfold fill_row; rewrite map_length; apply FW, I|]. destruct (Nat.eqb i 0); [unfold fill_row; rewrite map_length|]; apply RW, I. }
  destruct (mapM_rows fix_columns mid) as (out & O).
  { intros row R. apply (In_nth _ _ []) in R. destruct R as (i & I & <-). rewrite ML in I. destruct (fix_columns_spec (nth i mid [])) as (o & E & _); [rewrite MW by exact I; exact W|exists o; exact E]. }
  exists out. split; [exact O|]. pose proof (mapM_length _ _ _ O) as OL. rewrite ML in OL.
  assert (ON : forall i, (i < h)%nat -> length (nth i out []) = w /\ forall j, (j < w)%nat -> nth j (nth i out []) 0%Qc = nth (column_beside w j) (nth i mid []) 0%Qc).
  { intros i I. destruct (fix_columns_spec (nth i mid [])) as (o & E & L & N); [rewrite MW by exact I; exact W|]. rewrite MW in L, N by exact I.
    rewrite (mapM_nth_ok _ _ _ [] [] O i) in E by lia. injection E as <-. split; assumption. }
  split.
  - split; [exact OL|]. intros row R. apply (In_nth _ _ []) in R. destruct R as (i & I & <-). apply ON. lia.
  - intros i j I J. destruct (ON i I) as [_ N]. rewrite N by exact J. rewrite MN by exact I. pose proof (column_beside_lt w j W J).
    destruct (Nat.eqb i (h - 1)); [apply fill_row_nth; rewrite FW by exact I; assumption|].
    destruct (Nat.eqb i 0); [apply fill_row_nth; rewrite RW by exact I; assumption|reflexivity].
Qed.
Lemma concat_length_rect {A} (g : list (list A)) h w : shape g h w -> length (concat g) = (h * w)%nat.
Proof.
  revert h. induction g as [|r g IH]; intros h [L W]; cbn in *; [subst h; reflexivity|]. subst h. rewrite app_length, (W r) by (left; reflexivity).
  rewrite (IH (length g)); [lia|]. split; [reflexivity|]. intros row R. apply W. right. exact R.
Qed.
Lemma concat_nth {A} (g : list (list A)) h w d i j : shape g h w -> (i < h)%nat -> (j < w)%nat -> nth (i * w + j) (concat g) d = nth j (nth i g []) d.
Proof.
  revert h i. induction g as [|r g IH]; intros h i [L W] I J; cbn in L; [lia|]. subst h. cbn [concat]. assert (RL : length r = w) by (apply W; left; reflexivity).
  destruct i as [|i]; [cbn [Nat.mul Nat.add]; rewrite app_nth1 by lia; reflexivity|]. rewrite app_nth2 by (rewrite RL; lia). rewrite RL.
  replace (S i * w + j - w)%nat with (i * w + j)%nat by lia. rewrite (IH (length g) i); [reflexivity| |lia|exact J]. split; [reflexivity|]. intros row R. apply W. right. exact R.
Qed.
Lemma reset_marine_spec coast h w f : shape coast h w -> (1 <= h)%nat -> (3 <= w)%nat -> length f = (h * w)%nat -> exists out, reset_marine_flag coast f = Ok out /\ length out = (h * w)%nat /\
  forall i j b, (i < h)%nat -> (j < w)%nat -> flag (nth (i * w + j) out 0) b <-> (b <> 12 /\ flag (nth (i * w + j) f 0) b) \/ (b = 12 /\ marine coast i j).
Proof.
  intros S H W L. unfold reset_marine_flag. destruct (fix_coast_spec coast h w S H W) as (fx & -> & SF & N). cbn [bind].
  assert (CL : length (concat fx) = (h * w)%nat) by (apply (concat_length_rect _ h w SF)).
  unfold zlen. rewrite map_length, CL, L, Z.eqb_refl.
  rewrite (map_field _ f _ L), (as_cells_n 0%Qc (concat fx) _ CL), cells_map, set_where_cells. eexists. split; [reflexivity|]. split; [apply cells_length|].
  intros i j b I J. assert (K : (i * w + j < h * w)%nat) by nia. rewrite cells_nth by exact K. cbv beta. rewrite (concat_nth fx h w 0%Qc i j SF I J), (N i j I J).
  set (c := if Nat.eqb i (h - 1) then SEA_VALUE else if Nat.eqb i 0 then LAND_VALUE else nth (column_beside w j) (nth i coast []) 0%Qc).
  assert (M : Qclt_bool MARINE_CLASSIFICATION_THRESHOLD c = true <-> marine coast i j).
  { rewrite Qclt_bool_iff. unfold marine, c. destruct S as [SL SW]. rewrite SL, (SW (nth i coast [])) by (apply nth_In; lia).
    destruct (Nat.eqb i (h - 1)) eqn:E1; [apply Nat.eqb_eq in E1; split; [left; exact E1|reflexivity]|]. apply Nat.eqb_neq in E1.
    destruct (Nat.eqb i 0) eqn:E0; [apply Nat.eqb_eq in E0; split; [intros Q; exfalso; revert Q; vm_compute; discriminate|intros [Q|[Q _]]; contradiction]|]. apply Nat.eqb_neq in E0.
    change (Q2Qc 95) with MARINE_CLASSIFICATION_THRESHOLD. tauto. }
  assert (B : flag (Z.land (nth (i * w + j) f 0) (Z.lnot MISSING_MARINE_FLAG)) b <-> b <> 12 /\ flag (nth (i * w + j) f 0) b).
  { unfold flag. destruct (Z_lt_dec b 0) as [Nb|Nb]; [rewrite !Z.testbit_neg_r by lia; intuition (try discriminate)|].
    rewrite Z.land_spec, Z.lnot_spec by lia. unfold MISSING_MARINE_FLAG. rewrite bit_spec by lia. rewrite andb_true_iff, negb_true_iff, Z.eqb_neq. tauto. }
  destruct (Qclt_bool MARINE_CLASSIFICATION_THRESHOLD c) eqn:E.
  - assert (MM : marine coast i j) by (apply M; reflexivity). unfold flag in *. rewrite Z.lor_spec, orb_true_iff, B. unfold MISSING_MARINE_FLAG at 1. rewrite bit_spec by lia. rewrite Z.eqb_eq. tauto.
  - assert (MM : ~ marine coast i j) by (intros MM; apply M in MM; congruence). rewrite B. tauto.
Qed.

(* ------------------------------------------------------------------ the mask *)
Lemma mask_iff specs q : compute_mask specs q = true <-> exists req forb, In (req, forb) specs /\ all_set req q /\ forall b, flag forb b -> ~ flag req b -> ~ flag q b.
Proof.
  unfold compute_mask. rewrite existsb_exists. split.
  - intros ([req forb] & I & E). exists req, forb. cbn [fst snd] in E. apply mask_one in E. tauto.
  - intros (req & forb & I & E). exists (req, forb). split; [exact I|]. cbn [fst snd]. apply mask_one, E.
Qed.
Lemma all_set_bit n q : 0 <= n -> all_set (bit n) q <-> flag q n.
Proof. intros N. rewrite <- has_all, has_bit by exact N. reflexivity. Qed.
Lemma all_set_to n q : 0 <= n -> all_set (bit n) q -> flag q n.
Proof. intros N. apply all_set_bit, N. Qed.
Lemma all_set_of n q : 0 <= n -> flag q n -> all_set (bit n) q.
Proof. intros N. apply all_set_bit, N. Qed.
Lemma null_flag b : ~ flag NULL_FLAG b.
Proof. unfold flag, NULL_FLAG. rewrite Z.bits_0. discriminate. Qed.
Lemma production_mask year q : compute_mask (flags_to_mask year) q = true <->
  (exists b, In b [5; 6; 7; 8; 9; 10; 13; 14] /\ flag q b) \/ (flag q 15 /\ ~ flag q 12) \/ (2012 < year /\ flag q 12).
Proof.
  rewrite mask_iff. split.
  - intros (req & forb & I & A & F). apply in_app_or in I. destruct I as [I|I].
    + cbn [In FLAGS_TO_MASK] in I.
      destruct I as [E|I].
      { injection E as <- <-. right. left. split; [apply all_set_to; [lia|exact A]|]. apply F; [apply (bit_flag 12); lia|]. intros B. apply (bit_flag 15) in B; lia. }
      left. repeat match type of I with _ \/ _ => destruct I as [E|I]; [injection E as <- <-; eexists; split; [|apply all_set_to; [|exact A]; lia]; cbn; tauto|] end. destruct I.
    + destruct (2012 <? year) eqn:Y; [|destruct I]. destruct I as [E|[]]. injection E as <- <-. right. right. split; [lia|]. apply all_set_to; [lia|exact A].
  - intros [(b & I & B)|[[B15 B12]|[Y B12]]].
    + exists (bit b), NULL_FLAG. split; [|split].
      * apply in_or_app. left. cbn in I. repeat destruct I as [<-|I]; cbn [In FLAGS_TO_MASK]; try (unfold LARGE_SCALE_UNC_FLAG, CLIMATOLOGY_UNC_FLAG, AREAL_LOW_FLAG, AREAL_HIGH_FLAG, EXTREME_LOW_FLAG, EXTREME_HIGH_FLAG, LOCATION_LOW_FLAG, LOCATION_HIGH_FLAG; tauto).
      * apply all_set_of; [cbn in I; lia|exact B].
      * intros b' N. destruct (null_flag b' N).
    + exists MISSING_FLAG_FLAG, MISSING_MARINE_FLAG. split; [|split].
      * apply in_or_app. left. left. reflexivity.
      * apply all_set_of; [lia|exact B15].
      * intros b' N _. apply (bit_flag 12) in N; [|lia]. subst b'. exact B12.
    + exists MISSING_MARINE_FLAG, NULL_FLAG. split; [|split].
      * apply in_or_app. right. replace (2012 <? year) with true by lia. left. reflexivity.
      * apply all_set_of; [lia|exact B12].
      * intros b' N. destruct (null_flag b' N).
Qed.
Lemma mask_nth specs f k : (k < length f)%nat -> nth k (map (compute_mask specs) f) false = compute_mask specs (nth k f 0).
Proof. intros K. rewrite (nth_indep _ false (compute_mask specs 0)) by (rewrite map_length; exact K). apply map_nth. Qed.
Lemma or_fields_cells n a b : or_fields (cells n a) (cells n b) = Ok (cells n (fun k => Z.lor (a k) (b k))).
Proof. unfold or_fields. rewrite !cells_zlen, Z.eqb_refl, cells_combine, cells_map. reflexivity. Qed.

Section Outputs.
Context {V : Type}.
Lemma combined_words (d : day_data V) n : flags_of_size d n -> exists q, length q = n /\
  (do qc <- read (d_flags V d); match d_flags2 V d with None => Ok qc | Some second => do q2 <- read second; or_fields qc q2 end) = Ok q /\ forall k b, (k < n)%nat -> flag (nth k q 0) b <-> raised d k b.
Proof.
  intros [(f1 & E1 & L1) [N|(f2 & E2 & L2)]].
  - exists f1. rewrite E1, N. cbn [read bind]. split; [exact L1|]. split; [reflexivity|]. intros k b K. unfold raised. rewrite E1, N. split.
    + intros F. left. exists f1. auto.
    + intros [(f & E & F)|(f & E & F)]; [injection E as <-; exact F|discriminate].
  - rewrite E1, E2. cbn [read bind]. replace (or_fields f1 f2) with (or_fields (cells n (fun k => nth k f1 0)) (cells n (fun k => nth k f2 0))) by (rewrite <- (as_cells_n 0 f1 n L1), <- (as_cells_n 0 f2 n L2); reflexivity). rewrite or_fields_cells. eexists. split; [apply cells_length|]. split; [reflexivity|].
    intros k b K. rewrite cells_nth by exact K. unfold raised, flag. rewrite Z.lor_spec, orb_true_iff, E1, E2. split.
    + intros [F|F]; [left; exists f1; auto|right; exists f2; auto].
    + intros [(f & E & F)|(f & E & F)]; injection E as <-; tauto.
Qed.
Lemma combined_mask_spec (d : day_data V) year h w : flags_of_size d (h * w) -> shape (d_coast V d) h w -> (1 <= h)%nat -> (3 <= w)%nat ->
  exists mask, combined_mask V (flags_to_mask year) d = Ok mask /\ length mask = (h * w)%nat /\ forall i j, (i < h)%nat -> (j < w)%nat ->
    nth (i * w + j) mask false = true <->
    (exists b, In b [5; 6; 7; 8; 9; 10; 13; 14] /\ raised d (i * w + j) b) \/ (raised d (i * w + j) 15 /\ ~ marine (d_coast V d) i j) \/ (2012 < year /\ marine (d_coast V d) i j).
Proof.
  intros FS S H W. destruct (combined_words d _ FS) as (q & QL & QE & QF). unfold combined_mask.
  destruct (read (d_flags V d)) as [f1|]; [|discriminate]. cbn [bind] in QE |- *. rewrite QE. cbn [bind].
  destruct (reset_marine_spec _ h w q S H W QL) as (out & RE & RL & RF). rewrite RE. cbn [bind]. eexists. split; [reflexivity|]. split; [rewrite map_length; exact RL|].
  intros i j I J. assert (K : (i * w + j < h * w)%nat) by nia. rewrite mask_nth by lia. rewrite production_mask.
  assert (B : forall b, b <> 12 -> flag (nth (i * w + j) out 0) b <-> raised d (i * w + j) b) by (intros b N; rewrite (RF i j b I J), <- (QF _ b K); tauto).
  assert (M : flag (nth (i * w + j) out 0) 12 <-> marine (d_coast V d) i j) by (rewrite (RF i j 12 I J); intuition lia).
  rewrite M, (B 15) by lia. split; (intros [(b & Ib & Fb)|R]; [left; exists b; split; [exact Ib|]; apply B; [cbn in Ib; lia|exact Fb]|right; exact R]).
Qed.

Lemma masked_where_hides mask (data : list V) out : masked_where V mask data = Ok out -> hides mask data out.
Proof.
  unfold masked_where. destruct (zlen mask =? zlen data) eqn:L; [|discriminate]. intros E. injection E as <-. unfold zlen in L. assert (LL : length mask = length data) by lia. clear L. unfold hides.
  rewrite map_length, combine_length, LL, Nat.min_id. split; [reflexivity|]. split; [reflexivity|]. revert data LL. induction mask as [|m mask IH]; intros [|x data] LL; cbn in LL; try lia.
  - intros k v E. destruct k; discriminate.
  - intros [|k] v E; cbn in E |- *; [injection E as <-; destruct m; reflexivity|]. apply IH; [lia|exact E].
Qed.
Lemma hides_masked_where mask (data : list V) : length mask = length data -> exists out, masked_where V mask data = Ok out.
Proof. intros L. unfold masked_where, zlen. rewrite L, Z.eqb_refl. eexists. reflexivity. Qed.

Lemma three_spec first mask c vars : three V first mask c = Ok vars -> forall v out, In (v, out) vars ->
  (v = first /\ hides mask (analysis_of c) out) \/ (v = TASUNCERTAINTY /\ hides mask (uncertainty_of c) out) \/ (v = TAS_OBSERVATION_INFLUENCE /\ hides mask (influence_of c) out).
Proof.
  destruct c as [[a u] i]. unfold three. cbn [analysis_of uncertainty_of influence_of fst snd].
  destruct (masked_where V mask a) as [ma|] eqn:A; [|discriminate]. destruct (masked_where V mask u) as [mu|] eqn:U; [|discriminate]. destruct (masked_where V mask i) as [mi|] eqn:I; [|discriminate].
  cbn [bind]. intros E. injection E as <-. intros v out [E|[E|[E|[]]]]; injection E as <- <-; [left|right; left|right; right]; (split; [reflexivity|apply masked_where_hides; assumption]).
Qed.
Lemma insert_perm (x : Z * list V) l : Permutation (insert_member V x l) (x :: l).
Proof. induction l as [|y l IH]; cbn; [reflexivity|]. destruct (fst x <=? fst y); [reflexivity|]. rewrite IH. apply perm_swap. Qed.
Lemma sort_perm (l : list (Z * list V)) : Permutation (sort_members V l) l.
Proof. induction l as [|x l IH]; cbn; [reflexivity|]. rewrite insert_perm, IH. reflexivity. Qed.
Lemma insert_sorted (x : Z * list V) l : StronglySorted Z.le (map fst l) -> StronglySorted Z.le (map fst (insert_member V x l)).
Proof.
  induction l as [|y l IH]; intros S; cbn; [repeat constructor|]. destruct (fst x <=? fst y) eqn:E.
  - cbn. constructor; [exact S|]. cbn in S. apply StronglySorted_inv in S. destruct S as [_ S]. constructor; [lia|]. eapply Forall_impl; [|exact S]. cbn. intros a A. lia.
  - cbn in *. apply StronglySorted_inv in S. destruct S as [S F]. constructor; [apply IH, S|].
    assert (P : Permutation (map fst (insert_member V x l)) (fst x :: map fst l)) by (rewrite (insert_perm x l); reflexivity).
    eapply Permutation_Forall; [symmetry; exact P|]. constructor; [lia|exact F].
Qed.
Lemma sort_sorted (l : list (Z * list V)) : StronglySorted Z.le (map fst (sort_members V l)).
Proof. induction l as [|x l IH]; cbn; [constructor|apply insert_sorted, IH]. Qed.
Lemma sorted_unique l1 : forall l2, StronglySorted Z.le l1 -> StronglySorted Z.le l2 -> Permutation l1 l2 -> l1 = l2.
Proof.
  induction l1 as [|x l1 IH]; intros l2 S1 S2 P; [apply Permutation_nil in P; congruence|]. destruct l2 as [|y l2]; [apply Permutation_sym, Permutation_nil in P; discriminate|].
  apply StronglySorted_inv in S1, S2. destruct S1 as [S1 F1], S2 as [S2 F2]. assert (x = y); [|subst y; f_equal; apply IH; [exact S1|exact S2|apply Permutation_cons_inv in P; exact P]].
  rewrite Forall_forall in F1, F2. assert (IX : In x (y :: l2)) by (apply (Permutation_in _ P); left; reflexivity). assert (IY : In y (x :: l1)) by (apply (Permutation_in _ (Permutation_sym P)); left; reflexivity).
  destruct IX as [<-|IX]; [reflexivity|]. destruct IY as [->|IY]; [reflexivity|]. apply F2 in IX. apply F1 in IY. lia.
Qed.
Lemma zrange_sorted_le a b : StronglySorted Z.le (zrange a b).
Proof.
  unfold zrange. generalize (Z.to_nat (b - a)) as m. intros m. generalize 0%nat as s. induction m as [|m IH]; intros s; [constructor|]. cbn. constructor; [apply IH|].
  apply Forall_forall. intros x X. apply in_map_iff in X. destruct X as (k & <- & K). apply in_seq in K. lia.
Qed.
Lemma members_ok members l : mapM (member_number V) members = Ok l -> members = map (fun m => (Some (fst m), snd m)) l.
Proof.
  revert l. induction members as [|m members IH]; intros l E; [cbn in E; injection E as <-; reflexivity|]. cbn in E. destruct m as [[n|] data]; cbn in E; [|discriminate].
  destruct (mapM (member_number V) members) as [l'|]; [|discriminate]. cbn in E. injection E as <-. cbn. f_equal. apply IH. reflexivity.
Qed.
Lemma product_spec it mask d name vars : product_file V it mask d = Ok (name, vars) -> forall v out, In (v, out) vars -> exists orig, source d name v orig /\ hides mask orig out.
Proof.
  unfold product_file. destruct (d_analysis V d) as [[c members]|] eqn:A; [|discriminate]. cbn [read bind fst snd]. destruct (version it) as [[ver run]|]; [|discriminate]. cbn [bind fst snd].
  destruct (three V TAS mask c) as [vs|] eqn:T; [|discriminate]. cbn [bind]. destruct (mapM (member_number V) members) as [l|] eqn:ML; [|discriminate]. cbn [bind].
  destruct (mapM _ (combine _ _)) as [ens|] eqn:E; [|discriminate]. cbn [bind]. intros EQ. injection EQ as <- <-. intros v out I. apply in_app_or in I. destruct I as [I|I].
  - destruct (three_spec _ _ _ _ T v out I) as [[-> H]|[[-> H]|[-> H]]]; eexists; (split; [|exact H]); exists c; (split; [exists members; split; [exact A|exact Logic.I]|reflexivity]).
  - apply mapM_ok_Forall2 in E. assert (G : exists im, In im (combine (zrange 0 (zlen l)) (sort_members V l)) /\ (do m <- masked_where V mask (snd (snd im)); Ok (TASENSEMBLE (fst im), m)) = Ok (v, out)).
    { clear - E I. induction E as [|x y xs ys H E IH]; [destruct I|]. destruct I as [<-|I]; [exists x; split; [left; reflexivity|exact H]|]. destruct (IH I) as (im & J & K). exists im. split; [right; exact J|exact K]. }
    destruct G as ([i [nb data]] & J & K). cbn [fst snd] in K. destruct (masked_where V mask data) as [m|] eqn:MW; [|discriminate]. cbn in K. injection K as <- <-.
    exists data. split; [|apply masked_where_hides, MW]. exists c. split; [|exact Logic.I]. exists members. split; [exact A|]. exists nb.
    rewrite (members_ok _ _ ML). apply in_map_iff. exists (nb, data). split; [reflexivity|]. apply in_combine_r in J. apply (Permutation_in _ (sort_perm l)), J.
Qed.
Lemma component_spec name first mask oc (d : day_data V) vars name' : (first = TAS \/ first = TASPERTURBATION) ->
  component_file V name first mask oc = Ok (name', vars) ->
  name' = name /\ exists c, oc = Some c /\ forall v out, In (v, out) vars -> exists orig, match v with
    | TAS | TASPERTURBATION => orig = analysis_of c | TASUNCERTAINTY => orig = uncertainty_of c | TAS_OBSERVATION_INFLUENCE => orig = influence_of c | TASENSEMBLE _ => False end /\ hides mask orig out.
Proof.
  intros F. unfold component_file. destruct oc as [c|]; [|discriminate]. cbn [read bind]. destruct (three V first mask c) as [vs|] eqn:T; [|discriminate]. cbn [bind]. intros E. injection E as <- <-.
  split; [reflexivity|]. exists c. split; [reflexivity|]. intros v out I. destruct (three_spec _ _ _ _ T v out I) as [[-> H]|[[-> H]|[-> H]]]; eexists; (split; [|exact H]); try reflexivity.
  destruct F as [-> | ->]; reflexivity.
Qed.
Lemma files_prefix (rs : list (result (file V))) files status :
  fold_left (fun acc (r : result (file V)) => match snd acc with Some e => acc | None => match r with Ok f => (fst acc ++ [f], None) | Err e => (fst acc, Some e) end end) rs ([], None) = (files, status) ->
  exists m, map Ok files = firstn m rs /\ (status = None -> m = length rs) /\ (forall e, status = Some e -> nth_error rs m = Some (Err e)).
Proof.
  set (step := fun acc (r : result (file V)) => _). intros E.
  assert (G : forall rs acc files status, snd acc = None -> fold_left step rs acc = (files, status) -> exists m new, files = fst acc ++ new /\ map Ok new = firstn m rs /\ (status = None -> m = length rs) /\ (forall e, status = Some e -> nth_error rs m = Some (Err e))).
  { clear. induction rs as [|r rs IH]; intros acc files status N E.
    - cbn in E. exists 0%nat, []. rewrite app_nil_r. rewrite E in *. cbn in *. subst status. split; [reflexivity|]. split; [reflexivity|]. split; [reflexivity|discriminate].
    - cbn [fold_left] in E. destruct r as [f|e].
      + replace (step acc (Ok f)) with (fst acc ++ [f], @None err) in E by (unfold step; rewrite N; reflexivity). destruct (IH (fst acc ++ [f], None) _ _ eq_refl E) as (m & new & F & P & Q1 & Q2).
        exists (S m), (f :: new). cbn [fst] in F. rewrite <- app_assoc in F. split; [exact F|]. split; [cbn; rewrite P; reflexivity|]. split; [intros H; cbn; rewrite (Q1 H); reflexivity|exact Q2].
      + replace (step acc (Err e)) with (fst acc, Some e) in E by (unfold step; rewrite N; reflexivity).
        assert (SK : forall l a, snd a <> None -> fold_left step l a = a). { induction l as [|x l IHl]; intros a A; [reflexivity|]. cbn. unfold step at 2. destruct (snd a) eqn:SA; [apply IHl; congruence|congruence]. }
        rewrite SK in E by discriminate. injection E as <- <-. exists 0%nat, []. rewrite app_nil_r. split; [reflexivity|]. split; [reflexivity|]. split; [discriminate|intros e' H; injection H as <-; reflexivity]. }
  destruct (G rs ([], None) files status eq_refl E) as (m & new & F & P & Q1 & Q2). cbn [fst app] in F. subst new. exists m. auto.
Qed.
End Outputs.
