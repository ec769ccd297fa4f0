(* Properties of gridding jobs, daily runs of the ice model and break point files: C178-C180. *)
From Coq Require Import String Ascii QArith Qcanon ZifyBool.
From Verif Require Import Base Grid_Model Grid_Props Time_Model Time_Spec Time_Proofs Satjob_Model Satjob_Spec.
Open Scope string_scope.
Open Scope list_scope.
Open Scope Z_scope.

Ltac Zify.zify_post_hook ::= Z.to_euclidean_division_equations.

(* ------------------------------------------------------------------ C178 *)
Lemma start_ordinal : ymd2ord 2010 1 1 = 733773.
Proof. reflexivity. Qed.
Lemma job_ordinal start k : start mod DAY = 0 -> (start + k * DAY - 1 * DAY) / DAY = start / DAY + k - 1.
Proof. unfold DAY. intros H. lia. Qed.
Lemma ordinal_date n y m d : calendar_date y m d -> ord2ymd n = (y, m, d) <-> n = ymd2ord y m d.
Proof.
  intros (_ & Hm & Hd). destruct (ord2ymd_spec n) as [V E]. split.
  - intros A. rewrite A in E. cbn [ord_of] in E. now symmetry.
  - intros A. apply ord_inj; [exact V | split; assumption |]. rewrite E. exact A.
Qed.

(* The jobs of an array started at midnight handle consecutive days, the first of them the start: each day once. *)
Theorem C178_days : forall s k, sg_start s mod DAY = 0 -> In k (job_indices s) ->
  forall y m d, calendar_date y m d -> (date_of (job_date s k) = (y, m, d) <-> ymd2ord y m d = sg_start s / DAY + (k - 1)).
Proof.
  intros s k H _ y m d V. rewrite date_of_ord. unfold job_date. rewrite job_ordinal by exact H.
  rewrite (ordinal_date _ _ _ _ V). lia.
Qed.
Print Assumptions C178_days.

Example C178_days_nonvacuous : sg_start satgrid_day mod DAY = 0 /\ In 32 (job_indices satgrid_day) /\ calendar_date 2010 2 1 /\ date_of (job_date satgrid_day 32) = (2010, 2, 1).
Proof. split; [reflexivity|]. split; [unfold job_indices; rewrite zrange_In; cbn; lia|]. split; [unfold calendar_date; cbn; lia | vm_compute; reflexivity]. Qed.

(* The jobs as shipped, by day and by night, handle every day of 2010 in exactly one job. *)
Lemma ordinal_2010 y m d : calendar_date y m d -> (733773 <= ymd2ord y m d <= 733773 + 364 <-> y = 2010).
Proof.
  intros (Hy & Hm & Hd).
  assert (valid_date (y, m, d)) as V by (split; assumption).
  assert (valid_date (2010, 1, 1)) as A by (cbn; split; [lia | vm_compute; split; discriminate]).
  assert (valid_date (2011, 1, 1)) as B by (cbn; split; [lia | vm_compute; split; discriminate]).
  pose proof (ord_lt_iff _ _ V A) as L1. pose proof (ord_lt_iff _ _ V B) as L2. cbn [ord_of date_lt] in L1, L2.
  change (ymd2ord 2010 1 1) with 733773 in L1. change (ymd2ord 2011 1 1) with 734138 in L2.
  split; intros E; lia.
Qed.
Theorem C178_year : forall s, s = satgrid_day \/ s = satgrid_night ->
  forall y m d, calendar_date y m d -> y = 2010 ->
  exists k, In k (job_indices s) /\ date_of (job_date s k) = (y, m, d) /\
  forall k', In k' (job_indices s) -> date_of (job_date s k') = (y, m, d) -> k' = k.
Proof.
  intros s Hs y m d V Y. apply (ordinal_2010 y m d V) in Y.
  assert (sg_start s = start_date /\ sg_days s = 366) as [S D] by (destruct Hs; subst; split; reflexivity).
  assert (sg_start s mod DAY = 0) as M by (rewrite S; reflexivity).
  assert (sg_start s / DAY = 733773) as O by (rewrite S; reflexivity).
  exists (ymd2ord y m d - 733773 + 1).
  assert (In (ymd2ord y m d - 733773 + 1) (job_indices s)) as I by (unfold job_indices; rewrite zrange_In, D; lia).
  split; [exact I|]. split.
  - apply (C178_days s _ M I y m d V). rewrite O. lia.
  - intros k' I' E. apply (C178_days s _ M I' y m d V) in E. rewrite O in E. lia.
Qed.
Print Assumptions C178_year.
Example C178_year_nonvacuous : calendar_date 2010 12 31 /\ date_of (job_date satgrid_night 365) = (2010, 12, 31) /\ In 365 (job_indices satgrid_night).
Proof. split; [unfold calendar_date; cbn; lia|]. split; [vm_compute; reflexivity|]. unfold job_indices. rewrite zrange_In. cbn. lia. Qed.

(* They handle one more day: 2010 has 365 days, and there are 366 jobs. *)
Theorem C178_extra_refuted : ~ (forall s k, (s = satgrid_day \/ s = satgrid_night) -> In k (job_indices s) -> dt_year (job_date s k) = 2010).
Proof.
  intros H. specialize (H satgrid_day 366 (or_introl eq_refl)).
  assert (In 366 (job_indices satgrid_day)) as I by (unfold job_indices; rewrite zrange_In; cbn; lia).
  specialize (H I). vm_compute in H. discriminate.
Qed.
Print Assumptions C178_extra_refuted.
(* That is all: every job but the last handles a day of 2010, and the last one 1 January 2011. *)
Theorem C178_only : forall s k, (s = satgrid_day \/ s = satgrid_night) -> In k (job_indices s) ->
  (k <= 365 -> dt_year (job_date s k) = 2010) /\ (365 < k -> date_of (job_date s k) = (2011, 1, 1)).
Proof.
  intros s k Hs I.
  assert (sg_start s = start_date /\ sg_days s = 366) as [S D] by (destruct Hs; subst; split; reflexivity).
  unfold job_indices in I. rewrite zrange_In, D in I.
  assert (job_date s k / DAY = 733773 + k - 1) as O.
  { unfold job_date. rewrite S, job_ordinal by reflexivity. reflexivity. }
  split; intros K.
  - unfold dt_year. rewrite O. destruct (ord2ymd_spec (733773 + k - 1)) as [V E].
    destruct (ord2ymd (733773 + k - 1)) as [[y m] d]. cbn [fst snd ord_of] in *.
    assert (valid_date (2010, 1, 1)) as A by (cbn; split; [lia | vm_compute; split; discriminate]).
    assert (valid_date (2011, 1, 1)) as B by (cbn; split; [lia | vm_compute; split; discriminate]).
    pose proof (ord_lt_iff _ _ V A) as L1. pose proof (ord_lt_iff _ _ V B) as L2. cbn [ord_of date_lt] in L1, L2.
    change (ymd2ord 2010 1 1) with 733773 in L1. change (ymd2ord 2011 1 1) with 734138 in L2.
    destruct V as [Hm Hd]. lia.
  - assert (k = 366) as -> by lia. rewrite date_of_ord, O. vm_compute. reflexivity.
Qed.
Print Assumptions C178_only.

(* No two jobs write the same file. *)
Lemma digit_inj a b : 0 <= a < 10 -> 0 <= b < 10 -> digit a = digit b -> a = b.
Proof.
  intros A B E. unfold digit in E. apply (f_equal nat_of_ascii) in E. rewrite !nat_ascii_embedding in E by lia. lia.
Qed.
Lemma pad2_app a b s t : 0 <= a < 100 -> 0 <= b < 100 -> (pad2 a ++ s = pad2 b ++ t)%string -> a = b /\ s = t.
Proof.
  intros A B E. unfold pad2 in E. cbn [String.append] in E. remember (a / 10 mod 10) as p1. remember (a mod 10) as p2. remember (b / 10 mod 10) as q1. remember (b mod 10) as q2.
  assert (digit p1 = digit q1) as E1 by congruence. assert (digit p2 = digit q2) as E2 by congruence. assert (s = t) as E3 by congruence.
  apply digit_inj in E1; [|lia|lia]. apply digit_inj in E2; [|lia|lia]. split; [lia | exact E3].
Qed.
Lemma string_app_assoc (a b c : string) : ((a ++ b) ++ c = a ++ b ++ c)%string.
Proof. induction a as [|x a IH]; cbn; [reflexivity | now rewrite IH]. Qed.
Lemma month_length y m : days_in_month y m <= 31.
Proof. unfold days_in_month. repeat (destruct (_ : bool)); cbn; try lia. Qed.
Lemma timestring_inj t t' s s' : 0 <= dt_year t < 10000 -> 0 <= dt_year t' < 10000 -> (timestring t ++ s = timestring t' ++ s')%string -> t / DAY = t' / DAY.
Proof.
  intros Y Y' E. unfold timestring in E. rewrite !string_app_assoc in E.
  destruct (ord2ymd_spec (t / DAY)) as [V O]. destruct (ord2ymd_spec (t' / DAY)) as [V' O'].
  unfold dt_year, dt_month, dt_day in *.
  destruct (ord2ymd (t / DAY)) as [[y m] d], (ord2ymd (t' / DAY)) as [[y' m'] d']. cbn [fst snd valid_date ord_of] in *.
  destruct V as [Vm Vd], V' as [Vm' Vd']. pose proof (month_length y m). pose proof (month_length y' m').
  apply pad2_app in E as [E1 E]; [|lia|lia]. apply pad2_app in E as [E2 E]; [|lia|lia].
  apply pad2_app in E as [E3 E]; [|lia|lia]. apply pad2_app in E as [E4 _]; [|lia|lia].
  assert (y = y') by lia. congruence.
Qed.
Theorem C178_files : forall s s' k k', (s = satgrid_day \/ s = satgrid_night) -> (s' = satgrid_day \/ s' = satgrid_night) ->
  In k (job_indices s) -> In k' (job_indices s') -> job_output s k = job_output s' k' -> s = s' /\ k = k'.
Proof.
  assert (forall s k, (s = satgrid_day \/ s = satgrid_night) -> In k (job_indices s) -> 0 <= dt_year (job_date s k) < 10000 /\ job_date s k / DAY = 733773 + k - 1) as Y.
  { intros s k Hs I. destruct (C178_only s k Hs I) as [A B]. split.
    - destruct (Z_le_gt_dec k 365) as [K|K]; [rewrite (A K); lia|]. assert (365 < k) as K' by lia. specialize (B K').
      unfold date_of in B. assert (dt_year (job_date s k) = 2011) by congruence. lia.
    - assert (sg_start s = start_date) as S by (destruct Hs; subst; reflexivity). unfold job_date. rewrite S, job_ordinal by reflexivity. reflexivity. }
  intros s s' k k' Hs Hs' I I' E. destruct (Y s k Hs I) as [Y1 O1], (Y s' k' Hs' I') as [Y2 O2].
  unfold job_output in E. remember (job_date s k) as t. remember (job_date s' k') as t'.
  assert (sg_daynight s = sg_daynight s' /\ (timestring t ++ ".nc" = timestring t' ++ ".nc")%string) as [N F].
  { remember (timestring t ++ ".nc")%string as u eqn:Hu. remember (timestring t' ++ ".nc")%string as u' eqn:Hu'. clear Hu Hu'.
    destruct Hs as [-> | ->], Hs' as [-> | ->]; cbn [sg_daynight satgrid_day satgrid_night satgrid_script String.append] in E |- *; try discriminate E; (split; [reflexivity|]); congruence. }
  apply timestring_inj in F; try assumption. split; [|lia].
  destruct Hs as [-> | ->], Hs' as [-> | ->]; try reflexivity; discriminate N.
Qed.
Print Assumptions C178_files.
Example C178_files_nonvacuous : job_output satgrid_day 60 = "satgrid.day.20100301.nc" /\ job_output satgrid_night 60 = "satgrid.night.20100301.nc" /\ In 60 (job_indices satgrid_day).
Proof. split; [vm_compute; reflexivity|]. split; [vm_compute; reflexivity|]. unfold job_indices. rewrite zrange_In. cbn. lia. Qed.

(* Every pixel is observed by exactly one of the two runs, by the first bit of its quality word, and is valid there when the next two bits are clear.
   The numbers selected are those of the program that makes the grid. *)
Lemma land1 q : Z.land q 1 = if night_bit q then 1 else 0.
Proof. unfold night_bit. change 1 with (Z.ones 1) at 1. rewrite Z.land_ones by lia. rewrite Z.testbit_eqb by lia. change (2 ^ 0) with 1. change (2 ^ 1) with 2. rewrite Z.div_1_r. destruct (q mod 2 =? 1) eqn:A; lia. Qed.
Lemma land7 q : Z.land q 7 = (if Z.testbit q 2 then 4 else 0) + (if Z.testbit q 1 then 2 else 0) + (if night_bit q then 1 else 0).
Proof.
  unfold night_bit. change 7 with (Z.ones 3). rewrite Z.land_ones by lia. rewrite !Z.testbit_eqb by lia. change (2 ^ 0) with 1. change (2 ^ 1) with 2. change (2 ^ 2) with 4. change (2 ^ 3) with 8.
  rewrite Z.div_1_r. destruct (q mod 2 =? 1) eqn:A, (q / 2 mod 2 =? 1) eqn:B, (q / 4 mod 2 =? 1) eqn:C; lia.
Qed.
Theorem C178_pixels : forall qc i q, 0 <= i -> nth_error qc (Z.to_nat i) = Some q ->
  let observed s := In i (find_qc_flag_indices qc (qc_mask_obs (sg_choice s)) (qc_filter_obs (sg_choice s))) in
  let valid s := In i (find_qc_flag_indices qc (qc_mask_valid (sg_choice s)) (qc_filter_valid (sg_choice s))) in
  (observed satgrid_day <-> night_bit q = false) /\ (observed satgrid_night <-> night_bit q = true) /\
  (valid satgrid_day <-> night_bit q = false /\ rejected q = false) /\ (valid satgrid_night <-> night_bit q = true /\ rejected q = false).
Proof.
  intros qc i q H N observed valid.
  assert (forall mask flt, In i (find_qc_flag_indices qc mask flt) <-> Z.land q mask = flt) as S.
  { intros mask flt. destruct (C26_filter qc mask flt) as [F _]. rewrite F. split.
    - intros (_ & q' & N' & E). congruence.
    - intros E. split; [exact H | exists q; split; assumption]. }
  unfold observed, valid, rejected. cbn [sg_choice satgrid_day satgrid_night satgrid_script qc_mask_obs qc_filter_obs qc_mask_valid qc_filter_valid].
  rewrite !S, !land1, !land7. destruct (night_bit q), (Z.testbit q 1), (Z.testbit q 2); cbn; intuition (try discriminate; try lia).
Qed.
Print Assumptions C178_pixels.
Example C178_pixels_nonvacuous : nth_error [0; 1; 2; 5; 9] (Z.to_nat 4) = Some 9 /\ night_bit 9 = true /\ rejected 9 = false /\ rejected 5 = true.
Proof. repeat split; reflexivity. Qed.

(* ------------------------------------------------------------------ C179 *)
Section Ice.
Context {C : Type}.
Notation process := (files C -> result (C * C)).

(* Where an output exists the run is refused and changes nothing. *)
Theorem C179_refused : forall (process : process) main anc f, f main <> None \/ f anc <> None ->
  run_day process main anc f = ([], Err ValueError).
Proof.
  intros process main anc f H. unfold run_day, isfile. destruct (f main); [reflexivity|]. destruct (f anc); [reflexivity|].
  destruct H; congruence.
Qed.

(* A run that ends without error leaves both results complete, and everything else as it was. *)
Theorem C179_success : forall (process : process) main anc f states, main <> anc -> run_day process main anc f = (states, Ok tt) ->
  exists p a, process f = Ok (p, a) /\ f main = None /\ f anc = None /\
  let g := last states f in g main = Some (Complete p) /\ g anc = Some (Complete a) /\ forall q, q <> main -> q <> anc -> g q = f q.
Proof.
  intros process main anc f states D E. unfold run_day, isfile in E.
  destruct (f main) eqn:Fm; [discriminate|]. destruct (f anc) eqn:Fa; [discriminate|].
  destruct (process f) as [[p a]|e]; [|discriminate]. exists p, a.
  assert (states = fst (states, @Ok unit tt)) as S by reflexivity. rewrite <- E in S. cbn [fst] in S. subst states.
  split; [reflexivity|]. split; [reflexivity|]. split; [reflexivity|]. cbn [last]. unfold set_file.
  rewrite !String.eqb_refl. destruct (String.eqb_spec main anc) as [|_]; [congruence|].
  split; [reflexivity|]. split; [reflexivity|].
  intros q Q1 Q2. destruct (String.eqb_spec q anc) as [|_]; [congruence|]. destruct (String.eqb_spec q main) as [|_]; [congruence|]. reflexivity.
Qed.

(* The file systems that an interrupted run can leave. *)
Lemma interrupted_cases (process : process) main anc after f :
  interrupted process main anc after f = f \/
  f main = None /\ f anc = None /\ exists p a, process f = Ok (p, a) /\
  (interrupted process main anc after f = set_file main Incomplete f \/
   interrupted process main anc after f = set_file main (Complete p) (set_file main Incomplete f) \/
   interrupted process main anc after f = set_file anc Incomplete (set_file main (Complete p) (set_file main Incomplete f)) \/
   interrupted process main anc after f = set_file anc (Complete a) (set_file anc Incomplete (set_file main (Complete p) (set_file main Incomplete f)))).
Proof.
  unfold interrupted, run_day, isfile.
  destruct (f main) eqn:Fm; [left; now destruct after|]. destruct (f anc) eqn:Fa; [left; now destruct after|].
  destruct (process f) as [[p a]|e]; [|left; now destruct after].
  destruct after as [|[|[|[|n]]]]; [left; reflexivity| | | |]; right; (split; [reflexivity|]; split; [reflexivity|]); exists p, a; (split; [reflexivity|]); cbn [firstn fst last]; auto.
  destruct n; cbn [firstn last]; auto.
Qed.

(* Whatever is attempted and interrupted, a file that existed stays as it is. *)
Theorem C179_kept : forall main anc attempts (f : files C) q x, main <> anc -> f q = Some x -> history main anc attempts f q = Some x.
Proof.
  intros main anc attempts. induction attempts as [|[process after] r IH]; intros f q x D H; [exact H|].
  cbn [history fold_left fst snd]. apply IH; [exact D|].
  destruct (interrupted_cases process main anc after f) as [->|(Fm & Fa & p & a & _ & K)]; [exact H|].
  assert (q <> main) as Q1 by congruence. assert (q <> anc) as Q2 by congruence.
  destruct K as [->|[->|[->| ->]]]; unfold set_file; rewrite ?(proj2 (String.eqb_neq q main) Q1), ?(proj2 (String.eqb_neq q anc) Q2); exact H.
Qed.

(* Starting without outputs, whatever is attempted and interrupted: an ancillary file is only there beside a complete main file. *)
Theorem C179_order : forall main anc attempts (f : files C), main <> anc -> f main = None -> f anc = None ->
  history main anc attempts f anc <> None -> exists p, history main anc attempts f main = Some (Complete p).
Proof.
  intros main anc attempts f D Fm Fa.
  assert (forall f : files C, (f anc <> None -> exists p, f main = Some (Complete p)) ->
    history main anc attempts f anc <> None -> exists p, history main anc attempts f main = Some (Complete p)) as G.
  { induction attempts as [|[process after] r IH]; intros g H; [exact H|]. cbn [history fold_left fst snd]. apply IH.
    destruct (interrupted_cases process main anc after g) as [->|(Gm & Ga & p & a & _ & K)]; [exact H|].
    assert ((main =? anc)%string = false) as N by now apply String.eqb_neq.
    assert ((anc =? main)%string = false) as N' by (apply String.eqb_neq; congruence).
    destruct K as [->|[->|[->| ->]]]; unfold set_file; rewrite ?String.eqb_refl, ?N, ?N'; rewrite ?Ga; intros X; try congruence; now exists p. }
  apply G. congruence.
Qed.

(* A run interrupted before it wrote anything can be repeated. *)
Theorem C179_repeat : forall (process process' : process) main anc after f, interrupted process main anc after f main = None ->
  f anc = None -> run_day process' main anc (interrupted process main anc after f) = run_day process' main anc f.
Proof.
  intros process process' main anc after f H Fa.
  destruct (interrupted_cases process main anc after f) as [->|(Fm & _ & p & a & _ & K)]; [reflexivity|].
  exfalso. destruct K as [E|[E|[E|E]]]; rewrite E in H; unfold set_file in H; rewrite ?String.eqb_refl in H; try discriminate H;
    destruct (main =? anc)%string; discriminate H.
Qed.

(* A run interrupted while it writes is never completed: whatever is attempted later, the files stay as they were left. *)
Theorem C179_stuck : forall (process : process) main anc after f attempts, interrupted process main anc after f main <> None ->
  forall q, history main anc attempts (interrupted process main anc after f) q = interrupted process main anc after f q.
Proof.
  intros process main anc after f attempts. generalize (interrupted process main anc after f). clear.
  induction attempts as [|[process after] r IH]; intros f H q; [reflexivity|]. cbn [history fold_left fst snd].
  assert (interrupted process main anc after f = f) as E.
  { unfold interrupted. rewrite C179_refused by (left; exact H). cbn [fst]. now destruct after. }
  rewrite E. now apply IH.
Qed.
End Ice.
Print Assumptions C179_refused.
Print Assumptions C179_success.
Print Assumptions C179_kept.
Print Assumptions C179_order.
Print Assumptions C179_repeat.
Print Assumptions C179_stuck.

(* So repeating an interrupted run does not in general give the outputs. *)
Theorem C179_recovery_refuted : ~ (forall (process : files Z -> result (Z * Z)) main anc after f, main <> anc -> f main = None -> f anc = None ->
  (forall g, exists r, process g = Ok r) -> exists n p, history main anc (repeat (process, 4%nat) n) (interrupted process main anc after f) main = Some (Complete p)).
Proof.
  intros H. destruct (H (fun _ => Ok (1, 2)) "main" "ancillary" 1%nat (fun _ => None)) as (n & p & E); [discriminate | reflexivity | reflexivity | intros g; now exists (1, 2) |].
  rewrite C179_stuck in E; [vm_compute in E; discriminate E | vm_compute; discriminate].
Qed.
Print Assumptions C179_recovery_refuted.
Example C179_nonvacuous :
  let process := fun _ : files Z => Ok (1, 2) in let empty := fun _ : string => @None (file Z) in
  snd (run_day process "main" "ancillary" empty) = Ok tt /\
  interrupted process "main" "ancillary" 3 empty "ancillary" = Some Incomplete /\ interrupted process "main" "ancillary" 3 empty "main" = Some (Complete 1) /\
  interrupted process "main" "ancillary" 0 empty "main" = None /\
  history "main" "ancillary" [((fun _ => Err IOErrorE), 4%nat); (process, 0%nat); (process, 4%nat)] empty "ancillary" = Some (Complete 2).
Proof. repeat split; reflexivity. Qed.

(* ------------------------------------------------------------------ C180 *)
Lemma varid_from name before v after n : (forall u, In u before -> v_name u <> name) -> v_name v = name ->
  varid name (before ++ v :: after) n = Some (n + List.length before)%nat.
Proof.
  revert n. induction before as [|u r IH]; intros n H E; cbn [app varid List.length].
  - rewrite E, String.eqb_refl. f_equal. lia.
  - destruct (String.eqb_spec (v_name u) name) as [X|_]; [exfalso; apply (H u); [now left | exact X]|].
    rewrite IH; [f_equal; lia | intros w W; apply H; now right | exact E].
Qed.
Lemma found f name values : one_dimensional f name values ->
  exists v n, varid name f 0 = Some n /\ nth_error f n = Some v /\ v_dimensions v = [List.length values] /\ v_values v = values.
Proof.
  intros (before & v & after & -> & H & E & D & V). exists v, (List.length before). rewrite (varid_from name before v after 0 H E).
  split; [f_equal; lia|]. split; [|split; assumption]. rewrite nth_error_app2 by lia. now rewrite Nat.sub_diag.
Qed.
Lemma dimensions_found f name values : one_dimensional f name values -> GetDimensions f name = [List.length values].
Proof. intros H. destruct (found _ _ _ H) as (v & n & E & N & D & _). unfold GetDimensions. now rewrite E, N. Qed.
Lemma read_found f name values contents : one_dimensional f name values -> List.length contents = List.length values -> ReadData f contents name = Ok values.
Proof.
  intros H L. destruct (found _ _ _ H) as (v & n & E & N & _ & V). unfold ReadData. rewrite E, N, V, L, Nat.ltb_irrefl.
  rewrite skipn_all2 by lia. now rewrite app_nil_r.
Qed.

(* From a file that has latitudes and as many longitudes the places are read, station by station, whatever else the file holds and whatever the
   memory held. Longitudes from 0 to 360 become longitudes from -180 to 180 of the same meridian, and longitudes from -180 to 180 stay. *)
Theorem C180_places : forall memory f latitude longitude, (forall n, List.length (memory n) = n) ->
  one_dimensional f "latitude" latitude -> one_dimensional f "longitude" longitude -> List.length latitude = List.length longitude ->
  exists longitude', ObservationLocationLookup memory f = Ok (latitude, longitude') /\ List.length longitude' = List.length longitude /\
  forall i x, nth_error longitude i = Some x -> exists x', nth_error longitude' i = Some x' /\
    (x' = x \/ x' = (x - Q2Qc 360)%Qc) /\
    ((Q2Qc (-180) <= x)%Qc -> (x < Q2Qc 360)%Qc -> (Q2Qc (-180) <= x')%Qc /\ (x' < Q2Qc 180)%Qc) /\
    ((x < Q2Qc 180)%Qc -> x' = x).
Proof.
  intros memory f latitude longitude Hm A B L. exists (map wrap_longitude longitude). split; [|split; [apply map_length|]].
  - unfold ObservationLocationLookup. rewrite (dimensions_found _ _ _ A), (dimensions_found _ _ _ B). cbn [List.length nth Nat.eqb negb orb].
    rewrite L, Nat.eqb_refl. cbn [negb]. rewrite (read_found _ _ _ _ A) by (rewrite Hm; lia). rewrite (read_found _ _ _ _ B) by (rewrite Hm; lia). reflexivity.
  - intros i x E. exists (wrap_longitude x). split; [now apply map_nth_error|]. unfold wrap_longitude.
    destruct (Qle_bool 180 (this x)) eqn:W.
    + apply Qle_bool_iff in W. split; [now right|]. split.
      * intros _ U. unfold Qclt, Qcle, Qcminus, Qcplus, Qcopp in *. cbn [this Q2Qc] in *. rewrite !Qred_correct in *. split; [|].
        -- change (-180)%Q with (180 + - (360))%Q. apply Qplus_le_l with (z := 360%Q). ring_simplify. exact W.
        -- apply Qplus_lt_l with (z := 360%Q). ring_simplify. apply Qlt_trans with 360%Q; [exact U | reflexivity].
      * intros U. exfalso. unfold Qclt in U. cbn [this Q2Qc] in U. rewrite Qred_correct in U. exact (Qlt_not_le _ _ U W).
    + split; [now left|]. split; [|reflexivity]. intros Lo _. split; [exact Lo|].
      unfold Qclt. cbn [this Q2Qc]. rewrite Qred_correct. apply Qnot_le_lt. intros X. apply Qle_bool_iff in X. congruence.
Qed.
Print Assumptions C180_places.

(* Different numbers of latitudes and longitudes are refused. *)
Theorem C180_mismatch : forall memory f latitude longitude, one_dimensional f "latitude" latitude -> one_dimensional f "longitude" longitude ->
  List.length latitude <> List.length longitude -> ObservationLocationLookup memory f = Err ValueError.
Proof.
  intros memory f latitude longitude A B L. unfold ObservationLocationLookup. rewrite (dimensions_found _ _ _ A), (dimensions_found _ _ _ B).
  cbn [List.length nth Nat.eqb negb orb]. destruct (Nat.eqb_spec (List.length latitude) (List.length longitude)); [contradiction | reflexivity].
Qed.
Print Assumptions C180_mismatch.

(* From a file that has times, stations and likelihoods of breaks, as many of each, these are read. *)
Theorem C180_breaks : forall f time station likelihood,
  one_dimensional f "merged_break_time" time -> one_dimensional f "merged_break_station" station -> one_dimensional f "merged_break_likelihood" likelihood ->
  List.length station = List.length time -> List.length likelihood = List.length time -> observation f = Ok (time, station, likelihood).
Proof.
  intros f time station likelihood A B D L1 L2. unfold observation. rewrite (dimensions_found _ _ _ A). cbn [List.length nth Nat.eqb negb].
  rewrite (read_found _ _ _ _ A) by apply repeat_length. rewrite (read_found _ _ _ _ B) by (rewrite repeat_length; lia).
  rewrite (read_found _ _ _ _ D) by (rewrite repeat_length; lia). reflexivity.
Qed.
Print Assumptions C180_breaks.

(* A file without longitudes is not refused in general: the longitudes are then the values of the first variable. *)
Theorem C180_missing_refuted : ~ (forall memory f, (forall n, List.length (memory n) = n) -> (forall v, In v f -> v_name v <> "longitude") ->
  exists e, ObservationLocationLookup memory f = Err e).
Proof.
  intros H. destruct (H (fun n => repeat (Q2Qc 0) n)
    [{| v_name := "latitude"; v_dimensions := [1%nat]; v_values := [Q2Qc 50] |}; {| v_name := "elevation"; v_dimensions := [1%nat]; v_values := [Q2Qc 7] |}]) as [e E].
  - intros n. apply repeat_length.
  - intros v [<-|[<-|[]]]; cbn; discriminate.
  - vm_compute in E. discriminate E.
Qed.
Print Assumptions C180_missing_refuted.

(* Numbers of stations that differ from the number of times are not refused in general: missing ones are read as station 0. *)
Theorem C180_stations_refuted : ~ (forall f time station likelihood,
  one_dimensional f "merged_break_time" time -> one_dimensional f "merged_break_station" station -> one_dimensional f "merged_break_likelihood" likelihood ->
  List.length station <> List.length time -> exists e, observation f = Err e).
Proof.
  intros H.
  pose (v n x := {| v_name := n; v_dimensions := [List.length x]; v_values := x |}).
  destruct (H [v "merged_break_time" [Q2Qc 10; Q2Qc 20]; v "merged_break_station" [Q2Qc 3]; v "merged_break_likelihood" [Q2Qc 1; Q2Qc 1]]
    [Q2Qc 10; Q2Qc 20] [Q2Qc 3] [Q2Qc 1; Q2Qc 1]) as [e E].
  - eexists [], _, _. split; [reflexivity|]. repeat split. intros u [].
  - eexists [_], _, _. split; [reflexivity|]. repeat split. intros u [<-|[]]. discriminate.
  - eexists [_; _], _, _. split; [reflexivity|]. repeat split. intros u [<-|[<-|[]]]; discriminate.
  - cbn. lia.
  - vm_compute in E. discriminate E.
Qed.
Print Assumptions C180_stations_refuted.

(* Longitudes with a second dimension pass the test of dimensions in general, and are written beyond the memory reserved. *)
Theorem C180_dimensions_refuted : exists f v, In v f /\ v_name v = "longitude" /\ v_dimensions v = [1%nat; 2%nat] /\
  forall memory, (forall n, List.length (memory n) = n) -> ObservationLocationLookup memory f = Err ModuleError.
Proof.
  exists [{| v_name := "latitude"; v_dimensions := [1%nat]; v_values := [Q2Qc 50] |}; {| v_name := "longitude"; v_dimensions := [1%nat; 2%nat]; v_values := [Q2Qc 7; Q2Qc 8] |}].
  eexists. split; [right; left; reflexivity|]. split; [reflexivity|]. split; [reflexivity|].
  intros memory M. pose proof (M 1%nat) as E. unfold ObservationLocationLookup, ReadData, GetDimensions. cbn -[Q2Qc]. rewrite E. reflexivity.
Qed.
Print Assumptions C180_dimensions_refuted.

Example C180_nonvacuous :
  let v n x := {| v_name := n; v_dimensions := [List.length x]; v_values := x |} in
  let f := [v "elevation" [Q2Qc 1]; v "longitude" [Q2Qc 350; Q2Qc 10]; v "latitude" [Q2Qc 50; Q2Qc (-20)]] in
  one_dimensional f "latitude" [Q2Qc 50; Q2Qc (-20)] /\ one_dimensional f "longitude" [Q2Qc 350; Q2Qc 10] /\
  ObservationLocationLookup (fun n => repeat (Q2Qc 9) n) f = Ok ([Q2Qc 50; Q2Qc (-20)], [Q2Qc (-10); Q2Qc 10]).
Proof.
  cbv zeta. split; [|split].
  - eexists [_; _], _, _. split; [reflexivity|]. repeat split. intros u [<-|[<-|[]]]; discriminate.
  - eexists [_], _, _. split; [reflexivity|]. repeat split. intros u [<-|[]]. discriminate.
  - unfold ObservationLocationLookup, ReadData, GetDimensions, wrap_longitude. cbn -[Q2Qc]. f_equal.
Qed.
Example C180_breaks_nonvacuous :
  let v n x := {| v_name := n; v_dimensions := [List.length x]; v_values := x |} in
  let f := [v "merged_break_station" [Q2Qc 3; Q2Qc 3]; v "merged_break_time" [Q2Qc 10; Q2Qc 20]; v "merged_break_likelihood" [Q2Qc 1; Q2Qc 5]; v "latitude" [Q2Qc 4]; v "longitude" [Q2Qc 5; Q2Qc 6]] in
  one_dimensional f "merged_break_time" [Q2Qc 10; Q2Qc 20] /\ one_dimensional f "merged_break_station" [Q2Qc 3; Q2Qc 3] /\ one_dimensional f "merged_break_likelihood" [Q2Qc 1; Q2Qc 5] /\
  one_dimensional f "latitude" [Q2Qc 4] /\ one_dimensional f "longitude" [Q2Qc 5; Q2Qc 6].
Proof.
  cbv zeta. split; [|split; [|split; [|split]]].
  - eexists [_], _, _. split; [reflexivity|]. repeat split. intros u [<-|[]]. discriminate.
  - eexists [], _, _. split; [reflexivity|]. repeat split. intros u [].
  - eexists [_; _], _, _. split; [reflexivity|]. repeat split. intros u [<-|[<-|[]]]; discriminate.
  - eexists [_; _; _], _, _. split; [reflexivity|]. repeat split. intros u [<-|[<-|[<-|[]]]]; discriminate.
  - eexists [_; _; _; _], _, _. split; [reflexivity|]. repeat split. intros u [<-|[<-|[<-|[<-|[]]]]]; discriminate.
Qed.
