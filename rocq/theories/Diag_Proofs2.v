(* Proofs about diagnostic grids, continued: meaning of the fields, names, runs over several inputs. *)
From Coq Require Import QArith Qcanon Ascii String Permutation.
From Verif Require Import Base Time_Model Grid_Model Grid_Spec Grid_Proofs Obs_Model Obs_Spec Cpp_Model Diag_Model Diag_Spec Diag_Proofs.
Local Open Scope Z_scope.
Local Open Scope list_scope.

(* ---- what the folds are *)

Lemma fold_count l v : fold_left (fold_d DCount) l v = (v + qz (zlen l))%Qc.
Proof.
  revert v. induction l as [| x l IH]; intros v; [change (zlen (@nil (Qc * Qc))) with 0; cbn [fold_left]; rewrite qz_0; ring |].
  cbn [fold_left]. rewrite IH, zlen_cons. cbn [fold_d]. rewrite qz_plus, qz_1. ring.
Qed.
Lemma fold_sum l v : fold_left (fold_d DSum) l v = (v + weighted_sum l)%Qc.
Proof.
  revert v. unfold weighted_sum. induction l as [| x l IH]; intros v; [cbn; ring |]. cbn [fold_left map sumQ fold_right]. rewrite IH. cbn [fold_d].
  fold (sumQ (map (fun ou : Qc * Qc => (fst ou / snd ou)%Qc) l)). ring.
Qed.
Lemma fold_prec l v : fold_left (fold_d DPrec) l v = (v + weights l)%Qc.
Proof.
  revert v. unfold weights. induction l as [| x l IH]; intros v; [cbn; ring |]. cbn [fold_left map sumQ fold_right]. rewrite IH. cbn [fold_d].
  fold (sumQ (map (fun ou : Qc * Qc => (1 / snd ou)%Qc) l)). ring.
Qed.
Lemma fold_obs_min l v : fold_left (fold_d DObsMin) l v = fold_left pymin (map fst l) v.
Proof. revert v. induction l as [| x l IH]; intros v; [reflexivity |]. cbn [fold_left map]. rewrite IH. reflexivity. Qed.
Lemma fold_obs_max l v : fold_left (fold_d DObsMax) l v = fold_left pymax (map fst l) v.
Proof. revert v. induction l as [| x l IH]; intros v; [reflexivity |]. cbn [fold_left map]. rewrite IH. reflexivity. Qed.
Lemma fold_unc_max l v : fold_left (fold_d DUncMax) l v = fold_left pymax (map snd l) v.
Proof. revert v. induction l as [| x l IH]; intros v; [reflexivity |]. cbn [fold_left map]. rewrite IH. reflexivity. Qed.
Lemma fold_unc_min_first l u : (forall ou, In ou l -> (u <= fst ou)%Qc) -> fold_left (fold_d DUncMin) l u = u.
Proof.
  revert u. induction l as [| [o w] l IH]; intros u H; [reflexivity |]. cbn [fold_left]. cbn [fold_d fst snd].
  assert (Qclt_bool o u = false) as -> by (apply Qclt_bool_false, (H (o, w)); now left). apply IH. intros; apply H. now right.
Qed.

Lemma shown_get cubes n c : shown cubes n c = match get_field cubes n with Some k => if cu_mask k c then None else Some (cu_data k c) | None => None end.
Proof. unfold shown. now rewrite get_field_find. Qed.

Lemma shown_holds cubes s o L d c : holdsD cubes s o L -> shown cubes (name_of s o d) c = match L c with [] => None | _ => Some (fold_left (fold_d d) (L c) (initial_value d)) end.
Proof.
  intros H. rewrite shown_get. specialize (H d). unfold holds_field in H. destruct (get_field cubes (name_of s o d)) as [k |].
  - destruct (H c) as [A B]. rewrite A, B. destruct (L c); reflexivity.
  - now rewrite (H c).
Qed.

Lemma tells_holds cubes s o L c : holdsD cubes s o L -> tells (fun d => shown cubes (field s o d) c) (L c).
Proof.
  intros H. pose proof (fun d => shown_holds cubes s o L d c H) as S. unfold tells. destruct (L c) as [| x l] eqn:E.
  - intros d I. cbn in I. destruct I as [<- | [<- | [<- | [<- | [<- | [<- | [<- | []]]]]]]];
      [exact (S DCount) | exact (S DObsMax) | exact (S DObsMin) | exact (S DUncMax) | exact (S DUncMin) | exact (S DSum) | exact (S DPrec)].
  - rewrite <- E in *. assert (L c <> []) as NE by (rewrite E; discriminate).
    assert (map fst (L c) <> []) as N1 by (rewrite E; discriminate). assert (map snd (L c) <> []) as N2 by (rewrite E; discriminate).
    assert (forall d, shown cubes (name_of s o d) c = Some (fold_left (fold_d d) (L c) (initial_value d))) as S'.
    { intros d. rewrite (S d), E. reflexivity. }
    split. { transitivity (Some (fold_left (fold_d DCount) (L c) (initial_value DCount))); [exact (S' DCount) |]. f_equal. rewrite fold_count. cbn [initial_value]. ring. }
    split. { transitivity (Some (fold_left (fold_d DSum) (L c) (initial_value DSum))); [exact (S' DSum) |]. f_equal. rewrite fold_sum. cbn [initial_value]. ring. }
    split. { transitivity (Some (fold_left (fold_d DPrec) (L c) (initial_value DPrec))); [exact (S' DPrec) |]. f_equal. rewrite fold_prec. cbn [initial_value]. ring. }
    split.
    + intros F. rewrite Forall_forall in F. split.
      * eexists. split; [exact (S' DObsMin) |]. rewrite fold_obs_min. apply min_of_all; [exact N1 |]. intros v I. apply in_map_iff in I. destruct I as (ou & <- & I). apply (F ou I).
      * eexists. split; [exact (S' DObsMax) |]. rewrite fold_obs_max. apply max_of_all; [exact N1 |]. intros v I. apply in_map_iff in I. destruct I as (ou & <- & I). apply (F ou I).
    + intros F. rewrite Forall_forall in F. eexists. split; [exact (S' DUncMax) |]. rewrite fold_unc_max. apply max_of_all; [exact N2 |].
      intros v I. apply in_map_iff in I. destruct I as (ou & <- & I). apply (F ou I).
Qed.

(* ---- the weighted mean lies between the extremes *)

Lemma inv_pos u : (0 < u)%Qc -> (0 < 1 / u)%Qc.
Proof.
  intros U. apply Qcnot_le_lt. intros H. assert (u <> 0)%Qc as N by (intros ->; exact (Qclt_not_eq _ _ U eq_refl)).
  apply (Qcmult_le_compat_r _ _ u) in H; [| now apply Qclt_le_weak]. rewrite Qcmult_0_l in H. assert (1 / u * u = 1)%Qc as E by (field; exact N). rewrite E in H. now apply H.
Qed.
Lemma weights_pos l : l <> [] -> Forall (fun ou : Qc * Qc => (0 < snd ou)%Qc) l -> (0 < weights l)%Qc.
Proof.
  intros N F. unfold weights. pose proof inv_pos as P.
  destruct l as [| [o u] l]; [now contradict N |]. clear N. revert o u F. induction l as [| [o' u'] l IH]; intros o u F; inversion F as [| ? ? U F']; subst; cbn [snd] in U; cbn [map sumQ fold_right snd].
  - specialize (P u U). rewrite Qcplus_0_r. exact P.
  - specialize (IH o' u' F'). cbn [map sumQ fold_right snd] in IH. specialize (P u U). qc.
Qed.
Lemma weighted_between l m M : Forall (fun ou : Qc * Qc => (0 < snd ou)%Qc /\ (m <= fst ou)%Qc /\ (fst ou <= M)%Qc) l ->
  (m * weights l <= weighted_sum l)%Qc /\ (weighted_sum l <= M * weights l)%Qc.
Proof.
  intros F. unfold weights, weighted_sum. induction F as [| [o u] l (U & A & B) F [IH1 IH2]]; cbn [map sumQ fold_right fst snd] in *.
  - rewrite !Qcmult_0_r. split; apply Qcle_refl.
  - fold (sumQ (map (fun ou : Qc * Qc => (1 / snd ou)%Qc) l)) in *. fold (sumQ (map (fun ou : Qc * Qc => (fst ou / snd ou)%Qc) l)) in *.
    assert (0 <= 1 / u)%Qc as P by (apply Qclt_le_weak, inv_pos, U).
    assert (o / u = o * (1 / u))%Qc as -> by (unfold Qcdiv; ring).
    pose proof (Qcmult_le_compat_r _ _ _ A P) as X. pose proof (Qcmult_le_compat_r _ _ _ B P) as Y.
    rewrite !Qcmult_plus_distr_r. split; apply Qcplus_le_compat; assumption.
Qed.
Lemma Qc_div_between a b m M : (0 < b)%Qc -> (m * b <= a)%Qc -> (a <= M * b)%Qc -> (m <= a / b)%Qc /\ (a / b <= M)%Qc.
Proof.
  intros B X Y. assert (b <> 0)%Qc as N by (intros ->; exact (Qclt_not_eq _ _ B eq_refl)).
  assert (a = (a / b) * b)%Qc as E by (field; exact N). split.
  - apply Qcnot_lt_le. intros H. apply (Qcmult_lt_compat_r _ _ b B) in H. rewrite <- E in H. exact (Qclt_not_le _ _ H X).
  - apply Qcnot_lt_le. intros H. apply (Qcmult_lt_compat_r _ _ b B) in H. rewrite <- E in H. exact (Qclt_not_le _ _ H Y).
Qed.

(* ---- names *)

Lemma las_app a b : list_ascii_of_string (a ++ b) = list_ascii_of_string a ++ list_ascii_of_string b.
Proof. induction a as [| x a IH]; [reflexivity |]. cbn. now rewrite IH. Qed.
Lemma las_inj a b : list_ascii_of_string a = list_ascii_of_string b -> a = b.
Proof. intros H. rewrite <- (string_of_list_ascii_of_string a), <- (string_of_list_ascii_of_string b). now rewrite H. Qed.
Definition all_names : list string := (the_fields ++ ["observation_weightedmean"%string])%list.

Lemma split_last_underscore {A} (u : A) (x y p q : list A) : ~ In u x -> ~ In u y -> x ++ u :: p = y ++ u :: q -> x = y /\ p = q.
Proof.
  revert y. induction x as [| a x IH]; intros [| b y] N M H; cbn in *.
  - split; congruence.
  - exfalso. injection H as -> _. apply M. now left.
  - exfalso. injection H as -> _. apply N. now left.
  - injection H as -> H. destruct (IH y) as [-> ->]; [tauto | tauto | exact H | split; reflexivity].
Qed.

Lemma field_name_inj s o d s' o' d' : plain o -> plain o' -> In d all_names -> In d' all_names -> field_name s o d = field_name s' o' d' -> s = s' /\ o = o' /\ d = d'.
Proof.
  intros P P' D D' E. unfold plain in *.
  assert (rev (list_ascii_of_string d) ++ "_"%char :: rev (list_ascii_of_string o) ++ "_"%char :: rev (list_ascii_of_string s) =
          rev (list_ascii_of_string d') ++ "_"%char :: rev (list_ascii_of_string o') ++ "_"%char :: rev (list_ascii_of_string s')) as R.
  { apply (f_equal (fun x => rev (list_ascii_of_string x))) in E. unfold field_name in E. rewrite !las_app in E. cbn [list_ascii_of_string] in E.
    rewrite !rev_app_distr in E. cbn [rev app] in E. rewrite <- !app_assoc in E. exact E. }
  clear E. assert (d = d' /\ rev (list_ascii_of_string o) ++ "_"%char :: rev (list_ascii_of_string s) = rev (list_ascii_of_string o') ++ "_"%char :: rev (list_ascii_of_string s')) as [-> R'].
  { unfold all_names, the_fields in D, D'. cbn [app In] in D, D'.
    repeat (destruct D as [<- | D]; [repeat (destruct D' as [<- | D']; [cbn in R; first [discriminate R | split; [reflexivity | now injection R]] |]); destruct D' |]).
    destruct D. }
  apply split_last_underscore in R'; [| rewrite <- in_rev; assumption | rewrite <- in_rev; assumption]. destruct R' as [A B].
  apply (f_equal (@rev ascii)) in A. apply (f_equal (@rev ascii)) in B. rewrite !rev_involutive in A, B. apply las_inj in A. apply las_inj in B. auto.
Qed.
Lemma name_in d : In (diagnostic_name d) all_names.
Proof. destruct d; cbn; tauto. Qed.

(* ---- one input *)

Definition read_input (fs : files) (num : Z -> Qc) (daynumber : Z) (d : diag_input) : result (lookup * obset) :=
  do data <- fopen fs (di_locations d);
  do locations <- read_lookup data;
  do data <- fopen fs (di_ranges d);
  do ranges <- read_ranges data;
  do obs <- source_observations fs num (lk_uuid locations) (di_observations d) ranges daynumber;
  Ok (locations, obs).
Definition coords (num : Z -> Qc) (l : lookup) : list (Qc * Qc) := map (fun ll => (num (fst ll), num (snd ll))) (lk_table l).
Definition input_day (fs : files) (num : Z -> Qc) (daynumber : Z) (d : diag_input) : result grid_input :=
  do lo <- read_input fs num daynumber d;
  match s_measurement (snd lo) with
  | [] => Err ValueError
  | _ => do cells <- connect (global_axes daynumber) (coords num (fst lo)); get_day cells (snd lo) (di_observable d) daynumber
  end.

Definition cache_ok (fs : files) (cache : list (string * lookup)) : Prop :=
  forall path l, cache_find cache path = Some l -> exists data, fs path = Some data /\ read_lookup data = Ok l.

Lemma cached_locations_eq fs cache path : cache_ok fs cache ->
  match cached_locations fs cache path with
  | Ok (cache', l) => (do data <- fopen fs path; read_lookup data) = Ok l /\ cache_ok fs cache'
  | Err e => (do data <- fopen fs path; read_lookup data) = Err e
  end.
Proof.
  intros C. unfold cached_locations. destruct (cache_find cache path) as [l |] eqn:E.
  - destruct (C path l E) as (data & F & R). unfold fopen. rewrite F. cbn [bind]. split; assumption.
  - unfold fopen. destruct (fs path) as [data |] eqn:F; cbn [bind]; [| reflexivity]. destruct (read_lookup data) as [l |] eqn:R; cbn [bind]; [| reflexivity].
    split; [reflexivity |]. intros p m. cbn [cache_find]. destruct (String.eqb path p) eqn:Q.
    + apply String.eqb_eq in Q. subst p. intros X. exists data. split; [exact F | congruence].
    + apply C.
Qed.

Lemma combine_one_eq fs num day cache cubes d : cache_ok fs cache ->
  match combine_one fs num day (cache, cubes) d with
  | Ok (cache', cubes') => cache_ok fs cache' /\
      (do gi <- input_day fs num day d; do c <- create_fields global_cells (di_source d) cubes gi; compute_weighted_mean (di_source d) (di_observable d) c) = Ok cubes'
  | Err e => (do gi <- input_day fs num day d; do c <- create_fields global_cells (di_source d) cubes gi; compute_weighted_mean (di_source d) (di_observable d) c) = Err e
  end.
Proof.
  intros C. unfold combine_one, input_day, read_input. pose proof (cached_locations_eq fs cache (di_locations d) C) as K.
  destruct (cached_locations fs cache (di_locations d)) as [[cache' l] | e].
  - destruct K as [K C']. destruct (fopen fs (di_locations d)) as [data |]; cbn [bind] in K |- *; [| discriminate K]. rewrite K. cbn [bind].
    destruct (fopen fs (di_ranges d)) as [rd | e]; cbn [bind]; [| reflexivity]. destruct (read_ranges rd) as [ranges | e]; cbn [bind]; [| reflexivity].
    destruct (source_observations fs num (lk_uuid l) (di_observations d) ranges day) as [o | e]; cbn [bind fst snd]; [| reflexivity].
    destruct (s_measurement o) as [| m ms]; [reflexivity |]. fold (coords num l).
    destruct (connect (global_axes day) (coords num l)) as [cells | e]; cbn [bind]; [| reflexivity].
    destruct (get_day cells o (di_observable d) day) as [gi | e]; cbn [bind]; [| reflexivity].
    destruct (create_fields global_cells (di_source d) cubes gi) as [c | e]; cbn [bind]; [| reflexivity].
    destruct (compute_weighted_mean (di_source d) (di_observable d) c) as [c' | e]; cbn [bind]; [| reflexivity]. split; [exact C' | reflexivity].
  - cbn [bind]. destruct (fopen fs (di_locations d)) as [data | e']; cbn [bind] in K |- *; [| congruence]. rewrite K. reflexivity.
Qed.

(* ---- a run *)

Definition input_list (fs : files) (num : Z -> Qc) (day : Z) (d : diag_input) (c : Z) : list (Qc * Qc) :=
  match input_day fs num day d with Ok gi => sel c (obs_of gi) | Err _ => [] end.
Definition has_pair (s o : string) (d : diag_input) : bool := String.eqb (di_source d) s && String.eqb (di_observable d) o.
Definition pair_list (fs : files) (num : Z -> Qc) (day : Z) (inputs : list diag_input) (s o : string) (c : Z) : list (Qc * Qc) :=
  flat_map (fun d => if has_pair s o d then input_list fs num day d c else []) inputs.
Definition mean_seen (l : list (Qc * Qc)) : option Qc :=
  match l with [] => None | _ => if Qc_eq_bool (weights l) 0%Qc then None else Some (weighted_sum l / weights l)%Qc end.
Definition mean_name (s o : string) : string := field_name s o "observation_weightedmean".

Record run_state (fs : files) (num : Z -> Qc) (day : Z) (done : list diag_input) (cubes : list cube) : Prop := {
  rs_holds : forall s o, plain o -> holdsD cubes s o (pair_list fs num day done s o);
  rs_mean : forall pre d post c, done = pre ++ d :: post -> existsb (has_pair (di_source d) (di_observable d)) pre = false ->
    shown cubes (mean_name (di_source d) (di_observable d)) c = mean_seen (input_list fs num day d c);
  rs_no_mean : forall s o, plain o -> existsb (has_pair s o) done = false -> get_field cubes (mean_name s o) = None;
  rs_names : forall n, In n (map cu_name cubes) <-> exists d x, In d done /\ In x all_names /\ n = field_name (di_source d) (di_observable d) x }.

Lemma has_pair_iff s o d : has_pair s o d = true <-> di_source d = s /\ di_observable d = o.
Proof. unfold has_pair. rewrite Bool.andb_true_iff, !String.eqb_eq. tauto. Qed.
Lemma input_day_observable fs num day d gi : input_day fs num day d = Ok gi -> gi_observable gi = di_observable d /\
  List.length (gi_observation gi) = List.length (gi_indices gi) /\ List.length (gi_uncertainty gi) = List.length (gi_indices gi).
Proof.
  unfold input_day. destruct (read_input fs num day d) as [[l o] |]; [| discriminate]. cbn [bind fst snd]. destruct (s_measurement o); [discriminate |].
  destruct (connect _ _) as [cells |]; [| discriminate]. cbn [bind]. intros H. destruct (get_day_inv _ _ _ _ _ H) as (A & _ & B & C & D & _).
  rewrite C, D, !map_length. auto.
Qed.
Lemma pair_list_app fs num day l m s o c : pair_list fs num day (l ++ m) s o c = pair_list fs num day l s o c ++ pair_list fs num day m s o c.
Proof. unfold pair_list. apply flat_map_app. Qed.
Lemma pair_list_one fs num day d s o c : pair_list fs num day [d] s o c = if has_pair s o d then input_list fs num day d c else [].
Proof. unfold pair_list. cbn. apply app_nil_r. Qed.
Lemma pair_list_none fs num day l s o c : existsb (has_pair s o) l = false -> pair_list fs num day l s o c = [].
Proof.
  induction l as [| d l IH]; intros H; [reflexivity |]. cbn in H. apply Bool.orb_false_iff in H. destruct H as [A B].
  change (d :: l) with ([d] ++ l). rewrite pair_list_app, pair_list_one, A, (IH B). reflexivity.
Qed.
Lemma holdsD_ext cubes s o L L' : (forall c, L c = L' c) -> holdsD cubes s o L -> holdsD cubes s o L'.
Proof.
  intros E H d. specialize (H d). unfold holds_field in *. destruct (get_field cubes (name_of s o d)) as [k |]; intros c; [rewrite <- E; apply H | rewrite <- E; apply H].
Qed.
Lemma holdsD_same cubes cubes' s o L : (forall d, get_field cubes' (name_of s o d) = get_field cubes (name_of s o d)) -> holdsD cubes s o L -> holdsD cubes' s o L.
Proof. intros E H d. rewrite E. apply H. Qed.

Lemma mean_not_of s o s' o' d : plain o -> plain o' -> mean_name s o <> name_of s' o' d.
Proof.
  intros P P' E. apply field_name_inj in E; [| exact P | exact P' | unfold all_names; apply in_or_app; right; now left | apply name_in].
  destruct E as (_ & _ & E). destruct d; discriminate E.
Qed.
Lemma mean_in : In "observation_weightedmean"%string all_names.
Proof. unfold all_names. apply in_or_app. right. now left. Qed.

Lemma weights_fold l : fold_left (fold_d DPrec) l (initial_value DPrec) = weights l.
Proof. rewrite fold_prec. cbn [initial_value]. ring. Qed.
Lemma sums_fold l : fold_left (fold_d DSum) l (initial_value DSum) = weighted_sum l.
Proof. rewrite fold_sum. cbn [initial_value]. ring. Qed.

Lemma run_step fs num day done cubes d gi c1 c2 : run_state fs num day done cubes -> plain (di_observable d) ->
  Forall (fun e => plain (di_observable e)) done ->
  input_day fs num day d = Ok gi -> create_fields global_cells (di_source d) cubes gi = Ok c1 ->
  compute_weighted_mean (di_source d) (di_observable d) c1 = Ok c2 -> run_state fs num day (done ++ [d]) c2.
Proof.
  intros R P PD I C M. destruct (input_day_observable _ _ _ _ _ I) as (O & L1 & L2).
  set (s := di_source d) in *. set (o := di_observable d) in *.
  pose proof (rs_holds _ _ _ _ _ R s o P) as H0. rewrite <- O in H0.
  destruct (create_fields_inv _ _ _ _ _ _ L1 L2 H0 C) as (_ & _ & Oth & Some7 & H1). rewrite O in Oth, Some7, H1.
  assert (holdsD c1 s o (pair_list fs num day (done ++ [d]) s o)) as H2.
  { eapply holdsD_ext; [| exact H1]. intros c. cbv beta. rewrite pair_list_app, pair_list_one. rewrite (proj2 (has_pair_iff s o d)) by (split; reflexivity).
    unfold input_list. now rewrite I. }
  destruct (weighted_mean_inv _ _ _ _ M) as (a & p & Ea & Ep & ->). fold (mean_name s o).
  set (mc := {| cu_name := mean_name s o; cu_mask := _; cu_data := _ |}).
  assert (forall n, n <> mean_name s o -> get_field (c1 ++ [mc]) n = get_field c1 n) as G.
  { intros n N. rewrite get_field_app. destruct (get_field c1 n); [reflexivity |]. cbn. destruct (String.eqb (mean_name s o) n) eqn:Q; [apply String.eqb_eq in Q; congruence | reflexivity]. }
  split.
  - intros s' o' P'. destruct (has_pair s' o' d) eqn:HP.
    + apply has_pair_iff in HP. destruct HP as [<- <-]. fold s o. apply (holdsD_same c1); [| exact H2]. intros e. apply G. intros X. symmetry in X. revert X. now apply mean_not_of.
    + apply (holdsD_ext _ _ _ (pair_list fs num day done s' o')); [intros c; rewrite pair_list_app, pair_list_one, HP; symmetry; apply app_nil_r |].
      apply (holdsD_same cubes); [| apply (rs_holds _ _ _ _ _ R); exact P']. intros e. rewrite G by (intros X; symmetry in X; revert X; now apply mean_not_of). apply Oth.
      intros e' X. apply field_name_inj in X; [| exact P' | exact P | apply name_in | apply name_in]. destruct X as (-> & -> & _).
      rewrite (proj2 (has_pair_iff s o d)) in HP by (split; reflexivity). discriminate.
  - intros pre d' post c E NP. destruct post as [| q post] using rev_ind.
    + apply app_inj_tail in E. destruct E as [-> <-]. fold s o. assert (get_field c1 (mean_name s o) = None) as N0.
      { rewrite Oth; [| intros e; now apply mean_not_of]. apply (rs_no_mean _ _ _ _ _ R); [exact P | exact NP]. }
      rewrite shown_get, get_field_app, N0. cbn [get_field]. cbn [mc cu_name]. rewrite String.eqb_refl. cbn [mc cu_mask cu_data].
      assert (forall e, In e [DSum; DPrec] -> holds_field e (get_field c1 (name_of s o e)) (input_list fs num day d)) as H3.
      { intros e _. enough (holdsD c1 s o (input_list fs num day d)) as X by apply X. eapply holdsD_ext; [| exact H2]. intros c'. cbv beta.
        rewrite pair_list_app, pair_list_one, (pair_list_none _ _ _ _ _ _ _ NP), (proj2 (has_pair_iff s o d)) by (split; reflexivity). reflexivity. }
      pose proof (H3 DSum (or_introl eq_refl)) as Ha. pose proof (H3 DPrec (or_intror (or_introl eq_refl))) as Hp. rewrite Ea in Ha. rewrite Ep in Hp.
      cbn [holds_field] in Ha, Hp. destruct (Ha c) as [A1 A2]. destruct (Hp c) as [P1 P2]. rewrite A1, A2, P1, P2, weights_fold, sums_fold.
      unfold mean_seen. destruct (input_list fs num day d c) as [| x l]; [reflexivity |]. cbn [orb]. destruct (Qc_eq_bool _ _); reflexivity.
    + clear IHpost. rewrite app_comm_cons, app_assoc in E. apply app_inj_tail in E. destruct E as [E <-].
      assert (In d' done) as Id by (rewrite E; apply in_or_app; right; now left). rewrite Forall_forall in PD. pose proof (PD d' Id) as P'.
      pose proof (rs_mean _ _ _ _ _ R pre d' post c E NP) as K. rewrite <- K. rewrite !shown_get.
      assert (get_field c1 (mean_name (di_source d') (di_observable d')) = get_field cubes (mean_name (di_source d') (di_observable d'))) as E1
        by (apply Oth; intros e; now apply mean_not_of).
      rewrite get_field_app, E1. destruct (get_field cubes (mean_name (di_source d') (di_observable d'))) eqn:F; [reflexivity |]. exfalso.
      apply get_field_none in F. apply F. apply (rs_names _ _ _ _ _ R). exists d', "observation_weightedmean"%string. split; [exact Id |]. split; [apply mean_in | reflexivity].
  - intros s' o' P' NP. rewrite existsb_app in NP. apply Bool.orb_false_iff in NP. destruct NP as [NP Nd]. cbn in Nd. rewrite Bool.orb_false_r in Nd.
    rewrite G.
    + rewrite Oth by (intros e; now apply mean_not_of). now apply (rs_no_mean _ _ _ _ _ R).
    + intros X. apply field_name_inj in X; [| exact P' | exact P | apply mean_in | apply mean_in]. destruct X as (-> & -> & _).
      rewrite (proj2 (has_pair_iff s o d)) in Nd by (split; reflexivity). discriminate.
  - intros n. split.
    + rewrite map_app, in_app_iff. cbn. intros [In1 | [<- | []]].
      * destruct (get_field cubes n) as [k |] eqn:F.
        -- assert (In n (map cu_name cubes)) as In0. { destruct (in_dec string_dec n (map cu_name cubes)) as [X | X]; [exact X |]. apply get_field_none in X. congruence. }
           apply (rs_names _ _ _ _ _ R) in In0. destruct In0 as (e & x & A & B & E). exists e, x. split; [apply in_or_app; now left | auto].
        -- destruct (in_dec string_dec n (map (name_of s o) diagnostics)) as [X | X].
           ++ apply in_map_iff in X. destruct X as (e & <- & _). exists d, (diagnostic_name e). split; [apply in_or_app; right; now left |]. split; [apply name_in | reflexivity].
           ++ exfalso. assert (get_field c1 n = None) as Z.
              { rewrite Oth; [exact F |]. intros e ->. apply X. apply in_map. apply diagnostics_all. }
              apply get_field_none in Z. contradiction.
      * exists d, "observation_weightedmean"%string. split; [apply in_or_app; right; now left |]. split; [apply mean_in | reflexivity].
    + intros (e & x & A & B & ->). rewrite map_app, in_app_iff. apply in_app_or in A. destruct A as [A | [<- | []]].
      * left. assert (In (field_name (di_source e) (di_observable e) x) (map cu_name cubes)) as X by (apply (rs_names _ _ _ _ _ R); eauto).
        destruct (in_dec string_dec (field_name (di_source e) (di_observable e) x) (map cu_name c1)) as [Y | Y]; [exact Y |]. exfalso. apply get_field_none in Y.
        destruct (in_dec string_dec (field_name (di_source e) (di_observable e) x) (map (name_of s o) diagnostics)) as [Q | Q].
        -- apply in_map_iff in Q. destruct Q as (g & Q & _). rewrite <- Q in Y. exact (Some7 g Y).
        -- rewrite Oth in Y; [apply get_field_none in Y; contradiction |]. intros g E. apply Q. rewrite E. apply in_map. apply diagnostics_all.
      * fold s o. unfold all_names in B. apply in_app_or in B. destruct B as [B | [<- | []]]; [left | right; now left].
        assert (exists g, x = diagnostic_name g) as [g ->].
        { cbn in B. destruct B as [<- | [<- | [<- | [<- | [<- | [<- | [<- | []]]]]]]];
            [exists DCount | exists DObsMax | exists DObsMin | exists DUncMax | exists DUncMin | exists DSum | exists DPrec]; reflexivity. }
        destruct (in_dec string_dec (field_name s o (diagnostic_name g)) (map cu_name c1)) as [Y | Y]; [exact Y |]. apply get_field_none in Y. exfalso. exact (Some7 g Y).
Qed.

Lemma run_state_start fs num day : run_state fs num day [] [].
Proof.
  split.
  - intros s o _ d c. reflexivity.
  - intros pre d post c E. destruct pre; discriminate.
  - reflexivity.
  - intros n. split; [intros [] | intros (d & x & [] & _)].
Qed.

Lemma run_fold fs num day : forall todo done cache cubes st, Forall (fun d => plain (di_observable d)) (done ++ todo) ->
  cache_ok fs cache -> run_state fs num day done cubes -> foldM (combine_one fs num day) (cache, cubes) todo = Ok st ->
  run_state fs num day (done ++ todo) (snd st).
Proof.
  induction todo as [| d todo IH]; intros done cache cubes st P C R H.
  - cbn in H. assert (st = (cache, cubes)) as -> by congruence. rewrite app_nil_r. exact R.
  - cbn [foldM] in H. pose proof (combine_one_eq fs num day cache cubes d C) as K. destruct (combine_one fs num day (cache, cubes) d) as [[cache' cubes'] |]; [| discriminate].
    cbn [bind] in H. destruct K as [C' K]. destruct (input_day fs num day d) as [gi |] eqn:I; [| discriminate K]. cbn [bind] in K.
    destruct (create_fields global_cells (di_source d) cubes gi) as [c1 |] eqn:E1; [| discriminate K]. cbn [bind] in K.
    change (d :: todo) with ([d] ++ todo) in *. rewrite app_assoc in *. apply (IH (done ++ [d]) cache' cubes' st P C'); [| exact H].
    rewrite !Forall_app in P. destruct P as [[P1 P2] _]. inversion P2; subst. eapply run_step; eassumption.
Qed.

(* when a run succeeds *)
Definition step_ok (fs : files) (num : Z -> Qc) (day : Z) (d : diag_input) : Prop :=
  exists gi, input_day fs num day d = Ok gi /\ Forall (fun i => 0 <= i < global_cells) (gi_indices gi) /\ Forall (fun x => snd (snd x) <> 0%Qc) (obs_of gi).
Lemma data_weighted s o cubes : (forall d, get_field cubes (name_of s o d) <> None) -> exists c, compute_weighted_mean s o cubes = Ok c.
Proof.
  intros H. unfold compute_weighted_mean. pose proof (H DSum) as A. pose proof (H DPrec) as B. unfold name_of in A, B. cbn [diagnostic_name] in A, B.
  destruct (get_field cubes (field_name s o "observation_weightedsum")); [| congruence]. destruct (get_field cubes (field_name s o "precision_sum")); [| congruence]. eauto.
Qed.
Lemma create_fields_present ncells s cubes obs c1 : create_fields ncells s cubes obs = Ok c1 -> Forall (fun i => 0 <= i < ncells) (gi_indices obs) /\
  Forall (fun x => snd (snd x) <> 0%Qc) (obs_of obs) /\ forall d, get_field c1 (name_of s (gi_observable obs) d) <> None.
Proof.
  unfold create_fields. destruct (forallb _ _) eqn:R; [| discriminate]. cbn [negb]. cbv zeta. set (o := gi_observable obs) in *.
  destruct (fold_fields s o (open_field s obs) (fun d k => Some (opened (name_of s o d) (initial_value d) (gi_indices obs) k))
    (fun cubes d n => open_field_other s obs cubes d n) (fun cubes d => open_field_same s obs cubes d) diagnostics cubes diagnostics_nodup) as [A B].
  set (mid := fold_left (open_field s obs) diagnostics cubes) in *. fold (obs_of obs).
  destruct (aggregate (data_of s o mid) (obs_of obs)) as [a |] eqn:E; [| discriminate]. cbn [bind]. intros Q.
  destruct (aggregate_cell _ _ _ E) as [N _].
  destruct (fold_fields s o (store_data s o a) (fun d => option_map (fun c => {| cu_name := name_of s o d; cu_mask := cu_mask c; cu_data := a d |}))
    (fun cubes d n => store_other s o a cubes d n) (fun cubes d => store_same s o a cubes d) diagnostics mid diagnostics_nodup) as [_ B'].
  split; [apply Forall_forall; intros i I; rewrite forallb_forall in R; specialize (R i I); lia |]. split; [exact N |].
  intros d. assert (c1 = fold_left (store_data s o a) diagnostics mid) as -> by congruence. rewrite B' by apply diagnostics_all. rewrite B by apply diagnostics_all. discriminate.
Qed.
Lemma run_succeeds fs num day : forall todo cache cubes, cache_ok fs cache ->
  (exists st, foldM (combine_one fs num day) (cache, cubes) todo = Ok st) <-> Forall (step_ok fs num day) todo.
Proof.
  induction todo as [| d todo IH]; intros cache cubes C.
  - split; [constructor | intros _; eexists; reflexivity].
  - cbn [foldM]. pose proof (combine_one_eq fs num day cache cubes d C) as K. split.
    + intros [st H]. destruct (combine_one fs num day (cache, cubes) d) as [[cache' cubes'] |]; [| discriminate H]. cbn [bind] in H. destruct K as [C' K].
      constructor; [| eapply IH; eauto]. unfold step_ok. destruct (input_day fs num day d) as [gi |] eqn:I; [| discriminate K]. cbn [bind] in K. exists gi. split; [reflexivity |].
      destruct (create_fields global_cells (di_source d) cubes gi) as [c1 |] eqn:E1; [| discriminate K]. destruct (create_fields_present _ _ _ _ _ E1) as (A & B & _). split; assumption.
    + intros F. inversion F as [| ? ? (gi & I & A & B) F']; subst. rewrite I in K. cbn [bind] in K.
      destruct (create_fields_ok global_cells (di_source d) cubes gi A B) as [c1 E1]. rewrite E1 in K. cbn [bind] in K.
      destruct (create_fields_present _ _ _ _ _ E1) as (_ & _ & G). destruct (input_day_observable _ _ _ _ _ I) as (O & _). rewrite O in G.
      destruct (data_weighted _ _ _ G) as [c2 E2]. rewrite E2 in K. destruct (combine_one fs num day (cache, cubes) d) as [[cache' cubes'] |]; [| discriminate K]. cbn [bind].
      destruct K as [C' _]. now apply IH.
Qed.
