(* Proofs about station data (Src_Model, Src_Spec). *)
From Coq Require Import QArith Qcanon String Ascii Psatz.
From Verif Require Import Base Time_Model Grid_Model Land_Model Obs_Model Obs_Spec Src_Model Src_Spec.
Local Open Scope Z_scope.
Local Open Scope list_scope.

(* ---- lists *)

Lemma nth_combine {A B} (a : list A) (b : list B) n da db : List.length a = List.length b -> nth n (combine a b) (da, db) = (nth n a da, nth n b db).
Proof. intros H. apply combine_nth. exact H. Qed.
Lemma nth_map {A B} (f : A -> B) l n d e : (n < List.length l)%nat -> nth n (map f l) d = f (nth n l e).
Proof. intros H. rewrite (nth_indep _ d (f e)) by (rewrite map_length; exact H). apply map_nth. Qed.

(* rows laid end to end *)
Lemma flat_map_length {A B} (g : A -> list B) n rows : Forall (fun r => List.length (g r) = n) rows -> List.length (flat_map g rows) = (List.length rows * n)%nat.
Proof. induction 1 as [|r rows H _ IH]; cbn [flat_map List.length]; [reflexivity|]. rewrite app_length, IH, H. lia. Qed.
Lemma flat_map_nth {A B} (g : A -> list B) n rows k s d e : Forall (fun r => List.length (g r) = n) rows -> (k < List.length rows)%nat -> (s < n)%nat ->
  nth (k * n + s) (flat_map g rows) d = nth s (g (nth k rows e)) d.
Proof.
  intros H. revert k. induction H as [|r rows H _ IH]; intros k K Sn; cbn [List.length] in K; [lia|]. cbn [flat_map]. destruct k as [|k].
  - cbn [nth Nat.mul Nat.add]. apply app_nth1. lia.
  - cbn [nth]. rewrite app_nth2 by (rewrite H; nia). rewrite H. replace (S k * n + s - n)%nat with (k * n + s)%nat by nia. apply IH; lia.
Qed.

(* ---- codes *)

Lemma drop_nul_split l : exists n, l = repeat "000"%char n ++ drop_nul l.
Proof.
  induction l as [|c l [n IH]]; [exists O; reflexivity|]. cbn [drop_nul]. destruct (Ascii.eqb_spec c "000"%char) as [->|N].
  - exists (S n). cbn [repeat app]. now f_equal.
  - exists O. reflexivity.
Qed.
Lemma rev_repeat {A} (x : A) n : rev (repeat x n) = repeat x n.
Proof. induction n; [reflexivity|]. cbn [repeat rev]. rewrite IHn. clear. induction n; [reflexivity|]. cbn. now f_equal. Qed.
Lemma code_text_split l : exists n, l = code_text l ++ repeat "000"%char n.
Proof.
  destruct (drop_nul_split (rev l)) as [n E]. exists n. unfold code_text. rewrite <- (rev_involutive l) at 1. rewrite E at 1. now rewrite rev_app_distr, rev_repeat.
Qed.
Lemma drop_nul_repeat n l : drop_nul (repeat "000"%char n ++ l) = drop_nul l.
Proof. induction n; [reflexivity|]. cbn. exact IHn. Qed.
Lemma code_text_pad l n : code_text (l ++ repeat "000"%char n) = code_text l.
Proof. unfold code_text. now rewrite rev_app_distr, rev_repeat, drop_nul_repeat. Qed.
Lemma ascii_list_eqb_iff a b : ascii_list_eqb a b = true <-> a = b.
Proof.
  revert b; induction a as [|x a IH]; intros [|y b]; cbn; split; intros H; try reflexivity; try discriminate.
  - apply andb_true_iff in H. destruct H as [H1 H2]. apply Ascii.eqb_eq in H1. apply IH in H2. congruence.
  - injection H as -> ->. rewrite Ascii.eqb_refl. cbn. now apply IH.
Qed.
Lemma same_code_iff a b : ascii_list_eqb (code_text a) (code_text b) = true <-> same_code a b.
Proof.
  rewrite ascii_list_eqb_iff. split.
  - intros E. destruct (code_text_split a) as [m Ha], (code_text_split b) as [n Hb]. exists (code_text a), m, n. split; [exact Ha|]. now rewrite E.
  - intros (c & m & n & -> & ->). now rewrite !code_text_pad.
Qed.
Lemma held_iff f codes s : (s < List.length (lf_codes f))%nat -> nth s (validation_stations (lf_codes f) codes) false = true <-> held_out f (Some codes) s.
Proof.
  intros L. unfold validation_stations. rewrite (nth_map _ _ _ _ []) by exact L. rewrite existsb_exists. split.
  - intros (c & I & E). exists codes, c. apply same_code_iff in E. auto.
  - intros (l & c & El & I & E). injection El as <-. exists c. split; [exact I|]. now apply same_code_iff.
Qed.

(* ---- the stages *)

(* a table whose entries are given *)
Definition gives (n m : nat) (F : nat -> nat -> cell) (t : list (list cell)) : Prop :=
  table_ok n m t /\ forall k s, (k < n)%nat -> (s < m)%nat -> nth s (nth k t []) (true, 0%Qc) = F k s.
Lemma mask_row_length ms row : List.length ms = List.length row -> List.length (mask_row ms row) = List.length row.
Proof. intros E. unfold mask_row. rewrite map_length, combine_length, E. apply Nat.min_id. Qed.
Lemma mask_row_nth ms row s : List.length ms = List.length row -> (s < List.length row)%nat ->
  nth s (mask_row ms row) (true, 0%Qc) = mask_cell (nth s ms false) (nth s row (true, 0%Qc)).
Proof.
  intros E L. unfold mask_row. rewrite (nth_map _ _ _ _ (false, (true, 0%Qc))) by (rewrite combine_length; lia). now rewrite nth_combine by exact E.
Qed.
Lemma table_row {A} n m (t : list (list A)) k : table_ok n m t -> (k < n)%nat -> List.length (nth k t []) = m.
Proof. intros [L F] K. rewrite Forall_forall in F. apply F, nth_In. lia. Qed.
Lemma gives_hold n m F t ms : gives n m F t -> List.length ms = m -> gives n m (fun k s => mask_cell (nth s ms false) (F k s)) (map (mask_row ms) t).
Proof.
  intros [T G] L. split; [split|].
  - rewrite map_length. apply T.
  - rewrite Forall_map. eapply Forall_impl; [|apply T]. cbv beta. intros r R. rewrite mask_row_length; lia.
  - intros k s K S. pose proof (table_row n m t k T K) as R. rewrite (nth_map _ _ _ _ []) by (destruct T; lia). rewrite mask_row_nth by lia. now rewrite G.
Qed.
Lemma failed_nth q s : nth s (failed q) false = negb (nth s q 0 =? 0).
Proof. unfold failed. change false with ((fun q => negb (q =? 0)) 0) at 1. now rewrite map_nth. Qed.
Lemma gives_qc n m F t q nq : gives n m F t -> table_ok nq m q -> (n <= nq)%nat ->
  gives n m (fun k s => mask_cell (negb (nth s (nth k q []) 0 =? 0)) (F k s)) (map (fun qr => mask_row (failed (fst qr)) (snd qr)) (combine q t)).
Proof.
  intros [T G] Q N. assert (L : List.length (combine q t) = n) by (rewrite combine_length; destruct T, Q; lia).
  assert (NC : forall k, (k < n)%nat -> nth k (combine q t) ([], []) = (nth k q [], nth k t [])).
  { clear -T Q N. destruct T as [L _], Q as [L' _]. revert t n nq L L' N. induction q as [|a q IH]; intros t n nq L L' N k K; destruct t as [|b t]; cbn [List.length] in *; try lia.
    destruct k as [|k]; [reflexivity|]. cbn [combine nth]. apply (IH t (List.length t) (List.length q)); lia. }
  split; [split|].
  - rewrite map_length. exact L.
  - rewrite Forall_map. apply Forall_forall. intros [a b] I. cbn [fst snd]. pose proof (in_combine_l _ _ _ _ I) as Ia. pose proof (in_combine_r _ _ _ _ I) as Ib.
    destruct T as [_ T], Q as [_ Q]. rewrite Forall_forall in T, Q. specialize (T _ Ib). specialize (Q _ Ia). rewrite mask_row_length; [exact T|]. unfold failed. rewrite map_length. lia.
  - intros k s K S. rewrite (nth_map _ _ _ _ ([], [])) by lia. rewrite NC by exact K. cbn [fst snd].
    pose proof (table_row n m t k T K) as R. assert (K' : (k < nq)%nat) by lia. pose proof (table_row nq m q k Q K') as R'.
    rewrite mask_row_nth by (try unfold failed; rewrite ?map_length; lia). rewrite G by assumption. now rewrite failed_nth.
Qed.

(* rows with their uncertainties *)
Definition gives2 (n m : nat) (F : nat -> nat -> cell) (U : nat -> nat -> Qc) (t : list (list cell * list Qc)) : Prop :=
  List.length t = n /\ Forall (fun r => List.length (fst r) = m /\ List.length (snd r) = m) t /\
  forall k s, (k < n)%nat -> (s < m)%nat -> nth s (fst (nth k t ([], []))) (true, 0%Qc) = F k s /\ nth s (snd (nth k t ([], []))) 0%Qc = U k s.
Lemma gives_plain n m F t : gives n m F t -> gives2 n m F (fun _ _ => UNCERTAINTY) (map (fun row => (row, map (fun _ => UNCERTAINTY) row)) t).
Proof.
  intros [T G]. split; [rewrite map_length; apply T|split].
  - rewrite Forall_map. eapply Forall_impl; [|apply T]. cbv beta. intros r R. cbn. rewrite map_length. auto.
  - intros k s K S. rewrite (nth_map _ _ _ _ []) by (destruct T; lia). cbn [fst snd]. split; [now apply G|].
    pose proof (table_row n m t k T K) as R. rewrite (nth_map (fun _ : cell => UNCERTAINTY) _ _ _ (true, 0%Qc)) by lia. reflexivity.
Qed.
Lemma land_locations_nth f s : file_ok f -> (s < stations f)%nat -> nth s (land_locations f) (0%Qc, 0%Qc) = place_at f s.
Proof.
  intros (L & _) S. unfold land_locations. rewrite nth_combine by (rewrite map_length; unfold stations in L; lia).
  unfold place_at. f_equal. rewrite (nth_map _ _ _ _ 0%Qc) by lia. unfold wrap_longitude. set (x := nth s (lf_lon f) 0%Qc).
  destruct (Qle_bool (qz 180) x) eqn:E; destruct (Qclt_le_dec x (qz 180)) as [Hl|Hl]; try reflexivity.
  - apply Qle_bool_iff in E. exfalso. apply (Qclt_not_le _ _ Hl). exact E.
  - exfalso. apply Qle_bool_iff in Hl. unfold Qcle in Hl. congruence.
Qed.
Lemma land_locations_length f : file_ok f -> List.length (land_locations f) = stations f.
Proof. intros (L & _). unfold land_locations. rewrite combine_length, map_length, L. apply Nat.min_id. Qed.
Lemma adjust_nth root r f row s : file_ok f -> List.length row = stations f -> (s < stations f)%nat ->
  let c := nth s row (true, 0%Qc) in let e := elevation_at f s in
  nth s (fst (adjust_row root r f row)) (true, 0%Qc) =
    (if fst c then c else if fst e then mask_cell true c else (false, (adjustment r (snd e * ALTITUDE_SCALE_FACTOR) (place_at f s) + snd c)%Qc)) /\
  nth s (snd (adjust_row root r f row)) 0%Qc =
    (if fst c || fst e then UNCERTAINTY
     else root (adjustment_uncertainty r (snd e * ALTITUDE_SCALE_FACTOR) (place_at f s) * adjustment_uncertainty r (snd e * ALTITUDE_SCALE_FACTOR) (place_at f s) + UNCERTAINTY * UNCERTAINTY)%Qc).
Proof.
  intros W R S c e. pose proof (land_locations_length f W) as LL. assert (LE : List.length (lf_elevation f) = stations f) by apply W.
  assert (LC : (s < List.length (combine (combine (lf_elevation f) (land_locations f)) row))%nat) by (rewrite !combine_length; lia).
  assert (N : forall d, nth s (combine (combine (lf_elevation f) (land_locations f)) row) d = (e, place_at f s, c)).
  { intros d. rewrite (nth_indep _ d ((true, 0%Qc), (0%Qc, 0%Qc), (true, 0%Qc))) by exact LC.
    rewrite combine_nth by (rewrite combine_length; lia). rewrite combine_nth by lia. rewrite land_locations_nth by assumption. reflexivity. }
  unfold adjust_row. cbv zeta. cbn [fst snd].
  split; (match goal with |- nth s (map ?g ?l) ?d = _ => rewrite (nth_map g l s d ((true, 0%Qc), (0%Qc, 0%Qc), (true, 0%Qc)) LC) end; rewrite N; reflexivity).
Qed.
Lemma adjust_length root r f row : file_ok f -> List.length row = stations f ->
  List.length (fst (adjust_row root r f row)) = stations f /\ List.length (snd (adjust_row root r f row)) = stations f.
Proof.
  intros W R. pose proof (land_locations_length f W) as LL. assert (LE : List.length (lf_elevation f) = stations f) by apply W.
  unfold adjust_row. cbv zeta. cbn [fst snd]. rewrite !map_length, !combine_length. lia.
Qed.
Lemma gives_adjust root r f n F t : file_ok f -> gives n (stations f) F t ->
  gives2 n (stations f)
    (fun k s => let c := F k s in let e := elevation_at f s in
       if fst c then c else if fst e then mask_cell true c else (false, (adjustment r (snd e * ALTITUDE_SCALE_FACTOR) (place_at f s) + snd c)%Qc))
    (fun k s => let c := F k s in let e := elevation_at f s in
       if fst c || fst e then UNCERTAINTY
       else root (adjustment_uncertainty r (snd e * ALTITUDE_SCALE_FACTOR) (place_at f s) * adjustment_uncertainty r (snd e * ALTITUDE_SCALE_FACTOR) (place_at f s) + UNCERTAINTY * UNCERTAINTY)%Qc)
    (map (adjust_row root r f) t).
Proof.
  intros W [T G]. split; [rewrite map_length; apply T|split].
  - rewrite Forall_map. eapply Forall_impl; [|apply T]. cbv beta. intros row R. now apply adjust_length.
  - intros k s K S. rewrite (nth_map _ _ _ _ []) by (destruct T; lia). pose proof (table_row n _ t k T K) as R.
    destruct (adjust_nth root r f (nth k t []) s W R S) as [H1 H2]. rewrite G in H1, H2 by assumption. auto.
Qed.

(* the set made of rows *)
Definition set_of (time : list Qc) (rows : list (list cell * list Qc)) : obset :=
  {| s_mask := flat_map (fun r => map fst (fst r)) rows;
     s_time := TArray (flat_map (fun tr => map (fun _ => fst tr) (fst (snd tr))) (combine time rows));
     s_location := flat_map (fun r => map Z.of_nat (seq 0 (List.length (fst r)))) rows;
     s_measurement := flat_map (fun r => map snd (fst r)) rows;
     s_unc := flat_map snd rows;
     s_cor := [] |}.
Lemma set_of_sized n m F U time rows : gives2 n m F U rows -> List.length time = n -> sized (set_of time rows) (n * m)%nat.
Proof.
  intros (L & W & _) T. unfold sized, set_of. cbn [s_mask s_time s_location s_measurement s_unc s_cor].
  assert (C : List.length (combine time rows) = n) by (rewrite combine_length; lia).
  rewrite (flat_map_length _ m rows) by (eapply Forall_impl; [|exact W]; cbv beta; intros r [R _]; now rewrite map_length).
  rewrite (flat_map_length _ m (combine time rows))
    by (apply Forall_forall; intros [a r] I; apply in_combine_r in I; rewrite Forall_forall in W; destruct (W _ I) as [R _]; cbn; now rewrite map_length).
  rewrite (flat_map_length _ m rows) by (eapply Forall_impl; [|exact W]; cbv beta; intros r [R _]; now rewrite map_length, seq_length).
  rewrite (flat_map_length _ m rows) by (eapply Forall_impl; [|exact W]; cbv beta; intros r [R _]; now rewrite map_length).
  rewrite (flat_map_length _ m rows) by (eapply Forall_impl; [|exact W]; cbv beta; intros r [_ R]; exact R).
  rewrite L, C. repeat (split; [reflexivity|]). reflexivity.
Qed.
Lemma set_of_entry n m F U time rows k s : gives2 n m F U rows -> List.length time = n -> (k < n)%nat -> (s < m)%nat ->
  entry (set_of time rows) (k * m + s) = (fst (F k s), nth k time 0%Qc, Z.of_nat s, snd (F k s), U k s).
Proof.
  intros (L & W & G) T K S. destruct (G k s K S) as [G1 G2]. unfold entry, set_of. cbn [s_mask s_time s_location s_measurement s_unc].
  assert (C : List.length (combine time rows) = n) by (rewrite combine_length; lia).
  assert (R : List.length (fst (nth k rows ([], []))) = m) by (rewrite Forall_forall in W; apply W, nth_In; lia).
  rewrite (flat_map_nth (fun r : list cell * list Qc => map fst (fst r)) m rows k s true ([], [])) by (first [lia | eapply Forall_impl; [|exact W]; cbv beta; intros r [X _]; now rewrite map_length]).
  rewrite (flat_map_nth (fun tr : Qc * (list cell * list Qc) => map (fun _ => fst tr) (fst (snd tr))) m (combine time rows) k s 0%Qc (0%Qc, ([], [])))
    by (first [lia | apply Forall_forall; intros [a r] I; apply in_combine_r in I; rewrite Forall_forall in W; destruct (W _ I) as [X _]; cbn; now rewrite map_length]).
  rewrite (flat_map_nth (fun r : list cell * list Qc => map Z.of_nat (seq 0 (List.length (fst r)))) m rows k s 0 ([], []))
    by (first [lia | eapply Forall_impl; [|exact W]; cbv beta; intros r [X _]; now rewrite map_length, seq_length]).
  rewrite (flat_map_nth (fun r : list cell * list Qc => map snd (fst r)) m rows k s 0%Qc ([], [])) by (first [lia | eapply Forall_impl; [|exact W]; cbv beta; intros r [X _]; now rewrite map_length]).
  rewrite (flat_map_nth snd m rows k s 0%Qc ([], [])) by (first [lia | eapply Forall_impl; [|exact W]; cbv beta; intros r [_ X]; exact X]).
  rewrite nth_combine by lia. cbn [fst snd].
  rewrite !(nth_map _ (fst (nth k rows ([], []))) _ _ (true, 0%Qc)) by lia. rewrite (nth_map Z.of_nat _ _ _ O) by (rewrite seq_length; lia).
  rewrite seq_nth by lia. rewrite G1, G2. reflexivity.
Qed.

(* ---- which row *)

Lemma qc_eqb x y : Qc_eq_bool x y = true <-> x = y.
Proof. split; [apply Qc_eq_bool_correct|]. intros ->. unfold Qc_eq_bool. destruct (Qc_eq_dec y y); [reflexivity|contradiction]. Qed.
Lemma day_positions_in f day i : In i (day_positions f day) <-> (i < List.length (lf_time f))%nat /\ nth i (lf_time f) 0%Qc = qz day.
Proof. unfold day_positions. rewrite filter_In, in_seq, qc_eqb. intuition lia. Qed.
Lemma day_positions_nodup f day : NoDup (day_positions f day).
Proof. apply NoDup_filter, seq_NoDup. Qed.
Lemma single_row f day i : day_positions f day = [i] <-> row_of_day f day i.
Proof.
  split.
  - intros E. assert (I : In i (day_positions f day)) by (rewrite E; left; reflexivity). apply day_positions_in in I. split; [apply I|]. intros j J. split.
    + intros T. assert (Ij : In j (day_positions f day)) by (apply day_positions_in; auto). rewrite E in Ij. destruct Ij as [->|[]]. reflexivity.
    + intros ->. apply I.
  - intros [L U]. pose proof (day_positions_nodup f day) as N. assert (A : forall j, In j (day_positions f day) <-> j = i).
    { intros j. rewrite day_positions_in. split; [intros [J T]; now apply U|]. intros ->. split; [exact L|]. now apply U. }
    destruct (day_positions f day) as [|a [|b l]].
    + exfalso. apply (proj2 (A i) eq_refl).
    + f_equal. apply A. left. reflexivity.
    + exfalso. assert (a = i) by (apply A; left; reflexivity). assert (b = i) by (apply A; right; left; reflexivity). subst. inversion N as [|x l' H _]. apply H. left. reflexivity.
Qed.

(* ---- the whole *)


(* the cell before the adjustment *)
Definition cell_for (f : land_file) (e : extreme) (day : option Z) (codes : option (list (list ascii))) (qc : bool) (rows : list nat) (k s : nat) : cell :=
  let i := nth k rows O in
  let c := reading f e i s in
  let c := match day with Some _ => if qc then mask_cell (negb (flag_at f e i s =? 0)) c else c | None => c end in
  match codes with
  | None => c
  | Some l => let c := mask_cell (nth s (validation_stations (lf_codes f) l) false) c in
              if qc then mask_cell (negb (flag_at f e k s =? 0)) c else c
  end.
Lemma temperatures_ok f e : file_ok f -> table_ok (List.length (lf_time f)) (stations f) (temperatures f e).
Proof. intros (_ & _ & _ & H1 & _ & H2 & _). destruct e; assumption. Qed.
Lemma flags_ok f e : file_ok f -> table_ok (List.length (lf_time f)) (stations f) (flags f e).
Proof. intros (_ & _ & _ & _ & H1 & _ & H2). destruct e; assumption. Qed.
Lemma variable_is f e : land_variable f (observable_name e) = Ok (temperatures f e, flags f e).
Proof. destruct e; reflexivity. Qed.

Definition adjusted_cell (f : land_file) (adjust : option (Qc * Qc -> Qc)) (s : nat) (c : cell) : cell :=
  match adjust with
  | None => c
  | Some r => let e := elevation_at f s in
     if fst c then c else if fst e then mask_cell true c else (false, (adjustment r (snd e * ALTITUDE_SCALE_FACTOR) (place_at f s) + snd c)%Qc)
  end.
Definition adjusted_error (root : Qc -> Qc) (f : land_file) (adjust : option (Qc * Qc -> Qc)) (s : nat) (c : cell) : Qc :=
  match adjust with
  | None => UNCERTAINTY
  | Some r => let e := elevation_at f s in
     if fst c || fst e then UNCERTAINTY
       else root (adjustment_uncertainty r (snd e * ALTITUDE_SCALE_FACTOR) (place_at f s) * adjustment_uncertainty r (snd e * ALTITUDE_SCALE_FACTOR) (place_at f s) + UNCERTAINTY * UNCERTAINTY)%Qc
  end.
Lemma tail_stage root f e day codes adjust qc (rows : list nat) (time : list Qc) m0 :
  file_ok f -> List.length time = List.length rows -> (List.length rows <= List.length (lf_time f))%nat ->
  gives (List.length rows) (stations f) (fun k s => cell_for f e day None qc rows k s) m0 ->
  let measurement := match codes with
        | None => m0
        | Some codes =>
            let measurement := map (mask_row (validation_stations (lf_codes f) codes)) m0 in
            if qc then map (fun qr => mask_row (failed (fst qr)) (snd qr)) (combine (flags f e) measurement) else measurement
        end in
  let rs := match adjust with
                  | None => map (fun row => (row, map (fun _ => UNCERTAINTY) row)) measurement
                  | Some reference => map (adjust_row root reference f) measurement
                  end in
  gives2 (List.length rows) (stations f) (fun k s => adjusted_cell f adjust s (cell_for f e day codes qc rows k s))
         (fun k s => adjusted_error root f adjust s (cell_for f e day codes qc rows k s)) rs.
Proof.
  intros W LT LR G measurement rs.
  assert (G' : gives (List.length rows) (stations f) (fun k s => cell_for f e day codes qc rows k s) measurement).
  { unfold measurement. destruct codes as [l|]; [|exact G]. cbv zeta.
    assert (LV : List.length (validation_stations (lf_codes f) l) = stations f) by (unfold validation_stations; rewrite map_length; apply W).
    pose proof (gives_hold _ _ _ _ _ G LV) as G1. destruct qc; [|exact G1].
    exact (gives_qc _ _ _ _ _ _ G1 (flags_ok f e W) LR). }
  unfold rs. destruct adjust as [r|].
  - exact (gives_adjust root r f _ _ _ W G').
  - exact (gives_plain _ _ _ _ G').
Qed.
Lemma land_observations_is root f day codes adjust e qc : file_ok f ->
  match land_observations root f day codes adjust (observable_name e) qc with
  | Err _ => False
  | Ok None => exists d, day = Some d /\ ~ exists i, row_of_day f d i
  | Ok (Some o) => exists rows rs, rows_for f day rows /\ o = set_of (map (fun i => nth i (lf_time f) 0%Qc) rows) rs /\
      gives2 (List.length rows) (stations f) (fun k s => adjusted_cell f adjust s (cell_for f e day codes qc rows k s))
         (fun k s => adjusted_error root f adjust s (cell_for f e day codes qc rows k s)) rs
  end.
Proof.
  intros W. unfold land_observations. rewrite variable_is. cbn [bind]. pose proof (temperatures_ok f e W) as T. pose proof (flags_ok f e W) as Q.
  destruct day as [d|].
  - destruct (day_positions f d) as [|i [|j l]] eqn:E.
    + exists d. split; [reflexivity|]. intros [i H]. apply single_row in H. congruence.
    + pose proof (proj1 (single_row f d i) E) as D. destruct D as [L _]. exists [i]. eexists. split; [exists i; split; [reflexivity|now apply single_row]|]. split.
      * cbv beta zeta. unfold set_of. cbn [map]. reflexivity.
      * refine (tail_stage root f e (Some d) codes adjust qc [i] [nth i (lf_time f) 0%Qc] [if qc then mask_row (failed (nth i (flags f e) [])) (nth i (temperatures f e) []) else nth i (temperatures f e) []] W eq_refl _ _); [cbn; lia|].
        pose proof (table_row _ _ _ i T L) as R. pose proof (table_row _ _ _ i Q L) as R'.
        split.
        -- split; [reflexivity|]. constructor; [|constructor]. destruct qc; [|exact R]. rewrite mask_row_length; [exact R|]. unfold failed. rewrite map_length. lia.
        -- intros k s K S. cbn [List.length] in K. assert (k = O) as -> by lia. cbn [nth]. unfold cell_for, reading, flag_at. cbn [nth]. destruct qc; [|reflexivity].
           rewrite mask_row_nth by (try unfold failed; rewrite ?map_length; lia). now rewrite failed_nth.
    + exists d. split; [reflexivity|]. intros [i' H]. apply single_row in H. congruence.
  - exists (seq 0 (List.length (lf_time f))). eexists. split; [reflexivity|]. split.
    + cbv beta zeta. unfold set_of. f_equal. f_equal.
      assert (E : map (fun i => nth i (lf_time f) 0%Qc) (seq 0 (List.length (lf_time f))) = lf_time f).
      { apply nth_ext with (d := 0%Qc) (d' := 0%Qc); [now rewrite map_length, seq_length|]. intros n N. rewrite map_length, seq_length in N.
        rewrite (nth_map _ _ _ _ O) by (now rewrite seq_length). now rewrite seq_nth by exact N. }
      rewrite E. reflexivity.
    + refine (tail_stage root f e None codes adjust qc _ (lf_time f) (temperatures f e) W _ _ _); [now rewrite seq_length|rewrite seq_length; lia|].
      rewrite seq_length. split; [exact T|]. intros k s K S. unfold cell_for, reading. rewrite seq_nth by exact K. reflexivity.
Qed.

(* ---- what the cells say *)

Lemma rows_for_bound f day rows k : rows_for f day rows -> (k < List.length rows)%nat -> (nth k rows O < List.length (lf_time f))%nat.
Proof.
  destruct day as [d|]; cbn [rows_for].
  - intros (i & -> & L & _) K. cbn in K. destruct k; [exact L|lia].
  - intros -> K. rewrite seq_length in K. rewrite seq_nth by exact K. exact K.
Qed.
Lemma snd_mask m c : snd (mask_cell m c) = snd c. Proof. reflexivity. Qed.
Lemma fst_mask m c : fst (mask_cell m c) = fst c || m. Proof. reflexivity. Qed.
Lemma cell_for_snd f e day codes qc rows k s : snd (cell_for f e day codes qc rows k s) = snd (reading f e (nth k rows O) s).
Proof. unfold cell_for. cbv zeta. destruct codes; destruct day; destruct qc; reflexivity. Qed.
Lemma neqb_iff z : negb (z =? 0) = true <-> z <> 0.
Proof. rewrite negb_true_iff. apply Z.eqb_neq. Qed.
Lemma cell_for_fst f e day codes qc rows k s : file_ok f -> (s < stations f)%nat ->
  fst (cell_for f e day codes qc rows k s) = true <->
  fst (reading f e (nth k rows O) s) = true \/ (qc = true /\ day <> None /\ flag_at f e (nth k rows O) s <> 0) \/ held_out f codes s \/ (qc = true /\ codes <> None /\ flag_at f e k s <> 0).
Proof.
  intros W S. assert (LC : (s < List.length (lf_codes f))%nat) by (destruct W as (_ & _ & -> & _); exact S).
  assert (HN : held_out f None s <-> False) by (split; [intros (l & c & E & _); discriminate|contradiction]).
  unfold cell_for. cbv zeta. destruct codes as [l|]; destruct day as [d|]; destruct qc; rewrite ?fst_mask, ?orb_true_iff, ?neqb_iff, ?(held_iff f _ s LC), ?HN; intuition congruence.
Qed.
Lemma adjusted_fst f adjust s c : fst (adjusted_cell f adjust s c) = true <-> fst c = true \/ (match adjust with Some _ => true | None => false end = true /\ fst (elevation_at f s) = true).
Proof.
  unfold adjusted_cell. destruct adjust as [r|]; [|intuition congruence]. cbv zeta. destruct (fst c) eqn:E; [intuition|]. destruct (fst (elevation_at f s)) eqn:E'.
  - rewrite fst_mask, E. cbn. intuition.
  - cbn. intuition congruence.
Qed.
Lemma Qcdiv_mul x y : (x * (1 / y) = x / y)%Qc.
Proof. unfold Qcdiv. now rewrite Qcmult_1_l. Qed.
Lemma abs_q_sq x : (abs_q x * abs_q x = x * x)%Qc.
Proof. unfold abs_q. destruct (Qle_bool 0%Qc x); ring. Qed.
Lemma adjusted_value f adjust s c e i : fst (adjusted_cell f adjust s c) = false -> snd c = snd (reading f e i s) -> snd (adjusted_cell f adjust s c) = at_reference f e adjust i s.
Proof.
  unfold adjusted_cell, at_reference. destruct adjust as [r|]; [|auto]. cbv zeta. destruct (fst c) eqn:E; [congruence|]. destruct (fst (elevation_at f s)) eqn:E'.
  - rewrite fst_mask, orb_true_r. discriminate.
  - intros _ H. cbn [snd]. rewrite H. unfold adjustment, height, ALTITUDE_SCALE_FACTOR. rewrite Qcdiv_mul.
    replace (- LAPSE_RATE)%Qc with (qz 13 / qz 2)%Qc by (apply Qc_is_canon; vm_compute; reflexivity). apply Qcplus_comm.
Qed.
Lemma adjusted_uncertainty root f adjust s c : fst (adjusted_cell f adjust s c) = false -> adjusted_error root f adjust s c = error_of root f adjust s.
Proof.
  unfold adjusted_cell, adjusted_error, error_of. destruct adjust as [r|]; [|reflexivity]. cbv zeta. destruct (fst c) eqn:E; [congruence|]. destruct (fst (elevation_at f s)) eqn:E'.
  - rewrite fst_mask, orb_true_r. discriminate.
  - intros _. cbn [orb]. f_equal. unfold variance, adjustment_uncertainty, ALTITUDE_SCALE_FACTOR. cbv zeta. rewrite Qcdiv_mul. fold (height f r s). set (h := height f r s).
    replace (LAPSE_RATE_UNCERTAINTY * abs_q h * (LAPSE_RATE_UNCERTAINTY * abs_q h))%Qc with (LAPSE_RATE_UNCERTAINTY * LAPSE_RATE_UNCERTAINTY * (abs_q h * abs_q h))%Qc by ring.
    rewrite abs_q_sq. replace (LAPSE_RATE_UNCERTAINTY * LAPSE_RATE_UNCERTAINTY)%Qc with (qz 121 / qz 100)%Qc by (apply Qc_is_canon; vm_compute; reflexivity).
    replace (UNCERTAINTY * UNCERTAINTY)%Qc with (qz 9 / qz 100)%Qc by (apply Qc_is_canon; vm_compute; reflexivity). reflexivity.
Qed.

Lemma station_entries root f day codes adjust e qc o : file_ok f -> land_observations root f day codes adjust (observable_name e) qc = Ok (Some o) ->
  exists rows, rows_for f day rows /\ sized o (List.length rows * stations f) /\
    forall k s, (k < List.length rows)%nat -> (s < stations f)%nat ->
      let i := nth k rows O in
      exists masked value error, entry o (k * stations f + s) = (masked, nth i (lf_time f) 0%Qc, Z.of_nat s, value, error) /\
        (masked = true <-> masked_by_code f e day codes (match adjust with Some _ => true | None => false end) qc k i s) /\
        (masked = false -> value = at_reference f e adjust i s /\ error = error_of root f adjust s).
Proof.
  intros W E. pose proof (land_observations_is root f day codes adjust e qc W) as H. rewrite E in H. destruct H as (rows & rs & R & -> & G).
  assert (LT : List.length (map (fun i => nth i (lf_time f) 0%Qc) rows) = List.length rows) by apply map_length.
  exists rows. split; [exact R|]. split; [exact (set_of_sized _ _ _ _ _ _ G LT)|].
  intros k s K S i. rewrite (set_of_entry _ _ _ _ _ _ k s G LT K S). rewrite (nth_map _ _ _ _ O) by exact K. fold i.
  do 3 eexists. split; [reflexivity|]. split.
  - rewrite adjusted_fst, (cell_for_fst f e day codes qc rows k s W S). fold i. unfold masked_by_code. tauto.
  - intros M. split.
    + apply adjusted_value; [exact M|]. apply cell_for_snd.
    + now apply adjusted_uncertainty.
Qed.
