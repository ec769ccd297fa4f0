(* Lemmas on the runs of the ocean model and on the inputs of the optimisation *)
From Coq Require Import QArith Qround Qcanon String Ascii Permutation.
From Verif Require Import Base Time_Model Time_Proofs Batch_Model Batch_Proofs Obs_Model NcObj_Model Stn_Model Land_Model Land_Spec Land_Proofs Tools_Model Run_Model Run_Spec.
Local Open Scope Z_scope.
Local Open Scope list_scope.

Section Ocean.
Variable A : arithmetic.
Variable cells : nat.
Variable file_time : string -> result Z.
Variable idl : ocean_model -> Z * Z * Z -> string -> result (dataset A).
Variable temporary : nat -> string.
Hypothesis distinct : forall j k, temporary j = temporary k -> j = k.

Definition date_of (t : Z) : Z * Z * Z := (dt_year t, dt_month t, dt_day t).
(* what is computed for one input file *)
Definition computed (m : ocean_model) (i : string) : result (dataset A) := do t <- file_time i; idl m (date_of t) i.

Lemma entries_ok m j l disk ds : Forall2 (fun i d => computed m i = Ok d) l ds ->
  exists es, ocean_entries file_time (map temporary (seq j (List.length l))) l = Ok es /\
    exists disk', ocean_run_entries A idl m es disk = Ok disk' /\
      (forall k d, nth_error ds k = Some d -> lookup (temporary (j + k)) disk' = Some d) /\
      (forall n, (forall k, (k < List.length l)%nat -> temporary (j + k) <> n) -> lookup n disk' = lookup n disk).
Proof.
  intros F. revert j disk. induction F as [|i d l ds H F IH]; intros j disk.
  - exists []. split; [reflexivity|]. exists disk. split; [reflexivity|]. split; [intros [|k] d; discriminate|reflexivity].
  - cbn [List.length seq map ocean_entries]. unfold computed in H. destruct (file_time i) as [t|] eqn:T; [|discriminate]. cbn [bind] in *.
    destruct (IH (S j) (put (temporary j) d disk)) as (es & E & disk' & D & K & O). rewrite E. cbn [bind]. eexists. split; [reflexivity|].
    cbn [ocean_run_entries oe_date oe_input oe_output]. fold (date_of t). rewrite H. cbn [bind]. exists disk'. split; [exact D|]. split.
    + intros [|k] d' N.
      * cbn in N. injection N as ->. rewrite Nat.add_0_r. rewrite O; [apply lookup_put_same|]. intros k _ X. apply distinct in X. lia.
      * cbn in N. rewrite <- (K k d' N). f_equal. f_equal. lia.
    + intros n N. rewrite O.
      * apply lookup_put_other. specialize (N 0%nat ltac:(cbn; lia)). now rewrite Nat.add_0_r in N.
      * intros k Hk. specialize (N (S k) ltac:(cbn; lia)). replace (S j + k)%nat with (j + S k)%nat by lia. exact N.
Qed.

Lemma entries_fail m j l disk i e : In i l -> computed m i = Err e ->
  exists e', (do es <- ocean_entries file_time (map temporary (seq j (List.length l))) l; ocean_run_entries A idl m es disk) = Err e'.
Proof.
  revert j disk. induction l as [|i0 l IH]; intros j disk I H; [destruct I|].
  cbn [List.length seq map ocean_entries]. destruct (file_time i0) as [t|e0] eqn:T; [|cbn; eauto]. cbn [bind].
  destruct (ocean_entries file_time (map temporary (seq (S j) (List.length l))) l) as [es|e0] eqn:E; [|cbn; eauto]. cbn [bind ocean_run_entries oe_date oe_input oe_output]. fold (date_of t).
  destruct (idl m (date_of t) i0) as [d|e0] eqn:D; [|cbn; eauto]. cbn [bind].
  destruct I as [->|I]; [unfold computed in H; rewrite T in H; cbn [bind] in H; congruence|].
  destruct (IH (S j) (put (temporary j) d disk) I H) as (e' & X). rewrite E in X. cbn [bind] in X. eauto.
Qed.

Lemma day_computed x d : computed (ocean_model_of x) (o_satellite x) = Ok d ->
  ocean_run_day A cells file_time idl temporary x = ocean_finish A cells [(temporary 0, d)] (temporary 0) (ocean_attributes x) (o_output_main x) (o_output_ancillary x).
Proof.
  intros H. unfold ocean_run_day, ocean_run_idl. cbn [ocean_entries]. unfold computed in H. destruct (file_time (o_satellite x)) as [t|]; [|discriminate]. cbn [bind] in *.
  cbn [ocean_run_entries oe_date oe_input oe_output]. fold (date_of t). rewrite H. reflexivity.
Qed.
Lemma finish_same disk disk' n n' a main anc : lookup n disk = lookup n' disk' -> ocean_finish A cells disk n a main anc = ocean_finish A cells disk' n' a main anc.
Proof. intros H. unfold ocean_finish. now rewrite H. Qed.

Lemma finish_all first j xs ds disk : Forall2 (fun x d => computed (ocean_model_of first) (o_satellite x) = Ok d) xs ds ->
  (forall k d, nth_error ds k = Some d -> lookup (temporary (j + k)) disk = Some d) ->
  ocean_finish_days A cells temporary disk (ocean_attributes first) j (map (fun x => (o_output_main x, o_output_ancillary x)) xs) =
  in_order (map (fun x => ocean_run_day A cells file_time idl temporary (with_ocean_settings_of first x)) xs).
Proof.
  intros F. revert j. induction F as [|x d xs ds H F IH]; intros j K; [reflexivity|]. cbn [map ocean_finish_days].
  cbn [in_order]. rewrite (day_computed (with_ocean_settings_of first x) d H).
  assert (L : lookup (temporary j) disk = Some d) by (specialize (K 0%nat d eq_refl); now rewrite Nat.add_0_r in K).
  rewrite (finish_same disk [(temporary 0, d)] (temporary j) (temporary 0)) by (rewrite L; cbn; now rewrite String.eqb_refl).
  change (ocean_attributes (with_ocean_settings_of first x)) with (ocean_attributes first). cbn [with_ocean_settings_of o_output_main o_output_ancillary].
  destruct (ocean_finish A cells [(temporary 0, d)] (temporary 0) (ocean_attributes first) (o_output_main x) (o_output_ancillary x)) as [w [u|e]]; [|reflexivity].
  rewrite (IH (S j)).
  - now destruct (in_order _).
  - intros k d' N. replace (S j + k)%nat with (j + S k)%nat by lia. now apply K.
Qed.

Lemma together first rest : (forall x, In x (first :: rest) -> computes file_time idl first x) ->
  ocean_run_multiple_days A cells file_time idl temporary (first :: rest) =
  in_order (map (fun x => ocean_run_day A cells file_time idl temporary (with_ocean_settings_of first x)) (first :: rest)).
Proof.
  intros H. unfold ocean_run_multiple_days. set (xs := first :: rest) in *.
  assert (exists ds, Forall2 (fun x d => computed (ocean_model_of first) (o_satellite x) = Ok d) xs ds) as [ds F].
  { clearbody xs. induction xs as [|x xs IH]; [exists []; constructor|]. destruct IH as [ds F]; [intros y I; apply H; now right|]. destruct (H x (or_introl eq_refl)) as (t & d & T & D). exists (d :: ds). constructor; [|exact F]. unfold computed. rewrite T. exact D. }
  assert (F' : Forall2 (fun i d => computed (ocean_model_of first) i = Ok d) (map o_satellite xs) ds) by (clear - F; induction F; constructor; assumption).
  unfold ocean_run_idl. destruct (entries_ok (ocean_model_of first) 0 (map o_satellite xs) [] ds F') as (es & E & disk & D & K & _). rewrite map_length in E. rewrite E. cbn [bind]. rewrite D.
  now apply (finish_all first 0 xs ds).
Qed.
Lemma together_fails first rest x : In x (first :: rest) -> ~ computes file_time idl first x -> exists e, ocean_run_multiple_days A cells file_time idl temporary (first :: rest) = ([], Err e).
Proof.
  intros I N. unfold ocean_run_multiple_days. set (xs := first :: rest) in *.
  assert (exists e, computed (ocean_model_of first) (o_satellite x) = Err e) as [e E].
  { unfold computed. destruct (file_time (o_satellite x)) as [t|e] eqn:T; [|cbn; eauto]. cbn [bind]. destruct (idl (ocean_model_of first) (date_of t) (o_satellite x)) as [d|e] eqn:D; [|eauto]. exfalso. apply N. exists t, d. split; [exact T|exact D]. }
  unfold ocean_run_idl. destruct (entries_fail (ocean_model_of first) 0 (map o_satellite xs) [] (o_satellite x) e) as [e' X]; [now apply in_map|exact E|]. rewrite map_length in X. rewrite X. eauto.
Qed.
End Ocean.

Lemma present_spec A (r : results A) vs : (forall v x, In v vs -> lookup v r = Some x -> exists f, x = V_field A f) ->
  exists fs, present A r vs = Ok fs /\ forall v f, In (v, f) fs <-> In v vs /\ lookup v r = Some (V_field A f).
Proof.
  induction vs as [|v vs IH]; intros H; [exists []; split; [reflexivity|intros w f; split; [intros []|intros [[] _]]]|].
  destruct IH as (fs & E & K); [intros w x I; apply H; now right|]. cbn [present]. destruct (lookup v r) as [x|] eqn:L.
  - destruct (H v x (or_introl eq_refl) L) as [f ->]. rewrite E. cbn [bind]. eexists. split; [reflexivity|]. intros w g. split.
    + intros [X|X]; [injection X as <- <-; split; [now left|exact L]|]. apply K in X. destruct X as [X Y]. split; [now right|exact Y].
    + intros [[<-|X] Y]; [left; congruence|]. right. apply K. now split.
  - exists fs. split; [exact E|]. intros w g. rewrite K. split; intros [X Y]; (split; [|exact Y]); [now right|]. destruct X as [<-|X]; [congruence|exact X].
Qed.

(* ---- optimisation inputs *)
Lemma literal_gives c s : literal c (String c s) = [(0, s)].
Proof. cbn. now rewrite Ascii.eqb_refl. Qed.
Lemma midnight_fields y m d : calendar_date y m d -> dt_year (midnight y m d) = y /\ dt_month (midnight y m d) = m /\ dt_day (midnight y m d) = d /\ dt_hour (midnight y m d) = 0 /\ dt_minute (midnight y m d) = 0 /\ dt_second (midnight y m d) = 0.
Proof.
  intros (Y & M & D). unfold dt_year, dt_month, dt_day, dt_hour, dt_minute, dt_second, midnight. rewrite Z.div_mul by (unfold DAY; lia). rewrite (ord2ymd_ymd2ord y m d M D).
  rewrite Z.mod_mul by (unfold DAY; lia). repeat split.
Qed.
Definition midnight_text (y m d : Z) : string := (pad4 y ++ "-" ++ pad2 m ++ "-" ++ pad2 d ++ "T00:00:00")%string.
Lemma iso_midnight y m d : calendar_date y m d -> iso_time (midnight y m d) = midnight_text y m d.
Proof. intros C. destruct (midnight_fields y m d C) as (Y & M & D & H & N & S). unfold iso_time. now rewrite Y, M, D, H, N, S. Qed.
Lemma parse_midnight y m d : calendar_date y m d -> parse_time (midnight_text y m d) = Ok (midnight y m d).
Proof.
  intros (Y & M & D). assert (D31 : d <= 31) by (unfold days_in_month in D; repeat match type of D with context [if ?b then _ else _] => destruct b end; lia).
  unfold parse_time, midnight_text.
  assert (match_fields [field_Y; literal "-"; field_m; literal "-"; field_d; literal "T"; field_H; literal ":"; field_M; literal ":"; field_S]
            (pad4 y ++ "-" ++ pad2 m ++ "-" ++ pad2 d ++ "T00:00:00")%string = Some ([y; 0; m; 0; d; 0; 0; 0; 0; 0; 0], EmptyString)) as ->.
  { eapply match_fields_cons; [apply field_Y_pad4; lia|]. eapply match_fields_cons; [apply literal_gives|].
    destruct (field_m_gives m) with (s := ("-" ++ pad2 d ++ "T00:00:00")%string) as [l1 E1]; [lia|]. eapply match_fields_cons; [exact E1|]. eapply match_fields_cons; [apply literal_gives|].
    destruct (field_d_gives d) with (s := "T00:00:00"%string) as [l2 E2]; [lia|]. eapply match_fields_cons; [exact E2|]. reflexivity. }
  unfold mk_datetime, midnight. match goal with |- (if ?b then _ else _) = _ => assert (b = true) as -> by lia end. f_equal. lia.
Qed.
Lemma parse_day d : exists_day d -> parse_time (iso_time (start_of d)) = Ok (start_of d) /\ int_days (days_since_epoch (start_of d)) = number_of d.
Proof.
  destruct d as [[y m] d]. intros C. cbn [start_of number_of]. split; [rewrite iso_midnight by exact C; now apply parse_midnight|]. unfold midnight. now rewrite days_since_midnight, int_days_whole.
Qed.
Lemma iso_distinct d d' : exists_day d -> exists_day d' -> iso_time (start_of d) = iso_time (start_of d') -> d = d'.
Proof.
  intros C C' E. destruct (parse_day d C) as [P _], (parse_day d' C') as [P' _]. assert (S : start_of d = start_of d') by congruence.
  destruct d as [[y m] d], d' as [[y' m'] d']. cbn [start_of] in S. destruct (midnight_fields y m d C) as (Y & M & D & _), (midnight_fields y' m' d' C') as (Y' & M' & D' & _). rewrite S in Y, M, D. congruence.
Qed.

Lemma summaries_hold {S} (steps : list (step S)) disk s : NoDup (map summary_file steps) -> In s steps ->
  lookup (summary_file s) (summaries steps disk) = Some (Summary (iso_time (start_of (day s))) (sources s)).
Proof.
  revert disk. induction steps as [|x steps IH]; intros disk N I; [destruct I|]. cbn [map] in N. inversion N as [|? ? X N']. subst. unfold summaries. cbn [fold_left].
  fold (summaries steps (input_summary (start_of (day x)) (summary_file x) (sources x) disk)). destruct I as [->|I]; [|now apply IH].
  assert (G : forall (l : list (step S)) disk, ~ In (summary_file s) (map summary_file l) -> lookup (summary_file s) (summaries l disk) = lookup (summary_file s) disk).
  { clear. induction l as [|y l IH]; intros disk H; [reflexivity|]. unfold summaries. cbn [fold_left]. fold (summaries l (input_summary (start_of (day y)) (summary_file y) (sources y) disk)). rewrite IH by (intros X; apply H; now right).
    unfold input_summary. apply lookup_put_other. intros E. apply H. left. exact E. }
  rewrite G by exact X. unfold input_summary. apply lookup_put_same.
Qed.
Lemma set_key_get {V} k (v : V) d n : lookup n (set_key k v d) = if String.eqb k n then Some v else lookup n d.
Proof.
  induction d as [|[k' v'] d IH]; [cbn; reflexivity|]. cbn [set_key]. destruct (String.eqb_spec k' k) as [->|N]; cbn [lookup].
  - destruct (String.eqb k n); reflexivity.
  - rewrite IH. destruct (String.eqb_spec k' n) as [->|N']; [|reflexivity]. destruct (String.eqb_spec k n) as [->|]; [contradiction|reflexivity].
Qed.
Lemma set_key_new {V} k (v : V) d : ~ In k (map fst d) -> set_key k v d = d ++ [(k, v)].
Proof. induction d as [|[k' v'] d IH]; intros H; [reflexivity|]. cbn [set_key]. destruct (String.eqb_spec k' k) as [->|N]; [exfalso; apply H; now left|]. rewrite IH by (intros X; apply H; now right). reflexivity. Qed.
Lemma ordered_new {V} (l : list (string * V)) d : NoDup (map fst d ++ map fst l) -> fold_left (fun d e => set_key (fst e) (snd e) d) l d = d ++ l.
Proof.
  revert d. induction l as [|[k v] l IH]; intros d H; [now rewrite app_nil_r|]. cbn [fold_left fst snd map] in *. rewrite set_key_new.
  - rewrite IH; [now rewrite <- app_assoc|]. rewrite map_app. cbn [map fst]. now rewrite <- app_assoc.
  - apply NoDup_remove_2 in H. intros X. apply H. apply in_app_iff. now left.
Qed.
Lemma lookup_first {V} (l : list (string * V)) k v : NoDup (map fst l) -> In (k, v) l -> lookup k l = Some v.
Proof.
  induction l as [|[k' v'] l IH]; intros N I; [destruct I|]. cbn [map fst] in N. inversion N as [|? ? X N']. subst. cbn [lookup]. destruct I as [I|I].
  - injection I as -> ->. now rewrite String.eqb_refl.
  - destruct (String.eqb_spec k' k) as [->|]; [|now apply IH]. exfalso. apply X. apply in_map_iff. now exists (k, v).
Qed.
Lemma processed {S St} (update : list (Z * S) -> Z -> St -> St * result unit) descriptor (steps : list (step S)) state :
  (forall s, In s steps -> exists_day (day s) /\ lookup (iso_time (start_of (day s))) descriptor = Some (sources s)) ->
  process_inputs update descriptor (map (fun s => iso_time (start_of (day s))) steps) state = updates update steps state.
Proof.
  revert state. induction steps as [|s steps IH]; intros state H; [reflexivity|]. cbn [map process_inputs updates]. destruct (H s (or_introl eq_refl)) as [C L]. destruct (parse_day (day s) C) as [P I]. rewrite P, I, L.
  destruct (update _ _ state) as [state' [u|e]]; [|reflexivity]. apply IH. intros s' I'. apply H. now right.
Qed.
