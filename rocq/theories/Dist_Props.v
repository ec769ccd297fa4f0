(* The theorems about the analysis run as separate processes, for the properties C113-C115. *)
From Coq Require Import QArith Qcanon String Ascii.
From Verif Require Import Base Grid_Model Grid_Proofs Lin Ana_Model Ana_Spec Ana_Proofs Ana_Props Dist_Model Dist_Spec Dist_Proofs.
Local Open Scope nat_scope.
Local Open Scope list_scope.

(* ---- a naming of files for the examples: counts written as strokes *)

Fixpoint strokes (n : nat) (rest : string) : string := match n with O => String "," rest | S n => String "1" (strokes n rest) end.
Lemma strokes_inj a : forall b x y, strokes a x = strokes b y -> a = b /\ x = y.
Proof.
  induction a as [|a IH]; intros [|b] x y H; cbn in H; try discriminate.
  - injection H as ->. split; reflexivity.
  - injection H as H. destruct (IH b x y H) as [-> ->]. split; reflexivity.
Qed.
Definition zstrokes (t : Z) : string := if (t <? 0)%Z then String "-" (strokes (Z.to_nat (- t)) "") else String "+" (strokes (Z.to_nat t) "").
Lemma zstrokes_inj a b : zstrokes a = zstrokes b -> a = b.
Proof.
  unfold zstrokes. destruct (Z.ltb_spec a 0), (Z.ltb_spec b 0); intros E; try discriminate; injection E as E;
    apply strokes_inj in E; destruct E as [E _]; lia.
Qed.
Definition ex_name (sl : slot) : string :=
  match sl with
  | SState k j => String "s" (strokes k (strokes j ""))
  | SLocal k j t => String "l" (strokes k (strokes j (zstrokes t)))
  | SMeasurement k j t => String "m" (strokes k (strokes j (zstrokes t)))
  end.
Lemma ex_name_inj a b : ex_name a = ex_name b -> a = b.
Proof.
  destruct a, b; unfold ex_name; intros E; try discriminate; injection E as E;
    apply strokes_inj in E; destruct E as [-> E]; apply strokes_inj in E; destruct E as [-> E];
    try (apply zstrokes_inj in E; subst); reflexivity.
Qed.
Definition ex_components : list component := [ex_comp SpaceTime ex_element; ex_comp SpaceTime ex_element; ex_comp Spatial ex_element].
Definition ex_times : list Z := [3; 1; 2]%Z.
Lemma ex_runnable : runnable ex_name ex_components ex_loaders ex_times.
Proof.
  split; [exact ex_name_inj|]. split; [|split; [|split]].
  - repeat (apply Forall_cons; [split; [apply ex_element_wf|split; [reflexivity|discriminate]]|]). apply Forall_nil.
  - unfold ex_times. repeat constructor; cbn; intuition discriminate.
  - discriminate.
  - intros t _. apply ex_loaders_wf.
Qed.
Notation ex_operations := (operations ex_name ex_solve ex_components ex_loaders ex_times).
Definition nothing : disk := fun _ => None.
Definition ex_state (d : disk) (sl : slot) : option vec := match d (ex_name sl) with Some (PState v) => Some v | _ => None end.

(* ---- C113 *)

(* Whatever the processes of the workflow do -- in any order, interleaved, killed at any point, started again any number of
   times, before or after their inputs exist -- a file is absent, damaged, or holds what the in-memory analysis holds. *)
Theorem C113_never_wrong name solve components loaders times n d es :
  runnable name components loaders times ->
  (forall sl, sound name solve components loaders times d sl) ->
  let w := history (operations name solve components loaders times n) {| w_disk := d; w_live := fun _ => None |} es in
  (forall sl, sound name solve components loaders times (w_disk w) sl) /\
  (forall f, (forall sl, f <> name sl) -> w_disk w f = d f).
Proof.
  intros Hrun Hd w.
  assert (Hs : safe_world name solve components loaders times {| w_disk := d; w_live := fun _ => None |}).
  { split; [|discriminate]. intros f sl ->. cbn [w_disk]. destruct (Hd sl) as [H|[H|H]]; rewrite H;
      [right; left; reflexivity|right; right; reflexivity|left; reflexivity]. }
  split.
  - intros sl. destruct (history_safe name solve components loaders times Hrun n es _ Hs) as [H _].
    destruct (H (name sl) sl eq_refl) as [E|[E|E]]; unfold sound; fold w in E; rewrite E; auto.
  - intros f Hf. apply (history_others name solve components loaders times Hrun n es f Hf _ Hs).
Qed.
Print Assumptions C113_never_wrong.
(* the operation on time 1 is killed while it writes, and the solution attempted; then both again *)
Definition ex_crash : list event :=
  [Start 0; Start 1; Step 1; Step 0; Step 0; Start 2; Step 2; Stop 1; Step 2; Start 3; Step 3; Step 3; Step 3; Step 3; Step 3].
Example C113_never_wrong_nonvacuous :
  runnable ex_name ex_components ex_loaders ex_times /\
  (forall sl, sound ex_name ex_solve ex_components ex_loaders ex_times nothing sl) /\
  (let d := w_disk (history (ex_operations 2) {| w_disk := nothing; w_live := fun _ => None |} ex_crash) in
   match d (ex_name (SMeasurement 1 0 3)) with Some (PMeasurement (Some _)) => True | _ => False end /\
   d (ex_name (SMeasurement 1 0 1)) = Some Damaged /\ d (ex_name (SState 1 0)) = None) /\
  (let d := w_disk (history (ex_operations 2) {| w_disk := nothing; w_live := fun _ => None |}
      (ex_crash ++ Start 1 :: repeat (Step 1) 9 ++ Start 3 :: repeat (Step 3) 9)) in
   match ex_state d (SState 1 0) with Some [x] => (this x = 63 # 13)%Q | _ => False end).
Proof.
  split; [exact ex_runnable|]. split; [intros sl; left; reflexivity|]. split; [split; [exact I|split; vm_compute; reflexivity]|vm_compute; reflexivity].
Qed.

(* After any such history (and whatever was on the disk before) the workflow can still be completed: run in the order in which
   it is listed, every operation succeeds, and every state it is to find is there, complete and that of the in-memory analysis. *)
Theorem C113_in_order name solve components loaders times n d :
  runnable name components loaders times ->
  exists d' rs, execute_all (operations name solve components loaders times n) d = (d', rs) /\ Forall (fun r => r = Ok tt) rs /\
  forall k sys j c, 1 <= k <= n -> in_memory solve components loaders times k = Ok sys -> nth_error components j = Some c ->
    exists s, nth_error sys j = Some (c, s) /\
    match c_kind c with
    | SpaceTime => exists x, s_state s = Some x /\ d' (name (SState k j)) = Some (PState x)
    | _ => forall t, In t times -> exists x, assoc Z.eqb (s_part s) t = Some x /\ d' (name (SLocal k j t)) = Some (PState x)
    end.
Proof.
  intros Hrun. destruct (run_all name solve components loaders times Hrun n d) as (d' & rs & He & Hok & Hr).
  exists d', rs. split; [exact He|split; [exact Hok|]]. intros k sys j c Hk Hs Hc.
  destruct (in_memory_good name solve components loaders times Hrun k) as (sys' & Hs' & Hcs & _).
  rewrite Hs in Hs'. injection Hs' as <-.
  destruct (nth_error sys j) as [[c' s]|] eqn:Ej.
  - pose proof (components_at components sys j c' s Hcs Ej) as E. rewrite Hc in E. injection E as <-.
    exists s. split; [reflexivity|].
    assert (Hdone : forall sl, output components times k j sl -> done components times (S n) 0 sl).
    { intros sl Hsl. exists k, j. split; [lia|split; [exact Hsl|left; lia]]. }
    destruct (component_ok name components loaders times Hrun j c Hc) as (_ & _ & Hkd).
    destruct (c_kind c) eqn:Ek; [| |congruence].
    + intros t Ht. destruct (Hr (SLocal k j t)) as (v & H1 & H2 & _).
      * apply Hdone. exists c. split; [exact Hc|]. left. exists t. split; [exact Ht|]. unfold measure_output. rewrite Ek. reflexivity.
      * unfold held in H2. rewrite Hs, Ej in H2. destruct (assoc Z.eqb (s_part s) t) as [x|]; [|discriminate].
        exists x. split; [reflexivity|]. cbn in H2. congruence.
    + destruct (Hr (SState k j)) as (v & H1 & H2 & _).
      * apply Hdone. exists c. split; [exact Hc|]. right. split; [exact Ek|reflexivity].
      * unfold held in H2. rewrite Hs, Ej in H2. destruct (s_state s) as [x|]; [|discriminate].
        exists x. split; [reflexivity|]. cbn in H2. congruence.
  - exfalso. apply nth_error_None in Ej. assert (H : j < length components) by (apply nth_error_Some; congruence).
    rewrite <- Hcs, map_length in H. lia.
Qed.
Print Assumptions C113_in_order.
Definition shown (v : option vec) : list Q := match v with Some v => map this v | None => [] end.
Example C113_in_order_nonvacuous :
  runnable ex_name ex_components ex_loaders ex_times /\
  (let d := fst (execute_all (ex_operations 2) nothing) in
   shown (ex_state d (SState 1 0)) = [63 # 13]%Q /\ shown (ex_state d (SState 2 1)) <> shown (ex_state d (SState 1 1)) /\
   shown (ex_state d (SLocal 2 2 3)) <> []).
Proof. split; [exact ex_runnable|]. split; [|split]; vm_compute; [reflexivity|intros H; discriminate H|intros H; discriminate H]. Qed.

(* The in-memory analysis that serves as the measure never fails on such inputs. *)
Theorem C113_in_memory_total name solve components loaders times n : runnable name components loaders times ->
  exists sys, in_memory solve components loaders times n = Ok sys /\ map fst sys = components.
Proof.
  intros Hrun. destruct (in_memory_good name solve components loaders times Hrun n) as (sys & H & Hc & _). exists sys. split; assumption.
Qed.
Print Assumptions C113_in_memory_total.
Example C113_in_memory_total_nonvacuous :
  match in_memory ex_solve ex_components ex_loaders ex_times 2 with
  | Ok sys => map (fun cs => shown (s_state (snd cs))) sys <> [[]; []; []]
  | Err _ => False
  end.
Proof. vm_compute. intros H. discriminate H. Qed.

(* The same by events: from any state of the disk and of the processes that can arise, some continuation completes the workflow. *)
Theorem C113_completes name solve components loaders times n d es :
  runnable name components loaders times ->
  let ops := operations name solve components loaders times n in
  let start := {| w_disk := d; w_live := fun _ => None |} in
  exists es', let d' := w_disk (history ops start (es ++ es')) in
  forall k sys j c, 1 <= k <= n -> in_memory solve components loaders times k = Ok sys -> nth_error components j = Some c ->
    exists s, nth_error sys j = Some (c, s) /\
    match c_kind c with
    | SpaceTime => exists x, s_state s = Some x /\ d' (name (SState k j)) = Some (PState x)
    | _ => forall t, In t times -> exists x, assoc Z.eqb (s_part s) t = Some x /\ d' (name (SLocal k j t)) = Some (PState x)
    end.
Proof.
  intros Hrun ops start. set (w := history ops start es).
  destruct (events_execute ops ops 0 w) as [es' Hes]; [intros j; reflexivity|]. exists es'.
  destruct (C113_in_order name solve components loaders times n (w_disk w) Hrun) as (d' & rs & He & _ & H).
  rewrite history_app. fold w. rewrite Hes. fold ops in He. rewrite He. exact H.
Qed.
Print Assumptions C113_completes.
Example C113_completes_nonvacuous :
  runnable ex_name ex_components ex_loaders ex_times /\
  (let d := w_disk (history (ex_operations 1) {| w_disk := nothing; w_live := fun _ => None |}
      (ex_crash ++ flat_map (fun k => Start k :: repeat (Step k) 40) (seq 0 11))) in
   shown (ex_state d (SState 1 1)) <> [] /\ shown (ex_state d (SLocal 1 2 2)) <> []).
Proof. split; [exact ex_runnable|]. split; vm_compute; intros H; discriminate H. Qed.

(* An operation whose input files are complete and right succeeds, and leaves its result: the analysis can proceed as soon as
   the files are there, in whatever order they came to be. *)
Theorem C113_measurement_when_ready name solve components loaders times k i t c d :
  runnable name components loaders times -> nth_error components i = Some c -> In t times -> 1 <= k ->
  (forall j c', nth_error components j = Some c' -> newest k i j <> 0 ->
     let sl := match c_kind c' with Spatial => SLocal (newest k i j) j t | _ => SState (newest k i j) j end in
     d (name sl) = held solve components loaders times sl) ->
  let out := match c_kind c with Spatial => SLocal k i t | _ => SMeasurement k i t end in
  exists d', execute (update_component_time_f solve (measuring name components k i t) loaders i t) d = (d', Ok tt) /\
    d' (name out) = held solve components loaders times out /\ d' (name out) <> None /\ forall f, f <> name out -> d' f = d f.
Proof.
  intros Hrun Hc Ht Hk Hin out. destruct k as [|k]; [lia|].
  pose proof (measure_shape name solve components loaders times Hrun false (fun f c => c = d f) (fun _ _ => False) k i t c Hc Ht) as Hs.
  destruct (execute_shape name solve components loaders times Hrun _ _ d (Hs ltac:(
    intros sl (j & c' & Hc' & Hn & ->) x ->; left; apply (Hin j c' Hc' Hn)))) as (d' & He & (v & H1 & H2 & _) & _ & Hk').
  exists d'. split; [exact He|]. change (measure_output (S k) i t c) with out in *.
  split; [congruence|split; [congruence|exact Hk']].
Qed.
Print Assumptions C113_measurement_when_ready.
Example C113_measurement_when_ready_nonvacuous :
  let d := fst (execute_all (ex_operations 1) nothing) in
  shown (ex_state d (SState 1 0)) = shown (match held ex_solve ex_components ex_loaders ex_times (SState 1 0) with Some (PState x) => Some x | _ => None end) /\
  snd (execute (update_component_time_f ex_solve (measuring ex_name ex_components 2 0 3) ex_loaders 0 3) d) = Ok tt.
Proof. split; vm_compute; reflexivity. Qed.

Theorem C113_solution_when_ready name solve components loaders times k i c d :
  runnable name components loaders times -> nth_error components i = Some c -> c_kind c = SpaceTime -> 1 <= k ->
  (forall t, In t times -> d (name (SMeasurement k i t)) = held solve components loaders times (SMeasurement k i t)) ->
  exists d', execute (update_component_solution_f solve (solving name components times k i) i) d = (d', Ok tt) /\
    d' (name (SState k i)) = held solve components loaders times (SState k i) /\ d' (name (SState k i)) <> None /\
    forall f, f <> name (SState k i) -> d' f = d f.
Proof.
  intros Hrun Hc Ek Hk Hin. destruct k as [|k]; [lia|].
  pose proof (solve_shape name solve components loaders times Hrun false (fun f c => c = d f) (fun _ _ => False) k i c Hc Ek) as Hs.
  destruct (execute_shape name solve components loaders times Hrun _ _ d (Hs ltac:(
    intros sl (t & Ht & ->) x ->; left; apply (Hin t Ht)))) as (d' & He & (v & H1 & H2 & _) & _ & Hk').
  exists d'. split; [exact He|]. split; [congruence|split; [congruence|exact Hk']].
Qed.
Print Assumptions C113_solution_when_ready.
Example C113_solution_when_ready_nonvacuous :
  let d := fst (execute_all (firstn 3 (ex_operations 1)) nothing) in
  shown (ex_state (fst (execute (update_component_solution_f ex_solve (solving ex_name ex_components ex_times 1 0) 0) d)) (SState 1 0)) = [63 # 13]%Q.
Proof. vm_compute. reflexivity. Qed.

(* ---- C114 *)

(* An operation that raises an exception has written nothing. *)
Theorem C114_failed_writes_nothing solve fsys loaders i t d :
  (forall c s, nth_error fsys i = Some (c, s) -> el_nonlinear (c_element c) = false) ->
  (forall d' e, execute (update_component_time_f solve fsys loaders i t) d = (d', Err e) -> d' = d) /\
  (forall d' e, execute (update_component_solution_f solve fsys i) d = (d', Err e) -> d' = d).
Proof.
  intros Hlin. split; intros d' e H.
  - destruct (measure_writes_last solve fsys loaders i t Hlin d) as [Hok|Hd]; rewrite H in *; [discriminate|exact Hd].
  - destruct (solve_writes_last solve fsys i d) as [Hok|Hd]; rewrite H in *; [discriminate|exact Hd].
Qed.
Print Assumptions C114_failed_writes_nothing.
Example C114_failed_writes_nothing_nonvacuous :
  snd (execute (update_component_time_f ex_solve (measuring ex_name ex_components 2 0 3) ex_loaders 0 3) nothing) = Err IOErrorE /\
  snd (execute (update_component_solution_f ex_solve (solving ex_name ex_components ex_times 1 0) 0) nothing) = Err IOErrorE.
Proof. split; vm_compute; reflexivity. Qed.

(* Solving is refused, and the state file left as it was, while any of the measurement files is missing or incomplete. *)
Theorem C114_solution_refused solve fsys i c s fs f d :
  nth_error fsys i = Some (c, SpaceTimeFiles s) -> c_kind c = SpaceTime -> sf_meas_list s = Some fs ->
  In f fs -> (d f = None \/ d f = Some Damaged) ->
  exists e, execute (update_component_solution_f solve fsys i) d = (d, Err e).
Proof.
  intros Hi Hk Hfs Hin Hb. destruct (solve_fails solve fsys i c s fs f d Hi Hk Hfs Hin Hb) as [e He]. exists e.
  destruct (solve_writes_last solve fsys i d) as [H|H]; [rewrite He in H; discriminate|].
  rewrite (surjective_pairing (execute (update_component_solution_f solve fsys i) d)), He, H. reflexivity.
Qed.
Print Assumptions C114_solution_refused.
Example C114_solution_refused_nonvacuous :
  let d := put (put nothing (ex_name (SMeasurement 1 0 3)) (PMeasurement (Some (create_blank 1)))) (ex_name (SMeasurement 1 0 1)) Damaged in
  snd (execute (update_component_solution_f ex_solve (solving ex_name ex_components ex_times 1 0) 0) d) = Err ValueError.
Proof. vm_compute. reflexivity. Qed.

(* So is the processing of observations, while the state file of any other component, or the component's own, is missing or
   incomplete. *)
Theorem C114_measurement_refused solve fsys loaders i t c s j c' s' f d :
  nth_error fsys i = Some (c, s) -> el_nonlinear (c_element c) = false -> inputs loaders t <> [] ->
  nth_error fsys j = Some (c', s') ->
  match s' with SpaceTimeFiles s' => sf_state_read s' | SpatialFiles s' => pf_state_read s' end = Some f ->
  (j <> i \/ (c_kind c' = SpaceTime /\ exists st, s' = SpaceTimeFiles st)) ->
  (d f = None \/ d f = Some Damaged) ->
  exists e, execute (update_component_time_f solve fsys loaders i t) d = (d, Err e).
Proof.
  intros Hi Hlin Hin Hj Hf Hcase Hb.
  assert (Hfail : fails (update_component_time_f solve fsys loaders i t) d).
  { destruct (Nat.eq_dec j i) as [->|Hne].
    - destruct Hcase as [H|[Hk [st ->]]]; [congruence|]. rewrite Hi in Hj. injection Hj as -> ->.
      apply (measure_fails_own solve fsys loaders i t c' st f d Hi Hk Hlin Hin Hf Hb).
    - apply (measure_fails solve fsys loaders i t c s j c' s' f d Hi Hlin Hin Hj Hne Hf Hb). }
  destruct Hfail as [e He]. exists e.
  assert (Hall : forall c0 s0, nth_error fsys i = Some (c0, s0) -> el_nonlinear (c_element c0) = false).
  { intros c0 s0 H0. rewrite Hi in H0. injection H0 as <- _. exact Hlin. }
  destruct (measure_writes_last solve fsys loaders i t Hall d) as [H|H]; [rewrite He in H; discriminate|].
  rewrite (surjective_pairing (execute (update_component_time_f solve fsys loaders i t) d)), He, H. reflexivity.
Qed.
Print Assumptions C114_measurement_refused.
Example C114_measurement_refused_nonvacuous :
  let d := put (fst (execute_all (ex_operations 1) nothing)) (ex_name (SLocal 1 2 3)) Damaged in
  snd (execute (update_component_time_f ex_solve (measuring ex_name ex_components 2 0 3) ex_loaders 0 3) d) = Err ValueError /\
  snd (execute (update_component_time_f ex_solve (measuring ex_name ex_components 2 0 1) ex_loaders 0 1) d) = Ok tt.
Proof. split; vm_compute; reflexivity. Qed.

(* A storage set up for one time refuses the measurement, or the local state, of another. *)
Theorem C114_other_time_refused solve fsys (loaders : list loader) i t c s t' d :
  nth_error fsys i = Some (c, s) -> el_nonlinear (c_element c) = false -> (forall l, In l loaders -> o_time (l t) = t) ->
  inputs loaders t <> [] -> t' <> t ->
  match s with SpaceTimeFiles s => sf_time s | SpatialFiles s => pf_time s end = Some t' ->
  exists e, execute (update_component_time_f solve fsys loaders i t) d = (d, Err e).
Proof.
  intros Hi Hlin Hl Hin Hne Hs.
  assert (Hlen : (length loaders =? 0) = false) by (destruct loaders; [destruct (Hin eq_refl)|reflexivity]).
  unfold update_component_time_f. rewrite Hlen, Hi.
  rewrite execute_bind_ro by (apply readonly_fold; intros; apply process_inputs_ro, Hlin).
  destruct (snd (execute (foldP (fun so l => process_inputs_f fsys i c s so (l t)) (None, None) loaders) d)) as [so|e] eqn:E;
    [|exists e; reflexivity].
  destruct (fold_time fsys i c s t d Hlin loaders (None, None) so Hl) as [Hso1 Hso2];
    [left; split; [reflexivity|split; [reflexivity|exact Hin]]|exact E|].
  destruct so as [[u|] t0]; cbn [fst snd] in *; [|congruence]. subst t0.
  assert (Hcmp : okey_eqb (Some t') (Some t) = false) by (cbn; apply Z.eqb_neq; exact Hne).
  unfold update_time_step_f. cbn [fst snd]. destruct (c_kind c), s as [s|s]; try (eexists; reflexivity).
  - cbn [andthen]. destruct (maximum_a_posteriori _ _ _); [|eexists; reflexivity].
    unfold partial_state_write. destruct (pf_state_write s); [|eexists; reflexivity]. rewrite Hs, Hcmp. eexists; reflexivity.
  - unfold measurement_write. rewrite Hs, Hcmp. destruct (sf_meas_write s); eexists; reflexivity.
Qed.
Print Assumptions C114_other_time_refused.
Example C114_other_time_refused_nonvacuous :
  execute (update_component_time_f ex_solve (measuring ex_name ex_components 1 0 5) ex_loaders 0 3) nothing = (nothing, Err ValueError) /\
  execute (update_component_time_f ex_solve (measuring ex_name ex_components 1 2 5) ex_loaders 2 3) (fst (execute_all (ex_operations 1) nothing))
  = (fst (execute_all (ex_operations 1) nothing), Err ValueError).
Proof. split; vm_compute; reflexivity. Qed.

(* ---- C115 *)

(* A time without any observations cannot be processed for a space-time component: its measurement is refused for want of a
   time index, so its file never comes to be, and the solution is refused from then on. *)
Theorem C115_no_observations_refused solve fsys loaders i t t' c s d :
  nth_error fsys i = Some (c, SpaceTimeFiles s) -> c_kind c = SpaceTime -> sf_time s = Some t' -> loaders <> [] -> inputs loaders t = [] ->
  execute (update_component_time_f solve fsys loaders i t) d = (d, Err ValueError).
Proof.
  intros Hi Hk Ht Hne Hin. unfold update_component_time_f.
  replace (length loaders =? 0) with false by (destruct loaders; [congruence|reflexivity]). rewrite Hi.
  rewrite no_inputs by exact Hin. cbn [andthen]. unfold update_time_step_f. rewrite Hk. unfold measurement_write. cbn [fst snd].
  rewrite Ht. destruct (sf_meas_write s); reflexivity.
Qed.
Print Assumptions C115_no_observations_refused.
Definition ex_silent : list loader := [fun t => ex_obs t []].
Example C115_no_observations_refused_nonvacuous :
  execute (update_component_time_f ex_solve (measuring ex_name ex_components 1 0 3) ex_silent 0 3) nothing = (nothing, Err ValueError).
Proof. apply C115_no_observations_refused with (t' := 3%Z) (c := ex_comp SpaceTime ex_element) (s := {| sf_state_read := None; sf_state_write := None;
    sf_time := Some 3%Z; sf_meas_write := Some (ex_name (SMeasurement 1 0 3)); sf_meas_list := None |}); try reflexivity. discriminate. Qed.

(* For a spatial component such a time succeeds, and leaves its file missing. *)
Theorem C115_no_observations_spatial solve fsys loaders i t c s d :
  nth_error fsys i = Some (c, SpatialFiles s) -> c_kind c = Spatial -> loaders <> [] -> inputs loaders t = [] ->
  execute (update_component_time_f solve fsys loaders i t) d = (d, Ok tt).
Proof.
  intros Hi Hk Hne Hin. unfold update_component_time_f.
  replace (length loaders =? 0) with false by (destruct loaders; [congruence|reflexivity]). rewrite Hi.
  rewrite no_inputs by exact Hin. cbn [andthen]. unfold update_time_step_f. rewrite Hk. reflexivity.
Qed.
Print Assumptions C115_no_observations_spatial.
Example C115_no_observations_spatial_nonvacuous :
  snd (execute (update_component_time_f ex_solve (measuring ex_name ex_components 1 2 3) ex_silent 2 3) nothing) = Ok tt /\
  snd (execute (expected_value_f (ex_comp Spatial ex_element) (spatial_storage ex_name 2 0 2 3) (ex_obs 3 [1; 2]%Z)) nothing) = Err IOErrorE.
Proof. split; vm_compute; reflexivity. Qed.

(* With no measurement files listed the solution is a TypeError, not that of the prior alone. *)
Theorem C115_no_files_refused solve fsys i c s d :
  nth_error fsys i = Some (c, SpaceTimeFiles s) -> c_kind c = SpaceTime -> (sf_meas_list s = None \/ sf_meas_list s = Some []) ->
  execute (update_component_solution_f solve fsys i) d = (d, Err TypeError).
Proof.
  intros Hi Hk Hfs. unfold update_component_solution_f. rewrite Hi. unfold update_solution_f, timeindices_read. rewrite Hk.
  destruct Hfs as [-> | ->]; reflexivity.
Qed.
Print Assumptions C115_no_files_refused.
Example C115_no_files_refused_nonvacuous :
  snd (execute (update_component_solution_f ex_solve (solving ex_name ex_components [] 1 0) 0) nothing) = Err TypeError /\
  match update_component ex_solve (map (fun c => (c, ex_empty)) ex_components) ex_loaders 0 [] with
  | Ok sys => map (fun cs => shown (s_state (snd cs))) sys = [[0]; []; []]%Q
  | Err _ => False
  end.
Proof. split; vm_compute; reflexivity. Qed.

(* The first iteration of a nonlinear component fails unless the operation that only processes observations is given a state
   file to write. *)
Theorem C115_nonlinear_first_refused solve fsys loaders i t c s d :
  nth_error fsys i = Some (c, SpaceTimeFiles s) -> c_kind c = SpaceTime -> el_nonlinear (c_element c) = true ->
  sf_state_read s = None -> sf_state_write s = None -> inputs loaders t <> [] ->
  exists e, execute (update_component_time_f solve fsys loaders i t) d = (d, Err e).
Proof.
  intros Hi Hk Hnl Hr Hw Hin.
  assert (Hl : exists l, In l loaders /\ nonempty (l t) = true).
  { unfold inputs in Hin. destruct (filter nonempty (map (fun l => l t) loaders)) as [|o os] eqn:E; [congruence|].
    assert (Ho : In o (filter nonempty (map (fun l => l t) loaders))) by (rewrite E; left; reflexivity).
    apply filter_In in Ho. destruct Ho as [Ho Hn]. apply in_map_iff in Ho. destruct Ho as (l & <- & Hl). exists l. split; assumption. }
  destruct Hl as (l & Hl & Hn).
  assert (Hro : forall so l, readonly (process_inputs_f fsys i c (SpaceTimeFiles s) so (l t))).
  { intros so l'. unfold process_inputs_f. destruct (0 <? length (o_vector (l' t))); [|exact I].
    apply readonly_bind; [apply subtract_offset_ro|]. intros off. unfold process_observations_f.
    apply readonly_bind; [exact I|intros t0]. apply readonly_bind; [exact I|intros rel]. apply readonly_bind.
    - unfold linearisation_f, state_read, state_write. rewrite Hk, Hnl, Hr, Hw. exact I.
    - intros x. apply readonly_bind; [exact I|intros rel']. apply readonly_bind; [exact I|intros u]. apply readonly_bind; [exact I|intros m]. exact I. }
  unfold update_component_time_f. destruct loaders as [|l0 ls] eqn:El; [destruct Hl|]. rewrite <- El in *.
  replace (length loaders =? 0) with false by (rewrite El; reflexivity). rewrite Hi.
  assert (Hf : fails (foldP (fun so l => process_inputs_f fsys i c (SpaceTimeFiles s) so (l t)) (None, None) loaders) d).
  { apply (fails_fold _ d) with (b0 := l); [intros; apply Hro|exact Hl|]. intros so. unfold process_inputs_f. unfold nonempty in Hn. rewrite Hn.
    apply fails_bind; [apply subtract_offset_ro|]. intros off. unfold process_observations_f.
    apply fails_bind; [exact I|intros t0]. apply fails_bind; [exact I|intros rel]. apply fails_bind_first.
    unfold linearisation_f, state_read, state_write. rewrite Hk, Hnl, Hr, Hw. eexists. reflexivity. }
  rewrite execute_bind_ro by (apply readonly_fold; intros; apply Hro). destruct Hf as [e He]. rewrite He. exists e. reflexivity.
Qed.
Print Assumptions C115_nonlinear_first_refused.
Example C115_nonlinear_first_refused_nonvacuous :
  let components := [ex_comp SpaceTime ex_nonlinear] in
  snd (execute (update_component_time_f ex_solve (measuring ex_name components 1 0 3) ex_loaders 0 3) nothing) = Err ValueError /\
  is_ok (update_component ex_solve [(ex_comp SpaceTime ex_nonlinear, ex_empty)] ex_loaders 0 ex_times) = true.
Proof. split; vm_compute; reflexivity. Qed.

(* Files left over from an earlier run are used without a word: a solution started before the new measurements are all there
   gives a state that is complete and wrong. *)
Theorem C115_leftovers_refuted : exists name solve components loaders times n d es k j x y,
  runnable name components loaders times /\
  let w := history (operations name solve components loaders times n) {| w_disk := d; w_live := fun _ => None |} es in
  held solve components loaders times (SState k j) = Some (PState x) /\
  w_disk w (name (SState k j)) = Some (PState y) /\ x <> y.
Proof.
  exists ex_name, ex_solve, ex_components, ex_loaders, ex_times, 1.
  exists (fst (execute_all (operations ex_name ex_solve ex_components [fun t => ex_obs t [100]%Z] ex_times 1) nothing)).
  exists (Start 0 :: repeat (Step 0) 3 ++ Start 1 :: repeat (Step 1) 3 ++ Start 3 :: repeat (Step 3) 9), 1, 0.
  eexists. eexists. split; [exact ex_runnable|]. split; [vm_compute; reflexivity|]. split; [vm_compute; reflexivity|].
  intros H. discriminate H.
Qed.
Print Assumptions C115_leftovers_refuted.
