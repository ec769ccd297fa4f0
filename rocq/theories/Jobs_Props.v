(* C172: chains of batch jobs; C173: jobs of the postprocessing *)
From Coq Require Import QArith String Ascii.
From Verif Require Import Base Work_Model Time_Model Time_Props Land_Model Tools_Model Jobs_Model Jobs_Spec.
Local Open Scope Z_scope.
Local Open Scope list_scope.

(* ---- histories *)
Lemma history_before G h e : history G (h ++ [e]) -> history G h.
Proof. intros H. inversion H as [E|h' a i H' I J W E|h' id i H' S E]; [destruct h; discriminate| |]; apply app_inj_tail in E; destruct E as [<- _]; assumption. Qed.
Lemma history_prefix G h2 : forall h1, history G (h1 ++ h2) -> history G h1.
Proof. induction h2 as [|e h2 IH] using rev_ind; intros h1 H; [now rewrite app_nil_r in H|]. rewrite app_assoc in H. apply history_before in H. now apply IH. Qed.
Lemma started_when G h1 id i h2 : history G (h1 ++ Started id i :: h2) -> exists a, In a G /\ ja_id a = id /\ has_job a i /\ forall b k, In b G -> In (ja_id b) (ja_wait a) -> has_job b k -> In (Finished (ja_id b) k) h1.
Proof.
  intros H. replace (h1 ++ Started id i :: h2) with ((h1 ++ [Started id i]) ++ h2) in H by now rewrite <- app_assoc. apply history_prefix in H.
  inversion H as [E|h' a j H' I J W E|h' id' j H' S E]; [destruct h1; discriminate| |]; apply app_inj_tail in E; destruct E as [<- E]; [|discriminate]. assert (ja_id a = id /\ j = i) as [<- <-] by (split; congruence). eauto 6.
Qed.
Lemma finished_after G h id k : history G h -> In (Finished id k) h -> exists h0 h1, h = h0 ++ Started id k :: h1.
Proof.
  intros H. induction H as [|h a i H IH I J W|h id' i H IH S]; intros F; [destruct F| |]; apply in_app_iff in F; destruct F as [F|[F|[]]].
  - destruct (IH F) as (h0 & h1 & ->). exists h0, (h1 ++ [Started (ja_id a) i]). now rewrite <- app_assoc.
  - discriminate.
  - destruct (IH F) as (h0 & h1 & ->). exists h0, (h1 ++ [Finished id' i]). now rewrite <- app_assoc.
  - assert (id' = id /\ i = k) as [-> ->] by (split; congruence). apply in_split in S. destruct S as (h0 & h1 & ->). exists h0, (h1 ++ [Finished id k]). now rewrite <- app_assoc.
Qed.

(* ---- the arrays of a module *)
Definition submitted (s : script) (n : Z) (m : string) (wait : list nat) (next : nat) : list job_array * list nat :=
  match s with Runlsf => runlsf n m wait next | Runlsf_solver => runlsf_solver n m wait next end.
Lemma batches_shape m size limit wait : forall batches next arrays finished, submit_batches m size limit wait next batches = (arrays, finished) ->
  finished = map ja_id arrays /\ map ja_id arrays = seq next (List.length arrays) /\ (forall a, In a arrays -> ja_wait a = wait /\ ja_module a = m /\ ja_size a = size) /\ map ja_batch arrays = batches.
Proof.
  induction batches as [|b r IH]; intros next arrays finished E.
  - assert (arrays = [] /\ finished = []) as [-> ->] by (cbn in E; split; congruence). split; [reflexivity|]. split; [reflexivity|]. split; [intros a []|reflexivity].
  - cbn [submit_batches] in E. destruct (submit_batches m size limit wait (S next) r) as [l f] eqn:R. cbv zeta in E. destruct (IH _ _ _ R) as (F & I & W & B).
    match type of E with (?x :: _, _) = _ => assert (arrays = x :: l) as -> by congruence end. assert (finished = next :: f) as -> by congruence. cbn [map ja_id ja_batch List.length seq].
    split; [now rewrite F|]. split; [now rewrite I|]. split; [|now rewrite B]. intros a [<-|K]; [now repeat split|]. now apply W.
Qed.
Lemma submitted_shape s n m wait next arrays finished : submitted s n m wait next = (arrays, finished) ->
  finished = map ja_id arrays /\ map ja_id arrays = seq next (List.length arrays) /\ (forall a, In a arrays -> ja_wait a = wait /\ ja_module a = m).
Proof. destruct s; intros E; cbn [submitted] in E; unfold runlsf, runlsf_solver in E; cbv zeta in E; apply batches_shape in E; destruct E as (A & B & C & _); repeat split; try assumption; intros; now apply C. Qed.
Lemma range_cons a b : a < b -> zrange a b = a :: zrange (a + 1) b.
Proof.
  intros H. unfold zrange. replace (Z.to_nat (b - a)) with (S (Z.to_nat (b - (a + 1)))) by lia. cbn [seq map]. f_equal; [lia|]. rewrite <- seq_shift, map_map. apply map_ext. intros k. lia.
Qed.
Lemma range_nil a b : b <= a -> zrange a b = [].
Proof. intros H. unfold zrange. now replace (Z.to_nat (b - a)) with 0%nat by lia. Qed.
Lemma submitted_some s n m wait next arrays finished : 0 < n -> submitted s n m wait next = (arrays, finished) -> exists a r, arrays = a :: r /\ has_job a (ja_first a).
Proof.
  intros N E. destruct s; cbn [submitted] in E.
  - unfold runlsf in E. cbv zeta in E. assert (B : 0 < (if n mod 366 >? 0 then n / 366 + 1 else n / 366)).
    { pose proof (Z.div_mod n 366 ltac:(lia)). pose proof (Z.mod_pos_bound n 366 ltac:(lia)). destruct (Z.gtb_spec (n mod 366) 0); lia. }
    unfold seq_upto in E. rewrite range_cons in E by lia. cbn [submit_batches] in E. destruct (submit_batches m 366 (Some n) wait (S next) _) as [l f] eqn:R in E. cbv zeta in E.
    match type of E with (?x :: _, _) = _ => exists x, l end. split; [congruence|]. unfold has_job. cbn [ja_first ja_last]. destruct (Z.gtb_spec (1 + 0 * 366 - 1 + 366) n); lia.
  - unfold runlsf_solver in E. cbv zeta in E. assert (B : batch_count n 1 = n) by (unfold batch_count; cbv zeta; rewrite Z.mod_1_r, Z.div_1_r; reflexivity). rewrite B in E.
    unfold seq_upto in E. rewrite range_cons in E by lia. cbn [submit_batches] in E. destruct (submit_batches m 1 None wait (S next) _) as [l f] eqn:R in E. cbv zeta in E.
    match type of E with (?x :: _, _) = _ => exists x, l end. split; [congruence|]. unfold has_job. cbn [ja_first ja_last]. lia.
Qed.
Lemma chain_cons count s m r wait next : submit_chain count ((s, m) :: r) wait next = fst (submitted s (count m) m wait next) ++ submit_chain count r (snd (submitted s (count m) m wait next)) (next + List.length (fst (submitted s (count m) m wait next))).
Proof. cbn [submit_chain]. unfold submitted. destruct s; [destruct (runlsf _ _ _ _)|destruct (runlsf_solver _ _ _ _)]; reflexivity. Qed.
Lemma chain_ids count : forall steps wait next, map ja_id (submit_chain count steps wait next) = seq next (List.length (submit_chain count steps wait next)).
Proof.
  induction steps as [|[s m] r IH]; intros wait next; [reflexivity|]. rewrite chain_cons. destruct (submitted s (count m) m wait next) as [l f] eqn:E. cbn [fst snd]. destruct (submitted_shape _ _ _ _ _ _ _ E) as (_ & I & _).
  rewrite map_app, app_length, seq_app, I, IH. reflexivity.
Qed.
Lemma chain_modules count : forall steps wait next a, In a (submit_chain count steps wait next) -> In (ja_module a) (map snd steps).
Proof.
  induction steps as [|[s m] r IH]; intros wait next a I; [destruct I|]. rewrite chain_cons in I. destruct (submitted s (count m) m wait next) as [l f] eqn:E. cbn [fst snd] in I. apply in_app_iff in I. destruct I as [I|I].
  - left. destruct (submitted_shape _ _ _ _ _ _ _ E) as (_ & _ & W). symmetry. now apply W.
  - right. now apply IH in I.
Qed.
Lemma same_array (G : list job_array) a b : NoDup (map ja_id G) -> In a G -> In b G -> ja_id a = ja_id b -> a = b.
Proof.
  induction G as [|x G IH]; intros N A B E; [destruct A|]. inversion N as [|? ? X N']. subst. destruct A as [->|A], B as [->|B]; [reflexivity| | |now apply IH].
  - exfalso. apply X. rewrite E. now apply in_map.
  - exfalso. apply X. rewrite <- E. now apply in_map.
Qed.
(* whatever a chain waits for is done before any of its jobs starts *)
Lemma waits count G : NoDup (map ja_id G) -> forall steps wait next, (forall x, In x steps -> 0 < count (snd x)) -> (forall a, In a (submit_chain count steps wait next) -> In a G) ->
  forall a h1 i h2, In a (submit_chain count steps wait next) -> history G (h1 ++ Started (ja_id a) i :: h2) -> forall b k, In b G -> In (ja_id b) wait -> has_job b k -> In (Finished (ja_id b) k) h1.
Proof.
  intros N. induction steps as [|[s m] r IH]; intros wait next C S a h1 i h2 I H b k B W J; [destruct I|].
  rewrite chain_cons in I, S. destruct (submitted s (count m) m wait next) as [l f] eqn:E. cbn [fst snd] in I, S. destruct (submitted_shape _ _ _ _ _ _ _ E) as (F & _ & Wt).
  assert (D : forall a h1 i h2, In a l -> history G (h1 ++ Started (ja_id a) i :: h2) -> In (Finished (ja_id b) k) h1).
  { intros a' g1 i' g2 I' H'. apply started_when in H'. destruct H' as (a2 & I2 & E2 & _ & K). apply (same_array G) in E2; [|exact N|exact I2|apply S, in_app_iff; now left]. subst a2. apply K; try assumption. now rewrite (proj1 (Wt _ I')). }
  apply in_app_iff in I. destruct I as [I|I]; [now apply (D a h1 i h2)|].
  destruct (submitted_some _ _ _ _ _ _ _ (C (s, m) (or_introl eq_refl)) E) as (x & r' & L & X). assert (In x l) as XI by (rewrite L; now left).
  assert (FX : In (Finished (ja_id x) (ja_first x)) h1).
  { apply (IH f (next + List.length l)%nat) with (a := a) (i := i) (h2 := h2); [intros y Y; apply C; now right|intros y Y; apply S, in_app_iff; now right|exact I|exact H|apply S, in_app_iff; now left| |exact X]. rewrite F. now apply in_map. }
  assert (P : history G h1) by (now apply history_prefix in H). destruct (finished_after G h1 _ _ P FX) as (h0 & h3 & ->). apply in_app_iff. left. now apply (D x h0 (ja_first x) h3).
Qed.
Lemma ordered count G : NoDup (map ja_id G) -> forall a c h1 i h2 k steps wait next, (forall x, In x steps -> 0 < count (snd x)) -> NoDup (map snd steps) -> (forall x, In x (submit_chain count steps wait next) -> In x G) ->
  In a (submit_chain count steps wait next) -> In c (submit_chain count steps wait next) -> comes_before (ja_module c) (ja_module a) (map snd steps) -> has_job c k ->
  history G (h1 ++ Started (ja_id a) i :: h2) -> In (Finished (ja_id c) k) h1.
Proof.
  intros N a c h1 i h2 k. induction steps as [|[s m] r IH]; intros wait next P D S A C B J H; [destruct A|].
  rewrite chain_cons in A, C, S. destruct (submitted s (count m) m wait next) as [l f] eqn:E. cbn [fst snd] in A, C, S. destruct (submitted_shape _ _ _ _ _ _ _ E) as (F & _ & Wt). cbn [map snd] in D, B. inversion D as [|? ? X D']. subst.
  destruct B as (l1 & l2 & B & In2). destruct l1 as [|y l1]; cbn [app] in B; injection B as B1 B2.
  - apply in_app_iff in C. destruct C as [C|C].
    + apply in_app_iff in A. destruct A as [A|A]; [exfalso; apply X; rewrite (proj2 (Wt _ A)) in In2; now rewrite B2|].
      apply (waits count G N r (map ja_id l) (next + List.length l)%nat) with (a := a) (i := i) (h2 := h2); [intros x I; apply P; now right|intros x I; apply S, in_app_iff; now right|exact A|exact H|apply S, in_app_iff; now left|now apply in_map|exact J].
    + exfalso. apply X. apply chain_modules in C. now rewrite B1.
  - assert (NE : ja_module a <> m /\ ja_module c <> m).
    { split; intros Q; apply X; rewrite B2; apply in_app_iff; right; [right; now rewrite <- Q|left; exact Q]. }
    apply in_app_iff in A. destruct A as [A|A]; [exfalso; apply (proj1 NE); now apply Wt|]. apply in_app_iff in C. destruct C as [C|C]; [exfalso; apply (proj2 NE); now apply Wt|].
    apply (IH (map ja_id l) (next + List.length l)%nat ltac:(intros x I; apply P; now right) D' ltac:(intros x I; apply S, in_app_iff; now right) A C); [|exact J|exact H]. exists l1, l2. split; assumption.
Qed.
(* Whatever the batch system does, no job of a module starts before all jobs of all modules before it have ended successfully. *)
Theorem C172_order : forall count steps h1 h2 a i c k, (forall x, In x steps -> 0 < count (snd x)) -> NoDup (map snd steps) ->
  let arrays := submit_chain count steps [] 0 in
  In a arrays -> In c arrays -> comes_before (ja_module c) (ja_module a) (map snd steps) -> has_job c k ->
  history arrays (h1 ++ Started (ja_id a) i :: h2) -> In (Finished (ja_id c) k) h1.
Proof.
  intros count steps h1 h2 a i c k P D arrays A C B J H. assert (N : NoDup (map ja_id arrays)) by (unfold arrays; rewrite chain_ids; apply seq_NoDup).
  apply (ordered count arrays N a c h1 i h2 k steps [] 0%nat); try assumption. now intros x I.
Qed.
Print Assumptions C172_order.
Lemma steps_distinct : NoDup (map snd all_steps).
Proof. vm_compute. repeat (constructor; [intros H; repeat (destruct H as [H|H]; [discriminate H|]); destruct H|]). constructor. Qed.
(* The iterations of the analysis. *)
Theorem C172_iterations : forall count h1 h2 a i c k, (forall m, 0 < count m) -> let arrays := runlsf_iterations count in
  In a arrays -> In c arrays -> comes_before (ja_module c) (ja_module a) (map snd all_steps) -> has_job c k -> history arrays (h1 ++ Started (ja_id a) i :: h2) -> In (Finished (ja_id c) k) h1.
Proof. intros count h1 h2 a i c k P. apply C172_order; [intros x _; apply P|apply steps_distinct]. Qed.
Print Assumptions C172_iterations.
(* Finding: after a module without commands the next one waits for nothing. *)
Theorem C172_empty_module_refuted : forall count before s m t m2 after, count m = 0 -> 0 < count m2 ->
  exists a, In a (submit_chain count (before ++ (s, m) :: (t, m2) :: after) [] 0) /\ ja_module a = m2 /\ history (submit_chain count (before ++ (s, m) :: (t, m2) :: after) [] 0) [Started (ja_id a) (ja_first a)].
Proof.
  intros count before s m t m2 after Z0 P.
  assert (G : forall before wait next, exists a, In a (submit_chain count (before ++ (s, m) :: (t, m2) :: after) wait next) /\ ja_module a = m2 /\ ja_wait a = [] /\ has_job a (ja_first a)).
  { clear before. induction before as [|[u m3] r IH]; intros wait next.
    - cbn [app]. rewrite chain_cons. assert (E : submitted s (count m) m wait next = ([], [])) by (rewrite Z0; destruct s; reflexivity). rewrite E. cbn [fst snd app List.length]. rewrite chain_cons.
      destruct (submitted t (count m2) m2 [] (next + 0)) as [l f] eqn:L. cbn [fst snd]. destruct (submitted_some _ _ _ _ _ _ _ P L) as (a & r & -> & J). destruct (submitted_shape _ _ _ _ _ _ _ L) as (_ & _ & W). destruct (W a (or_introl eq_refl)) as [W1 W2].
      exists a. repeat split; try assumption; try apply J. now left.
    - cbn [app]. rewrite chain_cons. match goal with |- context [snd ?x] => destruct (IH (snd x) (next + List.length (fst x))%nat) as (a & I & R) end. exists a. split; [apply in_app_iff; now right|exact R]. }
  destruct (G before [] 0%nat) as (a & I & M & W & J). exists a. split; [exact I|]. split; [exact M|]. change [Started (ja_id a) (ja_first a)] with ([] ++ [Started (ja_id a) (ja_first a)]). apply history_start; [constructor|exact I|exact J|]. rewrite W. intros b k _ [].
Qed.
Print Assumptions C172_empty_module_refuted.

(* ---- the commands of the arrays *)
Lemma range_split a b c : a <= b <= c -> zrange a c = zrange a b ++ zrange b c.
Proof.
  intros H. assert (G : forall n a, a + Z.of_nat n <= c -> zrange a c = zrange a (a + Z.of_nat n) ++ zrange (a + Z.of_nat n) c).
  { induction n as [|n IH]; intros x L; [rewrite (range_nil x (x + Z.of_nat 0)) by lia; cbn [app]; f_equal; lia|].
    rewrite range_cons by lia. rewrite (range_cons x (x + Z.of_nat (S n))) by lia. cbn [app]. f_equal. replace (x + Z.of_nat (S n)) with (x + 1 + Z.of_nat n) by lia. apply IH. lia. }
  specialize (G (Z.to_nat (b - a)) a ltac:(lia)). replace (a + Z.of_nat (Z.to_nat (b - a))) with b in G by lia. exact G.
Qed.
Lemma array_range a : 0 < ja_size a -> ja_first a = 1 + ja_batch a * ja_size a -> ja_last a <= (ja_batch a + 1) * ja_size a -> array_commands a = zrange (ja_batch a * ja_size a) (ja_last a).
Proof.
  intros S F L. unfold array_commands, seq_upto. set (b := ja_batch a * ja_size a) in *. unfold zrange at 1. rewrite map_map. unfold zrange. replace (ja_last a + 1 - ja_first a) with (ja_last a - b) by lia. apply map_ext_in. intros k K. apply in_seq in K. unfold lsf_commandrun.
  rewrite F. replace (1 + b + Z.of_nat k - 1) with (Z.of_nat k + ja_batch a * ja_size a) by (unfold b; lia). rewrite Z.mod_add by lia. fold b. rewrite Z.mod_small by lia. lia.
Qed.
Lemma batches_commands m size limit wait n : 0 < size -> (match limit with Some l => l = n /\ 0 <= n | None => True end) -> forall upto batch next, 0 <= batch -> match limit with Some l => (batch + Z.of_nat upto - 1) * size < l \/ upto = 0%nat | None => True end ->
  flat_map array_commands (fst (submit_batches m size limit wait next (zrange batch (batch + Z.of_nat upto)))) = match limit with Some l => zrange (batch * size) (Z.max (batch * size) (Z.min l ((batch + Z.of_nat upto) * size))) | None => zrange (batch * size) ((batch + Z.of_nat upto) * size) end.
Proof.
  intros S L. induction upto as [|u IH]; intros batch next B K.
  - rewrite range_nil by lia. cbn [submit_batches fst flat_map]. destruct limit as [l|]; [|rewrite range_nil by lia; reflexivity]. rewrite range_nil by lia. reflexivity.
  - rewrite range_cons by lia. cbn [submit_batches]. replace (batch + Z.of_nat (Datatypes.S u)) with (batch + 1 + Z.of_nat u) in * by lia.
    specialize (IH (batch + 1) (Datatypes.S next) ltac:(lia)). destruct (submit_batches m size limit wait (Datatypes.S next) (zrange (batch + 1) (batch + 1 + Z.of_nat u))) as [later finished]. cbv zeta. cbn [fst flat_map] in *.
    destruct limit as [l|].
    + destruct L as [-> L]. destruct K as [K|K]; [|discriminate]. specialize (IH ltac:(destruct u; [now right|left; lia])). rewrite IH. rewrite array_range; cbn [ja_size ja_first ja_batch ja_last]; [|exact S|reflexivity|destruct (Z.gtb_spec (1 + batch * size - 1 + size) n); nia].
      assert (LT : batch * size < n) by nia. destruct (Z.gtb_spec (1 + batch * size - 1 + size) n) as [G|G].
      * assert (u = 0%nat) by (destruct u; [reflexivity|nia]). subst u. rewrite (range_nil ((batch + 1) * size)) by nia. rewrite app_nil_r. f_equal. nia.
      * replace (1 + batch * size - 1 + size) with ((batch + 1) * size) by ring. rewrite <- range_split by nia. f_equal. nia.
    + rewrite IH by exact I. rewrite array_range; cbn [ja_size ja_first ja_batch ja_last]; [|exact S|reflexivity|nia]. replace (1 + batch * size - 1 + size) with ((batch + 1) * size) by ring. rewrite <- range_split by nia. reflexivity.
Qed.
(* The jobs of a module run all its commands, each once. *)
Theorem C172_commands : forall s n m wait next, 0 <= n -> flat_map array_commands (fst (match s with Runlsf => runlsf n m wait next | Runlsf_solver => runlsf_solver n m wait next end)) = zrange 0 n.
Proof.
  intros s n m wait next N. destruct s.
  - unfold runlsf. cbv zeta. set (c := if n mod 366 >? 0 then n / 366 + 1 else n / 366). pose proof (Z.div_mod n 366 ltac:(lia)) as D. pose proof (Z.mod_pos_bound n 366 ltac:(lia)) as M. pose proof (Z.div_pos n 366 N ltac:(lia)) as P.
    assert (C : 0 <= c /\ n <= c * 366 /\ (c - 1) * 366 < n \/ c = 0 /\ n = 0) by (unfold c; destruct (Z.gtb_spec (n mod 366) 0); lia).
    unfold seq_upto. replace (c - 1 + 1) with (0 + Z.of_nat (Z.to_nat c)) by lia. rewrite (batches_commands m 366 (Some n) wait n); [|lia|split; [reflexivity|exact N]|lia|destruct C as [C|C]; [left; lia|right; lia]]. f_equal; nia.
  - unfold runlsf_solver. cbv zeta. assert (B : batch_count n 1 = n) by (unfold batch_count; cbv zeta; rewrite Z.mod_1_r, Z.div_1_r; reflexivity). rewrite B. unfold seq_upto. replace (n - 1 + 1) with (0 + Z.of_nat (Z.to_nat n)) by lia.
    rewrite (batches_commands m 1 None wait n); [|lia|exact I|lia|exact I]. f_equal; lia.
Qed.
Print Assumptions C172_commands.
(* Those of the preparation of raw files run all commands once, and after them fewer than a thousand that do not exist. *)
Theorem C172_rawbinary : forall n m next, 0 <= n -> exists extra, 0 <= extra < 1000 /\ flat_map array_commands (fst (runlsf_rawbinary n m next)) = zrange 0 n ++ zrange n (n + extra).
Proof.
  intros n m next N. unfold runlsf_rawbinary. cbv zeta. set (c := batch_count n 1000). pose proof (Z.div_mod n 1000 ltac:(lia)) as D. pose proof (Z.mod_pos_bound n 1000 ltac:(lia)) as M. pose proof (Z.div_pos n 1000 N ltac:(lia)) as P.
  assert (C : 0 <= c /\ n <= c * 1000 < n + 1000) by (unfold c, batch_count; cbv zeta; destruct (Z.eqb_spec (n mod 1000) 0); cbn [negb]; lia).
  exists (c * 1000 - n). split; [lia|]. unfold seq_upto. replace (c - 1 + 1) with (0 + Z.of_nat (Z.to_nat c)) by lia. rewrite (batches_commands m 1000 None [] n); [|lia|exact I|lia|exact I]. rewrite <- range_split by lia. f_equal; lia.
Qed.
Print Assumptions C172_rawbinary.
Definition demo_count (m : string) : Z := if String.eqb m "climatology_solve_0" then 1 else 400.
Example C172_nonvacuous : (forall m, 0 < demo_count m) /\ List.length (runlsf_iterations demo_count) = 2021%nat /\
  map (fun a => (ja_module a, ja_wait a, ja_first a, ja_last a)) (firstn 4 (runlsf_iterations demo_count)) =
    [("climatology_input_0", [], 1, 366); ("climatology_input_0", [], 367, 400); ("climatology_solve_0", [0; 1]%nat, 1, 1); ("large_scale_input_0", [2]%nat, 1, 366)]%string.
Proof. split; [intros m; unfold demo_count; destruct (String.eqb m _); lia|]. split; vm_compute; reflexivity. Qed.

(* ---- C173 *)
(* The jobs of each step of the postprocessing handle every day of the years from first to last in exactly one job, and no other day. *)
Theorem C173_days : forall start_year end_year, 1 <= start_year <= end_year -> end_year <= 9998 ->
  exists days, postprocess_days start_year end_year = Ok days /\
  forall t, t mod DAY = 0 -> (count_occ Z.eq_dec (concat days) t = 1%nat <-> start_year <= dt_year t <= end_year) /\ (count_occ Z.eq_dec (concat days) t = 0%nat <-> ~ start_year <= dt_year t <= end_year).
Proof.
  intros s e H L. destruct (C51_years_covered s e H L) as (reference & n & days & R & N & D & C). exists days. split; [|exact C]. unfold postprocess_days, postprocess_operations. rewrite R. cbn [bind]. rewrite N. cbn [bind].
  assert (E : map (fun j => j - 1) (seq_upto 1 n) = zrange 0 n) by (unfold seq_upto, zrange; rewrite map_map; replace (n + 1 - 1) with (n - 0) by lia; apply map_ext; intros k; lia). now rewrite E.
Qed.
Print Assumptions C173_days.
(* Each month has one job of the percentiles. *)
Theorem C173_months : forall month, count_occ Z.eq_dec percentile_months month = if (1 <=? month) && (month <=? 12) then 1%nat else 0%nat.
Proof.
  intros month. assert (I : In month percentile_months <-> 1 <= month <= 12).
  { unfold percentile_months, seq_upto, zrange. rewrite in_map_iff. split; [intros (k & <- & K); apply in_seq in K; lia|]. intros H. exists (Z.to_nat (month - 1)). rewrite in_seq. lia. }
  destruct ((1 <=? month) && (month <=? 12)) eqn:E.
  - apply NoDup_count_occ'; [|apply I; lia]. unfold percentile_months, seq_upto, zrange. apply FinFun.Injective_map_NoDup; [intros a b K; lia|apply seq_NoDup].
  - apply count_occ_not_In. rewrite I. lia.
Qed.
Print Assumptions C173_months.
Example C173_nonvacuous : exists days, postprocess_days 1999 2000 = Ok days /\ map (fun l => List.length l) days = [31; 28; 31; 30; 31; 30; 31; 31; 30; 31; 30; 31; 31; 29; 31; 30; 31; 30; 31; 31; 30; 31; 30; 31]%nat.
Proof. eexists. split; [vm_compute; reflexivity|reflexivity]. Qed.
