(* C128-C132: linear systems and the optimisation of parameters. *)
From Coq Require Import Reals Lra.
Set Warnings "-notation-overridden,-ambiguous-paths".
From mathcomp Require Import all_ssreflect all_algebra fingroup perm.
From Verif Require Import RMat Opt_Model Opt_Spec Opt_Proofs.
Import GRing.Theory.

Set Implicit Arguments.
Unset Strict Implicit.
Unset Printing Implicit Defensive.
Local Open Scope ring_scope.

(* ---------- an example used below ---------- *)
(* a library exists; two unknowns, one parameter, observations of the sum of the unknowns *)
Definition exQ (theta : seq R) : 'M[R]_2 := (1 + nth 0 theta 0 * nth 0 theta 0)%:M.
Definition exdQ (theta : seq R) (k : nat) : 'M[R]_2 := (nth 0 theta 0 + nth 0 theta 0)%:M.
Definition exsource : source 2 := Source (const_mx 1 : 'M[R]_(1, 2)) 1%:M (const_mx 1).
Definition exsteps : seq ('cV[R]_2 * 'cV[R]_2 * source 2) := [:: (const_mx 1, 0, exsource); (0, const_mx 1, exsource)].
Lemma ex_pos theta : posdef (exQ theta).
Proof. apply: scalar_posdef. toR. have := Rle_0_sqr (nth 0 theta 0). rewrite /Rsqr. toR. lra. Qed.
Lemma ex_good : good exsource.
Proof. apply: scalar_posdef. exact: Rlt_0_1. Qed.
Lemma ex_no_cancellation (f : factor 2) : no_cancellation f.
Proof. move=> i j k Hij Hjk. have := ltn_ord k. by case: k Hjk => [[|[|k]] Hk] //=; case: j Hij => [[|j] Hj]. Qed.
Lemma ex_derivative theta : size theta = 1%N -> derivative_of exQ exdQ theta.
Proof.
  case: theta => [|x [|]] // _ [|//] _ i j.
  have H : D (fun t => 1 + t * t) x (0 + (1 * x + x * 1)).
  { apply: D_add; first exact: D_const. apply: (@D_mul id id); exact: derivable_pt_lim_id. }
  have HM : DM (fun t => (1 + t * t)%:M : 'M[R]_2) x ((x + x)%:M).
  { move=> a b. have := D_scale (a == b)%:R H. rewrite add0r mul1r mulr1. move/D_eq => K.
    apply: D_ext (K _ _); last by rewrite [RHS]mxE mulrC mulr_natr.
    by move=> t /=; rewrite [RHS]mxE mulrC mulr_natr. }
  exact: HM.
Qed.
Lemma ex_covers theta k (K : 'M[R]_2) : possemidef K -> covers (exQ theta + K) (exdQ theta k).
Proof.
  move=> PK i j. rewrite [X in X != _]mxE. case: (eqVneq i j) => [<- _ | _]; last by rewrite mulr0n eqxx.
  have [_ H] := posdef_add (ex_pos theta) PK. have Hd := H (delta_mx i 0).
  apply: pos_nz. 
  have -> : (exQ theta + K) i i = quad (delta_mx i 0) (exQ theta + K).
  { rewrite /quad trmx_delta -rowE [RHS]mxE (bigD1 i) //= big1 ?addr0; last first.
    { move=> a Ha. rewrite [delta_mx _ _ _ _]mxE. by rewrite (negbTE Ha) mulr0. }
    by rewrite [delta_mx _ _ _ _]mxE !eqxx mulr1 [RHS]mxE. }
  apply: Hd. apply/eqP => /matrixP /(_ i 0). rewrite !mxE !eqxx /=. move/eqP. by rewrite oner_eq0.
Qed.

(* ---------- C128 ---------- *)
(* The cost function is minus the logarithm of the probability of the observations, but for a constant that does
   not depend on the parameters or the prior mean. *)
Theorem C128_likelihood : forall n (cholesky : 'M[R]_n -> result (factor n)) (set_point : 'cV[R]_n) (s : source n),
  library cholesky -> good s ->
  exists constant : R, forall (Q : seq R -> 'M[R]_n) theta mean, posdef (Q theta) ->
    cost_function cholesky Q set_point theta mean (information_vector (measure s)) (information_precision (measure s))
    = Ok (source_minus_log_density (Q theta) mean s + constant).
Proof.
  move=> n chol sp s HL G. exists (constant (s_design s) (s_precision s) (s_values s) sp). move=> Q theta mean PQ.
  rewrite (cost_function_spec _ _ _ HL PQ (measure_semi G)). congr Ok. exact: likelihood.
Qed.
Print Assumptions C128_likelihood.
Example C128_likelihood_nonvacuous : exists chol : 'M[R]_2 -> result (factor 2),
  library chol /\ good exsource /\ forall theta, posdef (exQ theta).
Proof. exists (@some_cholesky 2). split; [exact: some_library | split; [exact: ex_good | exact: ex_pos]]. Qed.

(* With several steps of time it is the sum. *)
Theorem C128_steps : forall n (cholesky : 'M[R]_n -> result (factor n)) (steps : seq ('cV[R]_n * 'cV[R]_n * source n)),
  library cholesky -> (forall t, List.In t steps -> good t.2) -> steps <> [::] ->
  exists constant : R, forall (Q : seq R -> 'M[R]_n) theta, posdef (Q theta) ->
    replicates_cost_function cholesky Q theta (map (@replicate_of n) steps)
    = Ok (\sum_(t <- steps) source_minus_log_density (Q theta) t.1.2 t.2 + constant).
Proof.
  move=> n chol steps HL G N.
  exists (\sum_(t <- steps) constant (s_design t.2) (s_precision t.2) (s_values t.2) t.1.1).
  move=> Q theta PQ. rewrite (replicates_cost_spec HL PQ).
  - congr Ok. rewrite big_map -big_split /=. clear N.
    elim: steps G => [|t l IH] G; first by rewrite !big_nil.
    rewrite !big_cons (source_cost PQ); last by apply: G; left. congr (_ + _). apply: IH => t' H'. apply: G. by right.
  - move=> r /List.in_map_iff [t [<- Ht]]. case: t Ht => [[a b] s] Ht. apply: measure_semi. exact: (G _ Ht).
  - by case: steps N {G}.
Qed.
Print Assumptions C128_steps.
Example C128_steps_nonvacuous : exists chol : 'M[R]_2 -> result (factor 2),
  library chol /\ (forall t, List.In t exsteps -> good t.2)
  /\ forall theta, posdef (exQ theta).
Proof.
  exists (@some_cholesky 2). split; [exact: some_library | split; [| exact: ex_pos]].
  by move=> t [<- | [<- | []]]; exact: ex_good.
Qed.

(* Without steps of time there is no value but an exception. *)
Theorem C128_no_steps : forall n (cholesky : 'M[R]_n -> result (factor n)) (Q : seq R -> 'M[R]_n) theta,
  library cholesky -> posdef (Q theta) -> replicates_cost_function cholesky Q theta [::] = Err Base.AttributeError.
Proof. move=> n chol Q theta. exact: replicates_cost_none. Qed.
Print Assumptions C128_no_steps.
Example C128_no_steps_nonvacuous : library (@some_cholesky 2) /\ posdef (exQ [:: 1]).
Proof. split; [exact: some_library | exact: ex_pos]. Qed.

(* ---------- C129 ---------- *)
(* The derivatives that the code computes are the derivatives of the cost function that the code computes. *)
Theorem C129_gradient : forall n (cholesky : 'M[R]_n -> result (factor n)) (Q : seq R -> 'M[R]_n) dQ theta
    (set_point mean i : 'cV[R]_n) (K : 'M[R]_n),
  library cholesky ->
  (forall theta', size theta' = size theta -> posdef (Q theta')) -> possemidef K ->
  derivative_of Q dQ theta ->
  (forall f, cholesky (Q theta) = Ok f \/ cholesky (Q theta + K) = Ok f -> no_cancellation f) ->
  (forall k, (k < size theta)%N -> covers (Q theta) (dQ theta k) /\ covers (Q theta + K) (dQ theta k)) ->
  exists gradient, cost_derivative cholesky Q dQ set_point theta mean i K = Ok gradient /\
    size gradient = size theta /\
    forall k, (k < size theta)%N -> exists c : R -> R,
      (forall t, cost_function cholesky Q set_point (with_parameter theta k t) mean i K = Ok (c t)) /\
      derivable_pt_lim c (nth 0 theta k) (nth 0 gradient k).
Proof.
  move=> n chol Q dQ theta sp m i K HL PQ PK HD HN HC.
  have P0 : patterns chol Q dQ theta 0.
  { apply: covers_patterns => //; rewrite ?addr0; first exact: PQ.
    - by move=> f Hf; apply: HN; left.
    - by move=> k Hk; case: (HC k Hk). }
  have P1 : patterns chol Q dQ theta K.
  { apply: covers_patterns => //; first exact: (posdef_add (PQ _ _) PK).
    - by move=> f Hf; apply: HN; right.
    - by move=> k Hk; case: (HC k Hk). }
  eexists. split; first exact: (cost_derivative_spec sp m i HL (PQ _ _) PK P0 P1).
  split; first by rewrite size_map size_iota.
  move=> k Hk. exists (fun t => cost_value (Q (with_parameter theta k t)) sp m i K). split.
  - move=> t. apply: (cost_function_spec sp m i HL _ PK). apply: PQ. rewrite size_set_nth. exact/maxn_idPr.
  - rewrite (nth_map 0%N) ?size_iota // nth_iota // add0n. exact: slope_D.
Qed.
Print Assumptions C129_gradient.
Example C129_gradient_nonvacuous :
  library (@some_cholesky 2) /\ (forall theta, posdef (exQ theta)) /\
  possemidef (information_precision (measure exsource)) /\ derivative_of exQ exdQ [:: 1] /\
  (forall f : factor 2, no_cancellation f) /\
  (forall k, covers (exQ [:: 1]) (exdQ [:: 1] k) /\ covers (exQ [:: 1] + information_precision (measure exsource)) (exdQ [:: 1] k)).
Proof.
  have S := measure_semi ex_good.
  split; first exact: some_library. split; first exact: ex_pos. split; first exact: S. split; first exact: ex_derivative.
  split; first exact: ex_no_cancellation.
  move=> k. split; last exact: ex_covers. have := @ex_covers [:: 1] k 0 (semi0 2). by rewrite addr0.
Qed.

Theorem C129_steps_gradient : forall n (cholesky : 'M[R]_n -> result (factor n)) (Q : seq R -> 'M[R]_n) dQ theta
    (replicates : seq (replicate n)),
  library cholesky ->
  (forall theta', size theta' = size theta -> posdef (Q theta')) ->
  (forall r, List.In r replicates -> possemidef (r_Q_increment r)) ->
  replicates <> [::] ->
  derivative_of Q dQ theta ->
  (forall f, cholesky (Q theta) = Ok f -> no_cancellation f) ->
  (forall r f, List.In r replicates -> cholesky (Q theta + r_Q_increment r) = Ok f -> no_cancellation f) ->
  (forall k, (k < size theta)%N -> covers (Q theta) (dQ theta k) /\
     forall r, List.In r replicates -> covers (Q theta + r_Q_increment r) (dQ theta k)) ->
  exists gradient, replicates_cost_derivative cholesky Q dQ theta replicates = Ok gradient /\
    size gradient = size theta /\
    forall k, (k < size theta)%N -> exists c : R -> R,
      (forall t, replicates_cost_function cholesky Q (with_parameter theta k t) replicates = Ok (c t)) /\
      derivable_pt_lim c (nth 0 theta k) (nth 0 gradient k).
Proof.
  move=> n chol Q dQ theta rs HL PQ PK N HD HN0 HN HC.
  have P0 : patterns chol Q dQ theta 0.
  { apply: covers_patterns => //; rewrite ?addr0; first exact: PQ.
    - exact: HN0.
    - by move=> k Hk; case: (HC k Hk). }
  have P1 : forall r, List.In r rs -> possemidef (r_Q_increment r) /\ patterns chol Q dQ theta (r_Q_increment r).
  { move=> r Hr. split; first exact: PK. apply: covers_patterns => //; first exact: (posdef_add (PQ _ _) (PK r Hr)).
    - by move=> f; apply: HN.
    - by move=> k Hk; case: (HC k Hk) => _; apply. }
  eexists. split; first exact: (replicates_derivative_spec HL (PQ _ _) P1 P0).
  split; first by rewrite size_map size_iota.
  move=> k Hk. exists (fun t => \sum_(r <- rs) rcost (Q (with_parameter theta k t)) r). split.
  - move=> t. apply: (replicates_cost_spec HL _ PK N). apply: PQ. rewrite size_set_nth. exact/maxn_idPr.
  - rewrite (nth_map 0%N) ?size_iota // nth_iota // add0n. clear N HN P1.
    have HC' : forall r, List.In r rs -> possemidef (r_Q_increment r) := PK.
    elim: rs HC' {PK HC} => [|r rs IH] PK.
    + rewrite big_nil. apply: (D_ext (f := fun _ => 0)); [by move=> t; rewrite big_nil | exact: D_const].
    + rewrite big_cons. apply: (D_ext (f := fun t => rcost (Q (with_parameter theta k t)) r + \sum_(r <- rs) rcost (Q (with_parameter theta k t)) r)).
      { by move=> t; rewrite big_cons. }
      apply: D_add; first by apply: slope_D => //; apply: PK; left. apply: IH => r' H'. apply: PK. by right.
Qed.
Print Assumptions C129_steps_gradient.
Example C129_steps_gradient_nonvacuous :
  library (@some_cholesky 2) /\ (forall theta, posdef (exQ theta)) /\ derivative_of exQ exdQ [:: 1] /\
  (forall f : factor 2, no_cancellation f) /\
  (forall r, List.In r (map (@replicate_of 2) exsteps) ->
     possemidef (r_Q_increment r) /\ forall k, covers (exQ [:: 1] + r_Q_increment r) (exdQ [:: 1] k)).
Proof.
  have S := measure_semi ex_good.
  split; first exact: some_library. split; first exact: ex_pos. split; first exact: ex_derivative.
  split; first exact: ex_no_cancellation.
  by move=> r [<- | [<- | []]]; split; try exact: S; move=> k; exact: ex_covers.
Qed.

(* ---------- C130 ---------- *)
(* The partial inverse is the inverse wherever the factor and its transpose are not zero, and so wherever the
   matrix is not zero; it is zero elsewhere. *)
Theorem C130_partial_inverse : forall n (A : 'M[R]_n) f, factor_of A f -> no_cancellation f ->
  exists S, Q_inv f = Ok S /\
    (forall a b, S (f_P f a) (f_P f b) = if L f a b + L f b a != 0 then invmx A (f_P f a) (f_P f b) else 0) /\
    (forall i j, A i j != 0 -> S i j = invmx A i j).
Proof.
  move=> n A f HF NC. case: (Q_inv_spec HF NC) => S [E HS]. exists S. split=> //. split=> // i j Hij.
  have Ei : i = f_P f ((f_P f)^-1%g i) by rewrite permKV. have Ej : j = f_P f ((f_P f)^-1%g j) by rewrite permKV.
  rewrite Ei Ej HS. rewrite (within_self HF NC) //. by rewrite -Ei -Ej.
Qed.
Print Assumptions C130_partial_inverse.

Theorem C130_trace : forall n (A M : 'M[R]_n) f, factor_of A f -> no_cancellation f -> covers A M ->
  exists S, Q_inv f = Ok S /\ trace_iQ_dQdp S M = \tr (invmx A *m M).
Proof. move=> n A M f HF NC HC. apply: trace_spec => //. exact: covers_within HC. Qed.
Print Assumptions C130_trace.

Example C130_nonvacuous : exists f, factor_of (exQ [:: 1] + information_precision (measure exsource)) f /\ no_cancellation f
  /\ covers (exQ [:: 1] + information_precision (measure exsource)) (exdQ [:: 1] 0).
Proof.
  case: (library_ok (some_library (n := 2)) (posdef_add (ex_pos [:: 1]) (measure_semi ex_good))) => f [_ HF].
  exists f. split=> //. split; first exact: ex_no_cancellation. exact: ex_covers (measure_semi ex_good).
Qed.

(* An element of the factor that is zero by chance makes the partial inverse wrong where the matrix is not zero. *)
Theorem C130_cancellation_refuted : exists (A : 'M[R]_4) f S i j,
  posdef A /\ factor_of A f /\ Q_inv f = Ok S /\ A i j != 0 /\ S i j != invmx A i j.
Proof.
  case: unlucky_Q_inv => S [E HS]. have HF := unlucky_factor.
  exists (L unlucky *m (L unlucky)^T), unlucky, S, (@ui 0 isT), (@ui 1 isT).
  split; first exact: A_posdef HF. split=> //. split=> //. split; first by rewrite unlucky_A oner_neq0.
  rewrite HS. have -> : invmx (L unlucky *m (L unlucky)^T) (@ui 0 isT) (@ui 1 isT) = - (1 + 1 + 1).
  { rewrite -unlucky_inverse -{1}(A_sym HF) -trmx_inv. exact: mxE. }
  apply/eqP. toR. lra.
Qed.
Print Assumptions C130_cancellation_refuted.

(* ---------- C131 ---------- *)
(* The best estimate from any number of sources, added in order, makes the misfit least, and nothing else does. *)
Theorem C131_best_estimate : forall n (cholesky : 'M[R]_n -> result (factor n)) (Q : 'M[R]_n) (sources : seq (source n)),
  library cholesky -> posdef Q -> (forall s, List.In s sources -> good s) ->
  exists x, maximum_a_posteriori cholesky Q
              (foldl (fun m s => append_measurement_update m (measure s)) (create_blank n) sources) = Ok x /\
    forall x', x' <> x -> (misfit Q sources x < misfit Q sources x')%coqR.
Proof.
  move=> n chol Q ss HL PQ G. case: (map_spec HL PQ G) => x [E H]. exists x. split; first exact: E.
  move=> x' N. have [_ PP] := posdef_add PQ (total_semi G).
  have N' : x' - x != 0 by rewrite subr_eq0; apply/eqP.
  have := PP _ N'. rewrite -/(posterior_precision Q (total ss)) -H. toR. lra.
Qed.
Print Assumptions C131_best_estimate.
Example C131_best_estimate_nonvacuous : library (@some_cholesky 2) /\ posdef (exQ [:: 1]) /\
  (forall s, List.In s [:: exsource; exsource] -> good s).
Proof. split; [exact: some_library | split; [exact: ex_pos |]]. by move=> s [<- | [<- | []]]; exact: ex_good. Qed.

(* Samples are a fixed matrix times the variates, and the covariance that matrix makes is the inverse of the
   posterior precision. *)
Theorem C131_samples : forall n (cholesky : 'M[R]_n -> result (factor n)) (Q : 'M[R]_n) (m : measurement n),
  library cholesky -> posdef Q -> possemidef (information_precision m) ->
  exists B : 'M[R]_n, B *m B^T = invmx (Q + information_precision m) /\
    forall q (variate : 'M[R]_(n, q)), random_sample cholesky Q m variate = Ok (B *m variate).
Proof.
  move=> n chol Q m HL PQ PK. case: (library_ok HL (posdef_add PQ PK)) => f [E HF].
  exists ((permutation_matrix f)^T *m invmx (L f)^T). split; first exact: (sample_spec HF).
  move=> q v. rewrite /random_sample /posterior_precision E /=. by rewrite /solve_backward_substitution mulmxA.
Qed.
Print Assumptions C131_samples.

(* The standard deviations are the square roots of the diagonal of the inverse, for any block size but 0. *)
Theorem C131_variances : forall n (A : 'M[R]_n) f max_blocksize fuel,
  factor_of A f -> max_blocksize <> Some 0%N -> (n < fuel)%N ->
  diag_inv_A f max_blocksize fuel = Some [seq invmx A i i | i <- enum 'I_n].
Proof.
  move=> n A f b fuel HF Hb Hf. apply: diag_spec => // w E. case: w E => [E|//]. by case: Hb.
Qed.
Print Assumptions C131_variances.

Theorem C131_standard_deviations : forall n (cholesky : 'M[R]_n -> result (factor n)) (Q : 'M[R]_n) (m : measurement n) fuel,
  library cholesky -> posdef Q -> possemidef (information_precision m) -> (n < fuel)%N ->
  marginal_std cholesky Q m fuel = Ok (Some [seq sqrt (invmx (Q + information_precision m) i i) | i <- enum 'I_n]).
Proof.
  move=> n chol Q m fuel HL PQ PK Hf. case: (library_ok HL (posdef_add PQ PK)) => f [E HF].
  rewrite /marginal_std /posterior_precision E. cbn [Base.bind]. rewrite (C131_variances HF) //=. by rewrite -map_comp.
Qed.
Print Assumptions C131_standard_deviations.

(* With block size 0 the loop does not end. *)
Theorem C131_block_zero : forall n (f : factor n) fuel, (0 < n)%N -> diag_inv_A f (Some 0%N) fuel = None.
Proof. exact: diag_zero. Qed.
Print Assumptions C131_block_zero.

Example C131_nonvacuous : library (@some_cholesky 2) /\ posdef (exQ [:: 1]) /\ possemidef (information_precision (measure exsource))
  /\ exists f, factor_of (exQ [:: 1] + information_precision (measure exsource)) f.
Proof.
  split; [exact: some_library | split; [exact: ex_pos |]]. split; first exact: measure_semi ex_good.
  case: (library_ok (some_library (n := 2)) (posdef_add (ex_pos [:: 1]) (measure_semi ex_good))) => f [_ HF]. by exists f.
Qed.

(* ---------- C132 ---------- *)
(* Optimisation answers every question of the search with minus the logarithm of the probability of the observations,
   but for a constant, and its gradient.  It keeps the parameters where the search ends with success, and puts back
   the parameters it began with otherwise. *)
Theorem C132_optimize : forall n (cholesky : 'M[R]_n -> result (factor n)) (Q : seq R -> 'M[R]_n) dQ d
    (steps : seq ('cV[R]_n * 'cV[R]_n * source n)),
  library cholesky -> steps <> [::] -> (forall t, List.In t steps -> good t.2) ->
  (forall theta, size theta = d -> posdef (Q theta) /\ derivative_of Q dQ theta) ->
  (forall theta f, size theta = d -> cholesky (Q theta) = Ok f -> no_cancellation f) ->
  (forall theta t f, size theta = d -> List.In t steps ->
     cholesky (Q theta + information_precision (measure t.2)) = Ok f -> no_cancellation f) ->
  (forall theta k, size theta = d -> (k < d)%N -> covers (Q theta) (dQ theta k) /\
     forall t, List.In t steps -> covers (Q theta + information_precision (measure t.2)) (dQ theta k)) ->
  exists (constant : R) (gradient : seq R -> seq R),
    let cost theta := \sum_(t <- steps) source_minus_log_density (Q theta) t.1.2 t.2 + constant in
    (forall theta, size theta = d -> size (gradient theta) = d /\ forall k, (k < d)%N ->
       derivable_pt_lim (fun t => cost (with_parameter theta k t)) (nth 0 theta k) (nth 0 (gradient theta) k)) /\
    forall minimize initial, asks d (minimize initial) ->
      optimize cholesky Q dQ minimize (map (@replicate_of n) steps) initial
      = (let (success, x) := ends cost gradient (minimize initial) in if success then x else initial, Ok tt).
Proof.
  move=> n chol Q dQ d steps HL N G HQ HN0 HN HC.
  case: (C128_steps HL G N) => c Hc. set rs := map _ _ in Hc *.
  have Nr : rs <> [::] by rewrite /rs; case: steps N {G HN HC Hc rs}.
  have Hin : forall r, List.In r rs -> exists t, List.In t steps /\ r_Q_increment r = information_precision (measure t.2).
  { move=> r /List.in_map_iff [[[a b] s] [<- Ht]]. by exists (a, b, s). }
  have PK : forall r, List.In r rs -> possemidef (r_Q_increment r).
  { move=> r Hr. case: (Hin r Hr) => t [Ht ->]. apply: measure_semi. exact: G. }
  pose g theta := [seq \sum_(r <- rs) rslope (Q theta) (dQ theta k) r | k <- iota 0 (size theta)].
  have Hg : forall theta, size theta = d -> replicates_cost_derivative chol Q dQ theta rs = Ok (g theta).
  { move=> theta Hs. case: (HQ theta Hs) => PQ _. apply: replicates_derivative_spec => //.
    - move=> r Hr. split; first exact: PK. case: (Hin r Hr) => t [Ht Et]. apply: covers_patterns => //.
      + exact: posdef_add (PK r Hr).
      + by move=> f; rewrite Et; apply: HN.
      + move=> k. rewrite Hs Et => Hk. by case: (HC theta k Hs Hk) => _; apply.
    - apply: covers_patterns => //; rewrite ?addr0 //.
      + by move=> f; apply: HN0.
      + move=> k. rewrite Hs => Hk. by case: (HC theta k Hs Hk). }
  exists c, g. move=> cost. split.
  - move=> theta Hs. split; first by rewrite size_map size_iota. move=> k Hk.
    have Hk' : (k < size theta)%N by rewrite Hs.
    have [_ HD] := HQ theta Hs.
    have [gr [Egr [_ H]]] : exists gradient, replicates_cost_derivative chol Q dQ theta rs = Ok gradient /\ size gradient = size theta /\
       forall k, (k < size theta)%N -> exists c : R -> R, (forall t, replicates_cost_function chol Q (with_parameter theta k t) rs = Ok (c t)) /\
      derivable_pt_lim c (nth 0 theta k) (nth 0 gradient k).
    { apply: C129_steps_gradient => //.
      - move=> theta' Hs'. rewrite Hs in Hs'. by case: (HQ theta' Hs').
      - move=> f. exact: HN0.
      - move=> r f Hr. case: (Hin r Hr) => t [Ht ->]. exact: HN.
      - move=> j. rewrite Hs => Hj. case: (HC theta j Hs Hj) => H1 H2. split=> // r Hr. case: (Hin r Hr) => t [Ht ->]. exact: H2. }
    rewrite Hg // in Egr. case: Egr => Egr. rewrite Egr. case: (H k Hk') => c' [E' D'].
    apply: (D_ext (f := c')) => // t. have Hs' : size (with_parameter theta k t) = d by rewrite size_set_nth -Hs; apply/maxn_idPr.
    case: (HQ _ Hs') => PQ _. have := E' t. rewrite (Hc Q _ PQ). by case.
  - move=> minimize h Ha. rewrite /optimize.
    have Hc' : forall p, size p = d -> replicates_cost_function chol Q p rs = Ok (cost p).
    { move=> p Hp. case: (HQ p Hp) => PQ _. exact: Hc. }
    have := run_search_spec h Hc' Hg Ha.
    case: (run_search _ _ _ _ _ _) => h' r /= ->. by case: (ends cost g (minimize h)).
Qed.
Print Assumptions C132_optimize.
Example C132_optimize_nonvacuous :
  library (@some_cholesky 2) /\ good exsource /\
  (forall theta, size theta = 1%N -> posdef (exQ theta) /\ derivative_of exQ exdQ theta) /\
  (forall f : factor 2, no_cancellation f) /\
  (forall theta k, covers (exQ theta + information_precision (measure exsource)) (exdQ theta k)).
Proof.
  split; first exact: some_library. split; first exact: ex_good. split.
  { move=> theta Hs. split; [exact: ex_pos | exact: ex_derivative]. }
  split; first exact: ex_no_cancellation. move=> theta k. exact: ex_covers (measure_semi ex_good).
Qed.

(* After an exception the parameters are those of the last question, not those the optimisation began with. *)
Theorem C132_exception_refuted : forall n (cholesky : 'M[R]_n -> result (factor n)) (Q : seq R -> 'M[R]_n) dQ,
  library cholesky -> (forall theta, posdef (Q theta)) ->
  exists minimize initial, (optimize cholesky Q dQ minimize [::] initial).2 = Err Base.AttributeError /\
    (optimize cholesky Q dQ minimize [::] initial).1 <> initial.
Proof.
  move=> n chol Q dQ HL PQ. exists (fun _ => AskValue [:: 1] (fun _ => Done false [::])), [:: 0].
  rewrite /optimize /= (replicates_cost_none HL (PQ _)) /=. split=> //. case. exact: R1_neq_R0.
Qed.
Print Assumptions C132_exception_refuted.
Example C132_exception_nonvacuous : library (@some_cholesky 2) /\ forall theta, posdef (exQ theta).
Proof. split; [exact: some_library | exact: ex_pos]. Qed.
