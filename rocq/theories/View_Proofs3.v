(* Proofs about the merging of the parameters of views. *)
From Coq Require Import NArith Reals Lra String.
From Verif Require Import Base Mesh_Model Loc_Model View_Model View_Spec View_Proofs View_Proofs2.
Local Open Scope R_scope.
Local Open Scope list_scope.

(* a view whose vertices are points of the mesh, in increasing order *)
Definition proper (n : nat) (v : view) : Prop := v_points v = n /\ StronglySorted lt (v_vertices v) /\ Forall (fun j => (j < n)%nat) (v_vertices v).
Definition row_of (vs : list nat) (a j : nat) : list (nat * R) :=
  flat_map (fun ir => map (fun e => (fst ir, snd e)) (filter (fun e => Nat.eqb (fst e) j) (snd ir))) (combine (seq a (length vs)) (map (fun j => [(j, 1)]) vs)).
Lemma row_of_none : forall vs a j, ~ In j vs -> row_of vs a j = [].
Proof.
  induction vs as [|x vs IH]; intros a j I; [reflexivity|]. unfold row_of. cbn [length seq map combine flat_map filter fst snd]. destruct (Nat.eqb_spec x j) as [->|X]; [exfalso; apply I; left; reflexivity|].
  cbn [map app]. apply (IH (S a) j). intros J. apply I. right. exact J.
Qed.
Lemma row_of_some : forall vs a k, NoDup vs -> (k < length vs)%nat -> row_of vs a (nth k vs 0%nat) = [((a + k)%nat, 1)].
Proof.
  induction vs as [|x vs IH]; intros a k D K; [cbn in K; lia|]. inversion D as [|? ? X D']; subst. unfold row_of. cbn [length seq map combine flat_map filter fst snd]. destruct k as [|k]; cbn [nth].
  - rewrite Nat.eqb_refl. cbn [map app fst snd]. rewrite Nat.add_0_r. f_equal. apply (row_of_none vs (S a) x X).
  - destruct (Nat.eqb_spec x (nth k vs 0%nat)) as [E|_]; [exfalso; apply X; rewrite E; apply nth_In; cbn in K; lia|]. cbn [map app]. change (row_of vs (S a) (nth k vs 0%nat) = [((a + S k)%nat, 1)]).
    rewrite IH by (cbn in K; lia || assumption). do 2 f_equal. lia.
Qed.
Lemma transposed v : s_transpose (s_vertex_mappings v) = {| s_cols := n_latent_variables v; s_rows := map (row_of (v_vertices v) 0) (seq 0 (v_points v)) |}.
Proof. unfold s_transpose, s_vertex_mappings. cbn [s_rows s_cols]. rewrite map_length. reflexivity. Qed.
Lemma mem_out x l : mem x l = false <-> ~ In x l.
Proof. rewrite <- mem_in. destruct (mem x l); split; congruence. Qed.
Lemma row_of_mem v j : StronglySorted lt (v_vertices v) -> (mem j (v_vertices v) = false /\ row_of (v_vertices v) 0 j = []) \/
  (mem j (v_vertices v) = true /\ exists k, (k < n_latent_variables v)%nat /\ row_of (v_vertices v) 0 j = [(k, 1)]).
Proof.
  intros S. destruct (mem j (v_vertices v)) eqn:E; [right|left].
  - split; [reflexivity|]. apply mem_in in E. destruct (In_nth _ _ 0%nat E) as (k & K & <-). exists k. split; [exact K|]. apply row_of_some; [apply strict_nodup, S|exact K].
  - split; [reflexivity|]. apply row_of_none, mem_out, E.
Qed.
(* the design of one view on the points of the mesh *)
Definition cell (col : nat) (v : view) (j : nat) : list (nat * R) := if mem j (v_vertices v) then [(col, 1)] else [].
Lemma local_design n col v : proper n v ->
  s_mul (s_transpose (s_vertex_mappings v)) {| s_cols := 2; s_rows := repeat [(col, 1)] (n_latent_variables v) |} = {| s_cols := 2; s_rows := map (cell col v) (seq 0 n) |}.
Proof.
  intros (PN & S & _). rewrite transposed, PN. unfold s_mul. cbn [s_cols s_rows]. f_equal. rewrite map_map. apply map_ext. intros j. unfold cell.
  destruct (row_of_mem v j S) as [[-> ->]|[-> (k & K & ->)]]; [reflexivity|]. cbn [flat_map fst snd app]. rewrite (nth_indep _ [] [(col, 1)]), nth_repeat by (rewrite repeat_length; exact K). cbn [map fst snd app]. rewrite Rmult_1_l. reflexivity.
Qed.
Definition one_if (v : view) (j : nat) : nat := if mem j (v_vertices v) then 1%nat else 0%nat.
Lemma indicator_cell n col v : indicator (map (cell col v) (seq 0 n)) = map (one_if v) (seq 0 n).
Proof. unfold indicator. rewrite map_map. apply map_ext. intros j. unfold cell, one_if. destruct (mem j (v_vertices v)); reflexivity. Qed.
Lemma array_add_map {A} (op : A -> A -> A) f g n : array_add op (map f (seq 0 n)) (map g (seq 0 n)) = Ok (map (fun j => op (f j) (g j)) (seq 0 n)).
Proof.
  unfold array_add. rewrite !map_length, Nat.eqb_refl. f_equal. generalize (seq 0 n) as l. induction l as [|x l IH]; [reflexivity|]. cbn [map combine]. f_equal. exact IH.
Qed.
Fixpoint count (views : list view) (j : nat) : nat := match views with [] => 0 | v :: l => one_if v j + count l j end.
Lemma gathered_views n : forall views, Forall (fun p => proper n (fst p)) views -> forall sg rg th f g,
  gather views {| g_sigma := sg; g_rho := rg; g_theta := th; g_sigma_count := map f (seq 0 n); g_rho_count := map g (seq 0 n) |} =
  Ok {| g_sigma := sg ++ map (fun p => {| s_cols := 2; s_rows := map (cell 0 (fst p)) (seq 0 n) |}) views;
        g_rho := rg ++ map (fun p => {| s_cols := 2; s_rows := map (cell 1 (fst p)) (seq 0 n) |}) views;
        g_theta := th ++ map snd views;
        g_sigma_count := map (fun j => (f j + count (map fst views) j)%nat) (seq 0 n); g_rho_count := map (fun j => (g j + count (map fst views) j)%nat) (seq 0 n) |}.
Proof.
  induction views as [|[v t] views IH]; intros F sg rg th f g.
  - cbn [gather map count]. rewrite !app_nil_r. do 2 f_equal; apply map_ext; intros j; lia.
  - inversion F as [|? ? Pv F']; subst. cbn [fst] in Pv. cbn [gather g_sigma_count g_rho_count g_sigma g_rho g_theta]. unfold s_sigma_stationary, s_rho_stationary. rewrite !(local_design n _ v Pv). cbn [s_rows].
    rewrite !indicator_cell, !array_add_map. cbn [bind]. rewrite (IH F'). rewrite <- !app_assoc. cbn [map fst snd app count]. f_equal. f_equal; apply map_ext; intros j; lia.
Qed.
(* the row of a point in the designs of all views *)
Fixpoint cells (col a : nat) (views : list view) (j : nat) : list (nat * R) :=
  match views with [] => [] | v :: l => (if mem j (v_vertices v) then [((2 * a + col)%nat, 1)] else []) ++ cells col (S a) l j end.
Lemma stacked n col : forall views a f, fold_left s_beside (map (fun v => {| s_cols := 2; s_rows := map (cell col v) (seq 0 n) |}) views) {| s_cols := 2 * a; s_rows := map f (seq 0 n) |} =
  {| s_cols := 2 * (a + length views); s_rows := map (fun j => f j ++ cells col a views j) (seq 0 n) |}.
Proof.
  induction views as [|v views IH]; intros a f.
  - cbn [map fold_left length cells]. f_equal; [lia|]. apply map_ext. intros j. rewrite app_nil_r. reflexivity.
  - cbn [map fold_left]. unfold s_beside at 2. cbn [s_cols s_rows].
    assert (E : map (fun p : list (nat * R) * list (nat * R) => fst p ++ map (fun e => ((2 * a + fst e)%nat, snd e)) (snd p)) (combine (map f (seq 0 n)) (map (cell col v) (seq 0 n))) =
      map (fun j => f j ++ (if mem j (v_vertices v) then [((2 * a + col)%nat, 1)] else [])) (seq 0 n)).
    { generalize (seq 0 n) as l. induction l as [|x l IHl]; [reflexivity|]. cbn [map combine fst snd]. rewrite IHl. f_equal. f_equal. unfold cell. destruct (mem x (v_vertices v)); reflexivity. }
    rewrite E. replace (2 * a + 2)%nat with (2 * S a)%nat by lia. rewrite IH. f_equal; [cbn [length]; lia|]. apply map_ext. intros j. cbn [cells]. rewrite <- app_assoc. reflexivity.
Qed.
Lemma stacked_all n col v views : s_hstack (map (fun v => {| s_cols := 2; s_rows := map (cell col v) (seq 0 n) |}) (v :: views)) =
  Ok {| s_cols := 2 * length (v :: views); s_rows := map (cells col 0 (v :: views)) (seq 0 n) |}.
Proof.
  cbn [map s_hstack]. f_equal. change {| s_cols := 2; s_rows := map (cell col v) (seq 0 n) |} with {| s_cols := 2 * 1; s_rows := map (cell col v) (seq 0 n) |}. rewrite stacked. f_equal.
Qed.
Lemma normalised n c A f : normalise_rows (map f (seq 0 n)) {| s_cols := c; s_rows := map A (seq 0 n) |} =
  {| s_cols := c; s_rows := map (fun j => map (fun e => (fst e, 1 / INR (f j) * snd e)) (A j)) (seq 0 n) |}.
Proof. unfold normalise_rows. cbn [s_cols s_rows]. f_equal. generalize (seq 0 n) as l. induction l as [|x l IH]; [reflexivity|]. cbn [map combine fst snd]. f_equal. exact IH. Qed.
(* pairs of parameters in one vector *)
Definition flatten (ps : list (R * R)) : list R := flat_map (fun p => [fst p; snd p]) ps.
Definition component (col : nat) (p : R * R) : R := match col with O => fst p | _ => snd p end.
Lemma row_dot_scaled c row x : row_dot (map (fun e => (fst e, c * snd e)) row) x = c * row_dot row x.
Proof. induction row as [|e row IH]; cbn [map row_dot fold_right fst snd]; [lra|]. unfold row_dot in IH. rewrite IH. ring. Qed.
Lemma cells_dot col : (col < 2)%nat -> forall views a pre, length pre = (2 * a)%nat -> forall j,
  row_dot (cells col a (map fst views) j) (pre ++ flatten (map snd views)) = total (map (component col) (covering views j)).
Proof.
  intros C. induction views as [|[v p] views IH]; intros a pre L j; [reflexivity|]. cbn [map cells fst snd flatten flat_map].
  assert (R : row_dot (cells col (S a) (map fst views) j) (pre ++ [fst p; snd p] ++ flatten (map snd views)) = total (map (component col) (covering views j))).
  { rewrite app_assoc. apply IH. rewrite app_length, L. cbn. lia. }
  unfold covering in *. cbn [filter fst]. destruct (mem j (v_vertices v)); cbn [app map snd].
  - cbn [row_dot fold_right fst snd total]. f_equal; [|exact R].
    rewrite app_nth2, L by lia. replace (2 * a + col - 2 * a)%nat with col by lia. destruct col as [|[|col]]; cbn; [ring|ring|lia].
  - exact R.
Qed.
Lemma count_covering {A} (views : list (view * A)) j : count (map fst views) j = length (covering views j).
Proof. unfold covering. induction views as [|[v p] views IH]; [reflexivity|]. cbn [map count fst filter]. unfold one_if. destruct (mem j (v_vertices v)); cbn [map length]; rewrite IH; reflexivity. Qed.
Lemma covering_map {A B} (f : A -> B) views j : covering (map (fun p => (fst p, f (snd p))) views) j = map f (covering views j).
Proof. unfold covering. induction views as [|[v p] views IH]; [reflexivity|]. cbn [map filter fst snd]. destruct (mem j (v_vertices v)); cbn [map snd]; rewrite IH; reflexivity. Qed.
Lemma mean_scaled l : 1 / INR (length l) * total l = mean l.
Proof. unfold mean. unfold Rdiv. ring. Qed.
Lemma total_positive l : l <> [] -> Forall (fun x => 0 < x) l -> 0 < total l.
Proof.
  intros NE F. destruct F as [|x l X F]; [contradiction|]. clear NE. unfold total. cbn [fold_right]. assert (G : 0 <= fold_right Rplus 0 l) by (clear -F; induction F as [|y l Y F IH]; cbn [fold_right]; lra). lra.
Qed.
Lemma mean_exp_positive l : l <> [] -> 0 < mean (map exp l).
Proof.
  intros NE. unfold mean. apply Rdiv_lt_0_compat.
  - apply total_positive; [destruct l; [contradiction|discriminate]|]. apply Forall_forall. intros x X. apply in_map_iff in X. destruct X as (y & <- & _). apply exp_pos.
  - apply lt_0_INR. destruct l; [contradiction|]. cbn. lia.
Qed.
Lemma vln_mean l : l <> [] -> vln (Fin (mean (map exp l))) = Fin (log_mean_exp l).
Proof. intros NE. unfold vln. destruct (Rlt_dec 0 (mean (map exp l))) as [_|N]; [reflexivity|]. exfalso. apply N, mean_exp_positive, NE. Qed.
Lemma vln_zero : vln (Fin 0) = NegInf.
Proof. unfold vln. destruct (Rlt_dec 0 0) as [H|_]; [lra|]. destruct (Req_EM_T 0 0) as [_|H]; [reflexivity|congruence]. Qed.
Lemma map_flatten f ps : map f (flatten ps) = flatten (map (fun p => (f (fst p), f (snd p))) ps).
Proof. unfold flatten. induction ps as [|p ps IH]; [reflexivity|]. cbn [flat_map map app]. rewrite IH. reflexivity. Qed.
Lemma concat_pairs ps : concat (map (fun p : R * R => [fst p; snd p]) ps) = flatten ps.
Proof. unfold flatten. rewrite flat_map_concat_map. reflexivity. Qed.
Lemma flatten_length ps : length (flatten ps) = (2 * length ps)%nat.
Proof. unfold flatten. induction ps as [|p ps IH]; [reflexivity|]. cbn [flat_map app length]. rewrite IH. lia. Qed.

(* merge_local_parameterisations *)
Definition pairs_of (views : list (view * (R * R))) : list (view * list R) := map (fun p => (fst p, [fst (snd p); snd (snd p)])) views.
Lemma combine_pairs views : combine (map fst views) (map (fun p : view * (R * R) => [fst (snd p); snd (snd p)]) views) = pairs_of views.
Proof. unfold pairs_of. induction views as [|p views IH]; [reflexivity|]. cbn [map combine]. f_equal. exact IH. Qed.
Lemma merge_start self views n : n_latent_variables self = n -> Forall (fun p : view * (R * R) => proper n (fst p)) views -> views <> [] -> forall method,
  merge_local_parameterisations self (map fst views) (map (fun p => [fst (snd p); snd (snd p)]) views) method =
  let norm col := {| s_cols := 2 * length views; s_rows := map (fun j => map (fun e => (fst e, 1 / INR (length (covering views j)) * snd e)) (cells col 0 (map fst views) j)) (seq 0 n) |} in
  let theta := flatten (map snd views) in
  match method with
  | Direct_average => Ok (map Fin theta, norm 0%nat, norm 1%nat)
  | Exp_average =>
      do sigma <- s_dot (norm 0%nat) (map exp theta);
      do rho <- s_dot (norm 1%nat) (map exp theta);
      Ok (map (fun x => vln (Fin x)) sigma ++ map (fun x => vln (Fin x)) rho, s_beside (s_eye n) (s_empty n n), s_beside (s_empty n n) (s_eye n))
  | Other_method => Err ValueError
  end.
Proof.
  intros Ns F NE method. unfold merge_local_parameterisations. rewrite combine_pairs, Ns. 
  replace (repeat 0%nat n) with (map (fun _ : nat => 0%nat) (seq 0 n)).
  2:{ clear. generalize 0%nat at 2 as a. induction n as [|n IH]; intros a; [reflexivity|]. cbn [seq map repeat]. f_equal. apply IH. }
  rewrite gathered_views. 2:{ unfold pairs_of. apply Forall_map. cbn [fst]. exact F. }
  cbn [bind g_theta g_sigma g_rho g_sigma_count app]. unfold pairs_of. rewrite !map_map. cbn [fst snd].
  destruct views as [|p views]; [contradiction|]. set (ps := p :: views) in *.
  assert (C1 : concatenate (map (fun x : view * (R * R) => [fst (snd x); snd (snd x)]) ps) = Ok (flatten (map snd ps))).
  { unfold concatenate. rewrite <- concat_pairs, map_map. reflexivity. }
  rewrite C1. cbn [bind].
  assert (ST : forall col, s_hstack (map (fun x : view * (R * R) => {| s_cols := 2; s_rows := map (cell col (fst x)) (seq 0 n) |}) ps) = Ok {| s_cols := 2 * length ps; s_rows := map (cells col 0 (map fst ps)) (seq 0 n) |}).
  { intros col. rewrite <- (map_map fst (fun v => {| s_cols := 2; s_rows := map (cell col v) (seq 0 n) |})). change (map fst ps) with (fst p :: map fst views). rewrite stacked_all. cbn [length]. rewrite map_length. reflexivity. }
  rewrite !ST. cbn [bind]. rewrite !normalised. cbn zeta.
  assert (EQ : forall col, map (fun j => map (fun e : nat * R => (fst e, 1 / INR (0 + count (map fst ps) j) * snd e)) (cells col 0 (map fst ps) j)) (seq 0 n) =
                           map (fun j => map (fun e : nat * R => (fst e, 1 / INR (length (covering ps j)) * snd e)) (cells col 0 (map fst ps) j)) (seq 0 n)).
  { intros col. apply map_ext. intros j. cbn [Nat.add]. rewrite count_covering. reflexivity. }
  rewrite !EQ. reflexivity.
Qed.
Lemma norm_dot col (views : list (view * (R * R))) n f : (col < 2)%nat ->
  s_dot {| s_cols := 2 * length views; s_rows := map (fun j => map (fun e => (fst e, 1 / INR (length (covering views j)) * snd e)) (cells col 0 (map fst views) j)) (seq 0 n) |} (map f (flatten (map snd views))) =
  Ok (map (fun j => mean (map f (map (component col) (covering views j)))) (seq 0 n)).
Proof.
  intros C. unfold s_dot. cbn [s_cols s_rows]. rewrite map_length, flatten_length, map_length, Nat.eqb_refl. f_equal. rewrite map_map. apply map_ext. intros j.
  rewrite row_dot_scaled, map_flatten.
  set (g := fun q : R * R => (f (fst q), f (snd q))).
  pose proof (cells_dot col C (map (fun p => (fst p, g (snd p))) views) 0 [] eq_refl j) as Q. cbn [app] in Q. rewrite (covering_map g), !map_map in Q. cbn [fst snd] in Q.
  change (map (fun x : view * (R * R) => fst x) views) with (map fst views) in Q. rewrite !map_map. rewrite Q. rewrite <- mean_scaled, map_length. f_equal. f_equal. apply map_ext. intros p. destruct col as [|[|col]]; [reflexivity|reflexivity|lia].
Qed.
Lemma mean_nil : mean [] = 0.
Proof. unfold mean, total. cbn. unfold Rdiv. ring. Qed.
Lemma exp_average_values self views n : n_latent_variables self = n -> Forall (fun p : view * (R * R) => proper n (fst p)) views -> views <> [] ->
  merge_local_parameterisations self (map fst views) (map (fun p => [fst (snd p); snd (snd p)]) views) Exp_average =
  Ok (map (fun j => or_neg_inf (map fst (covering views j))) (seq 0 n) ++ map (fun j => or_neg_inf (map snd (covering views j))) (seq 0 n),
      s_beside (s_eye n) (s_empty n n), s_beside (s_empty n n) (s_eye n)).
Proof.
  intros Ns F NE. rewrite (merge_start self views n Ns F NE). cbv beta zeta iota. rewrite !norm_dot by lia. cbn [bind]. do 3 f_equal. rewrite !map_map.
  assert (V : forall l, vln (Fin (mean (map exp l))) = or_neg_inf l).
  { intros l. destruct l as [|x l]; [cbn [map]; rewrite mean_nil; apply vln_zero|]. apply vln_mean. discriminate. }
  f_equal; apply map_ext; intros j; apply V.
Qed.
Lemma direct_rows self views n : n_latent_variables self = n -> Forall (fun p : view * (R * R) => proper n (fst p)) views -> views <> [] ->
  exists sd rd, merge_local_parameterisations self (map fst views) (map (fun p => [fst (snd p); snd (snd p)]) views) Direct_average = Ok (map Fin (flatten (map snd views)), sd, rd) /\
    s_dot sd (flatten (map snd views)) = Ok (map (fun j => mean (map fst (covering views j))) (seq 0 n)) /\
    s_dot rd (flatten (map snd views)) = Ok (map (fun j => mean (map snd (covering views j))) (seq 0 n)).
Proof.
  intros Ns F NE. rewrite (merge_start self views n Ns F NE). cbv beta zeta iota. eexists. eexists. split; [reflexivity|].
  pose proof (norm_dot 0 views n (fun x => x) ltac:(lia)) as D0. pose proof (norm_dot 1 views n (fun x => x) ltac:(lia)) as D1. rewrite map_id in D0, D1. rewrite D0, D1.
  split; f_equal; apply map_ext; intros j; rewrite map_id; reflexivity.
Qed.
(* a design that selects the first or the second half *)
Lemma row_dot_unit i x : row_dot [(i, 1)] x = nth i x 0.
Proof. cbn. ring. Qed.
Lemma select_first n x y : length x = n -> length y = n -> s_dot (s_beside (s_eye n) (s_empty n n)) (x ++ y) = Ok x.
Proof.
  intros Lx Ly. unfold s_dot, s_beside, s_eye, s_empty. cbn [s_cols s_rows]. rewrite app_length, Lx, Ly, Nat.eqb_refl. f_equal.
  assert (E : map (fun p : list (nat * R) * list (nat * R) => fst p ++ map (fun e => ((n + fst e)%nat, snd e)) (snd p)) (combine (map (fun i => [(i, 1)]) (seq 0 n)) (repeat [] n)) = map (fun i => [(i, 1)]) (seq 0 n)).
  { generalize 0%nat as a. clear. generalize n at 1 as k. induction n as [|n IH]; intros k a; [reflexivity|]. cbn [seq map repeat combine fst snd app]. f_equal. apply IH. }
  rewrite E, map_map. transitivity (map (fun i => nth i x 0) (seq 0 n)); [|rewrite <- Lx; apply map_nth_seq]. apply map_ext_in. intros i I. apply in_seq in I. rewrite row_dot_unit. apply app_nth1. lia.
Qed.
Lemma select_second n x y : length x = n -> length y = n -> s_dot (s_beside (s_empty n n) (s_eye n)) (x ++ y) = Ok y.
Proof.
  intros Lx Ly. unfold s_dot, s_beside, s_eye, s_empty. cbn [s_cols s_rows]. rewrite app_length, Lx, Ly, Nat.eqb_refl. f_equal.
  assert (E : map (fun p : list (nat * R) * list (nat * R) => fst p ++ map (fun e => ((n + fst e)%nat, snd e)) (snd p)) (combine (repeat [] n) (map (fun i => [(i, 1)]) (seq 0 n))) = map (fun i => [((n + i)%nat, 1)]) (seq 0 n)).
  { generalize 0%nat as a. clear. generalize n at 1 4 as k. induction n as [|n IH]; intros k a; [reflexivity|]. cbn [seq map repeat combine fst snd app]. f_equal. apply IH. }
  rewrite E, map_map. transitivity (map (fun i => nth i y 0) (seq 0 n)); [|rewrite <- Ly; apply map_nth_seq]. apply map_ext_in. intros i I. apply in_seq in I. rewrite row_dot_unit, app_nth2 by lia. f_equal. lia.
Qed.

(* accumulation *)
Definition exp_if (v : view) (x : R) (j : nat) : R := if mem j (v_vertices v) then exp x else 0.
Lemma mapped_constant n v x : proper n v -> s_dot (s_transpose (s_vertex_mappings v)) (repeat (exp x) (n_latent_variables v)) = Ok (map (exp_if v x) (seq 0 n)).
Proof.
  intros (PN & S & _). rewrite transposed, PN. unfold s_dot. cbn [s_cols s_rows]. rewrite repeat_length, Nat.eqb_refl. f_equal. rewrite map_map. apply map_ext. intros j. unfold exp_if.
  destruct (row_of_mem v j S) as [[-> ->]|[-> (k & K & ->)]]; [reflexivity|]. rewrite row_dot_unit, (nth_indep _ 0 (exp x)), nth_repeat by (rewrite repeat_length; exact K). reflexivity.
Qed.
Lemma stationary_dot col v a b : (col < 2)%nat -> s_dot {| s_cols := 2; s_rows := repeat [(col, 1)] (n_latent_variables v) |} [a; b] = Ok (repeat (component col (a, b)) (n_latent_variables v)).
Proof.
  intros C. unfold s_dot. cbn [s_cols s_rows length Nat.eqb]. f_equal. generalize (n_latent_variables v) as k. induction k as [|k IH]; [reflexivity|]. cbn [repeat map]. rewrite row_dot_unit. f_equal; [|exact IH]. destruct col as [|[|col]]; [reflexivity|reflexivity|lia].
Qed.
Lemma map_repeat {A B} (f : A -> B) x k : map f (repeat x k) = repeat (f x) k.
Proof. induction k as [|k IH]; [reflexivity|]. cbn. f_equal. exact IH. Qed.
Lemma indicator_map n v : proper n v -> indicator (s_rows (s_transpose (s_vertex_mappings v))) = map (one_if v) (seq 0 n).
Proof.
  intros (PN & S & _). rewrite transposed, PN. cbn [s_rows]. unfold indicator. rewrite map_map. apply map_ext. intros j. unfold one_if. destruct (row_of_mem v j S) as [[-> ->]|[-> (k & K & ->)]]; reflexivity.
Qed.
Lemma accumulate_new n v a b s r c : proper n v -> s = None \/ r = None \/ c = None ->
  accumulate s r c v [a; b] = Ok (map (exp_if v a) (seq 0 n), map (exp_if v b) (seq 0 n), map (one_if v) (seq 0 n)).
Proof.
  intros Pv O. unfold accumulate. unfold s_sigma_stationary, s_rho_stationary. rewrite !stationary_dot by lia. cbn [bind]. rewrite !map_repeat, !(mapped_constant n v _ Pv). cbn [bind].
  rewrite (indicator_map n v Pv). cbn [bind component fst snd]. destruct s, r, c; try reflexivity. destruct O as [O|[O|O]]; discriminate.
Qed.
Lemma accumulate_more n v a b s r c : proper n v ->
  accumulate (Some (map s (seq 0 n))) (Some (map r (seq 0 n))) (Some (map c (seq 0 n))) v [a; b] =
  Ok (map (fun j => s j + exp_if v a j) (seq 0 n), map (fun j => r j + exp_if v b j) (seq 0 n), map (fun j => (c j + one_if v j)%nat) (seq 0 n)).
Proof.
  intros Pv. unfold accumulate. unfold s_sigma_stationary, s_rho_stationary. rewrite !stationary_dot by lia. cbn [bind]. rewrite !map_repeat, !(mapped_constant n v _ Pv). cbn [bind].
  rewrite (indicator_map n v Pv). cbn [bind component fst snd]. rewrite !array_add_map. cbn [bind]. reflexivity.
Qed.
Lemma triple_eq {A B C} (a a' : A) (b b' : B) (c c' : C) : a = a' -> b = b' -> c = c' -> Ok (Some a, Some b, Some c) = Ok (Some a', Some b', Some c').
Proof. intros -> -> ->. reflexivity. Qed.
Lemma accumulate_rest n : forall views, Forall (fun p : view * (R * R) => proper n (fst p)) views -> forall s r c,
  accumulate_all views (Some (map s (seq 0 n)), Some (map r (seq 0 n)), Some (map c (seq 0 n))) =
  Ok (Some (map (fun j => s j + total (map exp (map fst (covering views j)))) (seq 0 n)), Some (map (fun j => r j + total (map exp (map snd (covering views j)))) (seq 0 n)),
      Some (map (fun j => (c j + length (covering views j))%nat) (seq 0 n))).
Proof.
  induction views as [|[v [a b]] views IH]; intros F s r c.
  - cbn [accumulate_all]. unfold covering, total. cbn [filter map fold_right length]. apply triple_eq; apply map_ext; intros j; try lra; lia.
  - inversion F as [|? ? Pv F']; subst. cbn [fst] in Pv. cbn [accumulate_all]. rewrite (accumulate_more n v a b s r c Pv). cbn [bind]. rewrite (IH F').
    apply triple_eq; apply map_ext; intros j; unfold exp_if, one_if, covering, total; cbn [filter fst]; destruct (mem j (v_vertices v)); cbn [map snd fst fold_right length]; try lra; lia.
Qed.
Lemma accumulate_start n p views s r c : Forall (fun p : view * (R * R) => proper n (fst p)) (p :: views) -> s = None \/ r = None \/ c = None ->
  accumulate_all (p :: views) (s, r, c) =
  Ok (Some (map (fun j => total (map exp (map fst (covering (p :: views) j)))) (seq 0 n)), Some (map (fun j => total (map exp (map snd (covering (p :: views) j)))) (seq 0 n)),
      Some (map (fun j => length (covering (p :: views) j)) (seq 0 n))).
Proof.
  intros F O. inversion F as [|? ? Pv F']; subst. destruct p as [v [a b]]. cbn [fst] in Pv. cbn [accumulate_all]. rewrite (accumulate_new n v a b s r c Pv O). cbn [bind]. rewrite (accumulate_rest n views F').
  apply triple_eq; apply map_ext; intros j; unfold exp_if, one_if, covering, total; cbn [filter fst]; destruct (mem j (v_vertices v)); cbn [map snd fst fold_right length]; try lra; lia.
Qed.
Lemma log_mean_map n (f : nat -> list R) : log_mean (map (fun j => total (map exp (f j))) (seq 0 n)) (map (fun j => length (f j)) (seq 0 n)) = Ok (map (fun j => or_nan (f j)) (seq 0 n)).
Proof.
  unfold log_mean. rewrite !map_length, Nat.eqb_refl. f_equal. generalize (seq 0 n) as l. induction l as [|j l IH]; [reflexivity|]. cbn [map combine fst snd]. f_equal; [|exact IH].
  unfold or_nan. destruct (f j) as [|x q] eqn:E.
  - cbn [map total fold_right length vdiv]. destruct (Req_EM_T 0 0) as [_|H]; [reflexivity|congruence].
  - rewrite <- E. assert (NE : f j <> []) by congruence. rewrite <- (vln_mean (f j) NE). f_equal. unfold mean. rewrite map_length. unfold vdiv. rewrite E. reflexivity.
Qed.
Lemma finalised n views s r c : s = None \/ r = None \/ c = None -> Forall (fun p : view * (R * R) => proper n (fst p)) views -> views <> [] ->
  exists s' r' c', accumulate_all views (s, r, c) = Ok (Some s', Some r', Some c') /\ length s' = n /\ length r' = n /\ length c' = n /\
    finalise_sigma_rho (Some s') (Some r') (Some c') = Ok (map (fun j => or_nan (map fst (covering views j))) (seq 0 n), map (fun j => or_nan (map snd (covering views j))) (seq 0 n)) /\
    finalise_q s' r' c' = Ok (map (fun j => or_nan (map fst (covering views j))) (seq 0 n) ++ map (fun j => or_nan (map snd (covering views j))) (seq 0 n),
                              s_beside (s_eye n) (s_empty n n), s_beside (s_empty n n) (s_eye n)).
Proof.
  intros O F NE. destruct views as [|p views]; [contradiction|]. do 3 eexists. split; [apply (accumulate_start n p views s r c F O)|]. set (ps := p :: views) in *.
  rewrite !map_length, seq_length. do 3 (split; [reflexivity|]).
  assert (L1 : log_mean (map (fun j => total (map exp (map fst (covering ps j)))) (seq 0 n)) (map (fun j => length (covering ps j)) (seq 0 n)) = Ok (map (fun j => or_nan (map fst (covering ps j))) (seq 0 n))).
  { rewrite <- log_mean_map. f_equal. apply map_ext. intros j. rewrite map_length. reflexivity. }
  assert (L2 : log_mean (map (fun j => total (map exp (map snd (covering ps j)))) (seq 0 n)) (map (fun j => length (covering ps j)) (seq 0 n)) = Ok (map (fun j => or_nan (map snd (covering ps j))) (seq 0 n))).
  { rewrite <- log_mean_map. f_equal. apply map_ext. intros j. rewrite map_length. reflexivity. }
  split.
  - cbn [finalise_sigma_rho]. rewrite L1. cbn [bind]. rewrite L2. reflexivity.
  - unfold finalise_q. rewrite L1. cbn [bind]. rewrite L2. cbn [bind]. rewrite !map_length, seq_length, Nat.eqb_refl. reflexivity.
Qed.
Lemma covering_perm {A} (views views' : list (view * A)) j : Permutation views views' -> Permutation (covering views j) (covering views' j).
Proof.
  intros E. unfold covering. apply Permutation_map. induction E as [|x l l' E IH|x y l|l l' l'' E IH E' IH']; cbn [filter]; [reflexivity| | |].
  - destruct (mem j (v_vertices (fst x))); [constructor|]; exact IH.
  - destruct (mem j (v_vertices (fst x))), (mem j (v_vertices (fst y))); try reflexivity. apply perm_swap.
  - etransitivity; eassumption.
Qed.
Lemma log_mean_exp_perm l l' : Permutation l l' -> log_mean_exp l = log_mean_exp l'.
Proof. intros E. unfold log_mean_exp, mean. rewrite !map_length, (Permutation_length E), (total_perm _ _ (Permutation_map exp E)). reflexivity. Qed.
Lemma or_nan_perm l l' : Permutation l l' -> or_nan l = or_nan l'.
Proof.
  intros E. unfold or_nan. destruct l as [|x l]; [apply Permutation_nil in E; subst; reflexivity|]. destruct l' as [|y l']; [apply Permutation_sym, Permutation_nil in E; discriminate|]. f_equal. apply log_mean_exp_perm, E.
Qed.
