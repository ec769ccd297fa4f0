(* Proofs about Opt_Model. *)
From Coq Require Import Reals Lra.
Set Warnings "-notation-overridden,-ambiguous-paths".
From mathcomp Require Import all_ssreflect all_algebra fingroup perm.
From Verif Require Import RMat Opt_Model Opt_Spec.
Import GRing.Theory.

Set Implicit Arguments.
Unset Strict Implicit.
Unset Printing Implicit Defensive.
Local Open Scope ring_scope.

(* ---------- lists of elements ---------- *)
Notation column := (seq (nat * R)).

Lemma entry_cons r x (c : column) k : entry ((r, x) :: c) k = (if r == k then x else 0) + entry c k.
Proof. by rewrite /entry big_cons /=; case: eqP => // _; rewrite add0r. Qed.
Lemma entry_nil k : entry [::] k = 0.
Proof. by rewrite /entry big_nil. Qed.
Lemma entry_rev (c : column) k : entry (rev c) k = entry c k.
Proof. by apply: perm_big; rewrite perm_rev. Qed.
Lemma entry_out (c : column) k : k \notin [seq e.1 | e <- c] -> entry c k = 0.
Proof.
  elim: c => [|[r x] c IH] /=; first by rewrite entry_nil.
  rewrite inE negb_or => /andP [N H]. by rewrite entry_cons IH // addr0 eq_sym (negbTE N).
Qed.
Lemma entry_map (rows : seq nat) (v : nat -> R) k : uniq rows ->
  entry [seq (r, v r) | r <- rows] k = if k \in rows then v k else 0.
Proof.
  elim: rows => [|r rows IH] /=; first by rewrite entry_nil.
  case/andP => N U. rewrite entry_cons IH // inE eq_sym. case: (eqVneq k r) => [->|_] /=.
  - by rewrite (negbTE N) addr0.
  - by rewrite add0r.
Qed.
Lemma entry_filter (c : column) (P : pred nat) k : P k -> entry [seq e <- c | P e.1] k = entry c k.
Proof.
  move=> Pk. rewrite /entry big_filter_cond. apply: eq_bigl => e. case: eqP => [->|_]; by rewrite ?Pk ?andbF.
Qed.

Lemma sum_entries (c : column) (m : nat) (P : pred nat) (g : nat -> R) :
  all (fun e => e.1 < m)%N c ->
  \sum_(e <- c | P e.1) e.2 * g e.1 = \sum_(k <- iota 0 m | P k) entry c k * g k.
Proof.
  elim: c => [|[r x] c IH] /=.
  - move=> _. rewrite big_nil big1 // => k _. by rewrite entry_nil mul0r.
  - case/andP => Hr /IH {}IH. rewrite big_cons /= IH.
    have -> : \sum_(k <- iota 0 m | P k) entry ((r, x) :: c) k * g k
            = \sum_(k <- iota 0 m | P k) (if k == r then x * g r else 0) + \sum_(k <- iota 0 m | P k) entry c k * g k.
    { rewrite -big_split /=. apply: eq_bigr => k _. rewrite entry_cons mulrDl eq_sym.
      case: eqP => [->|_] //. by rewrite mul0r. }
    have -> : \sum_(k <- iota 0 m | P k) (if k == r then x * g r else 0) = if P r then x * g r else 0.
    { rewrite -big_mkcondr /= big_mkcond /= (bigD1_seq r) ?mem_iota ?iota_uniq //= eqxx andbT big1 ?addr0 // => k N.
      by rewrite (negbTE N) andbF. }
    case: ifP => // _. by rewrite add0r.
Qed.

(* columns in decreasing order of rows *)
Definition descending (c : column) : bool := sorted gtn [seq e.1 | e <- c].

Lemma descending_cons e (c : column) : descending (e :: c) = all (fun x => x.1 < e.1)%N c && descending c.
Proof.
  rewrite /descending /= path_sortedE; last by move=> a b d /= H1 H2; apply: ltn_trans H2 H1.
  by rewrite all_map.
Qed.
Lemma descending_filter (c : column) (P : pred nat) : descending c -> descending [seq e <- c | P e.1].
Proof.
  elim: c => [//|e c IH]. rewrite descending_cons => /andP [A H] /=. case: ifP => _; last exact: IH.
  rewrite descending_cons IH // andbT. apply/allP => x. rewrite mem_filter => /andP [_ Hx]. exact: (allP A).
Qed.
Lemma drop_above_filter k (c : column) : descending c -> drop_above k c = [seq e <- c | (e.1 <= k)%N].
Proof.
  elim: c => [//|e c IH]. rewrite descending_cons => /andP [A H] /=. rewrite ltnNge. case: (leqP e.1 k) => /= E; last exact: IH.
  congr (_ :: _). apply/esym/all_filterP/allP => x /(allP A) Hx. exact: leq_trans (ltnW Hx) E.
Qed.

Lemma walk_spec i (l s : column) value :
  descending l -> i \in [seq e.1 | e <- l] -> all (fun e => i <= e.1)%N l ->
  descending s -> i \in [seq e.1 | e <- s] ->
  exists s', walk i l s value = Ok (entry l i, s', value - \sum_(e <- l | (i < e.1)%N) e.2 * entry s e.1)
    /\ drop_above i s' = [seq e <- s | (e.1 <= i)%N].
Proof.
  elim: l s value => [//|[k x] l IH] s value. rewrite descending_cons /= => /andP [Al Dl] Hi /andP [Hk Ai] Ds Hs.
  case: ifP => Hki.
  - have E : k = i by apply/eqP; rewrite eqn_leq Hki Hk.
    subst k. exists s. split; last exact: drop_above_filter.
    have -> : entry ((i, x) :: l) i = x.
    { rewrite entry_cons eqxx entry_out ?addr0 //. apply/negP => /mapP [e He E]. have := allP Al e He. by rewrite E ltnn. }
    congr (Ok (_, _, _)). rewrite big_cons /= ltnn big_seq_cond big1 ?subr0 //.
    move=> e /andP [He Hlt]. have := allP Al e He. by rewrite ltnNge (ltnW Hlt).
  - have Hlt : (i < k)%N by rewrite ltnNge Hki.
    have Hil : i \in [seq e.1 | e <- l]. { move: Hi. by rewrite inE (ltn_eqF Hlt). }
    rewrite drop_above_filter //. set s1 := [seq e <- s | (e.1 <= k)%N].
    have Ds1 : descending s1 by apply: (@descending_filter s (fun r => (r <= k)%N)).
    have Hs1 : i \in [seq e.1 | e <- s1].
    { case/mapP: Hs => e He E. apply/mapP. exists e => //. by rewrite mem_filter -E He andbT ltnW. }
    have E1 : forall r, (r <= k)%N -> entry s1 r = entry s r by move=> r Hr; apply: (@entry_filter s (fun r => (r <= k)%N)).
    have A1 : all (fun e => e.1 <= k)%N s1 by apply: filter_all.
    have F1 : [seq e <- s1 | (e.1 <= i)%N] = [seq e <- s | (e.1 <= i)%N].
    { rewrite -filter_predI. apply: eq_filter => e /=. case: (leqP e.1 i) => //= H. by rewrite (leq_trans H (ltnW Hlt)). }
    have Hbig : forall g : nat -> R, \sum_(e <- (k, x) :: l | (i < e.1)%N) e.2 * g e.1 = x * g k + \sum_(e <- l | (i < e.1)%N) e.2 * g e.1.
    { move=> g. by rewrite big_cons /= Hlt. }
    rewrite entry_cons (gtn_eqF Hlt) add0r.
    have Hl : forall c' : column, (forall r, (r < k)%N -> entry c' r = entry s r) ->
      \sum_(e <- l | (i < e.1)%N) e.2 * entry c' e.1 = \sum_(e <- l | (i < e.1)%N) e.2 * entry s e.1.
    { move=> c' Hc. rewrite big_seq_cond [RHS]big_seq_cond. apply: eq_bigr => e /andP [He _].
      by rewrite Hc //; apply: (allP Al e He). }
    case Es: s1 => [|[k' y] s2]; first by move: Hs1; rewrite Es.
    have Hk' : (k' <= k)%N by move: A1; rewrite Es /= => /andP [].
    move: (Ds1); rewrite Es descending_cons => /andP [A2 D2].
    case: eqP => E.
    + subst k'.
      have Hs2 : i \in [seq e.1 | e <- s2]. { move: Hs1. by rewrite Es inE (ltn_eqF Hlt). }
      have [s' [W1 W2]] := IH s2 (value - x * y) Dl Hil Ai D2 Hs2.
      exists s'. split.
      * rewrite W1 (Hbig (entry s)). congr (Ok (_, _, _)).
        have -> : entry s k = y.
        { rewrite -E1 // Es entry_cons eqxx entry_out ?addr0 //. apply/negP => /mapP [e He E]. have := allP A2 e He. by rewrite E ltnn. }
        rewrite (Hl s2); last first.
        { move=> r Hr. rewrite -E1 ?(ltnW Hr) // Es entry_cons (gtn_eqF Hr). by rewrite add0r. }
        by rewrite opprD addrA.
      * rewrite W2 -F1 Es /=. by rewrite leqNgt Hlt.
    + have Hk2 : (k' < k)%N by rewrite ltn_neqAle Hk' andbT; apply/eqP => E'; apply: E.
      have Hs2 : i \in [seq e.1 | e <- (k', y) :: s2] by rewrite -Es.
      have D3 : descending ((k', y) :: s2) by rewrite -Es.
      have [s' [W1 W2]] := IH ((k', y) :: s2) value Dl Hil Ai D3 Hs2.
      exists s'. split.
      * rewrite W1 (Hbig (entry s)). congr (Ok (_, _, _)).
        have -> : entry s k = 0.
        { rewrite -E1 // Es entry_out // inE negb_or /= (gtn_eqF Hk2) /=. apply/negP => /mapP [e He Ee].
          have := allP A2 e He. rewrite -Ee /= => H. by move: (ltn_trans H Hk2); rewrite ltnn. }
        rewrite (Hl ((k', y) :: s2)); last by move=> r Hr; rewrite -Es E1 // ltnW.
        by rewrite mulr0 add0r.
      * by rewrite W2 -F1 Es.
Qed.

Lemma set_nth_map (m i : nat) (F : nat -> column) x : (i < m)%N ->
  set_nth [::] [seq F c | c <- iota 0 m] i x = [seq (if c == i then x else F c) | c <- iota 0 m].
Proof.
  move=> Hi. apply: (@eq_from_nth _ [::]) => [|c].
  - rewrite size_set_nth !size_map !size_iota. by apply/maxn_idPr.
  - rewrite size_set_nth size_map size_iota (maxn_idPr Hi) => Hc.
    rewrite nth_set_nth /= !(nth_map 0%N) ?size_iota // !nth_iota // add0n.
Qed.
Lemma put_map r v (w : nat -> R) (rows : seq nat) :
  put r v [seq (k, w k) | k <- rows] = [seq (k, if k == r then v else w k) | k <- rows].
Proof. by rewrite /put -map_comp. Qed.

Section Takahashi.
Variables (n : nat) (f : factor n).
Let l (r c : nat) : R := entry (nth [::] (f_columns f) c) r.
Hypothesis Hcols : forall j, (j < n)%N ->
  [/\ sorted ltn [seq e.1 | e <- nth [::] (f_columns f) j],
      all (fun e => (j <= e.1 < n)%N) (nth [::] (f_columns f) j)
    & j \in [seq e.1 | e <- nth [::] (f_columns f) j]].
Hypothesis Hdiag : forall i, (i < n)%N -> l i i != 0.
Hypothesis Hclosed : forall i j k, (i < j)%N -> (j < k)%N -> (k < n)%N -> l j i != 0 -> l k i != 0 -> l k j != 0.
Variable z : nat -> nat -> R.
Hypothesis zsym : forall r c, z r c = z c r.
Hypothesis zrec : forall i j, (i <= j)%N -> (j < n)%N ->
  z j i * l i i = (if i == j then 1 / l i i else 0) - \sum_(k <- iota 0 n | (i < k)%N) l k i * z k j.

Lemma l_upper r c : (c < n)%N -> (r < c)%N -> l r c = 0.
Proof.
  move=> Hc Hr. apply: entry_out. apply/negP => /mapP [e He E]. case: (Hcols Hc) => _ /allP /(_ e He) /andP [H _] _.
  by move: Hr; rewrite E ltnNge H.
Qed.
Lemma two_nz (x : R) : x != 0 -> x + x != 0.
Proof. move=> /eqP; rewrite zeroE => H; apply/eqP => E; apply: H; move: E; toR; lra. Qed.
Lemma rows_diag i : (i < n)%N -> i \in rows_of_S f i.
Proof. by move=> H; rewrite mem_filter mem_iota add0n H !andbT; apply: two_nz; apply: Hdiag. Qed.
Lemma rows_below i j : (i < j)%N -> (j < n)%N -> (j \in rows_of_S f i) = (l j i != 0).
Proof. by move=> H Hj; rewrite mem_filter mem_iota add0n Hj !andbT -/(l j i) -/(l i j) (@l_upper i j) // addr0. Qed.
Lemma rows_sym i j : (i < n)%N -> (j < n)%N -> (i \in rows_of_S f j) = (j \in rows_of_S f i).
Proof. by move=> Hi Hj; rewrite !mem_filter !mem_iota !add0n Hi Hj !andbT addrC. Qed.
Lemma rows_lt r c : r \in rows_of_S f c -> (r < n)%N.
Proof. by rewrite mem_filter mem_iota => /andP [_]. Qed.

Definition table (K : nat -> nat -> bool) : seq column :=
  [seq [seq (r, if K (minn r c) (maxn r c) then z r c else 0) | r <- rows_of_S f c] | c <- iota 0 n].

Lemma nth_table K c : (c < n)%N ->
  nth [::] (table K) c = [seq (r, if K (minn r c) (maxn r c) then z r c else 0) | r <- rows_of_S f c].
Proof. by move=> H; rewrite /table (nth_map 0%N) ?size_iota // nth_iota // add0n. Qed.
Lemma table_ext K K' : (forall r c, (c < n)%N -> r \in rows_of_S f c -> K (minn r c) (maxn r c) = K' (minn r c) (maxn r c)) ->
  table K = table K'.
Proof.
  move=> H. apply/eq_in_map => c. rewrite mem_iota add0n => Hc. apply/eq_in_map => r Hr. by rewrite H.
Qed.

Lemma uniq_rows c : uniq (rows_of_S f c).
Proof. by apply: filter_uniq; apply: iota_uniq. Qed.
Lemma rev_descending (rows : seq nat) (v : nat -> R) : sorted ltn rows -> descending (rev [seq (r, v r) | r <- rows]).
Proof.
  move=> H. rewrite /descending map_rev -map_comp (eq_map (f2 := id)) ?map_id //. by rewrite rev_sorted.
Qed.
Lemma sorted_rows c : sorted ltn (rows_of_S f c).
Proof. by apply: (sorted_filter ltn_trans); apply: iota_ltn_sorted. Qed.

Lemma step_table (K : nat -> nat -> bool) i j : (i < n)%N -> (i <= j)%N -> j \in rows_of_S f i ->
  (forall k, (i < k)%N -> (k < n)%N -> l k i != 0 -> K (minn k j) (maxn k j)) ->
  step f i (table K) j = Ok (table (fun a b => K a b || (a == i) && (b == j))).
Proof.
  move=> Hi Hij Hj HK. have Hjn := rows_lt Hj. case: (Hcols Hi) => S1 A1 M1.
  set col := nth [::] (f_columns f) i in S1 A1 M1.
  pose v r := if K (minn r j) (maxn r j) then z r j else 0.
  have Hs : nth [::] (table K) j = [seq (r, v r) | r <- rows_of_S f j] by rewrite nth_table.
  have Dl : descending (rev col) by rewrite /descending map_rev rev_sorted.
  have Ml : i \in [seq e.1 | e <- rev col] by rewrite map_rev mem_rev.
  have Al : all (fun e => i <= e.1)%N (rev col) by rewrite all_rev; apply: sub_all A1 => e /andP [].
  have Dsj : descending (rev (nth [::] (table K) j)) by rewrite Hs; apply: rev_descending; apply: sorted_rows.
  have Ij : i \in rows_of_S f j by rewrite rows_sym.
  have Msj : i \in [seq e.1 | e <- rev (nth [::] (table K) j)].
  { rewrite map_rev mem_rev Hs -map_comp (eq_map (f2 := id)) ?map_id //. }
  have [s' [W1 W2]] := walk_spec 0 Dl Ml Al Dsj Msj.
  rewrite /step W1 /=.
  have -> : entry (rev col) i = l i i by rewrite entry_rev.
  have Esum : \sum_(e <- rev col | (i < e.1)%N) e.2 * entry (rev (nth [::] (table K) j)) e.1
            = \sum_(k <- iota 0 n | (i < k)%N) l k i * z k j.
  { rewrite (eq_bigr (fun e => e.2 * (if e.1 \in rows_of_S f j then v e.1 else 0))); last first.
    { move=> e _. by rewrite entry_rev Hs entry_map ?uniq_rows. }
    have -> : \sum_(e <- rev col | (i < e.1)%N) e.2 * (if e.1 \in rows_of_S f j then v e.1 else 0)
            = \sum_(e <- col | (i < e.1)%N) e.2 * (if e.1 \in rows_of_S f j then v e.1 else 0).
    { by apply: perm_big; rewrite perm_rev. }
    rewrite (@sum_entries col n (fun k => (i < k)%N) (fun k => if k \in rows_of_S f j then v k else 0)); last first.
    { apply: sub_all A1 => e /andP []. by []. }
    rewrite big_seq_cond [RHS]big_seq_cond. apply: eq_bigr => k /andP []. rewrite mem_iota add0n => Hk Hik.
    rewrite -/(l k i). case: (eqVneq (l k i) 0) => [-> | Nk]; first by rewrite !mul0r.
    congr (_ * _). have -> : k \in rows_of_S f j.
    { case: (ltngtP k j) => [Hkj | Hkj | ->]; last exact: rows_diag.
      - rewrite rows_sym // rows_below //. apply: (@Hclosed i k j) => //. move: Hj. by rewrite rows_below // (ltn_trans Hik Hkj).
      - rewrite rows_below //. case: (ltngtP i j) => [Hlt | | E].
        + apply: (@Hclosed i j k) => //. move: Hj. by rewrite rows_below.
        + by rewrite ltnNge Hij.
        + by rewrite -E. }
    by rewrite /v HK. }
  rewrite Esum sub0r.
  have Ev : (if i == j then (- (\sum_(k <- iota 0 n | (i < k)%N) l k i * z k j) + 1 / l i i) / l i i
             else - (\sum_(k <- iota 0 n | (i < k)%N) l k i * z k j) / l i i) = z j i.
  { have := zrec Hij Hjn. case: eqP => [E | _] H.
    - rewrite addrC -H mulfK //. exact: Hdiag.
    - rewrite sub0r in H. rewrite -H mulfK //. exact: Hdiag. }
  rewrite Ev. rewrite W2.
  have E3 : exists t, [seq e <- rev (nth [::] (table K) j) | (e.1 <= i)%N] = (i, v i) :: t.
  { rewrite Hs -map_rev.
    have : sorted gtn (rev (rows_of_S f j)) by rewrite rev_sorted; apply: sorted_rows.
    have : i \in rev (rows_of_S f j) by rewrite mem_rev.
    elim: (rev (rows_of_S f j)) => [//|r rs IH] /=. rewrite inE => Hin Hp.
    case: (leqP r i) => Hr.
    - have E : r = i.
      { apply/eqP; rewrite eqn_leq Hr /=. case/orP: Hin => [/eqP -> // | Hin].
        move: Hp. rewrite path_sortedE; last by move=> a b d /= H1 H2; apply: ltn_trans H2 H1.
        by case/andP => /allP /(_ _ Hin) /= /ltnW. }
      subst r. by eexists.
    - apply: IH; last by apply: path_sorted Hp.
      case/orP: Hin => [/eqP E | //]. by move: Hr; rewrite E ltnn. }
  case: E3 => t ->. congr Ok.
  have -> : set_nth [::] (table K) i (put j (z j i) (nth [::] (table K) i))
    = [seq (if c == i then put j (z j i) (nth [::] (table K) i)
            else [seq (r, if K (minn r c) (maxn r c) then z r c else 0) | r <- rows_of_S f c]) | c <- iota 0 n].
  { by rewrite {1}/table set_nth_map. }
  rewrite set_nth_map //. apply/eq_in_map => c. rewrite mem_iota add0n => Hc.
  rewrite (nth_map 0%N) ?size_iota // nth_iota // add0n !nth_table // !put_map.
  case: (eqVneq c j) => [-> {c Hc}|Ncj].
  - case: (eqVneq j i) => [E | Nji].
    + rewrite put_map E. apply/eq_in_map => r Hr. congr pair.
      case: (eqVneq r i) => [-> | Nr]; first by rewrite minnn maxnn !eqxx orbT.
      have -> : (minn r i == i) && (maxn r i == i) = false; last by rewrite orbF.
      by apply/negP => /andP [/eqP H1 /eqP H2]; move/eqP: Nr; apply; apply/eqP; rewrite eqn_leq; apply/andP; split; [rewrite -H2 leq_maxl | rewrite -{1}H1 geq_minl].
    + rewrite put_map. apply/eq_in_map => r Hr. congr pair.
      case: (eqVneq r i) => [-> | Nr].
      { rewrite (minn_idPl Hij) (maxn_idPr Hij) !eqxx orbT. exact: zsym. }
      have -> : (minn r j == i) && (maxn r j == j) = false; last by rewrite orbF.
      apply/negP => /andP [/eqP H1 /eqP H2]. move: H1. rewrite /minn. case: ifP => _ H1; [move/eqP: Nr | move/eqP: Nji]; by apply.
  - case: (eqVneq c i) => [-> {c Ncj Hc} | Nci].
    + apply/eq_in_map => r Hr. congr pair.
      case: (eqVneq r j) => [-> | Nr].
      { by rewrite (minn_idPr Hij) (maxn_idPl Hij) !eqxx orbT. }
      have -> : (minn r i == i) && (maxn r i == j) = false; last by rewrite orbF.
      apply/negP => /andP [/eqP]. rewrite /minn /maxn. case: ltnP => [Hri H1 _ | _ _ /eqP H].
      * by move: Hri; rewrite H1 ltnn.
      * by move/eqP: Nr; apply.
    + apply/eq_in_map => r Hr. congr pair.
      have -> : (minn r c == i) && (maxn r c == j) = false; last by rewrite orbF.
      apply/negP => /andP [/eqP H1 /eqP H2]. move: H1 H2. rewrite /minn /maxn.
      case: ifP => _ H1 H2; [move/eqP: Ncj | move/eqP: Nci]; by apply.
Qed.

Lemma inner_fold i done js : (i < n)%N -> done ++ js = [seq j <- rev (rows_of_S f i) | (i <= j)%N] ->
  foldR (step f i) (table (fun a b => (i < a)%N || (a == i) && (b \in done))) js
  = Ok (table (fun a b => (i < a)%N || (a == i) && (b \in done ++ js))).
Proof.
  move=> Hi. elim: js done => [|j js IH] done E; first by rewrite cats0.
  have Hj : j \in [seq j <- rev (rows_of_S f i) | (i <= j)%N] by rewrite -E mem_cat inE eqxx orbT.
  move: (Hj). rewrite mem_filter mem_rev => /andP [Hij Hjr].
  rewrite [foldR _ _ _]/= (@step_table _ i j) //=; last first.
  { move=> k Hik Hkn Hl. case: (ltngtP i j) => [Hlt | | Eij].
    - by rewrite leq_min Hik Hlt.
    - by rewrite ltnNge Hij.
    - subst j. rewrite (minn_idPr (ltnW Hik)) (maxn_idPl (ltnW Hik)) ltnn eqxx /=.
      have Hk : k \in done ++ i :: js by rewrite E mem_filter mem_rev (ltnW Hik) rows_below.
      move: Hk. rewrite mem_cat inE (gtn_eqF Hik) /= => /orP [// | Hk].
      have Sd : sorted gtn (done ++ i :: js).
      { rewrite E. apply: sorted_filter; first by move=> a b d /= H1 H2; apply: ltn_trans H2 H1.
        rewrite rev_sorted. exact: sorted_rows. }
      case: (cat_sorted2 Sd) => _ /=. rewrite path_sortedE; last by move=> a b d /= H1 H2; apply: ltn_trans H2 H1.
      case/andP => /allP /(_ k Hk) /= H _. by move: (ltn_trans H Hik); rewrite ltnn. }
  have -> : table (fun a b : nat => (i < a)%N || (a == i) && (b \in done) || (a == i) && (b == j))
          = table (fun a b : nat => (i < a)%N || (a == i) && (b \in rcons done j)).
  { apply: table_ext => r c Hc Hr. rewrite mem_rcons inE. case: (i < minn r c)%N => //=. case: (minn r c == i) => //=. exact: orbC. }
  rewrite IH; last by rewrite cat_rcons. by rewrite cat_rcons.
Qed.

Lemma outer_fold m : (m <= n)%N ->
  foldR (fun sigma i => foldR (step f i) sigma [seq j <- rev (rows_of_S f i) | (i <= j)%N])
        (table (fun a _ => (m <= a)%N)) (rev (iota 0 m))
  = Ok (table (fun _ _ => true)).
Proof.
  elim: m => [|m IH] Hm; first by [].
  have -> : rev (iota 0 m.+1) = m :: rev (iota 0 m) by rewrite -(addn1 m) iotaD rev_cat.
  rewrite [foldR _ _ _]/=.
  have -> : table (fun a _ => (m < a)%N) = table (fun a b => (m < a)%N || (a == m) && (b \in [::])).
  { apply: table_ext => r c _ _. by rewrite in_nil andbF orbF. }
  rewrite (@inner_fold m [::]) //= .
  have -> : table (fun a b => (m < a)%N || (a == m) && (b \in [seq j <- rev (rows_of_S f m) | (m <= j)%N]))
          = table (fun a _ => (m <= a)%N).
  { apply: table_ext => r c Hc Hr. rewrite [RHS]leq_eqVlt orbC eq_sym. case: (eqVneq m (minn r c)) => //= E.
    rewrite mem_filter mem_rev E. have -> : (minn r c <= maxn r c)%N by rewrite geq_min leq_maxl.
    have -> /= : maxn r c \in rows_of_S f (minn r c); last by [].
    have Hrn := rows_lt Hr. rewrite /minn /maxn. case: ltnP => H //. by rewrite rows_sym. }
  apply: IH. exact: ltnW.
Qed.

Lemma recursion_table : recursion f = Ok (table (fun _ _ => true)).
Proof.
  rewrite /recursion -(outer_fold (leqnn n)). congr (foldR _ _ _). rewrite /zeros_of_S /table.
  apply/eq_in_map => c. rewrite mem_iota add0n => Hc. apply/eq_in_map => r Hr.
  have Hcn : (c < n)%N := Hc. by rewrite leqNgt gtn_min Hcn orbT.
Qed.

Lemma dense_table (i j : 'I_n) :
  (@dense n (table (fun _ _ => true))) i j = if l i j + l j i != 0 then z i j else 0.
Proof.
  rewrite mxE nth_table // entry_map ?uniq_rows // mem_filter mem_iota add0n ltn_ord leq0n !andbT. by [].
Qed.
End Takahashi.

(* ---------- factors ---------- *)
Section Factor.
Variables (n : nat) (A : 'M[R]_n) (f : factor n).
Hypothesis HF : factor_of A f.
Let P := permutation_matrix f.

Lemma P_unit : P \in unitmx. Proof. exact: unitmx_perm. Qed.
Lemma P_tr : P^T *m P = 1%:M. Proof. by rewrite /P /permutation_matrix tr_perm_mx -perm_mxM mulVg perm_mx1. Qed.
Lemma tr_P : P *m P^T = 1%:M. Proof. by rewrite /P /permutation_matrix tr_perm_mx -perm_mxM mulgV perm_mx1. Qed.
Lemma conj_entry (M : 'M[R]_n) a b : (P *m M *m P^T) a b = M (f_P f a) (f_P f b).
Proof.
  by rewrite /P /permutation_matrix tr_perm_mx -row_permE -[row_perm _ _ *m _]col_permE !mxE.
Qed.
Lemma back_entry (M : 'M[R]_n) a b : (P^T *m M *m P) (f_P f a) (f_P f b) = M a b.
Proof.
  have -> : M a b = (P *m (P^T *m M *m P) *m P^T) a b; last by rewrite conj_entry.
  by rewrite !mulmxA tr_P mul1mx -mulmxA tr_P mulmx1.
Qed.

Lemma L_trig : is_trig_mx (L f).
Proof.
  case: HF => _ Hc _ _. apply/is_trig_mxP => i j Hij. rewrite mxE. apply: entry_out.
  apply/negP => /mapP [e He E]. case: (Hc j (ltn_ord j)) => _ /allP /(_ e He) /andP [H _] _.
  by move: Hij; rewrite E ltnNge H.
Qed.
Lemma L_pos i : (0 < L f i i)%coqR. Proof. by case: HF. Qed.
Lemma L_unit : L f \in unitmx. Proof. exact: factor_unit L_trig L_pos. Qed.
Lemma LT_unit : (L f)^T \in unitmx. Proof. by rewrite unitmx_tr L_unit. Qed.
Lemma A_eq : A = P^T *m (L f *m (L f)^T) *m P.
Proof. case: HF => _ _ _ ->. by rewrite !mulmxA P_tr mul1mx -!mulmxA P_tr mulmx1. Qed.
Lemma A_unit : A \in unitmx.
Proof. by rewrite A_eq !unitmx_mul unitmx_tr P_unit L_unit LT_unit. Qed.
Lemma A_sym : A^T = A.
Proof. by rewrite A_eq !trmx_mul !trmxK !mulmxA. Qed.
Lemma A_posdef : posdef A.
Proof.
  have -> : A = (P^T *m L f) *m (P^T *m L f)^T by rewrite A_eq trmx_mul trmxK !mulmxA.
  apply: factor_posdef. by rewrite unitmx_mul unitmx_tr P_unit L_unit.
Qed.

Lemma solve_A_spec m (b : 'M[R]_(n, m)) : solve_A f b = invmx A *m b.
Proof.
  rewrite -[LHS](mulKmx A_unit). congr (_ *m _). rewrite /solve_A {1}A_eq -/P.
  rewrite -!mulmxA (mulmxA P P^T) tr_P mul1mx (mulKVmx LT_unit) (mulKVmx L_unit) mulmxA P_tr mul1mx. by [].
Qed.

Lemma logdet_spec : logdet f = ln (\det A).
Proof.
  have E : \det A = (\prod_i L f i i) * (\prod_i L f i i).
  { rewrite -(det_factor L_trig) A_eq !det_mulmx det_tr. rewrite mulrC mulrA.
    have -> : \det P * \det P = 1 by rewrite -{2}det_tr -det_mulmx tr_P det1. by rewrite mul1r. }
  have H : forall r : seq 'I_n, (0 < (\prod_(i <- r) L f i i)%R)%coqR /\ ln (\prod_(i <- r) L f i i) = \sum_(i <- r) ln (L f i i).
  { elim=> [|i r [H1 H2]]; first by rewrite !big_nil; split; [rewrite oneE; lra | exact: ln_1].
    rewrite !big_cons. have Hi := L_pos i. split; first exact: Rmult_lt_0_compat.
    rewrite -H2. exact: ln_mult. }
  case: (H (index_enum _)) => H1 H2. rewrite /logdet E -H2 ln_mult //. by rewrite mulrDl !mul1r.
Qed.

Lemma inv_conj : invmx (L f *m (L f)^T) = P *m invmx A *m P^T.
Proof.
  have U : L f *m (L f)^T \in unitmx by rewrite unitmx_mul L_unit LT_unit.
  rewrite -[RHS](mulKmx U). rewrite -[LHS]mulmx1. congr (_ *m _). case: HF => _ _ _ ->.
  rewrite -/P !mulmxA -(mulmxA _ P^T P) P_tr mulmx1 -(mulmxA _ A) (mulmxV A_unit) mulmx1 tr_P. by [].
Qed.

(* the recursion holds of the elements of the inverse *)
Definition zof (Z : 'M[R]_n) (r c : nat) : R :=
  match insub r : option 'I_n, insub c : option 'I_n with Some a, Some b => Z a b | _, _ => 0 end.
Lemma zofE Z (i j : 'I_n) : zof Z i j = Z i j.
Proof. by rewrite /zof !valK. Qed.

Lemma upper_inverse (i j : 'I_n) : (i <= j)%N ->
  (invmx (L f *m (L f)^T) *m L f) j i = if i == j then 1 / L f i i else 0.
Proof.
  set X := _ *m L f.
  have HX : (L f)^T *m X = 1%:M.
  { have U : L f *m (L f)^T \in unitmx by rewrite unitmx_mul L_unit LT_unit.
    have -> : X = invmx (L f)^T by rewrite -[RHS](mulKmx U) /X -[in RHS]mulmxA (mulmxV LT_unit) mulmx1.
    exact: mulmxV LT_unit. }
  have T := L_trig. have trE : forall a b, (L f)^T a b = L f b a by move=> a b; rewrite [LHS]mxE.
  have Hrow : forall j : 'I_n, L f j j * X j i + \sum_(k : 'I_n | (j < k)%N) L f k j * X k i = (j == i)%:R.
  { move=> b. have : ((L f)^T *m X) b i = (b == i)%:R by rewrite HX mxE.
    rewrite mxE => <-. rewrite [RHS](bigID (fun k : 'I_n => (b <= k)%N)) /= [X in _ = _ + X]big1 ?addr0; last first.
    { move=> k. rewrite -ltnNge => Hk. rewrite trE (is_trig_mxP T) ?mul0r //. }
    rewrite [RHS](bigD1 b) //= trE. congr (_ + _). apply: eq_big => [k|k _]; last by rewrite trE.
    by rewrite ltn_neqAle andbC eq_sym. }
  have Nz : forall k, L f k k != 0 by move=> k; apply: pos_nz; apply: L_pos.
  have H0 : forall d (b : 'I_n), (n - b <= d)%N -> (i < b)%N -> X b i = 0.
  { elim=> [|d IH] b Hd Hb.
    - by move: Hd; rewrite leqn0 subn_eq0 leqNgt ltn_ord.
    - have := Hrow b. have -> : (b == i) = false by apply/negP => /eqP E; move: Hb; rewrite E ltnn.
      rewrite big1 ?addr0; last first.
      { move=> k Hk. rewrite IH ?mulr0 //; last exact: ltn_trans Hk.
        have := ltn_ord k. move=> Hkn. rewrite leq_subLR in Hd. rewrite leq_subLR.
        apply: (leq_trans Hd). by rewrite addnS -addSn leq_add2r. }
      move/eqP. rewrite mulf_eq0 (negbTE (Nz b)) /= => /eqP. by []. }
  move=> Hij. case: (eqVneq i j) => [E | N].
  - subst j. have := Hrow i. rewrite eqxx big1 ?addr0; last by move=> k Hk; rewrite (H0 n) ?mulr0 // leq_subr.
    move=> E. rewrite -[X i i](mulKf (Nz i)) E mulrC. by [].
  - apply: (H0 n); first exact: leq_subr. by rewrite ltn_neqAle Hij andbT.
Qed.

Lemma Q_inv_spec : no_cancellation f -> exists S,
  Q_inv f = Ok S /\ forall a b, S (f_P f a) (f_P f b) = if L f a b + L f b a != 0 then invmx A (f_P f a) (f_P f b) else 0.
Proof.
  move=> NC. set Z := invmx (L f *m (L f)^T). case: (HF) => Hsz Hcols Hpos HLL.
  pose l (r c : nat) : R := entry (nth [::] (f_columns f) c) r.
  have lE : forall i j : 'I_n, l i j = L f i j by move=> i j; rewrite mxE.
  have ZT : Z^T = Z by rewrite /Z trmx_inv trmx_mul trmxK.
  have Hdiag : forall i, (i < n)%N -> l i i != 0.
  { move=> i Hi. have := lE (Ordinal Hi) (Ordinal Hi) => /= ->. apply: pos_nz. exact: Hpos. }
  have Hclosed : forall i j k, (i < j)%N -> (j < k)%N -> (k < n)%N -> l j i != 0 -> l k i != 0 -> l k j != 0.
  { move=> i j k Hij Hjk Hk. have Hj := ltn_trans Hjk Hk. have Hi := ltn_trans Hij Hj.
    have := NC (Ordinal Hi) (Ordinal Hj) (Ordinal Hk) Hij Hjk. by rewrite -!lE. }
  have zsym : forall r c, zof Z r c = zof Z c r.
  { move=> r c. rewrite /zof. case: insubP => [a _ _|_]; case: insubP => [b _ _|_] //. by rewrite -{1}ZT [LHS]mxE. }
  have zrec : forall i j, (i <= j)%N -> (j < n)%N ->
    zof Z j i * l i i = (if i == j then 1 / l i i else 0) - \sum_(k <- iota 0 n | (i < k)%N) l k i * zof Z k j.
  { move=> i j Hij Hj. have Hi := leq_ltn_trans Hij Hj.
    pose i' := Ordinal Hi. pose j' := Ordinal Hj.
    have := @upper_inverse i' j' Hij. rewrite -/Z mxE (bigID (fun k : 'I_n => (i <= k)%N)) /= [X in _ + X]big1 ?addr0; last first.
    { move=> k. rewrite -ltnNge => Hk. by rewrite (is_trig_mxP L_trig k i' Hk) mulr0. }
    rewrite (bigD1 i') //=. have -> : (i' == j') = (i == j) by [].
    have -> : zof Z j i = Z j' i' by rewrite -zofE.
    have -> : l i i = L f i' i' by rewrite -lE.
    move=> <-.
    have -> : \sum_(k <- iota 0 n | (i < k)%N) l k i * zof Z k j = \sum_(k < n | (i < k)%N) L f k i' * Z k j'.
    { have -> : iota 0 n = index_iota 0 n by rewrite /index_iota subn0.
      rewrite big_mkord. apply: eq_bigr => k _. by rewrite -lE -zofE. }
    have -> : \sum_(k < n | (i <= k)%N && (k != i')) Z j' k * L f k i' = \sum_(k < n | (i < k)%N) L f k i' * Z k j'.
    { apply: eq_big => [k|k _]; first by rewrite ltn_neqAle andbC eq_sym.
      rewrite mulrC. congr (_ * _). by rewrite -{1}ZT [LHS]mxE. }
    by rewrite addrK. }
  have Hrec := @recursion_table n f Hcols Hdiag Hclosed (zof Z) zsym zrec.
  exists (P^T *m dense n (table f (zof Z) (fun _ _ => true)) *m P). split.
  - by rewrite /Q_inv Hrec.
  - move=> a b. rewrite back_entry. rewrite dense_table.
    rewrite -!lE. case: ifP => // _. rewrite zofE /Z inv_conj conj_entry. by [].
Qed.
End Factor.

(* the matrix is zero where the factor is *)
Lemma within_self n (A : 'M[R]_n) f : factor_of A f -> no_cancellation f -> within_factor f A.
Proof.
  move=> HF NC a b HA. have T := L_trig HF. have Dg := L_pos HF.
  have E : A (f_P f a) (f_P f b) = \sum_k L f a k * L f b k.
  { rewrite -conj_entry. case: HF => _ _ _ <-. rewrite [LHS]mxE. apply: eq_bigr => k _. by rewrite [(_^T)%R _ _]mxE. }
  have K : forall a b : 'I_n, (b < a)%N -> \sum_k L f a k * L f b k != 0 -> L f a b != 0.
  { move=> x y Hxy H. have : exists k, L f x k * L f y k != 0.
    { apply/existsP. apply: contraR H => /existsPn H. rewrite big1 // => k _. by apply/eqP; move: (H k); rewrite negbK. }
    case=> k. rewrite mulf_eq0 negb_or => /andP [Hx Hy].
    case: (ltngtP k y) => [Hky | Hky | Eky].
    - exact: (NC k y x).
    - by move: Hy; rewrite (is_trig_mxP T y k Hky) eqxx.
    - by have <- : k = y by apply: val_inj. }
  case: (ltngtP a b) => [Hab | Hab | Eab].
  - rewrite (is_trig_mxP T a b Hab) add0r. apply: K => //. rewrite E in HA.
    by rewrite (eq_bigr (fun k => L f a k * L f b k)) // => k _; rewrite mulrC.
  - rewrite (is_trig_mxP T b a Hab) addr0. apply: K => //. by rewrite -E.
  - have -> : a = b by apply: val_inj. apply: two_nz. apply: pos_nz. exact: Dg.
Qed.

Lemma trace_spec n (A M : 'M[R]_n) f : factor_of A f -> no_cancellation f -> within_factor f M ->
  exists S, Q_inv f = Ok S /\ trace_iQ_dQdp S M = \tr (invmx A *m M).
Proof.
  move=> HF NC W. case: (Q_inv_spec HF NC) => S [E HS]. exists S. split=> //.
  rewrite /trace_iQ_dQdp. apply: eq_bigr => i _. rewrite [LHS]mxE [RHS]mxE. apply: eq_bigr => j _.
  have Ei : i = f_P f ((f_P f)^-1%g i) by rewrite permKV. have Ej : j = f_P f ((f_P f)^-1%g j) by rewrite permKV.
  rewrite {1}Ei {1}Ej HS -Ei -Ej. case: eqP => //= H.
  have -> : M j i = 0; last by rewrite !mulr0.
  apply/eqP. apply/negPn/negP => H1. have := W ((f_P f)^-1%g j) ((f_P f)^-1%g i). rewrite -Ei -Ej => /(_ H1).
  by rewrite addrC H eqxx.
Qed.

(* ---------- scalar products ---------- *)
Definition ip n (u v : 'cV[R]_n) : R := (u^T *m v) 0 0.
Lemma ipC n (u v : 'cV[R]_n) : ip u v = ip v u.
Proof. by rewrite /ip -[in RHS](trmxK u) -trmx_mul [RHS]mxE. Qed.
Lemma ipDl n (u v w : 'cV[R]_n) : ip (u + v) w = ip u w + ip v w.
Proof. by rewrite /ip linearD /= mulmxDl mxE. Qed.
Lemma ipDr n (u v w : 'cV[R]_n) : ip u (v + w) = ip u v + ip u w.
Proof. by rewrite /ip mulmxDr mxE. Qed.
Lemma ipNl n (u w : 'cV[R]_n) : ip (- u) w = - ip u w.
Proof. by rewrite /ip linearN /= mulNmx mxE. Qed.
Lemma ipNr n (u w : 'cV[R]_n) : ip u (- w) = - ip u w.
Proof. by rewrite /ip mulmxN mxE. Qed.
Lemma ip0l n (w : 'cV[R]_n) : ip 0 w = 0.
Proof. by rewrite /ip trmx0 mul0mx mxE. Qed.
Lemma ipM m n (M : 'M[R]_(m, n)) u v : ip u (M *m v) = ip (M^T *m u) v.
Proof. by rewrite /ip trmx_mul trmxK mulmxA. Qed.
Lemma ipS n (M : 'M[R]_n) u v : M^T = M -> ip u (M *m v) = ip v (M *m u).
Proof. by move=> H; rewrite ipM H ipC. Qed.
Lemma quadE n (A : 'M[R]_n) x : quad x A = ip x (A *m x).
Proof. by rewrite /quad /ip mulmxA. Qed.

(* ---------- the cost function ---------- *)
Definition half : R := (/ 2)%coqR.
Definition post_mean n (Q K : 'M[R]_n) (m i : 'cV[R]_n) := invmx (Q + K) *m (Q *m m + i).
Definition cost_value n (Q : 'M[R]_n) (s m i : 'cV[R]_n) (K : 'M[R]_n) : R :=
  half * (ln (\det (Q + K)) - ln (\det Q)) + half * ip (m - s) (Q *m (m - s))
  - half * ip (post_mean Q K m i - s) ((Q + K) *m (post_mean Q K m i - s)).

Lemma library_ok n chol (A : 'M[R]_n) : library chol -> posdef A -> exists f, chol A = Ok f /\ factor_of A f.
Proof.
  move=> HL PA. case: (PA) => SA _. have := HL A SA. case: (chol A) => [f | e] H; last by case: H. by exists f.
Qed.

Lemma cost_alg (a b c d e g : R) :
  - 0 - (- half * a * b + half * c - half * d) + (- half * a * b + half * e - half * g)
  = half * (e - c) + half * d - half * g.
Proof. rewrite /half. toR. lra. Qed.

Lemma cost_term_spec n chol (Q K : 'M[R]_n) f s m i : library chol -> factor_of Q f -> posdef Q -> possemidef K ->
  cost_term chol Q f s m i K = Ok (cost_value Q s m i K).
Proof.
  move=> HL HF PQ PK. rewrite /cost_term. case: (library_ok HL (posdef_add PQ PK)) => f' [-> HF'] /=.
  rewrite (solve_A_spec HF') -/(post_mean Q K m i) /gaussian_loglikelihood (logdet_spec HF) (logdet_spec HF').
  by rewrite -!/(ip _ _) cost_alg.
Qed.

Lemma cost_function_spec n chol (Q : seq R -> 'M[R]_n) theta s m i K :
  library chol -> posdef (Q theta) -> possemidef K ->
  cost_function chol Q s theta m i K = Ok (cost_value (Q theta) s m i K).
Proof.
  move=> HL PQ PK. rewrite /cost_function. case: (library_ok HL PQ) => f [-> HF] /=. exact: cost_term_spec.
Qed.

(* ---------- gradients ---------- *)
Lemma D_eq f x a b : D f x a -> a = b -> D f x b. Proof. by move=> H <-. Qed.
Lemma DM_eq m n (A : R -> 'M[R]_(m, n)) x a b : DM A x a -> a = b -> DM A x b. Proof. by move=> H <-. Qed.
Lemma D_ip n (u v : R -> 'cV[R]_n) x u' v' : DM u x u' -> DM v x v' ->
  D (fun t => ip (u t) (v t)) x (ip u' (v x) + ip (u x) v').
Proof.
  move=> Hu Hv. have := DM_mul (DM_tr Hu) Hv => /(_ 0 0). by rewrite [X in D _ _ X]mxE.
Qed.
Lemma D_lndet n (A : R -> 'M[R]_n) x A' : DM A x A' -> posdef (A x) ->
  D (fun t => ln (\det (A t))) x (\tr (invmx (A x) *m A')).
Proof.
  move=> H P. have Dp := posdef_det P. have := D_ln (f := fun t => \det (A t)) Dp (D_det_trace H (posdef_unit P)).
  move/D_eq; apply. rewrite mulrC mulKf; [exact: mxtrace_mulC | exact: pos_nz].
Qed.

Definition cost_slope n (Q dQ K : 'M[R]_n) (s m i : 'cV[R]_n) : R :=
  let mu := post_mean Q K m i in
  let mu' := - (invmx (Q + K) *m (dQ *m (mu - m))) in
  - 0 - (half * \tr (invmx Q *m dQ) - half * ip (m - s) (dQ *m (m - s)) - ip 0 (Q *m (m - s)))
  + (half * \tr (invmx (Q + K) *m dQ) - half * ip (mu - s) (dQ *m (mu - s)) - ip mu' ((Q + K) *m (mu - s))).

Lemma slope_alg (a b c d e : R) :
  half * (a - b) + half * (0 + c) - half * (e + (d + e)) = - 0 - (half * b - half * c - 0) + (half * a - half * d - e).
Proof. rewrite /half. toR. lra. Qed.

Lemma cost_value_D n (Q : R -> 'M[R]_n) (dQ : 'M[R]_n) x (K : 'M[R]_n) s m i :
  DM Q x dQ -> (forall t, posdef (Q t)) -> possemidef K ->
  D (fun t => cost_value (Q t) s m i K) x (cost_slope (Q x) dQ K s m i).
Proof.
  move=> HQ PQ PK. have PP t : posdef (Q t + K) := posdef_add (PQ t) PK.
  have HP : DM (fun t => Q t + K) x dQ by have := DM_add HQ (DM_const K x); move/DM_eq; apply; rewrite addr0.
  have HI := DM_inv HP (fun t => posdef_unit (PP t)).
  pose mu t := post_mean (Q t) K m i.
  pose mu' := - (invmx (Q x + K) *m (dQ *m (mu x - m))).
  have Hmu : DM mu x mu'.
  { have := DM_mul HI (DM_add (DM_mul HQ (DM_const m x)) (DM_const i x)). move/DM_eq; apply.
    rewrite mulmx0 !addr0 mulNmx /mu' mulmxBr -!mulmxA -/(post_mean (Q x) K m i) -/(mu x) mulmxBr opprB addrC. by []. }
  have Hms : DM (fun t => mu t - s) x mu' by have := DM_sub Hmu (DM_const s x); move/DM_eq; apply; rewrite subr0.
  have H1 := D_sub (D_lndet HP (PP x)) (D_lndet HQ (PQ x)).
  have H2 := D_ip (DM_const (m - s) x) (DM_mul HQ (DM_const (m - s) x)).
  have H3 := D_ip Hms (DM_mul HP Hms).
  have := D_sub (D_add (D_scale half H1) (D_scale half H2)) (D_scale half H3). move/D_eq; apply.
  rewrite /cost_slope -/(mu x) -/mu' mulmx0 addr0 !ip0l ipDr.
  have SP : (Q x + K)^T = Q x + K by case: (PP x).
  rewrite (@ipS _ (Q x + K) (mu x - s) mu' SP). exact: slope_alg.
Qed.

(* ---------- derivatives of the cost function ---------- *)
Definition patterns n chol (Q : seq R -> 'M[R]_n) (dQ : seq R -> nat -> 'M[R]_n) (theta : seq R) (K : 'M[R]_n) : Prop :=
  forall f, chol (Q theta + K) = Ok f -> no_cancellation f /\ forall k, (k < size theta)%N -> within_factor f (dQ theta k).

Lemma slopes_spec n chol (Q : seq R -> 'M[R]_n) dQ theta S s m i K f :
  library chol -> posdef (Q theta) -> possemidef K -> patterns chol Q dQ theta K -> factor_of (Q theta) f ->
  (forall k, (k < size theta)%N -> trace_iQ_dQdp S (dQ theta k) = \tr (invmx (Q theta) *m dQ theta k)) ->
  derivative_terms chol dQ theta (Q theta) S s m i K
  = Ok [seq cost_slope (Q theta) (dQ theta k) K s m i | k <- iota 0 (size theta)].
Proof.
  move=> HL PQ PK Hp HF HS. rewrite /derivative_terms.
  case: (library_ok HL (posdef_add PQ PK)) => f' [Ef HF']. rewrite Ef /=. case: (Hp _ Ef) => NC W.
  case: (Q_inv_spec HF' NC) => S' [E' _]. rewrite E' /=. congr Ok. apply/eq_in_map => k. rewrite mem_iota add0n => Hk.
  case: (trace_spec HF' NC (W k Hk)) => S'' [E'' T]. have ES : S'' = S' by rewrite E' in E''; case: E''.
  rewrite ES in T. rewrite !(solve_A_spec HF') -/(post_mean (Q theta) K m i) /gaussian_loglikelihood_derivative T HS //.
Qed.

Lemma trace_table n (A : 'M[R]_n) f (dQ : nat -> 'M[R]_n) d : factor_of A f -> no_cancellation f ->
  (forall k, (k < d)%N -> within_factor f (dQ k)) ->
  exists S, Q_inv f = Ok S /\ forall k, (k < d)%N -> trace_iQ_dQdp S (dQ k) = \tr (invmx A *m dQ k).
Proof.
  move=> HF NC W. case: (Q_inv_spec HF NC) => S [E _]. exists S. split=> // k Hk.
  case: (trace_spec HF NC (W k Hk)) => S' [E' T]. rewrite E in E'. by case: E' => ->.
Qed.

Lemma cost_derivative_spec n chol (Q : seq R -> 'M[R]_n) dQ theta s m i K :
  library chol -> posdef (Q theta) -> possemidef K -> patterns chol Q dQ theta 0 -> patterns chol Q dQ theta K ->
  cost_derivative chol Q dQ s theta m i K
  = Ok [seq cost_slope (Q theta) (dQ theta k) K s m i | k <- iota 0 (size theta)].
Proof.
  move=> HL PQ PK Hp0 Hp. rewrite /cost_derivative. case: (library_ok HL PQ) => f [Ef HF]. rewrite Ef /=.
  case: (Hp0 f); first by rewrite addr0. move=> NC W.
  case: (trace_table HF NC W) => S [-> HS] /=. exact: (slopes_spec s m i HL PQ PK Hp HF HS).
Qed.

Lemma with_at (theta : seq R) k : (k < size theta)%N -> with_parameter theta k (nth 0 theta k) = theta.
Proof. move=> H. rewrite /with_parameter. apply: (@eq_from_nth _ 0) => [|i Hi]; first by rewrite size_set_nth; apply/maxn_idPr. by rewrite nth_set_nth /=; case: eqP => [->|]. Qed.

Lemma derivative_DM n (Q : seq R -> 'M[R]_n) dQ theta k : derivative_of Q dQ theta -> (k < size theta)%N ->
  DM (fun t => Q (with_parameter theta k t)) (nth 0 theta k) (dQ theta k).
Proof. move=> H Hk i j. exact: H. Qed.

Lemma slope_D n (Q : seq R -> 'M[R]_n) dQ theta k s m i K : derivative_of Q dQ theta -> (k < size theta)%N ->
  (forall theta', size theta' = size theta -> posdef (Q theta')) -> possemidef K ->
  D (fun t => cost_value (Q (with_parameter theta k t)) s m i K) (nth 0 theta k) (cost_slope (Q theta) (dQ theta k) K s m i).
Proof.
  move=> HD Hk PQ PK. have := cost_value_D s m i (derivative_DM HD Hk) _ PK. rewrite with_at //. apply.
  move=> t. apply: PQ. rewrite size_set_nth. exact/maxn_idPr.
Qed.

(* ---------- replicates ---------- *)
Definition rcost n (Q : 'M[R]_n) (r : replicate n) := cost_value Q (r_set_point r) (r_prior_mean r) (r_i_increment r) (r_Q_increment r).
Definition rslope n (Q dQ : 'M[R]_n) (r : replicate n) := cost_slope Q dQ (r_Q_increment r) (r_set_point r) (r_prior_mean r) (r_i_increment r).

Lemma replicates_cost_spec n chol (Q : seq R -> 'M[R]_n) theta rs : library chol -> posdef (Q theta) ->
  (forall r, List.In r rs -> possemidef (r_Q_increment r)) -> rs <> [::] ->
  replicates_cost_function chol Q theta rs = Ok (\sum_(r <- rs) rcost (Q theta) r).
Proof.
  move=> HL PQ PK N. rewrite /replicates_cost_function. case: (library_ok HL PQ) => f [-> HF] /=.
  have G : forall c, (forall r, List.In r rs -> possemidef (r_Q_increment r)) -> foldR (fun cf_value r => let! v := cost_term chol (Q theta) f (r_set_point r) (r_prior_mean r) (r_i_increment r) (r_Q_increment r) in Ok (cf_value + v)) c rs
     = Ok (c + \sum_(r <- rs) rcost (Q theta) r).
  { clear N PK. elim: rs => [|r rs IH] c PK /=; first by rewrite big_nil addr0.
    rewrite (cost_term_spec (r_set_point r) (r_prior_mean r) (r_i_increment r) HL HF PQ (PK r _)) /=; last by left.
    rewrite IH; last by move=> r' H'; apply: PK; right. by rewrite big_cons addrA. }
  rewrite G //= add0r. by case: rs N {PK G}.
Qed.
Lemma replicates_cost_none n chol (Q : seq R -> 'M[R]_n) theta : library chol -> posdef (Q theta) ->
  replicates_cost_function chol Q theta [::] = Err Base.AttributeError.
Proof. move=> HL PQ. rewrite /replicates_cost_function. by case: (library_ok HL PQ) => f [-> HF]. Qed.

Lemma replicates_derivative_spec n chol (Q : seq R -> 'M[R]_n) dQ theta rs : library chol -> posdef (Q theta) ->
  (forall r, List.In r rs -> possemidef (r_Q_increment r) /\ patterns chol Q dQ theta (r_Q_increment r)) ->
  patterns chol Q dQ theta 0 ->
  replicates_cost_derivative chol Q dQ theta rs
  = Ok [seq \sum_(r <- rs) rslope (Q theta) (dQ theta k) r | k <- iota 0 (size theta)].
Proof.
  move=> HL PQ PK Hp0. rewrite /replicates_cost_derivative. case: (library_ok HL PQ) => f [Ef HF]. rewrite Ef /=.
  case: (Hp0 f); first by rewrite addr0. move=> NC W.
  case: (trace_table HF NC W) => S [-> HS] /=.
  have -> : nseq (size theta) 0 = [seq 0 : R | k <- iota 0 (size theta)] by rewrite -{1}(size_iota 0 (size theta)); elim: (iota 0 (size theta)) => //= a l ->.
  have G : forall c : nat -> R, foldR (fun cf_derivative r => let! v := derivative_terms chol dQ theta (Q theta) S (r_set_point r) (r_prior_mean r) (r_i_increment r) (r_Q_increment r) in Ok [seq x.1 + x.2 | x <- zip cf_derivative v]) [seq c k | k <- iota 0 (size theta)] rs
     = Ok [seq c k + \sum_(r <- rs) rslope (Q theta) (dQ theta k) r | k <- iota 0 (size theta)].
  { elim: rs PK => [|r rs IH] PK c /=.
    - congr Ok. apply: eq_map => k. by rewrite big_nil addr0.
    - case: (PK r (or_introl erefl)) => K1 K2. rewrite (slopes_spec (r_set_point r) (r_prior_mean r) (r_i_increment r) HL PQ K1 K2 HF HS) /=.
      have -> : [seq x.1 + x.2 | x <- zip [seq c k | k <- iota 0 (size theta)]
         [seq cost_slope (Q theta) (dQ theta k) (r_Q_increment r) (r_set_point r) (r_prior_mean r) (r_i_increment r) | k <- iota 0 (size theta)]]
         = [seq c k + rslope (Q theta) (dQ theta k) r | k <- iota 0 (size theta)].
      { by elim: (iota 0 (size theta)) => //= a l ->. }
      rewrite IH; last by move=> r' H'; apply: PK; right. congr Ok. apply: eq_map => k. by rewrite big_cons addrA. }
  rewrite G. congr Ok. apply: eq_map => k. by rewrite add0r.
Qed.

(* ---------- the cost function is a likelihood ---------- *)
Lemma sylvester p n (U : 'M[R]_(p, n)) (V : 'M[R]_(n, p)) : \det (1%:M + U *m V) = \det (1%:M + V *m U).
Proof.
  have E : block_mx (1%:M + U *m V) (- U) 0 1%:M *m block_mx 1%:M 0 V 1%:M
         = block_mx 1%:M 0 V 1%:M *m block_mx 1%:M (- U) 0 (1%:M + V *m U).
  { rewrite !mulmx_block !mulmx1 !mul1mx !mulmx0 !mul0mx !addr0 !add0r mulNmx addrK mulmxN addrCA addNr addr0. by []. }
  move/(congr1 (fun M => \det M)): E. by rewrite !det_mulmx !det_ublock !det_lblock !det1 !mulr1 !mul1r.
Qed.

Section Likelihood.
Variables (n p : nat) (Q : 'M[R]_n) (A : 'M[R]_(p, n)) (Rp : 'M[R]_p) (y : 'cV[R]_p).
Hypothesis PQ : posdef Q.
Hypothesis PR : posdef Rp.
Let K := A^T *m Rp *m A.
Let P := Q + K.
Let Sigma := invmx Rp + A *m invmx Q *m A^T.

Lemma K_semi : possemidef K.
Proof.
  case: PR => SR QR. split; first by rewrite /K !trmx_mul trmxK SR mulmxA.
  move=> x. have -> : quad x K = quad (A *m x) Rp by rewrite /quad /K trmx_mul !mulmxA.
  case: (eqVneq (A *m x) 0) => [-> | N]; last by apply: Rlt_le; apply: QR.
  by rewrite /quad mulmx0 mxE; apply: Rle_refl.
Qed.
Lemma P_pos : posdef P. Proof. exact: posdef_add PQ K_semi. Qed.

Lemma det_Sigma : \det Sigma * \det Rp * \det Q = \det P.
Proof.
  have UQ := posdef_unit PQ. have UR := posdef_unit PR.
  have -> : \det Sigma * \det Rp = \det (1%:M + A *m (invmx Q *m A^T *m Rp)).
  { rewrite -det_mulmx /Sigma mulmxDl mulVmx // !mulmxA. by []. }
  rewrite sylvester mulrC -det_mulmx. congr (\det _).
  rewrite mulmxDr mulmx1 !mulmxA mulmxV // mul1mx. by [].
Qed.
Lemma Sigma_inv : Sigma *m (Rp - Rp *m A *m invmx P *m A^T *m Rp) = 1%:M.
Proof.
  have UQ := posdef_unit PQ. have UR := posdef_unit PR. have UP := posdef_unit P_pos.
  have E : invmx Q = invmx P + invmx Q *m K *m invmx P.
  { rewrite -[LHS](mulmxK UP) {1}/P mulmxDr mulVmx // mulmxDl mul1mx. by []. }
  rewrite /Sigma mulmxBr !mulmxDl mulVmx // !mulmxA mulVmx // mul1mx.
  set Y := A *m invmx Q *m A^T *m Rp *m A *m invmx P *m A^T *m Rp.
  have -> : A *m invmx Q *m A^T *m Rp = A *m invmx P *m A^T *m Rp + Y.
  { rewrite {1}E mulmxDr !mulmxDl /Y /K !mulmxA. by []. }
  by rewrite addrK.
Qed.
Lemma Sigma_invE : invmx Sigma = Rp - Rp *m A *m invmx P *m A^T *m Rp.
Proof.
  have [U _] := mulmx1_unit Sigma_inv. by rewrite -[RHS](mulKmx U) Sigma_inv mulmx1.
Qed.
Lemma det_Sigma_pos : (0 < \det Sigma)%coqR.
Proof.
  have H := det_Sigma. have HP := posdef_det P_pos. have HQ := posdef_det PQ. have HR := posdef_det PR.
  rewrite -H in HP. apply: (Rmult_lt_reg_r (\det Rp * \det Q)); first exact: Rmult_lt_0_compat.
  rewrite Rmult_0_l -mulE mulrA. exact: HP.
Qed.

Lemma lik_alg1 (a b c : R) : half * (a + b + c - c) = half * a + half * b.
Proof. rewrite /half. toR. lra. Qed.
Lemma lik_alg2 (ls lr mqm sqm sqs uw mw mkm skm sks sw dd pp ll : R) :
  half * (ls + lr) + half * (mqm - sqm + (- sqm - - sqs))
  - half * (uw + mw - sw + (mw + (mqm + mkm) - (sqm + skm)) + (- sw - (sqm + skm) - - (sqs + sks)))
  = (/ 2)%coqR * pp * ll + (/ 2)%coqR * ls + (/ 2)%coqR * (dd - uw)
    + (- half * pp * ll + half * lr - half * (dd + mw + mw + mkm) + (sw + skm) - half * sks).
Proof. rewrite /half. toR. lra. Qed.

Definition constant (s : 'cV[R]_n) : R :=
  - half * p%:R * ln (2 * PI)%coqR + half * ln (\det Rp) - half * ip y (Rp *m y)
  + ip (A^T *m Rp *m y) s - half * ip s (K *m s).

Lemma likelihood m s :
  cost_value Q s m (A^T *m Rp *m y) K = minus_log_density (A *m m) Sigma y + constant s.
Proof.
  have UP := posdef_unit P_pos. have SP : P^T = P by case: P_pos. have SQ : Q^T = Q by case: PQ.
  have SR : Rp^T = Rp by case: PR. have SK : K^T = K by case: K_semi.
  rewrite /cost_value /minus_log_density /constant -/P.
  have -> : ln (\det P) - ln (\det Q) = ln (\det Sigma) + ln (\det Rp).
  { rewrite -det_Sigma. have HQ := posdef_det PQ. have HR := posdef_det PR. have HS := det_Sigma_pos.
    rewrite ln_mult //; last exact: Rmult_lt_0_compat. rewrite ln_mult //. by rewrite -addE addrK. }
  have [d Ed] : exists d, d = y - A *m m by eexists. rewrite -Ed.
  have Ey : y = d + A *m m by rewrite Ed subrK. clear Ed.
  set i := A^T *m Rp *m y.
  have Ei : Q *m m + i = A^T *m (Rp *m d) + P *m m.
  { rewrite /i Ey mulmxDr /P mulmxDl /K !mulmxA addrCA addrA. by []. }
  set w := A^T *m (Rp *m d) in Ei *. set u := invmx P *m w.
  have -> : post_mean Q K m i = u + m by rewrite /post_mean -/P Ei mulmxDr (mulKmx UP).
  have Pu : P *m u = w by rewrite /u mulKVmx.
  have Edd : (d^T *m invmx Sigma *m d) 0 0 = ip d (Rp *m d) - ip u w.
  { rewrite Sigma_invE mulmxBr mulmxBl [LHS]mxE [X in _ + X]mxE. congr (_ - _); first by rewrite /ip mulmxA.
    rewrite (ipC u w) /u /w /ip !trmx_mul trmxK SR !mulmxA. by []. }
  rewrite Edd. 
  have Eyy : ip y (Rp *m y) = ip d (Rp *m d) + ip m w + ip m w + ip m (K *m m).
  { rewrite Ey mulmxDr ipDl !ipDr /w /K -!mulmxA. rewrite (ipM (A^T) m) trmxK. rewrite (ipS d (A *m m) SR).
    rewrite (ipM A^T m (Rp *m (A *m m))) trmxK !addrA. by []. }
  have Eis : ip i s = ip s w + ip s (K *m m).
  { rewrite ipC -ipDr. congr (ip s _). rewrite /i /w /K Ey mulmxDr !mulmxA. by []. }
  rewrite Eyy Eis. rewrite !mulmxDr !mulmxN Pu !ipDl !ipDr !ipNl !ipNr.
  have EP : forall v : 'cV[R]_n, P *m v = Q *m v + K *m v by move=> v; rewrite /P mulmxDl.
  rewrite (ipS u m SP) (ipS u s SP) Pu !EP !ipDr (ipS m s SQ) (ipS m s SK).
  exact: lik_alg2.
Qed.
End Likelihood.

(* ---------- patterns ---------- *)
Lemma covers_within n (A M : 'M[R]_n) f : factor_of A f -> no_cancellation f -> covers A M -> within_factor f M.
Proof. move=> HF NC HC a b H. apply: (within_self HF NC). exact: HC. Qed.

Lemma covers_patterns n chol (Q : seq R -> 'M[R]_n) dQ theta K : library chol -> posdef (Q theta + K) ->
  (forall f, chol (Q theta + K) = Ok f -> no_cancellation f) ->
  (forall k, (k < size theta)%N -> covers (Q theta + K) (dQ theta k)) -> patterns chol Q dQ theta K.
Proof.
  move=> HL PP HN HC f Ef. have NC := HN f Ef. split=> // k Hk. apply: (covers_within _ NC (HC k Hk)).
  case: (library_ok HL PP) => f' [E' HF]. rewrite Ef in E'. by case: E' => ->.
Qed.

(* ---------- sources ---------- *)
Lemma measure_semi n (s : source n) : good s -> possemidef (information_precision (measure s)).
Proof. move=> G. exact: K_semi. Qed.

Lemma source_cost n (Q : 'M[R]_n) (t : 'cV[R]_n * 'cV[R]_n * source n) : posdef Q -> good t.2 ->
  rcost Q (replicate_of t) = source_minus_log_density Q t.1.2 t.2 + constant (s_design t.2) (s_precision t.2) (s_values t.2) t.1.1.
Proof. case: t => [[s m] src] PQ G. exact: likelihood. Qed.

(* ---------- the best estimate ---------- *)
Definition total n (sources : seq (source n)) : measurement n :=
  foldl (fun m s => append_measurement_update m (measure s)) (create_blank n) sources.

Lemma total_from n (sources : seq (source n)) m0 :
  foldl (fun m s => append_measurement_update m (measure s)) m0 sources
  = Measurement (information_precision m0 + \sum_(s <- sources) information_precision (measure s))
                (information_vector m0 + \sum_(s <- sources) information_vector (measure s)).
Proof.
  elim: sources m0 => [|s l IH] m0 /=; first by rewrite !big_nil !addr0; case: m0.
  by rewrite IH /= !big_cons !addrA.
Qed.
Lemma total_spec n (sources : seq (source n)) :
  total sources = Measurement (\sum_(s <- sources) information_precision (measure s)) (\sum_(s <- sources) information_vector (measure s)).
Proof. by rewrite /total total_from /= !add0r. Qed.

Lemma semi0 n : possemidef (0 : 'M[R]_n).
Proof. split; first exact: trmx0. move=> x. rewrite /quad mulmx0 mul0mx mxE. exact: zero_nonneg. Qed.
Lemma semiD n (A B : 'M[R]_n) : possemidef A -> possemidef B -> possemidef (A + B).
Proof.
  case=> SA HA [SB HB]. split; first by rewrite linearD /= SA SB.
  move=> x. rewrite /quad mulmxDr mulmxDl mxE. exact: add_nonneg (HA x) (HB x).
Qed.
Lemma total_semi n (sources : seq (source n)) : (forall s, List.In s sources -> good s) ->
  possemidef (information_precision (total sources)).
Proof.
  rewrite total_spec /=. elim: sources => [|s l IH] H; first by rewrite big_nil; exact: semi0.
  rewrite big_cons. apply: semiD; first by apply: measure_semi; apply: H; left.
  apply: IH => s' H'. apply: H. by right.
Qed.

Lemma quad_alg (a b c d e : R) : a - b - b + c - (d - e) = a - b - b + c - d + e.
Proof. toR. lra. Qed.
Lemma misfit_alg (a b c d e f g h : R) : a - (b + b) + c + (d - (f + f) + g) = a + d - (b + f + (b + f)) + (c + g).
Proof. toR. lra. Qed.

Lemma source_quad n (s : source n) x : good s ->
  quad (s_values s - s_design s *m x) (s_precision s)
  = quad x (information_precision (measure s)) - (ip x (information_vector (measure s)) + ip x (information_vector (measure s)))
    + quad (s_values s) (s_precision s).
Proof.
  case: s => p A Rp y [SR _]. rewrite /= !quadE /=. simpl in SR.
  rewrite mulmxBr !ipDl !ipDr !ipNl !ipNr.
  have -> : ip x (A^T *m Rp *m A *m x) = ip (A *m x) (Rp *m (A *m x)) by rewrite -!mulmxA (ipM A^T) trmxK.
  have -> : ip x (A^T *m Rp *m y) = ip (A *m x) (Rp *m y) by rewrite -!mulmxA (ipM A^T) trmxK.
  rewrite (ipS y (A *m x) SR).
  have alg : forall a b c : R, a - b + (- b - - c) = c - (b + b) + a by move=> a b c; toR; lra.
  exact: alg.
Qed.

Lemma misfit_spec n (Q : 'M[R]_n) sources x : (forall s, List.In s sources -> good s) ->
  misfit Q sources x = quad x (posterior_precision Q (total sources))
    - (ip x (information_vector (total sources)) + ip x (information_vector (total sources)))
    + \sum_(s <- sources) quad (s_values s) (s_precision s).
Proof.
  move=> H. rewrite /misfit /posterior_precision total_spec /=.
  have E : \sum_(s <- sources) quad (s_values s - s_design s *m x) (s_precision s)
     = quad x (\sum_(s <- sources) information_precision (measure s))
       - (ip x (\sum_(s <- sources) information_vector (measure s)) + ip x (\sum_(s <- sources) information_vector (measure s)))
       + \sum_(s <- sources) quad (s_values s) (s_precision s).
  { elim: sources H => [|s l IH] H.
    - rewrite !big_nil quadE /ip !mulmx0 mul0mx mulmx0 !mxE. toR. lra.
    - rewrite !big_cons IH; last by move=> s' H'; apply: H; right.
      rewrite source_quad; last by apply: H; left.
      rewrite !quadE mulmxDl !ipDr. rewrite -!quadE. 
      have alg : forall a b c d f g : R, a - (b + b) + c + (d - (f + f) + g) = a + d - (b + f + (b + f)) + (c + g) by move=> *; toR; lra.
      exact: alg. }
  rewrite E !quadE mulmxDl !ipDr. by rewrite !addrA.
Qed.

Lemma square_alg (a b c d k : R) : a - (c + c) + k - (d - (d + d) + k) = a - c - (c - d).
Proof. toR. lra. Qed.

Lemma map_spec n chol (Q : 'M[R]_n) sources : library chol -> posdef Q -> (forall s, List.In s sources -> good s) ->
  exists x, maximum_a_posteriori chol Q (total sources) = Ok x /\
    forall x', misfit Q sources x' - misfit Q sources x = quad (x' - x) (posterior_precision Q (total sources)).
Proof.
  move=> HL PQ G. have PP : posdef (posterior_precision Q (total sources)) := posdef_add PQ (total_semi G).
  rewrite /maximum_a_posteriori. case: (library_ok HL PP) => f [-> HF] /=.
  rewrite (solve_A_spec HF). set P := posterior_precision _ _ in PP *. set i := information_vector _.
  eexists. split; first by []. move=> x'. set x := invmx P *m i.
  have Px : P *m x = i by rewrite /x mulKVmx // posdef_unit.
  have SP : P^T = P by case: PP.
  rewrite !misfit_spec // -/P -/i !quadE mulmxBr !ipDl !ipDr !ipNl !ipNr Px. rewrite (ipS x x' SP) Px.
  have alg : forall a c d k : R, a - (c + c) + k - (d - (d + d) + k) = a - c + (- c - - d) by move=> *; toR; lra.
  exact: alg.
Qed.

(* ---------- samples ---------- *)
Lemma sample_spec n (A : 'M[R]_n) f : factor_of A f ->
  let B := (permutation_matrix f)^T *m invmx (L f)^T in B *m B^T = invmx A.
Proof.
  move=> HF /=. have UL := L_unit HF. have ULT := LT_unit HF.
  have U := A_unit HF. rewrite -[RHS]mul1mx. rewrite -[LHS](mulmxK U). congr (_ *m _).
  have -> : ((permutation_matrix f)^T *m invmx (L f)^T)^T = invmx (L f) *m permutation_matrix f.
  { by rewrite trmx_mul trmxK -trmx_inv trmxK. }
  rewrite {1}(A_eq HF) !mulmxA.
  rewrite -(mulmxA _ (permutation_matrix f) (permutation_matrix f)^T) tr_P mulmx1.
  rewrite -(mulmxA _ (invmx (L f)) (L f)) mulVmx // mulmx1.
  rewrite -(mulmxA _ (invmx (L f)^T) (L f)^T) mulVmx // mulmx1. exact: P_tr.
Qed.

(* ---------- the diagonal of the inverse ---------- *)
Lemma block_spec n (A : 'M[R]_n) f first w : factor_of A f -> (first + w <= n)%N ->
  column_sums (solve_forward_substitution f (identity_columns n first w))
  = [seq zof (invmx A) k k | k <- iota first w].
Proof.
  move=> HF Hw. rewrite /column_sums.
  have -> : iota first w = [seq (first + val c)%N | c <- enum 'I_w].
  { by rewrite (map_comp (addn first) val) val_enum_ord -iotaDl addn0. }
  rewrite -map_comp. apply: eq_map => c /=.
  have Hk : (first + c < n)%N by apply: leq_trans Hw; rewrite ltn_add2l.
  pose k := Ordinal Hk. rewrite -[X in zof _ X]/(val k) -[X in zof _ _ X]/(val k) zofE.
  pose M := invmx (L f) *m permutation_matrix f.
  have -> : solve_forward_substitution f (identity_columns n first w) = M *m identity_columns n first w.
  { by rewrite /solve_forward_substitution mulmxA. }
  have EM : forall i, (M *m identity_columns n first w) i c = M i k.
  { move=> i. rewrite [LHS]mxE (bigD1 k) //= big1 ?addr0; last first.
    { move=> j Hj. rewrite [identity_columns _ _ _ _ _]mxE. case: eqP => [E | _]; last exact: mulr0.
      by case/eqP: Hj; apply: val_inj. }
    by rewrite [identity_columns _ _ _ _ _]mxE eqxx mulr1. }
  rewrite (eq_bigr (fun i => M^T k i * M i k)); last by move=> i _; rewrite EM [M^T _ _]mxE.
  have -> : invmx A = M^T *m M; last by rewrite [RHS]mxE.
  rewrite -(sample_spec HF) /M. by rewrite !trmx_mul trmxK -!trmx_inv trmxK mulmxA.
Qed.

Lemma diag_loop_spec n (A : 'M[R]_n) f b fuel counter : factor_of A f -> (0 < b)%N -> (n - counter < fuel)%N ->
  diag_loop f b fuel counter ([seq zof (invmx A) k k | k <- iota 0 (minn counter n)] ++ nseq (n - counter) 0)
  = Some [seq zof (invmx A) k k | k <- iota 0 n].
Proof.
  move=> HF Hb. elim: fuel counter => [|fuel IH] counter Hf.
  - by [].
  - rewrite [diag_loop _ _ _ _ _]/=. case: (boolP (counter < n)%N) => Hc; last first.
    { rewrite -leqNgt in Hc. by rewrite (minn_idPr Hc) (eqP (Hc : (n - counter == 0)%N)) cats0. }
    set i2 := if _ then _ else _.
    have E2 : i2 = minn (counter + b) n by rewrite /i2 /minn.
    have H2 : (counter <= i2)%N by rewrite E2 leq_min leq_addr ltnW.
    have H2n : (i2 <= n)%N by rewrite E2 geq_minr.
    rewrite (block_spec HF); last by rewrite subnKC.
    rewrite (minn_idPl (ltnW Hc)) take_size_cat ?size_map ?size_iota // drop_cat size_map size_iota ltnNge H2 /=.
    rewrite drop_nseq. 
    have -> : ([seq zof (invmx A) k k | k <- iota 0 counter] ++ [seq zof (invmx A) k k | k <- iota counter (i2 - counter)] ++ nseq (n - counter - (i2 - counter)) 0)
      = [seq zof (invmx A) k k | k <- iota 0 (minn (counter + b) n)] ++ nseq (n - (counter + b)) 0.
    { rewrite catA -map_cat. have -> : iota 0 counter ++ iota counter (i2 - counter) = iota 0 (minn (counter + b) n) by rewrite -E2 -iotaD subnKC.
      congr (_ ++ nseq _ _). rewrite -subnDA subnKC // E2. rewrite /minn. case: ltnP => // H. by rewrite subnn; apply/esym/eqP. }
    apply: IH. rewrite subnDA. apply: leq_trans (_ : n - counter <= fuel)%N => //. by rewrite ltn_subrL Hb subn_gt0.
Qed.

Lemma zof_enum n (M : 'M[R]_n) : [seq zof M k k | k <- iota 0 n] = [seq M i i | i <- enum 'I_n].
Proof. rewrite -val_enum_ord -map_comp. apply: eq_map => i /=. exact: zofE. Qed.

Lemma diag_spec n (A : 'M[R]_n) f b fuel : factor_of A f -> (forall w, b = Some w -> (0 < w)%N) -> (n < fuel)%N ->
  diag_inv_A f b fuel = Some [seq invmx A i i | i <- enum 'I_n].
Proof.
  move=> HF Hb Hfuel. rewrite -zof_enum. case: b Hb => [w /(_ w erefl) Hw | _] /=; last by rewrite (block_spec HF).
  have := @diag_loop_spec n A f w fuel 0 HF Hw. by rewrite min0n subn0 /= => /(_ Hfuel).
Qed.
Lemma diag_zero n (f : factor n) fuel : (0 < n)%N -> diag_inv_A f (Some 0%N) fuel = None.
Proof.
  move=> Hn. have G : forall fuel c d, (c < n)%N -> diag_loop f 0 fuel c d = None.
  { elim=> [//|fuel' IH] c d Hc. by rewrite [diag_loop _ _ _ _ _]/= Hc IH ?addn0. }
  exact: G.
Qed.

(* ---------- the optimisation ---------- *)
Lemma run_search_spec n chol (Q : seq R -> 'M[R]_n) dQ rs d c g s h :
  (forall p, size p = d -> replicates_cost_function chol Q p rs = Ok (c p)) ->
  (forall p, size p = d -> replicates_cost_derivative chol Q dQ p rs = Ok (g p)) ->
  asks d s -> (run_search chol Q dQ rs s h).2 = Ok (ends c g s).
Proof.
  move=> Hc Hg. elim: s h => [p next IH | p next IH | b x] h //=.
  - case=> Hp Hn. rewrite Hc //. exact: IH.
  - case=> Hp Hn. rewrite Hg //. exact: IH.
Qed.

(* ---------- a library ---------- *)
From Coq Require Import ClassicalEpsilon.
Definition columns_of n (M : 'M[R]_n) : seq column := [seq [seq (r, zof M r j) | r <- iota j (n - j)] | j <- iota 0 n].
Lemma columns_dense n (M : 'M[R]_n) : is_trig_mx M -> dense n (columns_of M) = M.
Proof.
  move=> T. apply/matrixP => i j. rewrite [LHS]mxE /columns_of (nth_map 0%N) ?size_iota // nth_iota // add0n.
  rewrite entry_map ?iota_uniq // mem_iota. rewrite subnKC ?(ltnW (ltn_ord j)) // ltn_ord andbT.
  case: leqP => H; first exact: zofE. by rewrite (is_trig_mxP T).
Qed.
Definition some_cholesky n (A : 'M[R]_n) : result (factor n) :=
  match excluded_middle_informative (exists L : 'M[R]_n, [/\ is_trig_mx L, forall i, (0 < L i i)%coqR & L *m L^T = A]) with
  | left H => Ok (Factor 1%g (columns_of (proj1_sig (constructive_indefinite_description _ H))))
  | right _ => Err Base.ModuleError
  end.
Lemma some_library n : library (@some_cholesky n).
Proof.
  move=> A SA. rewrite /some_cholesky. case: excluded_middle_informative => [H | N]; last first.
  { move=> PA. apply: N. exact: cholesky_exists. }
  case: constructive_indefinite_description => M [T Dg E] /=.
  have EL : L (Factor 1%g (columns_of M)) = M by apply: columns_dense.
  split.
  - by rewrite /= size_map size_iota.
  - move=> j Hj /=. rewrite /columns_of (nth_map 0%N) ?size_iota // nth_iota // add0n -map_comp (eq_map (f2 := id)) // map_id. split.
    + exact: iota_ltn_sorted.
    + rewrite all_map. apply/allP => r. rewrite mem_iota subnKC ?(ltnW Hj) //.
    + by rewrite mem_iota leqnn subnKC ?(ltnW Hj).
  - by rewrite EL.
  - by rewrite EL E /permutation_matrix /= perm_mx1 trmx1 mul1mx mulmx1.
Qed.

(* ---------- a factor with an element that is zero by chance ---------- *)
Definition unlucky : factor 4 :=
  Factor 1%g [:: [:: (0%N, 1); (1%N, 1); (2%N, 1)]; [:: (1%N, 1); (2%N, 0); (3%N, 1)]; [:: (2%N, 1); (3%N, 1)]; [:: (3%N, 1)]].
Lemma unlucky_rows : [/\ rows_of_S unlucky 0 = [:: 0; 1; 2]%N, rows_of_S unlucky 1 = [:: 0; 1; 3]%N,
  rows_of_S unlucky 2 = [:: 0; 2; 3]%N & rows_of_S unlucky 3 = [:: 1; 2; 3]%N].
Proof.
  have N1 : (1 : R) != 0 by exact: oner_neq0.
  have N2 : (1 + 1 : R) != 0 by exact: two_nz.
  rewrite /rows_of_S /=. 
  split; rewrite /= !entry_cons !entry_nil /= ?addr0 ?add0r ?N1 ?N2 ?eqxx; by [].
Qed.
Lemma unlucky_factor : factor_of (L unlucky *m (L unlucky)^T) unlucky.
Proof.
  split=> //.
  - move=> j. do 4 (case: j => [_ | j]; first by split). by [].
  - move=> i. rewrite [L _ _ _]mxE. case: i => m Hm /=. move: Hm.
    do 4 (case: m => [_ | m]; first by rewrite !entry_cons entry_nil /= ?addr0 ?add0r; exact: Rlt_0_1). by [].
  - by rewrite /permutation_matrix /= perm_mx1 trmx1 mul1mx mulmx1.
Qed.
Lemma unlucky_recursion : exists c0 c2 c3 x1 x2, recursion unlucky = Ok [:: c0; [:: (0%N, - (1 + 1)); (1%N, x1); (3%N, x2)]; c2; c3].
Proof.
  case: unlucky_rows => R0 R1 R2 R3. rewrite /recursion /zeros_of_S.
  rewrite [iota 0 4]/= [map _ _]/= R0 R1 R2 R3.
  rewrite [rev _]/=.
  rewrite [foldR _ _ _]/= R3 [rev _]/= [filter _ _]/= [foldR (step _ _) _ _]/=.
  cbn [Base.bind]. rewrite divr1 divr1 add0r.
  rewrite R2 [rev _]/= [filter _ _]/= [foldR (step _ 2) _ _]/=. cbn [Base.bind]. rewrite ?divr1 ?add0r ?mul1r ?mul0r ?subr0 ?sub0r ?opprK.
  rewrite R1 [rev _]/= [filter _ _]/= [foldR (step _ 1) _ _]/=. cbn [Base.bind]. rewrite ?divr1 ?add0r ?mul1r ?mul0r ?subr0 ?sub0r ?opprK.
  rewrite R0 [rev _]/= [filter _ _]/= [foldR (step _ 0) _ _]/=. cbn [Base.bind]. rewrite ?divr1 ?add0r ?mul1r ?mul0r ?subr0 ?sub0r ?opprK.
  by do 5 eexists.
Qed.
Definition ui (m : nat) (H : (m < 4)%N) : 'I_4 := Ordinal H.
Lemma unlucky_L (i j : 'I_4) : L unlucky i j = nth 0 (nth [::] [:: [:: 1; 0; 0; 0]; [:: 1; 1; 0; 0]; [:: 1; 0; 1; 0]; [:: 0; 1; 1; 1]] i) j.
Proof.
  rewrite [LHS]mxE. case: i j => [i Hi] [j Hj]. rewrite /=. move: Hi Hj.
  do 4 (case: i => [_ | i]; first (do 4 (case: j => [_ | j]; first by rewrite /= !entry_cons entry_nil /= ?addr0 ?add0r); by [])).
  by [].
Qed.
Lemma sum4 (F : 'I_4 -> R) : \sum_i F i = F (@ui 0 isT) + F (@ui 1 isT) + F (@ui 2 isT) + F (@ui 3 isT).
Proof.
  rewrite !big_ord_recl big_ord0 addr0 !addrA. by repeat (congr (_ + _); last by congr F; apply: val_inj); congr F; apply: val_inj.
Qed.
Lemma unlucky_inverse : invmx (L unlucky *m (L unlucky)^T) (@ui 1 isT) (@ui 0 isT) = - (1 + 1 + 1).
Proof.
  set A := L unlucky *m (L unlucky)^T. have UA : A \in unitmx := A_unit unlucky_factor.
  set Z := invmx A. have HZ : L unlucky *m ((L unlucky)^T *m Z) = 1%:M by rewrite mulmxA /Z mulmxV.
  pose v := fun m (H : (m < 4)%N) => ((L unlucky)^T *m Z) (ui H) (@ui 0 isT).
  have HV : forall m (H : (m < 4)%N), v m H = \sum_k L unlucky k (ui H) * Z k (@ui 0 isT).
  { move=> m H. rewrite /v [LHS]mxE. apply: eq_bigr => k _. by rewrite [X in X * _]mxE. }
  have HE : forall m (H : (m < 4)%N), \sum_k L unlucky (ui H) k * ((L unlucky)^T *m Z) k (@ui 0 isT) = (m == 0%N)%:R.
  { move=> m H. move/matrixP: HZ => /(_ (ui H) (@ui 0 isT)). rewrite [LHS]mxE => ->. by rewrite [LHS]mxE. }
  have E0 := HE 0%N isT. have E1 := HE 1%N isT. have E2 := HE 2%N isT. have E3 := HE 3%N isT.
  rewrite !sum4 !unlucky_L /= in E0 E1 E2 E3.
  have V0 := HV 0%N isT. have V1 := HV 1%N isT. have V2 := HV 2%N isT. have V3 := HV 3%N isT.
  rewrite !sum4 !unlucky_L /= in V0 V1 V2 V3.
  rewrite -!/(v _ _) in E0 E1 E2 E3.
  rewrite ?mul1r ?mul0r ?addr0 ?add0r in E0 E1 E2 E3 V0 V1 V2 V3.
  have G : forall v0 v1 v2 v3 z0 z1 z2 z3 : R, v0 = 1 -> v0 + v1 = 0 -> v0 + v2 = 0 -> v1 + v2 + v3 = 0 ->
    v0 = z0 + z1 + z2 -> v1 = z1 + z3 -> v2 = z2 + z3 -> v3 = z3 -> z1 = - (1 + 1 + 1).
  { move=> v0 v1 v2 v3 z0 z1 z2 z3. toR. move=> *. lra. }
  exact: (G _ _ _ _ _ _ _ _ E0 E1 E2 E3 V0 V1 V2 V3).
Qed.

Lemma unlucky_Q_inv : exists S, Q_inv unlucky = Ok S /\ S (@ui 0 isT) (@ui 1 isT) = - (1 + 1).
Proof.
  case: unlucky_recursion => c0 [c2 [c3 [x1 [x2 E]]]]. rewrite /Q_inv E /=. eexists. split; first by [].
  rewrite /permutation_matrix /= perm_mx1 trmx1 mul1mx mulmx1 [LHS]mxE /= !entry_cons entry_nil /=. by rewrite !addr0.
Qed.
Lemma unlucky_A : (L unlucky *m (L unlucky)^T) (@ui 0 isT) (@ui 1 isT) = 1.
Proof.
  rewrite [LHS]mxE sum4. rewrite ![(L unlucky)^T _ _]mxE !unlucky_L /=. by rewrite ?mul1r ?mul0r ?mulr0 ?mulr1 ?addr0.
Qed.
Lemma scalar_posdef n (c : R) : (0 < c)%coqR -> posdef (c%:M : 'M[R]_n).
Proof.
  move=> H. split; first exact: tr_scalar_mx. move=> x N. rewrite /quad mul_mx_scalar -scalemxAl [X in (_ < X)%coqR]mxE.
  apply: Rmult_lt_0_compat => //. exact: sumsq_pos.
Qed.
