(* Descriptors of a range of iterations, file names, and the check for nulls. *)
From Coq Require Import String Ascii ZifyBool.
From Verif Require Time_Model Name_Proofs.
From Verif Require Import Base Grid_Model Time_Model NcObj_Model NcObj_Proofs Fill_Model Fill_Spec Fill_Proofs Fill_Chain Fill_Total.
Open Scope string_scope.
Open Scope list_scope.
Open Scope Z_scope.

(* ---------- ranges of iterations *)

Definition range_step (f : filler) (op batch : json) (last : Z) (grid : bool) (i : Z) : result (list json) :=
  do ops <- batch_iteration f op batch (fun i => (i =? last) && grid) i;
  if (i =? last) && grid then do g <- fill_batch_output_gridding f batch i (fun s => numbered s i); Ok (ops ++ [g]) else Ok ops.
Lemma range_unfold f first last grid : fill_batch_descriptor_range f first last grid =
  (do t <- load_templates f; let '(op, batch, _) := t in
   if last - first + 1 =? 0 then Err ValueError else do its <- mapM (range_step f op batch last grid) (zrange first (last + 1)); Ok (catalogue_of (concat its))).
Proof. reflexivity. Qed.
Lemma batch_iteration_ext f op batch s s' i : s i = s' i -> batch_iteration f op batch s i = batch_iteration f op batch s' i.
Proof. intros E. unfold batch_iteration. now rewrite E. Qed.
Lemma range_step_plain f op batch last grid i : (i =? last) && grid = false -> range_step f op batch last grid i = batch_iteration f op batch (fun _ => false) i.
Proof.
  intros E. unfold range_step. rewrite E. rewrite (batch_iteration_ext f op batch (fun i => (i =? last) && grid) (fun _ => false) i E). now destruct (batch_iteration f op batch (fun _ => false) i).
Qed.
Lemma mapM_ext_in {A B} (g h : A -> result B) l : (forall x, In x l -> g x = h x) -> mapM g l = mapM h l.
Proof. induction l as [|x l IH]; intros H; cbn [mapM]; [reflexivity|]. rewrite (H x (or_introl eq_refl)). destruct (h x); cbn [bind]; [|reflexivity]. rewrite IH; [reflexivity|]. intros y I. apply H. now right. Qed.
Lemma mapM_join {A B} (g : A -> result B) l1 l2 r1 r2 : mapM g l1 = Ok r1 -> mapM g l2 = Ok r2 -> mapM g (l1 ++ l2) = Ok (r1 ++ r2).
Proof.
  revert r1. induction l1 as [|x l1 IH]; intros r1 H1 H2; cbn [mapM app] in *; [injection H1 as <-; exact H2|]. apply bind_ok in H1. destruct H1 as (y & Ey & H1). apply bind_ok in H1. destruct H1 as (ys & Eys & [= <-]).
  rewrite Ey. cbn [bind]. rewrite (IH ys Eys H2). reflexivity.
Qed.
Lemma catalogue_operations l : operations (catalogue_of l) = l.
Proof. reflexivity. Qed.

Lemma range_chain f first m last grid d1 d2 : first <= m < last -> fill_batch_descriptor_range f first m false = Ok d1 -> fill_batch_descriptor_range f (m + 1) last grid = Ok d2 ->
  exists d, fill_batch_descriptor_range f first last grid = Ok d /\ operations d = operations d1 ++ operations d2.
Proof.
  intros H. rewrite !range_unfold. intros H1 H2. apply bind_ok in H1. destruct H1 as ([[op batch] g] & Hl & H1). rewrite Hl in H2 |- *. cbn [bind] in H2 |- *.
  replace (m - first + 1 =? 0) with false in H1 by lia. replace (last - (m + 1) + 1 =? 0) with false in H2 by lia. replace (last - first + 1 =? 0) with false by lia.
  apply bind_ok in H1. destruct H1 as (r1 & E1 & [= <-]). apply bind_ok in H2. destruct H2 as (r2 & E2 & [= <-]).
  rewrite <- (zrange_app first (m + 1) (last + 1)) by lia.
  rewrite (mapM_join _ _ _ r1 r2); [|rewrite <- E1; apply mapM_ext_in; intros i I; apply zrange_In in I; rewrite !range_step_plain; [reflexivity|lia|lia]|exact E2].
  cbn [bind]. eexists. split; [reflexivity|]. rewrite !catalogue_operations. now rewrite concat_app.
Qed.

Lemma range_drawn f first last (grid : bool) d : ready f -> local_apart f -> 0 <= first <= last -> fill_batch_descriptor_range f first last grid = Ok d ->
  Forall2 (drawn (given f)) (operations d)
    (run (batch_sketches f) (fun i => (i =? last) && grid) first (last + 1) ++ (if grid then [gridding OUTPUT_GRID_BATCH f last (fun s => numbered s last)] else [])).
Proof.
  intros R (L0 & L1) Hf H. rewrite range_unfold in H. apply bind_ok in H. destruct H as ([[a b] c] & Hl & H). destruct (load_ready _ _ _ _ R Hl) as (S & Ba & Bb & Bc & Gc & Ra & Rb & Rc).
  destruct (last - first + 1 =? 0); [discriminate|]. apply bind_ok in H. destruct H as (its & Hi & [= <-]). rewrite catalogue_operations.
  set (sk := fun i => batch_sketches f ((i =? last) && grid) i ++ (if (i =? last) && grid then [gridding OUTPUT_GRID_BATCH f i (fun s => numbered s i)] else [])).
  assert (D : Forall2 (drawn (given f)) (concat its) (flat_map sk (zrange first (last + 1)))).
  { apply (mapM_drawn (fun i => 0 <= i) (given f) (range_step f a b last grid) sk (zrange first (last + 1))); [|apply zrange_nonneg; lia|exact Hi].
    intros i ops Hp Ho. unfold range_step in Ho. apply bind_ok in Ho. destruct Ho as (os & Ho & Hg). unfold sk. pose proof (batch_drawn f a b _ i os _ S Ba Bb Hp Ra Rb Ho) as D. cbv beta in D.
    destruct ((i =? last) && grid); [|injection Hg as <-; now rewrite app_nil_r]. apply bind_ok in Hg. destruct Hg as (g & Hg & [= <-]). apply Forall2_app; [exact D|].
    repeat constructor. exists b. split; [exact Rb|]. exact (batch_gridding_outline f b _ _ g S Bb L0 L1 Hg). }
  replace (run (batch_sketches f) (fun i => (i =? last) && grid) first (last + 1) ++ (if grid then [gridding OUTPUT_GRID_BATCH f last (fun s => numbered s last)] else [])) with (flat_map sk (zrange first (last + 1))); [exact D|].
  rewrite run_snoc by lia. rewrite zrange_snoc by lia. rewrite flat_map_app. cbn [flat_map]. rewrite app_nil_r. rewrite <- app_assoc. f_equal.
  - unfold run. rewrite !flat_map_concat_map. f_equal. apply map_ext_in. intros i I. apply zrange_In in I. unfold sk. replace (i =? last) with false by lia. cbn [andb]. now rewrite app_nil_r.
  - unfold sk. now rewrite Z.eqb_refl.
Qed.

Lemma range_covered f first last (grid : bool) : 0 <= first <= last ->
  covered (if 0 <? first then map (fun k => numbered (solution_name f k) (first - 1)) [0; 1; 2] else [])
    (run (batch_sketches f) (fun i => (i =? last) && grid) first (last + 1) ++ (if grid then [gridding OUTPUT_GRID_BATCH f last (fun s => numbered s last)] else [])).
Proof.
  intros H. apply covered_app.
  - apply (run_covered f _ _ _ first (batch_iterates f)); [lia| |lia]. intros L k Ck. replace (0 <? first) with true by lia. apply (in_map (fun k => numbered (solution_name f k) (first - 1))). now apply all_In.
  - destruct grid; [|exact I]. cbn [covered]. split; [|exact I]. intros d I. cbn [gridding k_reads] in I. apply (gridded_names f (batch_sketches f)) in I; [|apply batch_iterates].
    rewrite run_snoc by lia. rewrite Z.eqb_refl, flat_map_app. apply in_app_iff. right. apply in_app_iff. now right.
Qed.
Lemma range_routed f last (grid : bool) : 0 <= last ->
  routed start (run (batch_sketches f) (fun i => (i =? last) && grid) 0 (last + 1) ++ (if grid then [gridding OUTPUT_GRID_BATCH f last (fun s => numbered s last)] else [])).
Proof.
  intros H. apply routed_app.
  - apply (run_routed f _ _ start 0 (batch_iterates f)); [lia| |lia]. intros k Ck. reflexivity.
  - destruct grid; [|exact I]. cbn [routed]. split; [|exact I]. apply proper_gridding; [right; now left|]. intros k w d Ck G.
    rewrite run_snoc by lia. rewrite Z.eqb_refl, after_app. now apply (gridded_after f (batch_sketches f) last _ k w d (batch_iterates f)).
Qed.
Lemma range_total f first last grid : ready f -> complete f -> last - first + 1 <> 0 -> exists d, fill_batch_descriptor_range f first last grid = Ok d.
Proof.
  intros R H Hn. destruct (load_total f R H) as (a & b & c & Hl & Oa & Ob & Oc). rewrite range_unfold, Hl. cbn [bind]. replace (last - first + 1 =? 0) with false by lia.
  destruct (mapM_total (range_step f a b last grid) (zrange first (last + 1))) as (its & Hi); [|rewrite Hi; cbn [bind]; eauto].
  intros i _. unfold range_step. destruct (batch_iteration_total f a b (fun i => (i =? last) && grid) i Oa Ob) as (ops & Ho). rewrite Ho. cbn [bind].
  destruct ((i =? last) && grid); [|eauto]. destruct (goes_batch_gridding f i (fun s => numbered s i) b Ob) as (g & Hg & _). rewrite Hg. cbn [bind]. eauto.
Qed.

(* ---------- file names *)

Definition described (e : option string * json) : Prop := exists n fmt kind, e = (Some n, pattern n fmt kind) /\ is_ok (return_output_patterns n fmt kind) = true.
Lemma without_app c a b : without c (a ++ b) <-> without c a /\ without c b.
Proof. induction a as [|x a IH]; cbn [append without]; [tauto|]. rewrite IH. tauto. Qed.
Lemma pattern_shape n fmt kind : is_ok (return_output_patterns n fmt kind) = true ->
  exists a x b, pattern n fmt kind = JList [JStr (n ++ "/" ++ a); JStr (n ++ String x b)] /\ x <> "/"%char /\ x <> "%"%char.
Proof.
  unfold pattern, return_output_patterns. cbv zeta.
  repeat match goal with |- context [if existsb ?g ?l then _ else _] => destruct (existsb g l) end; intros H; try discriminate H;
    (eexists _, _, _; split; [reflexivity|split; discriminate]).
Qed.
Lemma build_clean s u t : without "%" s -> Time_Model.build_from_pattern (s ++ u) t = (s ++ Time_Model.build_from_pattern u t)%string.
Proof.
  induction s as [|c s IH]; cbn [append without]; intros H; [reflexivity|]. destruct H as [Hc H]. rewrite Name_Proofs.build_pattern_char; [now rewrite IH|]. intros [E _]. exact (Hc E).
Qed.
Lemma slash_clean n x r : without "/" n -> x <> "/"%char -> Time_Model.starts_with_slash (n ++ String x r) = false.
Proof. destruct n as [|c n]; cbn [append without Time_Model.starts_with_slash]; intros H Hx; apply Ascii.eqb_neq; tauto. Qed.
Lemma join_prefix a b : Time_Model.starts_with_slash b = false -> exists r, Time_Model.join_one a b = (a ++ r)%string.
Proof. intros H. unfold Time_Model.join_one. rewrite H. destruct (String.eqb a "" || Time_Model.ends_with_slash a); eauto. Qed.
Lemma app_assoc_string (a b c : string) : ((a ++ b) ++ c)%string = (a ++ (b ++ c))%string.
Proof. induction a as [|x a IH]; cbn [append]; [reflexivity|]. now rewrite IH. Qed.
Lemma path_prefix n fmt kind day : clean n -> is_ok (return_output_patterns n fmt kind) = true ->
  exists r, pathname day (pattern n fmt kind) = Ok (n ++ "/" ++ r)%string.
Proof.
  intros [Cs Cp] H. destruct (pattern_shape n fmt kind H) as (a & x & b & -> & Hx & Hp). unfold pathname. cbn [texts].
  destruct day as [t|].
  - unfold Time_Model.filename_from_patterns, Time_Model.os_path_join. cbn [map fold_left]. rewrite (build_clean n ("/" ++ a) t Cp), (build_clean n (String x b) t Cp).
    rewrite (Name_Proofs.build_pattern_char x) by (intros [E _]; exact (Hp E)).
    change ("/" ++ a)%string with (String "/" a). rewrite (Name_Proofs.build_pattern_char "/") by (intros [E _]; discriminate E).
    destruct (join_prefix (n ++ String "/" (Time_Model.build_from_pattern a t)) (n ++ String x (Time_Model.build_from_pattern b t)) (slash_clean _ _ _ Cs Hx)) as (r & ->).
    rewrite app_assoc_string. cbn [append]. eauto.
  - unfold Time_Model.os_path_join. cbn [fold_left]. destruct (join_prefix (n ++ ("/" ++ a)) (n ++ String x b) (slash_clean _ _ _ Cs Hx)) as (r & ->).
    rewrite app_assoc_string. cbn [append]. eauto.
Qed.
Lemma clean_prefix a b r s : without "/" a -> without "/" b -> (a ++ "/" ++ r)%string = (b ++ "/" ++ s)%string -> a = b.
Proof.
  revert b. induction a as [|x a IH]; intros [|y b]; cbn [append without]; intros Ha Hb E; [reflexivity| | |].
  - injection E as E _. destruct Hb as [Hb _]. now rewrite E in Hb.
  - injection E as E _. destruct Ha as [Ha _]. now rewrite E in Ha.
  - injection E as <- E. f_equal. apply IH; tauto.
Qed.
Lemma decimals_without c w n : (forall d, 0 <= d <= 9 -> digit d <> c) -> 0 <= n -> without c (decimals w n).
Proof.
  intros Hc. revert n. induction w as [|w IH]; intros n H; cbn [decimals]; [exact I|]. apply without_app. split; [apply IH; lia|]. cbn [without]. split; [|exact I]. apply Hc. lia.
Qed.
Lemma digit_not c : (forall k, (k < 10)%nat -> digit (Z.of_nat k) <> c) -> forall d, 0 <= d <= 9 -> digit d <> c.
Proof. intros H d R. replace d with (Z.of_nat (Z.to_nat d)) by lia. apply H. lia. Qed.
Lemma clean_numbered n i : 0 <= i -> clean n -> clean (numbered n i).
Proof.
  intros Hi [Hs Hp]. unfold clean, numbered. rewrite !without_app, !py_str_nonneg by exact Hi.
  repeat split; try assumption; try discriminate; (apply decimals_without; [apply digit_not; intros k K; do 10 (destruct k as [|k]; [discriminate|]); lia|exact Hi]).
Qed.

Definition kinds_known (s : sketch) : Prop := Forall described (k_news s).
Lemma single_described f b i : Forall kinds_known (single_sketches f b i).
Proof. unfold kinds_known. destruct b; repeat (apply Forall_cons || apply Forall_nil); (eexists _, _, _; split; reflexivity). Qed.
Lemma batch_described f b i : Forall kinds_known (batch_sketches f b i).
Proof. unfold kinds_known. destruct b; repeat (apply Forall_cons || apply Forall_nil); (eexists _, _, _; split; reflexivity). Qed.
Lemma gridding_described fn f i out : kinds_known (gridding fn f i out).
Proof. unfold kinds_known. repeat (apply Forall_cons || apply Forall_nil); (eexists _, _, _; split; reflexivity). Qed.
Lemma run_described sk sampled a b : (forall b i, Forall kinds_known (sk b i)) -> Forall kinds_known (run sk sampled a b).
Proof. intros H. unfold run. apply Forall_flat_map. apply Forall_forall. intros i _. apply H. Qed.

Definition news (ss : list sketch) : list (option string * json) := flat_map k_news ss.
Lemma drawn_patterns known ops ss : Forall2 (drawn known) ops ss -> flat_map declared_patterns ops = news ss.
Proof. induction 1 as [|op s ops ss (t & _ & O) _ IH]; [reflexivity|]. unfold news in *. cbn [flat_map]. rewrite IH. f_equal. apply announces_patterns. exact (o_announces _ _ _ _ _ _ _ _ _ O). Qed.
Lemma news_names ss e n : In e (news ss) -> fst e = Some n -> In n (flat_map names ss).
Proof. unfold news. rewrite !in_flat_map. intros (s & Is & I) E. exists s. split; [exact Is|]. unfold names. apply in_flat_map. exists e. split; [exact I|]. rewrite E. now left. Qed.
Lemma paths_apart known ops ss e e' : Forall2 (drawn known) ops ss -> Forall kinds_known ss -> (forall n, In n (flat_map names ss) -> clean n) ->
  In e (flat_map declared_patterns ops) -> In e' (flat_map declared_patterns ops) ->
  exists n n', fst e = Some n /\ fst e' = Some n' /\
  forall day day', exists p p', pathname day (snd e) = Ok p /\ pathname day' (snd e') = Ok p' /\ (p = p' -> n = n').
Proof.
  intros D K C I I'. rewrite (drawn_patterns _ _ _ D) in I, I'.
  assert (X : forall e, In e (news ss) -> exists n, fst e = Some n /\ clean n /\ forall day, exists r, pathname day (snd e) = Ok (n ++ "/" ++ r)%string).
  { clear -K C. intros e I. assert (De : described e). { unfold news in I. apply in_flat_map in I. destruct I as (s & Is & I). rewrite Forall_forall in K. specialize (K s Is). unfold kinds_known in K. rewrite Forall_forall in K. now apply K. }
    destruct De as (n & fmt & kind & -> & Ek). cbn [fst snd]. assert (Cn : clean n) by (apply C; apply (news_names ss _ n I); reflexivity).
    exists n. split; [reflexivity|]. split; [exact Cn|]. intros day. now apply path_prefix. }
  destruct (X e I) as (n & En & Cn & Hn). destruct (X e' I') as (n' & En' & Cn' & Hn'). exists n, n'. split; [exact En|]. split; [exact En'|]. intros day day'.
  destruct (Hn day) as (r & Hr). destruct (Hn' day') as (r' & Hr'). eexists _, _. split; [exact Hr|]. split; [exact Hr'|]. apply clean_prefix; [apply Cn|apply Cn'].
Qed.
Lemma whole_clean f sk fn n s : iterates f sk -> clean_names f -> In s (flat_map names (whole sk fn f (fun s => s) n)) -> clean s.
Proof.
  intros IT C I. unfold whole in I. rewrite flat_map_app in I. apply in_app_iff in I. destruct I as [I|I].
  - apply (run_names_In f) in I; [|exact IT|lia]. destruct I as (b & i & Ib & Ii & ->). apply clean_numbered; [lia|]. apply C. apply in_app_iff. now left.
  - apply C. apply in_app_iff. right. exact I.
Qed.

(* ---------- nulls *)

Fixpoint json_deep (P : json -> Prop) (Hn : P JNull) (Hs : forall s, P (JStr s)) (Hz : forall z, P (JNum z))
  (Hl : forall l, Forall P l -> P (JList l)) (Hd : forall d, Forall (fun e => P (snd e)) d -> P (JDict d)) (j : json) : P j :=
  match j with
  | JNull => Hn
  | JStr s => Hs s
  | JNum z => Hz z
  | JList l => Hl l ((fix go (l : list json) : Forall P l := match l with [] => Forall_nil _ | x :: l' => @Forall_cons _ P x l' (json_deep P Hn Hs Hz Hl Hd x) (go l') end) l)
  | JDict d => Hd d ((fix go (d : list (string * json)) : Forall (fun e => P (snd e)) d :=
      match d with [] => Forall_nil _ | e :: d' => @Forall_cons _ (fun e => P (snd e)) e d' (json_deep P Hn Hs Hz Hl Hd (snd e)) (go d') end) d)
  end.
Lemma check_dict_cons k v d : check_none (JDict ((k, v) :: d)) = (do _ <- check_none v; check_none (JDict d)).
Proof. reflexivity. Qed.
Lemma check_list_cons v l : check_none (JList (v :: l)) = (do _ <- check_none v; check_none (JList l)).
Proof. reflexivity. Qed.
Lemma check_none_spec j : (check_none j = Ok tt /\ ~ holds_null j) \/ (check_none j = Err ValueError /\ holds_null j).
Proof.
  induction j as [|s|z|l IH|d IH] using json_deep.
  - right. split; [reflexivity|constructor].
  - left. split; [reflexivity|inversion 1].
  - left. split; [reflexivity|inversion 1].
  - induction IH as [|x l Hx _ IHl]; [left; split; [reflexivity|inversion 1; contradiction]|]. rewrite check_list_cons. destruct Hx as [[-> Nx]|[-> Hx]]; cbn [bind].
    + destruct IHl as [[-> Nl]|[-> Hl]]; [left; split; [reflexivity|]|right; split; [reflexivity|]].
      * inversion 1 as [| |l0 v Iv Hv]; subst. destruct Iv as [->|Iv]; [now apply Nx|]. apply Nl. now apply (null_list l v).
      * inversion Hl as [| |l0 v Iv Hv]; subst. apply (null_list _ v); [now right|exact Hv].
    + right. split; [reflexivity|]. apply (null_list _ x); [now left|exact Hx].
  - induction IH as [|[k x] d Hx _ IHd]; [left; split; [reflexivity|inversion 1; contradiction]|]. rewrite check_dict_cons. cbn [snd] in Hx. destruct Hx as [[-> Nx]|[-> Hx]]; cbn [bind].
    + destruct IHd as [[-> Nd]|[-> Hd]]; [left; split; [reflexivity|]|right; split; [reflexivity|]].
      * inversion 1 as [|m k' v Iv Hv|]; subst. destruct Iv as [[= -> ->]|Iv]; [now apply Nx|]. apply Nd. now apply (null_dict d k' v).
      * inversion Hd as [|m k' v Iv Hv|]; subst. apply (null_dict _ k' v); [now right|exact Hv].
    + right. split; [reflexivity|]. apply (null_dict _ k x); [now left|exact Hx].
Qed.

(* ---------- all descriptors *)

Lemma range_writes f first last (grid : bool) : Forall (fun s => names s = k_writes s)
  (run (batch_sketches f) (fun i => (i =? last) && grid) first (last + 1) ++ (if grid then [gridding OUTPUT_GRID_BATCH f last (fun s => numbered s last)] else [])).
Proof. apply Forall_app. split; [apply (run_writes f); apply batch_iterates|]. destruct grid; repeat constructor. Qed.
Lemma filled_drawn f d : ready f -> filled f d -> exists ss, Forall2 (drawn (given f)) (operations d) ss /\ covered [] ss /\ routed start ss /\ Forall (fun s => names s = k_writes s) ss.
Proof.
  intros R [n d' Hn H|n d' L Hn H|last grid d' L Hl H].
  - exists (whole (single_sketches f) OUTPUT_GRID f (fun s => s) n). repeat match goal with |- _ /\ _ => split end.
    + exact (descriptor_drawn f n d' R H).
    + apply whole_covered; [apply single_iterates|exact Hn].
    + apply whole_routed; [apply single_iterates|now left|exact Hn].
    + apply whole_writes. apply single_iterates.
  - exists (whole (batch_sketches f) OUTPUT_GRID_BATCH f (fun s => s) n). repeat match goal with |- _ /\ _ => split end.
    + exact (batch_descriptor_drawn f n d' R L H).
    + apply whole_covered; [apply batch_iterates|exact Hn].
    + apply whole_routed; [apply batch_iterates|right; now left|exact Hn].
    + apply whole_writes. apply batch_iterates.
  - eexists. repeat match goal with |- _ /\ _ => split end.
    + exact (range_drawn f 0 last grid d' R L ltac:(lia) H).
    + exact (range_covered f 0 last grid ltac:(lia)).
    + exact (range_routed f last grid Hl).
    + apply range_writes.
Qed.

(* ---------- the same iterations *)

Lemma mapM_snoc {A B} (g : A -> result B) l x r : mapM g (l ++ [x]) = Ok r -> exists r' y, mapM g l = Ok r' /\ g x = Ok y /\ r = r' ++ [y].
Proof.
  revert r. induction l as [|a l IH]; intros r H; cbn [mapM app] in H.
  - apply bind_ok in H. destruct H as (y & Ey & [= <-]). exists [], y. split; [reflexivity|]. split; [exact Ey|reflexivity].
  - apply bind_ok in H. destruct H as (y & Ey & H). apply bind_ok in H. destruct H as (ys & Eys & [= <-]). destruct (IH ys Eys) as (r' & z & E1 & E2 & ->).
    exists (y :: r'), z. cbn [mapM]. rewrite Ey. cbn [bind]. rewrite E1. split; [reflexivity|]. split; [exact E2|reflexivity].
Qed.
Lemma range_same f n d d' : 1 <= n -> fill_batch_descriptor f n = Ok d -> fill_batch_descriptor_range f 0 (n - 1) true = Ok d' ->
  exists ops g g', operations d = ops ++ [g] /\ operations d' = ops ++ [g'].
Proof.
  intros Hn. rewrite range_unfold. unfold fill_batch_descriptor. intros H H'. apply bind_ok in H. destruct H as ([[a b] c] & Hl & H). rewrite Hl in H'. cbn [bind] in H'.
  replace (n =? 0) with false in H by lia. replace (n - 1 - 0 + 1 =? 0) with false in H' by lia. apply bind_ok in H. destruct H as (its & Hi & H). apply bind_ok in H. destruct H as (g & Hg & [= <-]).
  apply bind_ok in H'. destruct H' as (its' & Hi' & [= <-]). rewrite !catalogue_operations.
  replace (zrange 0 n) with (zrange 0 (n - 1 + 1)) in Hi by (f_equal; lia). rewrite zrange_snoc in Hi, Hi' by lia. apply mapM_snoc in Hi. destruct Hi as (r & y & E1 & E2 & ->). apply mapM_snoc in Hi'. destruct Hi' as (r' & y' & E1' & E2' & ->).
  assert (r' = r). { enough (Ok r' = Ok r) as [= ->] by reflexivity. rewrite <- E1, <- E1'. apply mapM_ext_in. intros i I. apply zrange_In in I. rewrite range_step_plain by lia.
    apply batch_iteration_ext. lia. } subst r'.
  unfold range_step in E2'. rewrite Z.eqb_refl in E2'. cbn [andb] in E2'. rewrite (batch_iteration_ext f a b _ (fun i => i =? n - 1) (n - 1)) in E2' by (cbv beta; now rewrite Z.eqb_refl).
  rewrite E2 in E2'. cbn [bind] in E2'. apply bind_ok in E2'. destruct E2' as (g' & Hg' & [= <-]). exists (concat (r ++ [y])), g, g'. split; [reflexivity|].
  rewrite !concat_app. cbn [concat]. now rewrite !app_nil_r, app_assoc.
Qed.

(* ---------- an entry that is left empty *)

Lemma get_null p j : get p j = Ok JNull -> holds_null j.
Proof.
  revert j. induction p as [|s p IH]; intros j; cbn [get]; [intros [= ->]; constructor|]. intros H. apply bind_ok in H. destruct H as (x & E & H). apply IH in H.
  destruct s as [k|], j as [| | |[|y l]|m]; cbn in E; try discriminate E.
  - destruct (dget k m) as [z|] eqn:Ez; [|discriminate E]. injection E as ->. apply dget_In in Ez. now apply (null_dict m k x).
  - injection E as ->. apply (null_list _ x); [now left|exact H].
Qed.
Lemma null_operation d op : In op (operations d) -> holds_null op -> holds_null d.
Proof.
  intros I H. unfold operations in I. destruct d as [| | | |m]; try destruct I. destruct (dget "operations" m) as [v|] eqn:E; [|destruct I]. destruct v as [| | |l|]; try destruct I.
  apply dget_In in E. apply (null_dict m "operations" (JList l) E). now apply (null_list l op).
Qed.
Lemma batch_null f n d : ready f -> local_apart f -> get [K "runmodule"; K "component_index"] (f_batch_operation f) = Ok JNull -> fill_batch_descriptor f n = Ok d -> holds_null d.
Proof.
  intros R (L0 & L1) G H. unfold fill_batch_descriptor in H. apply bind_ok in H. destruct H as ([[a b] c] & Hl & H). destruct (load_ready _ _ _ _ R Hl) as (S & Ba & Bb & Bc & Gc & Ra & Rb & Rc).
  destruct (n =? 0); [discriminate|]. apply bind_ok in H. destruct H as (its & Hi & H). apply bind_ok in H. destruct H as (g & Hg & [= <-]).
  apply (null_operation _ g); [rewrite catalogue_operations; apply in_app_iff; right; now left|]. apply (get_null [K "runmodule"; K "component_index"]).
  rewrite (o_kept _ _ _ _ _ _ _ _ _ (batch_gridding_outline f b _ _ g S Bb L0 L1 Hg) eq_refl). rewrite <- G. unfold load_templates in Hl. apply bind_ok in Hl. destruct Hl as (a0 & _ & Hl). apply bind_ok in Hl. destruct Hl as (b0 & Hb & Hl).
  apply bind_ok in Hl. destruct Hl as (c0 & _ & [= _ -> _]). apply (proj1 (restrict_effect _ _ Hb)). reflexivity.
Qed.

(* ---------- the sources of observations *)

Lemma restrict_sources t t' l : restrict_inputs t = Ok t' -> get [K "runmodule"; K "inputsources"] t = Ok (JList l) ->
  get [K "runmodule"; K "inputsources"] t' = Ok (JList (filter listed l)).
Proof.
  intros H G. unfold restrict_inputs in H. apply bind_ok in H. destruct H as (r & Hr & H). change [K "runmodule"; K "inputsources"] with ([K "runmodule"] ++ [K "inputsources"]) in G.
  rewrite get_app, Hr in G. cbn [bind] in G. destruct r as [| | | |m]; try discriminate G. cbn [get get1] in G. destruct (dget "inputsources" m) as [s|] eqn:E; [|discriminate G]. cbn [bind] in G. injection G as ->.
  apply bind_ok in H. destruct H as (kept & Hk & H). rewrite (get_put_same _ _ _ _ H). f_equal. f_equal.
  enough (X : forall acc kept, foldM (fun kept source => do name <- get [K "name"] source; Ok (if existsb (fun s => match name with JStr n => String.eqb n s | _ => false end) INPUTSOURCE_LIST then kept ++ [source] else kept)) acc l = Ok kept ->
    kept = acc ++ filter listed l) by exact (X [] kept Hk).
  clear. induction l as [|x l IH]; intros acc kept H; cbn [foldM filter] in *; [injection H as <-; now rewrite app_nil_r|]. apply bind_ok in H. destruct H as (acc' & Ha & H). apply bind_ok in Ha. destruct Ha as (name & Hn & [= <-]).
  apply IH in H. rewrite H. unfold listed at 2. rewrite Hn. destruct name as [|n| | |]; cbn [existsb INPUTSOURCE_LIST]; try reflexivity.
  match goal with |- context [if ?b then acc ++ [x] else acc] => destruct b end; [now rewrite <- app_assoc|reflexivity].
Qed.

(* ---------- numbers of operations *)

Lemma drawn_length known ops ss : Forall2 (drawn known) ops ss -> zlen ops = zlen ss.
Proof. unfold zlen. induction 1; cbn [length]; lia. Qed.
Lemma run_length sk sampled per a b : (forall i, a <= i < b -> zlen (sk (sampled i) i) = per) -> a <= b -> zlen (run sk sampled a b) = per * (b - a).
Proof.
  intros H Hab. revert H. replace b with (a + Z.of_nat (Z.to_nat (b - a))) by lia. generalize (Z.to_nat (b - a)). clear. induction n as [|n IH]; intros H.
  - rewrite Z.add_0_r, run_empty. cbn. lia.
  - replace (a + Z.of_nat (S n)) with (a + Z.of_nat n + 1) in * by lia. rewrite run_snoc by lia. unfold zlen in *. rewrite app_length, Nat2Z.inj_add, H by lia. rewrite IH; [lia|]. intros i Hi. apply H. lia.
Qed.
Lemma single_length f n : 1 <= n -> zlen (whole (single_sketches f) OUTPUT_GRID f (fun s => s) n) = 5 * n + 1.
Proof.
  intros H. unfold whole, zlen. rewrite app_length, Nat2Z.inj_add. change (Z.of_nat (length (run (single_sketches f) (fun i => i =? n - 1) 0 n))) with (zlen (run (single_sketches f) (fun i => i =? n - 1) 0 n)).
  rewrite (run_length _ _ 5) by (intros; try reflexivity; lia). cbn [length]. lia.
Qed.
Lemma batch_length f n : 1 <= n -> zlen (whole (batch_sketches f) OUTPUT_GRID_BATCH f (fun s => s) n) = 5 * n + 3.
Proof.
  intros H. unfold whole. rewrite run_last by exact H. unfold zlen. rewrite !app_length, !Nat2Z.inj_add. change (Z.of_nat (length (run (batch_sketches f) (fun i => i =? n - 1) 0 (n - 1)))) with (zlen (run (batch_sketches f) (fun i => i =? n - 1) 0 (n - 1))).
  rewrite (run_length _ _ 5) by (try (intros i Hi; replace (i =? n - 1) with false by lia; reflexivity); lia). cbn [length batch_sketches app]. lia.
Qed.
