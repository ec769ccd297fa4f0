(* Proofs about the merging of files of regions, about hyperparameters and about states. *)
From Coq Require Import NArith Reals Lra String Ascii.
From Verif Require Import Base Mesh_Model Mesh_Spec Mesh_Proofs Loc_Model View_Model View_Spec View_Proofs View_Proofs2 View_Proofs3.
Local Open Scope R_scope.
Local Open Scope list_scope.

Lemma Forall2_weaken {A B} (P Q : A -> B -> Prop) l l' : (forall a b, P a b -> Q a b) -> Forall2 P l l' -> Forall2 Q l l'.
Proof. intros H. induction 1; constructor; auto. Qed.
(* ---- files of regions *)
Lemma local_from_file (fs : file_system R) f s r values : fs f = Some values ->
  values_from_file fs f [HLocal s r] = match values with [a; b] => ([HLocal a b], None) | _ => ([HLocal s r], Some ValueError) end.
Proof. intros E. unfold values_from_file. rewrite E. destruct values as [|a [|b [|c values]]]; reflexivity. Qed.
Lemma merge_loop_all {P} (m : mesh P) k fs s0 r0 : forall filenames i views acc,
  Forall2 (fun p q => super_triangle_view m k (fst p) = Ok (fst q) /\ snd p = [fst (snd q); snd (snd q)]) (regions fs i filenames) views ->
  merge_loop m k fs (HLocal s0 r0) i filenames acc = accumulate_all views acc.
Proof.
  induction filenames as [|f filenames IH]; intros i views acc F; cbn [regions] in F.
  - inversion F; subst. reflexivity.
  - cbn [merge_loop]. destruct (fs f) as [values|] eqn:E; [|apply IH, F].
    inversion F as [|? [v [a b]] ? views' [V W] F']; subst. cbn [fst snd] in V, W. subst values. rewrite V. cbn [bind]. rewrite (local_from_file fs f s0 r0 _ E). cbn [get_all flat_map get_array app bind accumulate_all].
    destruct acc as [[s r] c]. destruct (accumulate s r c v [a; b]) as [[[s' r'] c']|e]; [cbn [bind]|reflexivity]. apply IH, F'.
Qed.
Lemma super_proper {P} (m : mesh P) k i v : corners_in m -> super_triangle_view m k i = Ok v -> proper (length (points m)) v /\
  forall j, mem j (v_vertices v) = existsb (fun t => existsb (Nat.eqb j) (corner_list t)) (chosen m (super_triangle_at_level m k i)).
Proof.
  intros C E. unfold super_triangle_view in E. destruct (make_view_inv _ _ _ E) as (A & _ & _ & S & V). split; [split; [exact A|split; [exact S|apply (make_view_below _ _ _ C E)]]|].
  intros j. apply Bool.eq_true_iff_eq. rewrite mem_in, V, existsb_exists. split; intros (t & I & T); exists t; (split; [exact I|]).
  - rewrite existsb_exists. exists j. split; [apply corner_list_in, T|apply Nat.eqb_refl].
  - rewrite existsb_exists in T. destruct T as (x & X & Q). apply Nat.eqb_eq in Q. subst x. apply corner_list_in, X.
Qed.
Lemma region_views {P} (m : mesh P) k (rs : list (nat * list R)) : corners_in m -> (forall i, exists v, super_triangle_view m k i = Ok v) ->
  Forall (fun p => length (snd p) = 2%nat) rs ->
  exists views, Forall2 (fun p (q : view * (R * R)) => super_triangle_view m k (fst p) = Ok (fst q) /\ snd p = [fst (snd q); snd (snd q)]) rs views /\
    Forall (fun p => proper (length (points m)) (fst p)) views /\ length views = length rs /\
    forall j, map fst (covering views j) = map (fun x => nth 0 x 0) (at_vertex m k rs j) /\ map snd (covering views j) = map (fun x => nth 1 x 0) (at_vertex m k rs j).
Proof.
  intros C V F. induction F as [|[i x] rs L F (views & I1 & I2 & I3 & I4)].
  - exists []. split; [constructor|]. split; [constructor|]. split; [reflexivity|]. intros j. split; reflexivity.
  - cbn [snd] in L. destruct x as [|a [|b [|c x]]]; try (cbn in L; lia). destruct (V i) as (v & E). destruct (super_proper m k i v C E) as [Pv M].
    exists ((v, (a, b)) :: views). split; [constructor; [cbn [fst snd]; split; [exact E|reflexivity]|exact I1]|]. split; [constructor; assumption|]. split; [cbn [length]; lia|].
    intros j. destruct (I4 j) as [J1 J2]. unfold covering, at_vertex in *. cbn [filter fst]. rewrite M. destruct (existsb _ _); cbn [map snd fst nth]; [split; f_equal; assumption|split; assumption].
Qed.
Lemma merged_files {P} (m : mesh P) k fs s0 r0 filenames output : corners_in m -> (forall i, exists v, super_triangle_view m k i = Ok v) ->
  Forall (fun p => length (snd p) = 2%nat) (regions fs 0 filenames) -> regions fs 0 filenames <> [] ->
  merge_files m k fs (HLocal s0 r0) filenames output =
  Ok (saved_name output, map (fun j => or_nan (map (fun x => nth 0 x 0) (at_vertex m k (regions fs 0 filenames) j))) (seq 0 (length (points m))) ++
                         map (fun j => or_nan (map (fun x => nth 1 x 0) (at_vertex m k (regions fs 0 filenames) j))) (seq 0 (length (points m)))).
Proof.
  intros C V F NE. destruct (region_views m k _ C V F) as (views & R1 & R2 & R3 & R4). unfold merge_files. rewrite (merge_loop_all m k fs s0 r0 filenames 0 views _ R1).
  assert (NE' : views <> []) by (destruct views; [destruct (regions fs 0 filenames); [congruence|discriminate]|discriminate]).
  destruct (finalised (length (points m)) views None None None (or_introl eq_refl) R2 NE') as (s & r & c & A & _ & _ & _ & B & _). rewrite A. cbn [bind]. rewrite B. cbn [bind get_all flat_map get_array fst snd]. rewrite app_nil_r.
  do 3 f_equal; apply map_ext; intros j; f_equal; apply R4.
Qed.
Lemma merge_none {P} (m : mesh P) k fs h filenames output : regions fs 0 filenames = [] -> merge_files m k fs h filenames output = Err TypeError.
Proof.
  intros E. unfold merge_files. assert (G : forall fl i acc, regions fs i fl = [] -> merge_loop m k fs h i fl acc = Ok acc).
  { induction fl as [|f fl IH]; intros i acc R; [reflexivity|]. cbn [regions merge_loop] in *. destruct (fs f); [discriminate|]. apply IH, R. }
  rewrite (G _ _ _ E). reflexivity.
Qed.
Lemma merge_bad {P} (m : mesh P) k fs s0 r0 filenames output : corners_in m -> (forall i, exists v, super_triangle_view m k i = Ok v) ->
  ~ Forall (fun p => length (snd p) = 2%nat) (regions fs 0 filenames) -> merge_files m k fs (HLocal s0 r0) filenames output = Err ValueError.
Proof.
  intros C V. unfold merge_files. set (n := length (points m)).
  assert (G : forall fl i acc, (acc = (None, None, None) \/ exists s r c, acc = (Some (map s (seq 0 n)), Some (map r (seq 0 n)), Some (map c (seq 0 n)))) ->
    ~ Forall (fun p => length (snd p) = 2%nat) (regions fs i fl) -> merge_loop m k fs (HLocal s0 r0) i fl acc = Err ValueError).
  { induction fl as [|f fl IH]; intros i acc A F; [contradict F; constructor|]. cbn [regions merge_loop] in *. destruct (fs f) as [x|] eqn:E; [|apply IH; assumption].
    destruct (V i) as (v & W). rewrite W. cbn [bind]. rewrite (local_from_file fs f s0 r0 x E). destruct x as [|a [|b [|c x]]]; [reflexivity|reflexivity| |reflexivity].
    cbn [get_all flat_map get_array app bind]. destruct (super_proper m k i v C W) as [Pv _]. fold n in Pv.
    assert (F' : ~ Forall (fun p => length (snd p) = 2%nat) (regions fs (S i) fl)) by (intros Q; apply F; constructor; [reflexivity|exact Q]).
    destruct A as [-> | (s & r & c & ->)].
    - rewrite (accumulate_new n v a b None None None Pv (or_introl eq_refl)). cbn [bind]. apply IH; [right; eauto|exact F'].
    - rewrite (accumulate_more n v a b s r c Pv). cbn [bind]. apply IH; [right; eauto|exact F']. }
  intros F. rewrite (G filenames 0%nat _ (or_introl eq_refl) F). reflexivity.
Qed.

(* tables of the mesh do not depend on the points *)
Definition same_tables {P Q} (m : mesh P) (m' : mesh Q) : Prop := triangles m = triangles m' /\ edges m = edges m' /\ level m = level m' /\ length (points m) = length (points m').
Lemma subdivide_tables {P Q} (mid : P -> P -> P) o (mid' : Q -> Q -> Q) o' sort (m : mesh P) (m' : mesh Q) : same_tables m m' -> same_tables (subdivide mid o sort m) (subdivide mid' o' sort m').
Proof.
  intros (T & E & V & L). unfold same_tables, subdivide. cbn [triangles edges level points]. rewrite !app_length, !map_length, E, V, L. repeat split; reflexivity.
Qed.
Lemma build_tables {P Q} (mid : P -> P -> P) o (mid' : Q -> Q -> Q) o' sort pts pts' n : length pts = length pts' -> same_tables (build mid o sort pts n) (build mid' o' sort pts' n).
Proof.
  intros L. induction n as [|n IH]; [|apply subdivide_tables, IH]. unfold same_tables. cbn [build]. unfold icosahedron. cbn [triangles edges level points]. rewrite L. repeat split; reflexivity.
Qed.

Lemma make_view_tables {P Q} (m : mesh P) (m' : mesh Q) rows : same_tables m m' -> make_view m rows = make_view m' rows.
Proof. intros (T & _ & _ & L). unfold make_view. rewrite T, L. reflexivity. Qed.

(* no triangle of the regions has vertex [j] *)
Definition untouched (k j : nat) (regions : list nat) (ts : list triangle) : bool :=
  forallb (fun i => negb (existsb (fun t => existsb (Nat.eqb j) (corner_list t)) (map (fun r => nth r ts no_triangle) (where_ (fun t => N.eqb (N.shiftr (t_id t) (hash_shift k)) (N.of_nat i)) ts)))) regions.
Lemma untouched_none {P} (m : mesh P) k j l (x : list R) : untouched k j l (triangles m) = true -> at_vertex m k (map (fun i => (i, x)) l) j = [].
Proof.
  unfold untouched, at_vertex, chosen, super_triangle_at_level. induction l as [|i l IH]; intros Q; [reflexivity|]. cbn [forallb] in Q. apply andb_prop in Q. destruct Q as [Q1 Q2]. cbn [map filter fst].
  apply negb_true_iff in Q1. rewrite Q1. apply IH, Q2.
Qed.

(* ---- hyperparameters *)
Section Hyper.
Context {A : Type}.
Local Open Scope nat_scope.
Implicit Types h : hyper A.
Definition accepts h (values : list A) : Prop := match h with HLocal _ _ => length values = 2 | HExpanded _ _ => True end.
Lemma set_get h values : accepts h values -> exists h', set_array h values = (h', None) /\ get_array h' = values.
Proof.
  destruct h as [s r|s r]; cbn [accepts set_array].
  - intros L. destruct values as [|a [|b [|c values]]]; try (cbn in L; lia). eexists. split; [reflexivity|reflexivity].
  - intros _. eexists. split; [reflexivity|]. cbn [get_array]. apply firstn_skipn.
Qed.
Lemma get_set_expanded (s r : list A) : set_array (HExpanded s r) (get_array (HExpanded s r)) = (HExpanded s r, None) <-> length r = length s \/ length r = S (length s).
Proof.
  cbn [get_array set_array]. rewrite app_length. set (half := (length s + length r) / 2).
  assert (D : half = length s <-> length r = length s \/ length r = S (length s)).
  { unfold half. pose proof (Nat.div_mod (length s + length r) 2 ltac:(lia)). pose proof (Nat.mod_upper_bound (length s + length r) 2 ltac:(lia)). split; lia. }
  rewrite <- D. split.
  - intros E. injection E as E1 E2. pose proof (f_equal (@List.length A) E1) as Q. rewrite firstn_length, app_length in Q. assert (half <= length s + length r) by (unfold half; apply Nat.div_le_upper_bound; lia). lia.
  - intros ->. rewrite firstn_app, skipn_app, Nat.sub_diag, firstn_all, skipn_all. cbn [firstn skipn app]. rewrite app_nil_r. reflexivity.
Qed.
Lemma ranges_end : forall (hs : list (hyper A)) a h, exists l, element_ranges a (hs ++ [h]) = l ++ [(a + length (flat_map get_array hs), a + length (flat_map get_array hs) + length (get_array h))].
Proof.
  induction hs as [|g hs IH]; intros a h; cbn [app element_ranges flat_map].
  - exists []. cbn [length app]. rewrite Nat.add_0_r. reflexivity.
  - destruct (IH (a + length (get_array g)) h) as (l & ->). exists ((a, a + length (get_array g)) :: l). rewrite app_length. cbn [app]. do 4 f_equal; lia.
Qed.
Lemma set_each_all : forall (hs : list (hyper A)) a pre values, length pre = a -> length values = length (flat_map get_array hs) ->
  exists hs', set_each hs (element_ranges a hs) (pre ++ values) = (hs', None) /\ flat_map get_array hs' = values /\ map (fun h => length (get_array h)) hs' = map (fun h => length (get_array h)) hs.
Proof.
  induction hs as [|h hs IH]; intros a pre values La L.
  - cbn in L. destruct values; [|discriminate]. exists []. repeat split.
  - cbn [element_ranges set_each flat_map] in *. rewrite app_length in L. set (k := length (get_array h)) in *.
    assert (S1 : firstn (a + k - a) (skipn a (pre ++ values)) = firstn k values).
    { replace (a + k - a) with k by lia. rewrite <- La, skipn_app, skipn_all, Nat.sub_diag. reflexivity. }
    rewrite S1. assert (Lk : length (firstn k values) = k) by (rewrite firstn_length; lia).
    destruct (set_get h (firstn k values)) as (h' & E & G).
    { unfold accepts. destruct h; [exact Lk|exact I]. }
    rewrite E. destruct (IH (a + k) (pre ++ firstn k values) (skipn k values)) as (hs' & E' & G' & M').
    { rewrite app_length. lia. }
    { rewrite skipn_length. lia. }
    rewrite <- app_assoc, firstn_skipn in E'. rewrite E'. exists (h' :: hs'). split; [reflexivity|]. cbn [flat_map map]. rewrite G, G', firstn_skipn, Lk, M'. split; reflexivity.
Qed.
Lemma set_all_ok (hs : list (hyper A)) h values : get_array h <> [] -> length values = length (flat_map get_array (hs ++ [h])) ->
  exists hs', set_all (hs ++ [h]) values = (hs', None) /\ get_all hs' = Ok values /\ map (fun h => length (get_array h)) hs' = map (fun h => length (get_array h)) (hs ++ [h]).
Proof.
  intros NE L. unfold set_all. destruct (ranges_end hs 0 h) as (l & E). rewrite !Nat.add_0_l in E. rewrite E, rev_app_distr. cbn [rev app].
  assert (K : length (get_array h) <> 0) by (destruct (get_array h); [congruence|discriminate]).
  destruct (Nat.eqb_spec (length (flat_map get_array hs)) (length (flat_map get_array hs) + length (get_array h))) as [Q|_]; [lia|].
  assert (L' : length values = length (flat_map get_array hs) + length (get_array h)) by (rewrite L, flat_map_app, app_length; cbn [flat_map]; rewrite app_nil_r; reflexivity).
  rewrite L', Nat.eqb_refl. destruct (set_each_all (hs ++ [h]) 0 [] values eq_refl L) as (hs' & E' & G' & M'). rewrite E in E'. cbn [app] in E'. rewrite E'. exists hs'. split; [reflexivity|]. split; [|exact M'].
  unfold get_all. destruct hs' as [|g hs']; [destruct hs; discriminate M'|]. f_equal. exact G'.
Qed.
Lemma set_all_wrong (hs : list (hyper A)) h values : get_array h <> [] -> length values <> length (flat_map get_array (hs ++ [h])) -> set_all (hs ++ [h]) values = (hs ++ [h], Some ValueError).
Proof.
  intros NE L. unfold set_all. destruct (ranges_end hs 0 h) as (l & E). rewrite !Nat.add_0_l in E. rewrite E, rev_app_distr. cbn [rev app].
  assert (K : length (get_array h) <> 0) by (destruct (get_array h); [congruence|discriminate]).
  destruct (Nat.eqb_spec (length (flat_map get_array hs)) (length (flat_map get_array hs) + length (get_array h))) as [Q|_]; [lia|].
  destruct (Nat.eqb_spec (length values) (length (flat_map get_array hs) + length (get_array h))) as [Q|_]; [|reflexivity]. contradict L. rewrite Q, flat_map_app, app_length. cbn [flat_map]. rewrite app_nil_r. reflexivity.
Qed.
(* getting, then setting, when every element can be split again *)
Definition splits_back h : Prop := match h with HLocal _ _ => True | HExpanded s r => length r = length s \/ length r = S (length s) end.
Lemma splits_set h : splits_back h -> set_array h (get_array h) = (h, None).
Proof. destruct h as [s r|s r]; [reflexivity|]. intros H. apply get_set_expanded, H. Qed.
Lemma set_each_same : forall (hs : list (hyper A)) a pre, length pre = a -> Forall splits_back hs -> set_each hs (element_ranges a hs) (pre ++ flat_map get_array hs) = (hs, None).
Proof.
  induction hs as [|h hs IH]; intros a pre La F; [reflexivity|]. inversion F as [|? ? Sh F']; subst. cbn [element_ranges set_each flat_map]. set (a := length pre).
  replace (a + length (get_array h) - a) with (length (get_array h)) by lia. unfold a at 1. rewrite skipn_app, skipn_all, Nat.sub_diag. cbn [skipn app]. rewrite firstn_app, Nat.sub_diag, firstn_all. cbn [firstn]. rewrite app_nil_r, (splits_set h Sh).
  rewrite (app_assoc pre). rewrite (IH (a + length (get_array h)) (pre ++ get_array h)); [reflexivity|rewrite app_length; reflexivity|exact F'].
Qed.
Lemma set_all_same (hs : list (hyper A)) h values : get_array h <> [] -> Forall splits_back (hs ++ [h]) -> get_all (hs ++ [h]) = Ok values -> set_all (hs ++ [h]) values = (hs ++ [h], None).
Proof.
  intros NE F G. assert (V : values = flat_map get_array (hs ++ [h])) by (unfold get_all in G; destruct (hs ++ [h]) eqn:Q; [destruct hs; discriminate Q|]; congruence). subst values. clear G.
  unfold set_all. destruct (ranges_end hs 0 h) as (l & E). rewrite !Nat.add_0_l in E. rewrite E, rev_app_distr. cbn [rev app].
  assert (K : length (get_array h) <> 0) by (destruct (get_array h); [congruence|discriminate]).
  destruct (Nat.eqb_spec (length (flat_map get_array hs)) (length (flat_map get_array hs) + length (get_array h))) as [Q|_]; [lia|].
  rewrite flat_map_app, app_length. cbn [flat_map]. rewrite app_nil_r, Nat.eqb_refl, <- E. pose proof (set_each_same (hs ++ [h]) 0 [] eq_refl F) as Q. rewrite flat_map_app in Q. cbn [flat_map app] in Q. rewrite app_nil_r in Q. exact Q.
Qed.
(* files *)
Lemma saved_npy name : ends_with_npy name = true -> saved_name name = name.
Proof. intros E. unfold saved_name. rewrite E. reflexivity. Qed.
Lemma append_length' a b : String.length (append a b) = String.length a + String.length b.
Proof. induction a as [|x a IH]; cbn [append String.length]; [reflexivity|]. rewrite IH. reflexivity. Qed.
Lemma saved_other name : ends_with_npy name = false -> saved_name name <> name.
Proof. intros E Q. unfold saved_name in Q. rewrite E in Q. pose proof (f_equal String.length Q) as L. rewrite append_length' in L. cbn in L. lia. Qed.
Lemma load_saved (fs : file_system A) name hs values hs2 : get_all hs = Ok values -> ends_with_npy name = true ->
  exists fs', values_to_file fs name hs = Ok fs' /\ values_from_file fs' name hs2 = set_all hs2 values.
Proof.
  intros G E. unfold values_to_file. rewrite G. cbn [bind]. eexists. split; [reflexivity|]. unfold values_from_file, save. rewrite (saved_npy name E), String.eqb_refl. reflexivity.
Qed.
Lemma load_other (fs : file_system A) name hs values hs2 : get_all hs = Ok values -> ends_with_npy name = false ->
  exists fs', values_to_file fs name hs = Ok fs' /\ values_from_file fs' name hs2 = values_from_file fs name hs2 /\ fs' (append name ".npy") = Some values.
Proof.
  intros G E. unfold values_to_file. rewrite G. cbn [bind]. eexists. split; [reflexivity|]. split.
  - unfold values_from_file, save. destruct (String.eqb_spec name (saved_name name)) as [Q|_]; [|reflexivity]. exfalso. apply (saved_other name E). symmetry. exact Q.
  - unfold save, saved_name. rewrite E, String.eqb_refl. reflexivity.
Qed.
End Hyper.

(* ---- states *)
Section States.
Context {A : Type}.
Local Open Scope nat_scope.
Lemma slices_parts : forall (parts : list (list A)) a pre, length pre = a -> slices a (map (@List.length A) parts) (pre ++ concat parts) = parts.
Proof.
  induction parts as [|p parts IH]; intros a pre L; [reflexivity|]. cbn [map slices concat]. f_equal.
  - rewrite <- L, skipn_app, skipn_all, Nat.sub_diag. cbn [skipn app]. rewrite firstn_app, Nat.sub_diag, firstn_all. cbn [firstn]. apply app_nil_r.
  - rewrite app_assoc. apply IH. rewrite app_length. lia.
Qed.
Lemma element_parts (parts : list (list A)) : element_states (map (@List.length A) parts) (Some (concat parts)) = map Some parts.
Proof. unfold element_states. f_equal. exact (slices_parts parts 0 [] eq_refl). Qed.
Lemma flagged_some b (parts : list (list A)) : forall flags, map fst (filter (fun p => Bool.eqb (snd p) b) (combine (map Some parts) flags)) = map Some (flagged b parts flags).
Proof.
  unfold flagged. induction parts as [|p parts IH]; intros flags; [reflexivity|]. destruct flags as [|f flags]; [reflexivity|]. cbn [map combine filter snd]. destruct (Bool.eqb f b); cbn [map fst]; rewrite IH; reflexivity.
Qed.
Lemma join_some (parts : list (list A)) : join_states (map Some parts) = match parts with [] => Err ValueError | _ => Ok (Some (concat parts)) end.
Proof.
  unfold join_states. assert (E : existsb is_none (map Some parts) = false) by (induction parts as [|p parts IH]; [reflexivity|exact IH]).
  rewrite E, map_map, map_id. destruct parts; reflexivity.
Qed.
Lemma filter_true {B} (l : list (B * bool)) : filter snd l = filter (fun p => Bool.eqb (snd p) true) l.
Proof. apply filter_ext. intros [x []]; reflexivity. Qed.
Lemma filter_false {B} (l : list (B * bool)) : filter (fun p => negb (snd p)) l = filter (fun p => Bool.eqb (snd p) false) l.
Proof. apply filter_ext. intros [x []]; reflexivity. Qed.
Lemma flagged_in b (parts : list (list A)) : forall flags, length flags = length parts -> In b flags <-> flagged b parts flags <> [].
Proof.
  unfold flagged. induction parts as [|p parts IH]; intros [|f flags] L; try discriminate; [cbn; tauto|]. cbn [length] in L. cbn [combine filter snd In map]. specialize (IH flags ltac:(lia)). destruct f, b; cbn [Bool.eqb map]; split; intros H; try discriminate; try (left; reflexivity).
  - apply IH. destruct H as [H|H]; [discriminate|exact H].
  - right. apply IH, H.
  - apply IH. destruct H as [H|H]; [discriminate|exact H].
  - right. apply IH, H.
Qed.
Lemma split_ok (parts : list (list A)) flags : length flags = length parts -> In true flags -> In false flags ->
  split_states (map (@List.length A) parts) flags (Some (concat parts)) = Ok (Some (concat (flagged true parts flags)), Some (concat (flagged false parts flags))).
Proof.
  intros L T F. unfold split_states. rewrite element_parts, map_length, L, Nat.eqb_refl, filter_true, filter_false, !flagged_some, !join_some.
  apply (flagged_in true parts flags L) in T. apply (flagged_in false parts flags L) in F. destruct (flagged true parts flags); [congruence|]. cbn [bind]. destruct (flagged false parts flags); [congruence|]. reflexivity.
Qed.
Lemma flagged_none b (sizes : list nat) : forall flags, length flags = length sizes ->
  join_states (map fst (filter (fun p => Bool.eqb (snd p) b) (combine (map (fun _ => @None (list A)) sizes) flags))) = if existsb (Bool.eqb b) flags then Ok None else Err ValueError.
Proof.
  induction sizes as [|p sizes IH]; intros [|f flags] L; try discriminate; [reflexivity|]. cbn [length] in L. cbn [map combine filter snd existsb]. specialize (IH flags ltac:(lia)). destruct f, b; cbn [Bool.eqb map fst orb]; [reflexivity|exact IH|exact IH|reflexivity].
Qed.
Lemma split_one_kind (sizes : list nat) flags (state : option (list A)) b : length flags = length sizes -> Forall (fun f => f = b) flags ->
  split_states sizes flags state = Err ValueError.
Proof.
  intros L F. unfold split_states. assert (Lx : length (element_states sizes state) = length flags).
  { rewrite L. destruct state as [s|]; cbn [element_states]; rewrite map_length; [|reflexivity]. generalize 0. clear. induction sizes as [|n sizes IH]; intros a; [reflexivity|]. cbn [slices length]. f_equal. apply IH. }
  rewrite Lx, Nat.eqb_refl. rewrite filter_true, filter_false.
  assert (N : forall (xs : list (option (list A))), map fst (filter (fun p => Bool.eqb (snd p) (negb b)) (combine xs flags)) = []).
  { clear -F. induction F as [|f flags -> F IH]; intros [|x xs]; try reflexivity. cbn [combine filter snd]. destruct b; cbn [negb Bool.eqb]; apply IH. }
  destruct b; cbn [negb] in N; rewrite N; [|reflexivity].
  destruct (join_states (map fst (filter (fun p => Bool.eqb (snd p) true) (combine (element_states sizes state) flags)))) as [x|e] eqn:E; [reflexivity|].
  cbn [bind]. unfold join_states in E. destruct (existsb _ _); [discriminate|]. unfold concatenate in E. destruct (map _ _) in E; cbn [bind] in E; congruence.
Qed.
Lemma take_ok (l : list A) d : forall indices, Forall (fun i => i < length l) indices -> take_indices l indices = Ok (map (fun i => nth i l d) indices).
Proof.
  unfold take_indices. induction 1 as [|i indices H F IH]; [reflexivity|]. cbn [mapM map]. rewrite (nth_error_nth' l d H). cbn [bind]. rewrite IH. reflexivity.
Qed.
Definition selected d (p : list A * option view) : list A := match snd p with None => fst p | Some v => map (fun j => nth j (fst p) d) (v_vertices v) end.
Lemma extract_parts d : forall (parts : list (list A)) (views : list (option view)) pre, length views = length parts ->
  Forall (fun p : list A * option view => match snd p with None => True | Some v => Forall (fun j => j < length (fst p)) (v_vertices v) end) (combine parts views) ->
  mapM (fun p : nat * option view =>
      match nth_error (map Some (pre ++ parts)) (fst p) with
      | None => Err IndexError
      | Some s => match snd p with None => Ok s | Some v => match s with None => Err TypeError | Some s => do x <- take_indices s (v_vertices v); Ok (Some x) end end
      end) (combine (seq (length pre) (length views)) views) = Ok (map Some (map (selected d) (combine parts views))).
Proof.
  induction parts as [|p parts IH]; intros [|v views] pre L F; try discriminate; [reflexivity|]. cbn [length] in L. cbn [combine] in F. inversion F as [|? ? H F']; subst. cbn [length seq combine mapM map fst snd].
  rewrite map_app, nth_error_app2, map_length, Nat.sub_diag by (rewrite map_length; lia). cbn [map nth_error].
  pose proof (IH views (pre ++ [p]) ltac:(lia) F') as Q. rewrite app_length, Nat.add_1_r, <- app_assoc in Q. cbn [app] in Q. rewrite map_app in Q. cbn [map] in Q.
  destruct v as [v|]; cbn [snd fst] in H.
  - rewrite (take_ok p d _ H). cbn [bind]. rewrite Q. cbn [bind]. reflexivity.
  - cbn [bind]. rewrite Q. cbn [bind]. reflexivity.
Qed.
Lemma extract_ok d (parts : list (list A)) (views : list (option view)) : parts <> [] -> length views = length parts ->
  Forall (fun p : list A * option view => match snd p with None => True | Some v => Forall (fun j => j < length (fst p)) (v_vertices v) end) (combine parts views) ->
  extract_view_states (map (@List.length A) parts) views (Some (concat parts)) = Ok (concat (map (selected d) (combine parts views))).
Proof.
  intros NE L F. unfold extract_view_states. rewrite element_parts. pose proof (extract_parts d parts views [] L F) as Q. cbn [app length] in Q. rewrite Q. cbn [bind].
  assert (E : forall l : list (list A), existsb is_none (map Some l) = false) by (induction l as [|x l IH]; [reflexivity|exact IH]). rewrite E, map_map, map_id.
  destruct parts as [|p parts]; [congruence|]. destruct views as [|v views]; [discriminate|]. reflexivity.
Qed.
End States.
