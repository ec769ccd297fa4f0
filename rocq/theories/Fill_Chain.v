(* Sequences of operations in generated descriptors. *)
From Coq Require Import String Ascii ZifyBool.
From Verif Require Import Base Grid_Model Fill_Model Fill_Spec Fill_Proofs.
Open Scope string_scope.
Open Scope list_scope.
Open Scope Z_scope.

(* ---------- what is known of an operation *)

Record sketch := {
  k_fn : string; k_comp : option Z; k_reads : list string; k_writes : list string; k_news : list (option string * json);
  k_src : Z -> kind -> option string; k_tgt : Z -> kind -> option string }.
Definition drawn (known : string -> Prop) (op : json) (s : sketch) : Prop :=
  exists t, (forall d, reads t d -> known d) /\ outlines t op (k_fn s) (k_comp s) (k_reads s) (k_writes s) (k_news s) (k_src s) (k_tgt s).
Definition names (s : sketch) : list string := flat_map (fun e : option string * json => match fst e with Some x => [x] | None => [] end) (k_news s).

Definition measuring (f : filler) (fn kd : string) (c i : Z) (ks : list Z) (src0 : Z -> option string) (dataset : string) : sketch :=
  {| k_fn := fn; k_comp := Some c; k_reads := sources_of f c i ks; k_writes := [numbered dataset i];
     k_news := [(Some (numbered dataset i), pattern (numbered dataset i) "pickle" kd)];
     k_src := only State src0; k_tgt := only Measurement (fun k => when (k =? c) (numbered dataset i)) |}.
Definition single_measuring (f : filler) (c i : Z) (dataset : string) : sketch :=
  measuring f PROCESS_INPUTS "measurement" c i (others c) (fun k => if k =? c then None else src f c i k) dataset.
Definition batch_measuring (f : filler) (c i : Z) (dataset : string) : sketch :=
  measuring f PROCESS_INPUTS_BATCH "monthly_measurement" c i [0; 1; 2] (src f c i) dataset.
Definition solving (sampled : bool) (c i : Z) (solution measurement : string) : sketch :=
  {| k_fn := SOLVE; k_comp := Some c; k_reads := [numbered measurement i]; k_writes := with_samples sampled solution i;
     k_news := announced "spacetime_solution" "spacetime_sample" sampled solution i;
     k_src := only Measurement (fun k => when (k =? c) (numbered measurement i)); k_tgt := stored sampled c solution i |}.
Definition posterior_solving (sampled : bool) (c i : Z) (solution measurement : string) : sketch :=
  {| k_fn := SOLVE; k_comp := Some c; k_reads := [numbered measurement i]; k_writes := with_sample sampled solution i;
     k_news := announced_sample "spacetime_solution" "spacetime_sample" sampled solution i;
     k_src := only Measurement (fun k => when (k =? c) (numbered measurement i));
     k_tgt := fun k w => match w with PriorSample => None | _ => stored sampled c solution i k w end |}.
Definition prior_solving (c i : Z) (solution : string) : sketch :=
  {| k_fn := SOLVE; k_comp := Some c; k_reads := []; k_writes := [numbered (prior_sample_of solution) i];
     k_news := [(Some (numbered (prior_sample_of solution) i), pattern (numbered (prior_sample_of solution) i) "pickle" "spacetime_solution")];
     k_src := nowhere; k_tgt := only PriorSample (fun k => when (k =? c) (numbered (prior_sample_of solution) i)) |}.
Definition local_solving (f : filler) (sampled : bool) (i : Z) : sketch :=
  {| k_fn := PROCESS_INPUTS; k_comp := Some 2; k_reads := sources_of f 2 i (others 2); k_writes := with_samples sampled (f_solution_local_scale f) i;
     k_news := announced "space_solution" "space_sample" sampled (f_solution_local_scale f) i;
     k_src := only State (fun k => if k =? 2 then None else src f 2 i k); k_tgt := stored sampled 2 (f_solution_local_scale f) i |}.
Definition gridding (fn : string) (f : filler) (i : Z) (out : string -> string) : sketch :=
  {| k_fn := fn; k_comp := None; k_reads := all_read_names f i; k_writes := map out (outputs f); k_news := announced_outputs out f;
     k_src := gridded f i; k_tgt := nowhere |}.

Definition single_sketches (f : filler) (sampled : bool) (i : Z) : list sketch :=
  [single_measuring f 0 i (f_measurement_climatology f); solving sampled 0 i (f_solution_climatology f) (f_measurement_climatology f);
   single_measuring f 1 i (f_measurement_large_scale f); solving sampled 1 i (f_solution_large_scale f) (f_measurement_large_scale f);
   local_solving f sampled i].
Definition batch_sketches (f : filler) (sampled : bool) (i : Z) : list sketch :=
  batch_measuring f 0 i (f_measurement_climatology f) :: posterior_solving sampled 0 i (f_solution_climatology f) (f_measurement_climatology f) ::
  (if sampled then [prior_solving 0 i (f_solution_climatology f)] else []) ++
  batch_measuring f 1 i (f_measurement_large_scale f) :: posterior_solving sampled 1 i (f_solution_large_scale f) (f_measurement_large_scale f) ::
  (if sampled then [prior_solving 1 i (f_solution_large_scale f)] else []) ++
  [local_solving f sampled i].

Lemma component_0 : component 0. Proof. now left. Qed.
Lemma component_1 : component 1. Proof. right; now left. Qed.
Lemma component_2 : component 2. Proof. right; now right. Qed.

Lemma single_drawn f t sampled i ops (known : string -> Prop) : settled f -> blank t -> 0 <= i -> (forall d, reads t d -> known d) ->
  single_iteration f t sampled i = Ok ops -> Forall2 (drawn known) ops (single_sketches f (sampled i) i).
Proof.
  intros S B Hi R H. unfold single_iteration in H.
  apply bind_ok in H. destruct H as (a & Ha & H). apply bind_ok in H. destruct H as (b & Hb & H). apply bind_ok in H. destruct H as (c & Hc & H).
  apply bind_ok in H. destruct H as (d & Hd & H). apply bind_ok in H. destruct H as (e & He & H). injection H as <-.
  repeat constructor; (exists t; split; [exact R|]).
  - exact (measurement_outline _ _ _ _ _ _ _ S B Hi component_0 Ha).
  - exact (solution_outline _ _ _ _ _ _ _ _ _ S B Hi component_0 Hb).
  - exact (measurement_outline _ _ _ _ _ _ _ S B Hi component_1 Hc).
  - exact (solution_outline _ _ _ _ _ _ _ _ _ S B Hi component_1 Hd).
  - exact (local_outline _ _ _ _ _ S B Hi He).
Qed.
Lemma batch_drawn f t tb sampled i ops (known : string -> Prop) : settled f -> blank t -> blank tb -> 0 <= i -> (forall d, reads t d -> known d) -> (forall d, reads tb d -> known d) ->
  batch_iteration f t tb sampled i = Ok ops -> Forall2 (drawn known) ops (batch_sketches f (sampled i) i).
Proof.
  intros S B BB Hi R RB H. unfold batch_iteration in H.
  apply bind_ok in H. destruct H as (a & Ha & H). apply bind_ok in H. destruct H as (b & Hb & H). apply bind_ok in H. destruct H as (pc & Hpc & H).
  apply bind_ok in H. destruct H as (c & Hc & H). apply bind_ok in H. destruct H as (d & Hd & H). apply bind_ok in H. destruct H as (pl & Hpl & H).
  apply bind_ok in H. destruct H as (e & He & H). injection H as <-.
  unfold batch_sketches. constructor; [exists tb; split; [exact RB|exact (batch_measurement_outline _ _ _ _ _ _ _ S BB Hi component_0 Ha)]|].
  constructor; [exists t; split; [exact R|exact (posterior_outline _ _ _ _ _ _ _ _ _ S B Hi component_0 Hb)]|].
  apply Forall2_app.
  { destruct (sampled i) eqn:E; [|injection Hpc as <-; constructor]. apply bind_ok in Hpc. destruct Hpc as (p & Hp & [= <-]).
    repeat constructor. exists t. split; [exact R|exact (prior_outline _ _ _ _ _ _ _ S B Hi component_0 Hp)]. }
  constructor; [exists tb; split; [exact RB|exact (batch_measurement_outline _ _ _ _ _ _ _ S BB Hi component_1 Hc)]|].
  constructor; [exists t; split; [exact R|exact (posterior_outline _ _ _ _ _ _ _ _ _ S B Hi component_1 Hd)]|].
  apply Forall2_app.
  { destruct (sampled i) eqn:E; [|injection Hpl as <-; constructor]. apply bind_ok in Hpl. destruct Hpl as (p & Hp & [= <-]).
    repeat constructor. exists t. split; [exact R|exact (prior_outline _ _ _ _ _ _ _ S B Hi component_1 Hp)]. }
  repeat constructor. exists t. split; [exact R|exact (local_outline _ _ _ _ _ S B Hi He)].
Qed.

Lemma mapM_drawn {A} (P : A -> Prop) (known : string -> Prop) g (sk : A -> list sketch) l its : (forall i ops, P i -> g i = Ok ops -> Forall2 (drawn known) ops (sk i)) -> Forall P l ->
  mapM g l = Ok its -> Forall2 (drawn known) (concat its) (flat_map sk l).
Proof.
  intros HG F. revert its. induction F as [|i l Pi F IH]; intros its H; cbn [mapM] in H; [injection H as <-; constructor|].
  apply bind_ok in H. destruct H as (o & Ho & H). apply bind_ok in H. destruct H as (os & Hos & [= <-]). cbn [concat flat_map]. apply Forall2_app; [now apply HG|now apply IH].
Qed.
Lemma zrange_nonneg a b : 0 <= a -> Forall (fun i => 0 <= i) (zrange a b).
Proof. intros H. apply Forall_forall. intros i I. apply zrange_In in I. lia. Qed.

(* ---------- restriction to the listed sources *)

Lemma restrict_effect j j' : restrict_inputs j = Ok j' -> effect [[K "runmodule"; K "inputsources"]] [] j j'.
Proof.
  unfold restrict_inputs. intros H. apply bind_ok in H. destruct H as (r & Hr & H). destruct r as [| | | |d]; try discriminate.
  destruct (dget "inputsources" d) as [s|] eqn:E; [|injection H as <-; apply (effect_weaken [] [] _ _ _ _ (effect_refl j)); intros x []].
  destruct s as [| | |l|]; try discriminate. apply bind_ok in H. destruct H as (kept & Hk & H).
  assert (I : forall l acc kept, foldM (fun kept source => do name <- get [K "name"] source; Ok (if existsb (fun s => match name with JStr n => String.eqb n s | _ => false end) INPUTSOURCE_LIST then kept ++ [source] else kept)) acc l = Ok kept ->
     forall x, In x kept -> In x acc \/ In x l).
  { clear. induction l as [|s l IH]; intros acc kept H x I; cbn [foldM] in H; [injection H as <-; now left|].
    apply bind_ok in H. destruct H as (acc' & Ha & H). apply bind_ok in Ha. destruct Ha as (n & Hn & Ha). injection Ha as <-. destruct (IH _ _ H x I) as [I'|I']; [|right; now right].
    match type of I' with In _ (if ?b then _ else _) => destruct b end; [|now left]. apply in_app_iff in I'. destruct I' as [I'|[->|[]]]; [now left|right; now left]. }
  specialize (I _ _ _ Hk).
  assert (G : get [K "runmodule"; K "inputsources"] j = Ok (JList l)).
  { change [K "runmodule"; K "inputsources"] with ([K "runmodule"] ++ [K "inputsources"]). rewrite get_app, Hr. cbn. now rewrite E. }
  split.
  - intros q D. cbn [forallb] in D. rewrite andb_true_r in D. exact (get_put_diverge _ _ _ _ _ H D).
  - intros C x R. left. destruct (refers_put C x _ _ _ _ H ltac:(discriminate) eq_refl R) as [R'|R']; [exact R'|].
    inversion R' as [| |l0 v Iv Rv]; subst. apply (refers_get C x _ _ _ G). destruct (I v Iv) as [[]|I']. now apply (refers_list C x l v).
Qed.
Lemma restrict_blank j j' : restrict_inputs j = Ok j' -> blank j -> blank j'.
Proof.
  intros H (BS & BD & BW). pose proof (restrict_effect _ _ H) as F. split; [|split].
  - intros c w. assert (X : storage_of c = "storage_climatology" \/ storage_of c = "storage_large_scale" \/ storage_of c = "storage_local") by (unfold storage_of; destruct (c =? 0); [tauto|]; destruct (c =? 1); tauto).
    split; [rewrite <- (proj1 (BS c w)); apply (source_same _ _ _ _ _ _ F)|rewrite <- (proj2 (BS c w)); apply (target_same _ _ _ _ _ _ F)]; destruct X as [-> | [-> | ->]]; destruct w; reflexivity.
  - destruct BD as (d & BD). exists d. rewrite <- BD. apply (proj1 F). reflexivity.
  - intros d W. destruct (proj2 F _ _ W) as [X|(c & [] & _)]. now apply (BW d).
Qed.
Lemma restrict_grid j j' : restrict_inputs j = Ok j' -> grid_inputs j -> grid_inputs j'.
Proof.
  intros H G c key I. rewrite <- (G c key I). apply text_at_same, (proj1 (restrict_effect _ _ H)).
  assert (X : storage_of c = "storage_climatology" \/ storage_of c = "storage_large_scale" \/ storage_of c = "storage_local") by (unfold storage_of; destruct (c =? 0); [tauto|]; destruct (c =? 1); tauto).
  destruct X as [-> | [-> | ->]]; reflexivity.
Qed.
Lemma restrict_reads j j' d : restrict_inputs j = Ok j' -> reads j' d -> reads j d.
Proof. intros H R. destruct (proj2 (restrict_effect _ _ H) _ _ R) as [X|(c & [] & _)]. exact X. Qed.

(* ---------- data sets read are declared earlier *)

Fixpoint covered (S : list string) (l : list sketch) : Prop :=
  match l with [] => True | s :: l' => incl (k_reads s) S /\ covered (S ++ names s) l' end.
Lemma covered_app S l1 l2 : covered S l1 -> covered (S ++ flat_map names l1) l2 -> covered S (l1 ++ l2).
Proof.
  revert S. induction l1 as [|s l1 IH]; intros S C1 C2; cbn [app covered flat_map] in *; [now rewrite app_nil_r in C2|].
  destruct C1 as [I C1]. split; [exact I|]. apply IH; [exact C1|now rewrite <- app_assoc].
Qed.
Lemma covered_at S before s after : covered S (before ++ s :: after) -> incl (k_reads s) (S ++ flat_map names before).
Proof.
  revert S. induction before as [|b before IH]; intros S C; cbn [app covered flat_map] in *; [rewrite app_nil_r; apply C|].
  destruct C as [_ C]. rewrite app_assoc. now apply IH.
Qed.
Lemma drawn_declared known op s : drawn known op s -> declared op = names s.
Proof. intros (t & _ & O). now rewrite (announces_declared _ _ (o_announces _ _ _ _ _ _ _ _ _ O)). Qed.
Lemma drawn_all_declared known ops ss : Forall2 (drawn known) ops ss -> flat_map declared ops = flat_map names ss.
Proof. induction 1 as [|o s os ss D F IH]; cbn [flat_map]; [reflexivity|]. now rewrite (drawn_declared _ _ _ D), IH. Qed.
Lemma Forall2_split {A B} (R : A -> B -> Prop) l1 x l2 m : Forall2 R (l1 ++ x :: l2) m -> exists m1 y m2, m = m1 ++ y :: m2 /\ Forall2 R l1 m1 /\ R x y /\ Forall2 R l2 m2.
Proof.
  intros F. apply Forall2_app_inv_l in F. destruct F as (m1 & m' & F1 & F2 & ->). inversion F2 as [|? y ? m2 Rxy F3]; subst. now exists m1, y, m2.
Qed.
Lemma covered_ordered (known : string -> Prop) S ops ss : Forall2 (drawn known) ops ss -> covered S ss -> (forall d, In d S -> known d) -> well_ordered known ops.
Proof.
  intros F C K before op after d -> R. apply Forall2_split in F. destruct F as (b & s & a & -> & Fb & (t & Kt & O) & _).
  destruct (o_reads _ _ _ _ _ _ _ _ _ O d R) as [R'|I]; [left; auto|]. apply (covered_at S b s a C) in I. apply in_app_iff in I.
  destruct I as [I|I]; [left; auto|right; now rewrite (drawn_all_declared _ _ _ Fb)].
Qed.

(* ---------- states read are the latest *)

Definition state := Z -> kind -> option string.
Definition update (st : state) (s : sketch) : state := fun k w => match k_tgt s k w with Some d => Some d | None => st k w end.
Definition proper (st : state) (s : sketch) : Prop :=
  (forall k w d, component k -> k_src s k w = Some d -> st k w = Some d) /\
  (forall k w d, component k -> k_tgt s k w = Some d -> k_comp s = Some k) /\
  (In (k_fn s) [PROCESS_INPUTS; PROCESS_INPUTS_BATCH] -> exists c, k_comp s = Some c /\ forall k, component k -> k <> c -> k_src s k State = st k State) /\
  (k_fn s = PROCESS_INPUTS_BATCH -> forall k, component k -> k_src s k State = st k State) /\
  (k_fn s = SOLVE -> exists c, k_comp s = Some c /\ forall d, k_tgt s c State = Some d -> exists m, k_src s c Measurement = Some m) /\
  (In (k_fn s) [OUTPUT_GRID; OUTPUT_GRID_BATCH] -> forall k w, component k -> w <> Measurement -> exists d, k_src s k w = Some d).
Fixpoint routed (st : state) (l : list sketch) : Prop := match l with [] => True | s :: l' => proper st s /\ routed (update st s) l' end.
Definition after (st : state) (l : list sketch) : state := fold_left update l st.
Lemma routed_app st l1 l2 : routed st l1 -> routed (after st l1) l2 -> routed st (l1 ++ l2).
Proof. revert st. induction l1 as [|s l1 IH]; intros st R1 R2; cbn [app routed after fold_left] in *; [exact R2|]. destruct R1 as [P R1]. split; [exact P|]. now apply IH. Qed.
Lemma after_app st l1 l2 : after st (l1 ++ l2) = after (after st l1) l2.
Proof. unfold after. now rewrite fold_left_app. Qed.
Lemma routed_at st b s a : routed st (b ++ s :: a) -> proper (after st b) s.
Proof. revert st. induction b as [|x b IH]; intros st R; cbn [app routed after fold_left] in *; [apply R|]. apply IH, R. Qed.
Lemma latest_from known ops ss k w : component k -> Forall2 (drawn known) ops ss -> forall found st, st k w = found ->
  fold_left (fun found op => match target k w op with Some d => Some d | None => found end) ops found = after st ss k w.
Proof.
  intros Ck F. induction F as [|o s os ss (t & _ & O) F IH]; intros found st E; cbn [fold_left after]; [now symmetry|].
  apply IH. unfold update. now rewrite <- (o_target _ _ _ _ _ _ _ _ _ O k w Ck), E.
Qed.
Definition start : state := fun _ _ => None.
Lemma latest_after known ops ss k w : component k -> Forall2 (drawn known) ops ss -> latest k w ops = after start ss k w.
Proof. intros Ck F. now apply (latest_from known ops ss k w Ck F None start). Qed.

(* ---------- iterations *)

Definition measurement_name (f : filler) (k : Z) : string := if k =? 0 then f_measurement_climatology f else f_measurement_large_scale f.
Definition iteration_names (f : filler) (sampled : bool) : list string :=
  let with_s n := n :: (if sampled then [sample_of n; prior_sample_of n] else []) in
  f_measurement_climatology f :: with_s (f_solution_climatology f) ++ f_measurement_large_scale f :: with_s (f_solution_large_scale f) ++ with_s (f_solution_local_scale f).
(* the states when iteration i starts *)
Definition solved_to (f : filler) (i : Z) (st : state) : Prop :=
  forall k, component k -> st k State = if 0 <? i then Some (numbered (solution_name f k) (i - 1)) else None.

Record iterates (f : filler) (sk : bool -> Z -> list sketch) : Prop := {
  it_covered : forall b i S, 0 <= i -> (0 < i -> forall k, component k -> In (numbered (solution_name f k) (i - 1)) S) -> covered S (sk b i);
  it_names : forall b i, flat_map names (sk b i) = map (fun n => numbered n i) (iteration_names f b);
  it_writes : forall b i, Forall (fun s => names s = k_writes s) (sk b i);
  it_routed : forall b i st, 0 <= i -> solved_to f i st -> routed st (sk b i);
  it_state : forall b i st, 0 <= i -> solved_to f (i + 1) (after st (sk b i));
  it_sampled : forall i st k w, component k -> after st (sk true i) k w = match w with
      | State => Some (numbered (solution_name f k) i) | Sample => Some (numbered (sample_of (solution_name f k)) i)
      | PriorSample => Some (numbered (prior_sample_of (solution_name f k)) i)
      | Measurement => if k =? 2 then st k w else Some (numbered (measurement_name f k) i) end }.

Lemma sources_covered f c i ks S : (forall k, In k ks -> component k) -> (0 < i -> forall k, component k -> In (numbered (solution_name f k) (i - 1)) S) ->
  (forall k, component k -> k < c -> In (numbered (solution_name f k) i) S) -> incl (sources_of f c i ks) S.
Proof.
  intros HK H0 H1 d I. apply sources_of_In in I. destruct I as (k & Ik & E). unfold src in E. destruct (k <? c) eqn:L; [injection E as <-; apply H1; [auto|lia]|].
  destruct (0 <? i) eqn:P; [injection E as <-; apply H0; [lia|auto]|discriminate].
Qed.
Lemma others_component c k : In k (others c) -> component k.
Proof. intros I. apply others_In in I. tauto. Qed.
Lemma all_component k : In k [0; 1; 2] -> component k.
Proof. apply all_In. Qed.

Ltac below := let k := fresh "k" in let Ck := fresh "Ck" in let L := fresh "L" in intros k Ck L; destruct Ck as [-> | [-> | ->]]; try lia.
Ltac inside := rewrite ?in_app_iff; cbn; tauto.

Lemma proper_measuring f c i dataset st : component c -> (forall k, component k -> k <> c -> st k State = src f c i k) -> proper st (single_measuring f c i dataset).
Proof.
  intros Hc E. unfold proper. cbn [single_measuring measuring k_src k_tgt k_fn k_comp]. repeat apply conj.
  - intros k w d Ck H. destruct w; try discriminate. cbn [only] in H. destruct (k =? c) eqn:Q; [discriminate|]. rewrite E; [exact H|exact Ck|lia].
  - intros k w d Ck H. destruct w; try discriminate. cbn [only] in H. destruct (k =? c) eqn:Q; [|discriminate]. f_equal. lia.
  - intros _. exists c. split; [reflexivity|]. intros k Ck N. cbn [only]. replace (k =? c) with false by lia. now rewrite E.
  - intros X. discriminate.
  - intros X. discriminate.
  - intros [X|[X|[]]]; discriminate.
Qed.
Lemma proper_batch_measuring f c i dataset st : component c -> (forall k, component k -> st k State = src f c i k) -> proper st (batch_measuring f c i dataset).
Proof.
  intros Hc E. unfold proper. cbn [batch_measuring measuring k_src k_tgt k_fn k_comp]. repeat apply conj.
  - intros k w d Ck H. destruct w; try discriminate. cbn [only] in H. now rewrite E.
  - intros k w d Ck H. destruct w; try discriminate. cbn [only] in H. destruct (k =? c) eqn:Q; [|discriminate]. f_equal. lia.
  - intros _. exists c. split; [reflexivity|]. intros k Ck N. cbn [only]. now rewrite E.
  - intros _ k Ck. cbn [only]. now rewrite E.
  - intros X. discriminate.
  - intros [X|[X|[]]]; discriminate.
Qed.
Lemma proper_local f (sampled : bool) i st : (forall k, component k -> k <> 2 -> st k State = src f 2 i k) -> proper st (local_solving f sampled i).
Proof.
  intros E. unfold proper. cbn [local_solving k_src k_tgt k_fn k_comp]. repeat apply conj.
  - intros k w d Ck H. destruct w; try discriminate. cbn [only] in H. destruct (k =? 2) eqn:Q; [discriminate|]. rewrite E; [exact H|exact Ck|lia].
  - intros k w d Ck H. destruct w; try discriminate; cbn [stored] in H; destruct (k =? 2) eqn:Q; try discriminate; f_equal; lia.
  - intros _. exists 2. split; [reflexivity|]. intros k Ck N. cbn [only]. replace (k =? 2) with false by lia. now rewrite E.
  - intros X. discriminate.
  - intros X. discriminate.
  - intros [X|[X|[]]]; discriminate.
Qed.
Lemma proper_solving (sampled : bool) c i solution measurement st : st c Measurement = Some (numbered measurement i) -> proper st (solving sampled c i solution measurement).
Proof.
  intros E. unfold proper. cbn [solving k_src k_tgt k_fn k_comp]. repeat apply conj.
  - intros k w d Ck H. destruct w; try discriminate. cbn [only] in H. destruct (k =? c) eqn:Q; [|discriminate]. assert (k = c) as -> by lia. now rewrite E.
  - intros k w d Ck H. destruct w; try discriminate; cbn [stored] in H; destruct (k =? c) eqn:Q; try discriminate; f_equal; lia.
  - intros [X|[X|[]]]; discriminate.
  - intros X. discriminate.
  - intros _. exists c. split; [reflexivity|]. intros d _. exists (numbered measurement i). cbn [only]. now rewrite Z.eqb_refl.
  - intros [X|[X|[]]]; discriminate.
Qed.
Lemma proper_posterior (sampled : bool) c i solution measurement st : st c Measurement = Some (numbered measurement i) -> proper st (posterior_solving sampled c i solution measurement).
Proof.
  intros E. unfold proper. cbn [posterior_solving k_src k_tgt k_fn k_comp]. repeat apply conj.
  - intros k w d Ck H. destruct w; try discriminate. cbn [only] in H. destruct (k =? c) eqn:Q; [|discriminate]. assert (k = c) as -> by lia. now rewrite E.
  - intros k w d Ck H. destruct w; try discriminate; cbn [stored] in H; destruct (k =? c) eqn:Q; try discriminate; f_equal; lia.
  - intros [X|[X|[]]]; discriminate.
  - intros X. discriminate.
  - intros _. exists c. split; [reflexivity|]. intros d _. exists (numbered measurement i). cbn [only]. now rewrite Z.eqb_refl.
  - intros [X|[X|[]]]; discriminate.
Qed.
Lemma proper_prior c i solution st : proper st (prior_solving c i solution).
Proof.
  unfold proper. cbn [prior_solving k_src k_tgt k_fn k_comp]. repeat apply conj.
  - intros k w d Ck H. discriminate.
  - intros k w d Ck H. destruct w; try discriminate; cbn [only] in H; destruct (k =? c) eqn:Q; try discriminate; f_equal; lia.
  - intros [X|[X|[]]]; discriminate.
  - intros X. discriminate.
  - intros _. exists c. split; [reflexivity|]. intros d [=].
  - intros [X|[X|[]]]; discriminate.
Qed.
Lemma proper_gridding fn f i out st : In fn [OUTPUT_GRID; OUTPUT_GRID_BATCH] -> (forall k w d, component k -> gridded f i k w = Some d -> st k w = Some d) -> proper st (gridding fn f i out).
Proof.
  intros Hf E. unfold proper. cbn [gridding k_src k_tgt k_fn k_comp]. repeat apply conj.
  - exact E.
  - intros k w d Ck H. discriminate.
  - intros [<-|[<-|[]]]; destruct Hf as [X|[X|[]]]; discriminate.
  - intros ->. destruct Hf as [X|[X|[]]]; discriminate.
  - intros ->. destruct Hf as [X|[X|[]]]; discriminate.
  - intros _ k w Ck N. destruct w; [| | |contradiction]; cbn [gridded]; eauto.
Qed.

Lemma update_state st k w s d : k_tgt s k w = Some d -> update st s k w = Some d.
Proof. intros E. unfold update. now rewrite E. Qed.
Lemma src_earlier f c i k : k < c -> src f c i k = Some (numbered (solution_name f k) i).
Proof. intros L. unfold src. now replace (k <? c) with true by lia. Qed.
Lemma src_later f c i k st : solved_to f i st -> component k -> c <= k -> st k State = src f c i k.
Proof. intros SV Ck L. unfold src. replace (k <? c) with false by lia. now apply SV. Qed.

Lemma single_iterates f : iterates f (single_sketches f).
Proof.
  constructor.
  - intros b i S Hi P. unfold single_sketches.
    assert (P' : forall X, 0 < i -> forall k, component k -> In (numbered (solution_name f k) (i - 1)) (S ++ X)) by (intros X L k Ck; apply in_app_iff; left; auto).
    cbn [covered single_measuring measuring solving local_solving k_reads names k_news].
    rewrite <- !app_assoc. repeat apply conj.
    + apply sources_covered; [apply others_component|exact P|below].
    + intros d [<-|[]]. apply in_app_iff. right. now left.
    + apply sources_covered; [apply others_component|apply P'|below; rewrite !in_app_iff; right; cbn; tauto].
    + intros d [<-|[]]. rewrite !in_app_iff. right. right. right. now left.
    + apply sources_covered; [apply others_component|apply P'|below; rewrite !in_app_iff; right; cbn; tauto].
    + exact I.
  - intros [|] i; reflexivity.
  - intros [|] i; repeat constructor.
  - intros b i st Hi SV. unfold single_sketches. cbn [routed]. repeat match goal with |- _ /\ _ => split end; try exact I.
    + apply proper_measuring; [apply component_0|]. intros k Ck N. apply src_later; [exact SV|exact Ck|]. destruct Ck as [-> | [-> | ->]]; lia.
    + apply proper_solving. now apply update_state.
    + apply proper_measuring; [apply component_1|]. intros k Ck N. destruct Ck as [-> | [-> | ->]]; [now rewrite src_earlier by lia|contradiction|].
      exact (src_later f 1 i 2 st SV component_2 ltac:(lia)).
    + apply proper_solving. now apply update_state.
    + apply proper_local. intros k Ck N. rewrite src_earlier by (destruct Ck as [-> | [-> | ->]]; lia). destruct Ck as [-> | [-> | ->]]; [reflexivity|reflexivity|contradiction].
  - intros b i st Hi k Ck. replace (0 <? i + 1) with true by lia. replace (i + 1 - 1) with i by lia. destruct Ck as [-> | [-> | ->]]; reflexivity.
  - intros i st k w Ck. destruct Ck as [-> | [-> | ->]]; destruct w; reflexivity.
Qed.

Lemma batch_iterates f : iterates f (batch_sketches f).
Proof.
  constructor.
  - intros b i S Hi P. unfold batch_sketches.
    assert (P' : forall X, 0 < i -> forall k, component k -> In (numbered (solution_name f k) (i - 1)) (S ++ X)) by (intros X L k Ck; apply in_app_iff; left; auto).
    destruct b; cbn [app covered batch_measuring measuring posterior_solving prior_solving local_solving k_reads names k_news]; rewrite <- !app_assoc; repeat apply conj;
      try exact I; try (intros d []; fail);
      try (apply sources_covered; [solve [apply others_component|apply all_component]|solve [exact P|apply P']|below; rewrite !in_app_iff; right; cbn; tauto]);
      intros d [<-|[]]; rewrite !in_app_iff; right; cbn; tauto.
  - intros [|] i; reflexivity.
  - intros [|] i; repeat constructor.
  - intros b i st Hi SV. unfold batch_sketches.
    assert (M0 : proper st (batch_measuring f 0 i (f_measurement_climatology f))).
    { apply proper_batch_measuring; [apply component_0|]. intros k Ck. apply src_later; [exact SV|exact Ck|]. destruct Ck as [-> | [-> | ->]]; lia. }
    destruct b; cbn [app routed]; repeat match goal with |- _ /\ _ => split end; try exact I; try exact M0; try apply proper_prior; try (apply proper_posterior; now apply update_state).
    + apply proper_batch_measuring; [apply component_1|]. intros k Ck. destruct Ck as [-> | [-> | ->]]; [now rewrite src_earlier by lia| |].
      * exact (src_later f 1 i 1 st SV component_1 ltac:(lia)).
      * exact (src_later f 1 i 2 st SV component_2 ltac:(lia)).
    + apply proper_local. intros k Ck N. rewrite src_earlier by (destruct Ck as [-> | [-> | ->]]; lia). destruct Ck as [-> | [-> | ->]]; [reflexivity|reflexivity|contradiction].
    + apply proper_batch_measuring; [apply component_1|]. intros k Ck. destruct Ck as [-> | [-> | ->]]; [now rewrite src_earlier by lia| |].
      * exact (src_later f 1 i 1 st SV component_1 ltac:(lia)).
      * exact (src_later f 1 i 2 st SV component_2 ltac:(lia)).
    + apply proper_local. intros k Ck N. rewrite src_earlier by (destruct Ck as [-> | [-> | ->]]; lia). destruct Ck as [-> | [-> | ->]]; [reflexivity|reflexivity|contradiction].
  - intros b i st Hi k Ck. replace (0 <? i + 1) with true by lia. replace (i + 1 - 1) with i by lia. destruct b, Ck as [-> | [-> | ->]]; reflexivity.
  - intros i st k w Ck. destruct Ck as [-> | [-> | ->]]; destruct w; reflexivity.
Qed.

(* ---------- several iterations *)

Definition run (sk : bool -> Z -> list sketch) (sampled : Z -> bool) (a b : Z) : list sketch := flat_map (fun i => sk (sampled i) i) (zrange a b).
Lemma run_empty sk sampled a : run sk sampled a a = [].
Proof. unfold run. now rewrite zrange_empty by lia. Qed.
Lemma run_snoc sk sampled a b : a <= b -> run sk sampled a (b + 1) = run sk sampled a b ++ sk (sampled b) b.
Proof. intros H. unfold run. rewrite zrange_snoc by exact H. rewrite flat_map_app. cbn [flat_map]. now rewrite app_nil_r. Qed.
Lemma solution_listed f b k : component k -> In (solution_name f k) (iteration_names f b).
Proof. intros [-> | [-> | ->]]; destruct b; cbn; tauto. Qed.

Lemma range_ind (P : Z -> Prop) a : P a -> (forall b, a <= b -> P b -> P (b + 1)) -> forall b, a <= b -> P b.
Proof.
  intros P0 PS b H. replace b with (a + Z.of_nat (Z.to_nat (b - a))) by lia. induction (Z.to_nat (b - a)) as [|m IH]; [now rewrite Z.add_0_r|].
  replace (a + Z.of_nat (S m)) with (a + Z.of_nat m + 1) by lia. apply PS; [lia|exact IH].
Qed.
Lemma run_covered f sk sampled S a : iterates f sk -> 0 <= a -> (0 < a -> forall k, component k -> In (numbered (solution_name f k) (a - 1)) S) -> forall b, a <= b ->
  covered S (run sk sampled a b) /\ (0 < b -> forall k, component k -> In (numbered (solution_name f k) (b - 1)) (S ++ flat_map names (run sk sampled a b))).
Proof.
  intros IT Ha P. apply range_ind.
  - rewrite run_empty. split; [exact I|]. intros L k Ck. apply in_app_iff. left. auto.
  - intros b H [C M]. rewrite run_snoc by exact H. split.
    + apply covered_app; [exact C|]. apply (it_covered f sk IT); [lia|exact M].
    + intros _ k Ck. replace (b + 1 - 1) with b by lia. rewrite flat_map_app, (it_names f sk IT), !in_app_iff. right. right.
      apply (in_map (fun n => numbered n b)). now apply solution_listed.
Qed.
Lemma run_routed f sk sampled st a : iterates f sk -> 0 <= a -> solved_to f a st -> forall b, a <= b ->
  routed st (run sk sampled a b) /\ solved_to f b (after st (run sk sampled a b)).
Proof.
  intros IT Ha P. apply range_ind.
  - rewrite run_empty. split; [exact I|exact P].
  - intros b H [R V]. rewrite run_snoc by exact H. split.
    + apply routed_app; [exact R|]. apply (it_routed f sk IT); [lia|exact V].
    + rewrite after_app. apply (it_state f sk IT). lia.
Qed.
Lemma run_names f sk sampled a b : iterates f sk -> flat_map names (run sk sampled a b) = flat_map (fun i => map (fun n => numbered n i) (iteration_names f (sampled i))) (zrange a b).
Proof.
  intros IT. unfold run. induction (zrange a b) as [|i l IH]; cbn [flat_map]; [reflexivity|]. now rewrite flat_map_app, (it_names f sk IT), IH.
Qed.
Lemma run_writes f sk sampled a b : iterates f sk -> Forall (fun s => names s = k_writes s) (run sk sampled a b).
Proof. intros IT. unfold run. induction (zrange a b) as [|i l IH]; cbn [flat_map]; [constructor|]. apply Forall_app. split; [apply (it_writes f sk IT)|exact IH]. Qed.

Lemma NoDup_flat {A B} (g : A -> list B) l : NoDup l -> (forall x, In x l -> NoDup (g x)) -> (forall x y b, In x l -> In y l -> In b (g x) -> In b (g y) -> x = y) -> NoDup (flat_map g l).
Proof.
  intros N. induction N as [|x l NI N IH]; intros G D; cbn [flat_map]; [constructor|].
  assert (J : forall l1 l2 : list B, NoDup l1 -> NoDup l2 -> (forall b, In b l1 -> ~ In b l2) -> NoDup (l1 ++ l2)).
  { clear. induction l1 as [|b l1 IH]; intros l2 N1 N2 H; cbn [app]; [exact N2|]. inversion N1 as [|? ? N N']; subst. constructor.
    - intros I. apply in_app_iff in I. destruct I as [I|I]; [contradiction|]. apply (H b); [now left|exact I].
    - apply IH; [exact N'|exact N2|]. intros c I. apply H. now right. }
  apply J.
  - apply G. now left.
  - apply IH; [intros; apply G; now right|]. intros y z b Iy Iz. apply D; now right.
  - intros b I1 I2. apply in_flat_map in I2. destruct I2 as (y & Iy & I2). apply NI. rewrite (D x y b); [exact Iy|now left|now right|exact I1|exact I2].
Qed.
Lemma NoDup_join {A} (l1 l2 : list A) : NoDup l1 -> NoDup l2 -> (forall b, In b l1 -> ~ In b l2) -> NoDup (l1 ++ l2).
Proof.
  intros N1 N2 H. pose proof (NoDup_flat (fun b : bool => if b then l1 else l2) [true; false]) as X. cbn [flat_map] in X. rewrite app_nil_r in X. apply X.
  - repeat constructor; cbn; intuition discriminate.
  - intros [|] _; assumption.
  - intros [|] [|] b _ _ I1 I2; try reflexivity; exfalso; eapply H; eassumption.
Qed.

Lemma NoDup_front {A} (l1 l2 : list A) : NoDup (l1 ++ l2) -> NoDup l1.
Proof. induction l1 as [|x l1 IH]; intros N; [constructor|]. inversion N as [|? ? NI N']; subst. constructor; [|now apply IH]. intros I. apply NI, in_app_iff. now left. Qed.
Lemma iteration_names_bases f b n : In n (iteration_names f b) -> In n (bases f).
Proof. destruct b; cbn; tauto. Qed.
Lemma iteration_names_NoDup f b : NoDup (bases f) -> NoDup (iteration_names f b).
Proof.
  intros N. destruct b.
  - apply (@NoDup_incl_NoDup _ (bases f)); [exact N|reflexivity|]. intros n. cbn. tauto.
  - apply (@NoDup_incl_NoDup _ (firstn 5 (bases f))); [|reflexivity|intros n; cbn; tauto]. apply (NoDup_front _ (skipn 5 (bases f))). now rewrite firstn_skipn.
Qed.
Lemma run_NoDup f sk sampled a b : iterates f sk -> NoDup (bases f) -> 0 <= a -> NoDup (flat_map names (run sk sampled a b)).
Proof.
  intros IT N Ha. rewrite (run_names f) by exact IT. apply NoDup_flat.
  - apply zrange_NoDup.
  - intros i I. apply zrange_In in I. apply FinFun.Injective_map_NoDup; [|now apply iteration_names_NoDup]. intros x y E. apply numbered_inj in E; [tauto|lia|lia].
  - intros i j s Ii Ij I J. apply zrange_In in Ii, Ij. apply in_map_iff in I, J. destruct I as (x & <- & I). destruct J as (y & E & J). apply numbered_inj in E; [|lia|lia]. symmetry. tauto.
Qed.
Lemma run_names_In f sk sampled a b s : iterates f sk -> 0 <= a -> In s (flat_map names (run sk sampled a b)) -> exists n i, In n (bases f) /\ a <= i < b /\ s = numbered n i.
Proof.
  intros IT Ha H. rewrite (run_names f) in H by exact IT. apply in_flat_map in H. destruct H as (i & Ii & I). apply zrange_In in Ii. apply in_map_iff in I. destruct I as (n & <- & I).
  exists n, i. split; [now apply iteration_names_bases in I|]. split; [exact Ii|reflexivity].
Qed.

(* ---------- descriptors *)

Lemma gridded_after f sk i st k w d : iterates f sk -> component k -> gridded f i k w = Some d -> after st (sk true i) k w = Some d.
Proof. intros IT Ck H. rewrite (it_sampled f sk IT) by exact Ck. destruct w; [exact H|exact H|exact H|discriminate]. Qed.
Lemma gridded_names f sk i d : iterates f sk -> In d (all_read_names f i) -> In d (flat_map names (sk true i)).
Proof.
  intros IT H. rewrite (it_names f sk IT). unfold all_read_names in H. apply in_flat_map in H. destruct H as (k & Ik & H). apply all_In in Ik.
  destruct Ik as [-> | [-> | ->]]; cbn in H |- *; tauto.
Qed.

Definition whole (sk : bool -> Z -> list sketch) (fn : string) (f : filler) (out : string -> string) (n : Z) : list sketch :=
  run sk (fun i => i =? n - 1) 0 n ++ [gridding fn f (n - 1) out].
Lemma run_last sk n : 1 <= n -> run sk (fun i => i =? n - 1) 0 n = run sk (fun i => i =? n - 1) 0 (n - 1) ++ sk true (n - 1).
Proof.
  intros H. replace (run sk (fun i => i =? n - 1) 0 n) with (run sk (fun i => i =? n - 1) 0 (n - 1 + 1)) by (f_equal; lia). rewrite run_snoc by lia. now rewrite Z.eqb_refl.
Qed.
Lemma whole_covered f sk fn out n : iterates f sk -> 1 <= n -> covered [] (whole sk fn f out n).
Proof.
  intros IT H. unfold whole. apply covered_app.
  - apply (run_covered f sk _ [] 0 IT); lia.
  - cbn [covered]. split; [|exact I]. intros d I. cbn [gridding k_reads] in I. apply (gridded_names f sk) in I; [|exact IT].
    rewrite run_last by lia. rewrite flat_map_app. apply in_app_iff. right. apply in_app_iff. now right.
Qed.
Lemma whole_routed f sk fn out n : iterates f sk -> In fn [OUTPUT_GRID; OUTPUT_GRID_BATCH] -> 1 <= n -> routed start (whole sk fn f out n).
Proof.
  intros IT Hf H. unfold whole. apply routed_app.
  - apply (run_routed f sk _ start 0 IT); [lia| |lia]. intros k Ck. reflexivity.
  - cbn [routed]. split; [|exact I]. apply proper_gridding; [exact Hf|]. intros k w d Ck G.
    rewrite run_last by lia. rewrite after_app. now apply (gridded_after f sk).
Qed.
Lemma whole_writes f sk fn out n : iterates f sk -> Forall (fun s => names s = k_writes s) (whole sk fn f out n).
Proof. intros IT. unfold whole. apply Forall_app. split; [now apply (run_writes f)|]. repeat constructor. Qed.
Lemma whole_NoDup f sk fn n : iterates f sk -> distinct_names f -> NoDup (flat_map names (whole sk fn f (fun s => s) n)).
Proof.
  intros IT (N & NO & D). unfold whole. rewrite flat_map_app. apply NoDup_join.
  - apply (run_NoDup f); [exact IT|exact N|lia].
  - exact NO.
  - intros s I J. apply (run_names_In f) in I; [|exact IT|lia]. destruct I as (b & i & Ib & Ii & ->). apply (D (numbered b i) b i); [exact J|exact Ib|lia|reflexivity].
Qed.
Lemma whole_state f sk fn out n k : iterates f sk -> 1 <= n -> component k -> after start (whole sk fn f out n) k State = Some (numbered (solution_name f k) (n - 1)).
Proof.
  intros IT H Ck. unfold whole. rewrite after_app. change (after start (run sk (fun i => i =? n - 1) 0 n) k State = Some (numbered (solution_name f k) (n - 1))).
  destruct (run_routed f sk (fun i => i =? n - 1) start 0 IT ltac:(lia) ltac:(intros x Cx; reflexivity) n ltac:(lia)) as [_ V]. rewrite (V k Ck). now replace (0 <? n) with true by lia.
Qed.

Lemma load_ready f a b c : ready f -> load_templates f = Ok (a, b, c) ->
  settled f /\ blank a /\ blank b /\ blank c /\ grid_inputs c /\ (forall d, reads a d -> given f d) /\ (forall d, reads b d -> given f d) /\ (forall d, reads c d -> given f d).
Proof.
  intros (P1 & P2 & B1 & B2 & B3 & G) H. unfold load_templates in H. apply bind_ok in H. destruct H as (a' & Ha & H). apply bind_ok in H. destruct H as (b' & Hb & H).
  apply bind_ok in H. destruct H as (c' & Hc & H). injection H as -> -> ->. split; [now split|].
  split; [now apply (restrict_blank _ _ Ha)|]. split; [now apply (restrict_blank _ _ Hb)|]. split; [now apply (restrict_blank _ _ Hc)|]. split; [now apply (restrict_grid _ _ Hc)|].
  unfold given. split; [|split]; intros d R.
  - left. now apply (restrict_reads _ _ _ Ha).
  - right. left. now apply (restrict_reads _ _ _ Hb).
  - right. right. now apply (restrict_reads _ _ _ Hc).
Qed.

Lemma descriptor_drawn f n d : ready f -> fill_descriptor f n = Ok d -> Forall2 (drawn (given f)) (operations d) (whole (single_sketches f) OUTPUT_GRID f (fun s => s) n).
Proof.
  intros R H. unfold fill_descriptor in H. apply bind_ok in H. destruct H as ([[a b] c] & Hl & H). destruct (load_ready _ _ _ _ R Hl) as (S & Ba & Bb & Bc & Gc & Ra & Rb & Rc).
  destruct (n =? 0); [discriminate|]. apply bind_ok in H. destruct H as (its & Hi & H). apply bind_ok in H. destruct H as (g & Hg & H). injection H as <-.
  cbn [operations catalogue_of dget String.eqb Ascii.eqb Bool.eqb]. apply Forall2_app.
  - apply (mapM_drawn (fun i => 0 <= i) (given f) (single_iteration f a (fun i => i =? n - 1)) _ (zrange 0 n)); [|apply zrange_nonneg; lia|exact Hi].
    intros i ops Hp Ho. exact (single_drawn f a _ i ops _ S Ba Hp Ra Ho).
  - repeat constructor. exists c. split; [exact Rc|]. cbn [gridding k_writes k_fn k_comp k_reads k_news k_src k_tgt]. rewrite map_id. exact (gridding_outline f c _ g S Bc Gc Hg).
Qed.
Lemma batch_descriptor_drawn f n d : ready f -> local_apart f -> fill_batch_descriptor f n = Ok d -> Forall2 (drawn (given f)) (operations d) (whole (batch_sketches f) OUTPUT_GRID_BATCH f (fun s => s) n).
Proof.
  intros R (L0 & L1) H. unfold fill_batch_descriptor in H. apply bind_ok in H. destruct H as ([[a b] c] & Hl & H). destruct (load_ready _ _ _ _ R Hl) as (S & Ba & Bb & Bc & Gc & Ra & Rb & Rc).
  destruct (n =? 0); [discriminate|]. apply bind_ok in H. destruct H as (its & Hi & H). apply bind_ok in H. destruct H as (g & Hg & H). injection H as <-.
  cbn [operations catalogue_of dget String.eqb Ascii.eqb Bool.eqb]. apply Forall2_app.
  - apply (mapM_drawn (fun i => 0 <= i) (given f) (batch_iteration f a b (fun i => i =? n - 1)) _ (zrange 0 n)); [|apply zrange_nonneg; lia|exact Hi].
    intros i ops Hp Ho. exact (batch_drawn f a b _ i ops _ S Ba Bb Hp Ra Rb Ho).
  - repeat constructor. exists b. split; [exact Rb|]. exact (batch_gridding_outline f b _ _ g S Bb L0 L1 Hg).
Qed.

(* ---------- what this says of the operations *)

Lemma component_range k : 0 <= k < 3 <-> component k.
Proof. unfold component. lia. Qed.
Definition fn_of (op : json) : option string := text_at [K "runmodule"; K "python_function"] op.
Lemma routed_ops known ops ss : Forall2 (drawn known) ops ss -> routed start ss -> forall before op after, ops = before ++ op :: after ->
  exists s, drawn known op s /\ proper (fun k w => if (0 <=? k) && (k <? 3) then latest k w before else None) s.
Proof.
  intros F R before op aft ->. apply Forall2_split in F. destruct F as (b & s & a & -> & Fb & D & _). exists s. split; [exact D|].
  pose proof (routed_at _ _ _ _ R) as P.
  assert (X : forall k w, component k -> (if (0 <=? k) && (k <? 3) then latest k w before else None) = after start b k w).
  { intros k w Ck. rewrite (latest_after _ _ _ k w Ck Fb). apply component_range in Ck. now replace ((0 <=? k) && (k <? 3)) with true by lia. }
  destruct P as (P1 & P2 & P3 & P4 & P5 & P6). split; [|split; [|split; [|split; [|split]]]].
  - intros k w d Ck E. rewrite X by exact Ck. now apply P1.
  - exact P2.
  - intros I. destruct (P3 I) as (c & E & Q). exists c. split; [exact E|]. intros k Ck N. rewrite X by exact Ck. now apply Q.
  - intros I k Ck. rewrite X by exact Ck. now apply P4.
  - exact P5.
  - exact P6.
Qed.
Lemma latest_if k w before : 0 <= k < 3 -> (if (0 <=? k) && (k <? 3) then latest k w before else None) = latest k w before.
Proof. intros H. now replace ((0 <=? k) && (k <? 3)) with true by lia. Qed.

Section Routed.
  Variables (known : string -> Prop) (ops : list json) (ss : list sketch).
  Hypothesis D : Forall2 (drawn known) ops ss.
  Hypothesis R : routed start ss.
  Variables (before : list json) (op : json) (aft : list json).
  Hypothesis E : ops = before ++ op :: aft.

  Lemma ops_latest k w s : 0 <= k < 3 -> source k w op = Some s -> latest k w before = Some s.
  Proof.
    intros Hk H. destruct (routed_ops _ _ _ D R _ _ _ E) as (x & (t & _ & O) & (P1 & _)). apply component_range in Hk as Ck.
    rewrite (o_source _ _ _ _ _ _ _ _ _ O k w Ck) in H. rewrite <- (latest_if k w before Hk). now apply P1.
  Qed.
  Lemma ops_confront c k : confronts op c -> 0 <= k < 3 -> k <> c -> source k State op = latest k State before.
  Proof.
    intros [(fn & F & I) G] Hk N. destruct (routed_ops _ _ _ D R _ _ _ E) as (x & (t & _ & O) & (_ & _ & P3 & _)). apply component_range in Hk as Ck.
    rewrite (o_function _ _ _ _ _ _ _ _ _ O) in F. injection F as <-. destruct (P3 I) as (c' & Ec & Q). rewrite (o_component _ _ _ _ _ _ _ _ _ O c' Ec) in G. injection G as ->.
    rewrite (o_source _ _ _ _ _ _ _ _ _ O k State Ck), <- (latest_if k State before Hk). now apply Q.
  Qed.
  Lemma ops_confront_batch k : calls op [PROCESS_INPUTS_BATCH] -> 0 <= k < 3 -> source k State op = latest k State before.
  Proof.
    intros (fn & F & I) Hk. destruct (routed_ops _ _ _ D R _ _ _ E) as (x & (t & _ & O) & (_ & _ & _ & P4 & _)). apply component_range in Hk as Ck.
    rewrite (o_function _ _ _ _ _ _ _ _ _ O) in F. injection F as <-. destruct I as [I|[]].
    rewrite (o_source _ _ _ _ _ _ _ _ _ O k State Ck), <- (latest_if k State before Hk). apply P4; [now symmetry|exact Ck].
  Qed.
  Lemma ops_solve c d : solves op c -> 0 <= c < 3 -> target c State op = Some d -> exists m, source c Measurement op = Some m.
  Proof.
    intros [(fn & F & I) G] Hc T. destruct (routed_ops _ _ _ D R _ _ _ E) as (x & (t & _ & O) & (_ & _ & _ & _ & P5 & _)). apply component_range in Hc as Ck.
    rewrite (o_function _ _ _ _ _ _ _ _ _ O) in F. injection F as <-. destruct I as [I|[]]. destruct (P5 (eq_sym I)) as (c' & Ec & Q). rewrite (o_component _ _ _ _ _ _ _ _ _ O c' Ec) in G. injection G as ->.
    rewrite (o_target _ _ _ _ _ _ _ _ _ O c State Ck) in T. rewrite (o_source _ _ _ _ _ _ _ _ _ O c Measurement Ck). now apply (Q d).
  Qed.
  Lemma ops_grid k w : grids op -> 0 <= k < 3 -> w <> Measurement -> exists d, source k w op = Some d.
  Proof.
    intros (fn & F & I) Hk N. destruct (routed_ops _ _ _ D R _ _ _ E) as (x & (t & _ & O) & (_ & _ & _ & _ & _ & P6)). apply component_range in Hk as Ck.
    rewrite (o_function _ _ _ _ _ _ _ _ _ O) in F. injection F as <-. rewrite (o_source _ _ _ _ _ _ _ _ _ O k w Ck). now apply P6.
  Qed.
  Lemma ops_own k w d : 0 <= k < 3 -> target k w op = Some d -> get [K "runmodule"; K "component_index"] op = Ok (JNum k).
  Proof.
    intros Hk T. destruct (routed_ops _ _ _ D R _ _ _ E) as (x & (t & _ & O) & (_ & P2 & _)). apply component_range in Hk as Ck.
    rewrite (o_target _ _ _ _ _ _ _ _ _ O k w Ck) in T. apply (o_component _ _ _ _ _ _ _ _ _ O). now apply (P2 k w d).
  Qed.
End Routed.

Lemma drawn_writes known ops ss op : Forall2 (drawn known) ops ss -> Forall (fun s => names s = k_writes s) ss -> In op ops -> forall d, writes op d <-> In d (declared op).
Proof.
  intros F N I d. apply in_split in I. destruct I as (b & a & ->). apply Forall2_split in F. destruct F as (b' & s & a' & -> & _ & D & _).
  rewrite (drawn_declared _ _ _ D). apply Forall_app in N. destruct N as [_ N]. inversion N as [|? ? Ns _]; subst. rewrite Ns. destruct D as (t & _ & O). exact (o_writes _ _ _ _ _ _ _ _ _ O d).
Qed.
