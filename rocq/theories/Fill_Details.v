(* Names, classes of file entries, times and outputs of generated operations. *)
From Coq Require Import String Ascii ZifyBool.
From Verif Require Import Base Grid_Model Fill_Model Fill_Spec Fill_Proofs Fill_Chain Fill_Total Fill_Files Fill_Settings.
Open Scope string_scope.
Open Scope list_scope.
Open Scope Z_scope.

(* The placeholder class that goes with each kind of entry. *)
Definition CLASSES : list (string * string) :=
  [("statefilename_read", INPUT_FILE); ("sample_filename_read", INPUT_FILE); ("prior_sample_filename_read", INPUT_FILE);
   ("statefilelist_read", BATCH_DAYS); ("sample_filelist_read", BATCH_DAYS); ("prior_sample_filelist_read", BATCH_DAYS);
   ("measurementfilelist_read", INPUT_FILE_LIST);
   ("statefilename_write", OUTPUT_FILE); ("sample_filename_write", OUTPUT_FILE); ("prior_sample_filename_write", OUTPUT_FILE); ("measurementfilename_write", OUTPUT_FILE)].
Definition place (k : Z) (key : string) : list step := [K "runmodule"; K (storage_of k); K key].
Definition classed (j : json) : Prop := forall k key cls d, component k -> In (key, cls) CLASSES -> entry k key j = Some d -> text_at (place k key ++ [K "python_class"]) j = Some cls.

Fixpoint path_eqb (p q : list step) : bool := match p, q with [], [] => true | a :: p', b :: q' => step_eqb a b && path_eqb p' q' | _, _ => false end.
Lemma path_eqb_true p q : path_eqb p q = true -> p = q.
Proof. revert q. induction p as [|a p IH]; intros [|b q]; cbn; try discriminate; [reflexivity|]. destruct (step_eqb_spec a b) as [->|]; [|discriminate]. intros H. f_equal. now apply IH. Qed.
Definition all_places (g : list step -> string -> bool) : bool := forallb (fun k => forallb (fun kc => g (place k (fst kc)) (snd kc)) CLASSES) [0; 1; 2].
Lemma all_places_at g k key cls : all_places g = true -> component k -> In (key, cls) CLASSES -> g (place k key) cls = true.
Proof. intros H Ck I. unfold all_places in H. rewrite forallb_forall in H. specialize (H k (proj2 (all_In k) Ck)). rewrite forallb_forall in H. exact (H _ I). Qed.
Definition has_class (v : json) (cls : string) : bool := match v with JDict m => match dget "python_class" m with Some (JStr c) => String.eqb c cls | _ => false end | _ => false end.
Definition safe (p : list step) (v : json) : bool := all_places (fun q cls => diverge p q || (path_eqb p q && has_class v cls)).
Lemma classed_put p v j j' : put p v j = Ok j' -> safe p v = true -> classed j -> classed j'.
Proof.
  intros E S C k key cls d Ck I H. pose proof (all_places_at _ k key cls S Ck I) as X. cbv beta in X. apply orb_true_iff in X. destruct X as [X|X].
  - assert (G : get (place k key) j' = get (place k key) j) by exact (get_put_diverge _ _ _ _ _ E X). rewrite (text_of_same _ _ _ _ G). apply (C k key cls d Ck I).
    rewrite <- H. symmetry. exact (text_of_same (place k key) [K "datasetname"] _ _ G).
  - apply andb_true_iff in X. destruct X as [X1 X2]. apply path_eqb_true in X1. subst p. unfold text_at. rewrite (get_put_in _ [K "python_class"] _ _ _ E).
    unfold has_class in X2. destruct v as [| | | |m]; try discriminate. cbn [get get1 bind]. destruct (dget "python_class" m) as [[|x|x|x|x]|]; try discriminate. apply String.eqb_eq in X2. now subst.
Qed.
Lemma classed_same j j' : (forall k key cls, component k -> In (key, cls) CLASSES -> get (place k key) j' = get (place k key) j) -> classed j -> classed j'.
Proof.
  intros G C k key cls d Ck I H. specialize (G k key cls Ck I). rewrite (text_of_same _ _ _ _ G). apply (C k key cls d Ck I). rewrite <- H. symmetry. exact (text_of_same (place k key) [K "datasetname"] _ _ G).
Qed.
Lemma classed_effect P L j j' : effect P L j j' -> all_places (fun q _ => forallb (fun p => diverge p q) P) = true -> classed j -> classed j'.
Proof. intros [G _] S. apply classed_same. intros k key cls Ck I. apply G. exact (all_places_at _ k key cls S Ck I). Qed.
Lemma classed_blank t : blank t -> classed t.
Proof.
  intros (B & _) k key cls d Ck I H. exfalso.
  assert (X : entry k key t = None); [|congruence].
  assert (R : forall w, source k w t = None) by (intros w; apply B). assert (W : forall w, target k w t = None) by (intros w; apply B).
  assert (E : forall a b, either k a b t = None -> entry k a t = None /\ entry k b t = None) by (intros a b; unfold either; destruct (entry k a t); [discriminate|auto]).
  destruct (E _ _ (R State)), (E _ _ (R Sample)), (E _ _ (R PriorSample)). pose proof (R Measurement). pose proof (W State). pose proof (W Sample). pose proof (W PriorSample). pose proof (W Measurement).
  repeat (destruct I as [[= <- <-]|I]; [assumption|]). destruct I.
Qed.

Lemma entry_of_same k key j j' : get (place k key) j' = get (place k key) j -> entry k key j' = entry k key j.
Proof. exact (text_of_same (place k key) [K "datasetname"] j j'). Qed.

Ltac forward := match goal with
  | C : classed ?j, E : put ?p ?v ?j = Ok ?j' |- _ => apply (classed_put p v j j' E eq_refl) in C; clear E
  | C : classed ?j, E : add_dataset ?a ?b ?c ?j = Ok ?j' |- _ => apply (classed_effect _ _ _ _ (proj1 (add_dataset_effect a b c j j' [] E)) eq_refl) in C; clear E
  | C : classed ?j, E : remove_keys NOT_SOLVED ?j = Ok ?j' |- _ => apply (classed_effect _ _ _ _ (not_solved_effect j j' E) eq_refl) in C; clear E
  end.

Lemma primary_classed f command dataset fmt kind t j : fill_primary_keys f command dataset fmt kind t = Ok j -> classed t -> classed j.
Proof. intros H C. unfold fill_primary_keys in H. open_binds. repeat forward. exact C. Qed.
Lemma secondary_classed f i c j j' : 0 <= i -> component c -> fill_secondary_keys f i c j = Ok j' -> classed j -> classed j'.
Proof.
  intros Hi Hc H C. unfold fill_secondary_keys in H. change (zrange 1 3) with [1; 2] in H. open_binds. rewrite foldM_two in H.
  destruct Hc as [-> | [-> | ->]].
  - rewrite (secondary_step_before f i 0 _ 1 2) in H by (solve [exact Hi | reflexivity | right; right; reflexivity]). open_binds.
    rewrite (secondary_step_before f i 0 _ 2 1) in E2 by (solve [exact Hi | reflexivity | right; left; reflexivity]).
    change (0 =? 2) with false in E0. cbv iota in E0. destruct (0 <? i); open_binds; repeat forward; exact C.
  - rewrite (secondary_step_first f i 1 _ 1 0) in H by (solve [exact Hi | reflexivity | left; reflexivity]). open_binds.
    rewrite (secondary_step_before f i 1 _ 2 2) in E2 by (solve [exact Hi | reflexivity | right; right; reflexivity]).
    change (1 =? 2) with false in E0. cbv iota in E0. destruct (0 <? i); open_binds; repeat forward; exact C.
  - rewrite (secondary_step_first f i 2 _ 1 1) in H by (solve [exact Hi | reflexivity | right; left; reflexivity]). open_binds.
    rewrite (secondary_step_first f i 2 _ 2 0) in E2 by (solve [exact Hi | reflexivity | left; reflexivity]).
    change (2 =? 2) with true in E0. cbv iota in E0. open_binds; repeat forward; exact C.
Qed.
Definition local_list : list step := [K "runmodule"; K "storage_local"; K "time_list"].
Lemma batch_read_classed f k i j j' : component k -> secondary_batch_read f k i j = Ok j' -> classed j -> classed j' /\ (k = 2 -> get local_list j' = Ok (of_class BATCH_INDICES)) /\ (k <> 2 -> get local_list j' = get local_list j).
Proof.
  intros Hk H C. unfold secondary_batch_read in H.
  destruct Hk as [-> | [-> | ->]]; cbn [py_index STORAGE_LIST solution_names] in H; open_binds;
    match goal with A : py_index STORAGE_LIST _ = Ok _, B : py_index (solution_names _) _ = Ok _ |- _ =>
      injection A as <-; injection B as <- end; cbn [Z.eqb Pos.eqb] in H; open_binds.
  - split; [|split; [intros X; discriminate X|intros _; repeat past; reflexivity]]. repeat forward. exact C.
  - split; [|split; [intros X; discriminate X|intros _; repeat past; reflexivity]]. repeat forward. exact C.
  - split; [|split; [intros _; repeat past; reflexivity|intros X; now elim X]]. repeat forward. exact C.
Qed.
Lemma batch_step_classed f i c k j j' : 0 <= i -> component c -> component k -> secondary_batch_step f i c j k = Ok j' -> classed j ->
  classed j' /\ (k = 2 -> src f c i k <> None -> get local_list j' = Ok (of_class BATCH_INDICES)) /\ (k <> 2 -> get local_list j' = get local_list j).
Proof.
  intros Hi Hc Hk H C. unfold secondary_batch_step in H. unfold src. replace (0 <=? i) with true in H by lia. rewrite andb_true_r in H.
  destruct (k <? c) eqn:E1. { destruct (batch_read_classed _ _ _ _ _ Hk H C) as (A & B & D). split; [exact A|]. split; [intros X _; now apply B|exact D]. }
  replace (c <=? k) with true in H by lia. cbn [andb] in H. destruct (0 <? i) eqn:E2. { destruct (batch_read_classed _ _ _ _ _ Hk H C) as (A & B & D). split; [exact A|]. split; [intros X _; now apply B|exact D]. }
  injection H as <-. split; [exact C|]. split; [intros _ X; now elim X|reflexivity].
Qed.
Lemma secondary_batch_classed f i c j j' : 0 <= i -> component c -> fill_secondary_keys_batch f i c j = Ok j' -> classed j ->
  classed j' /\ (src f c i 2 <> None -> get local_list j' = Ok (of_class BATCH_INDICES)).
Proof.
  intros Hi Hc H C. unfold fill_secondary_keys_batch in H. change (zrange 0 3) with [0; 1; 2] in H. open_binds. rewrite foldM_three in H. open_binds. forward.
  destruct (batch_step_classed f i c 0 _ _ Hi Hc (or_introl eq_refl) E0 C) as (A0 & _ & _).
  destruct (batch_step_classed f i c 1 _ _ Hi Hc (or_intror (or_introl eq_refl)) E1 A0) as (A1 & _ & _).
  destruct (batch_step_classed f i c 2 _ _ Hi Hc (or_intror (or_intror eq_refl)) E2 A1) as (A2 & B & _). split; [exact A2|now apply B].
Qed.

(* Per kind of operation: its name, the classes of its entries, and its times. *)
Definition at_step : json := of_class STEP_INDEX.
Definition at_batch : json := of_class BATCH_INDICES.
Definition local_index : list step := [K "runmodule"; K "storage_local"; K "time_index"].

Lemma secondary_index f i c j j' : component c -> c <> 2 -> fill_secondary_keys f i c j = Ok j' -> 0 <= i -> get local_index j' = Ok at_step.
Proof.
  intros Hc N H Hi. unfold fill_secondary_keys in H. change (zrange 1 3) with [1; 2] in H. open_binds. rewrite foldM_two in H.
  destruct Hc as [-> | [-> | ->]]; [| |now elim N].
  - rewrite (secondary_step_before f i 0 _ 1 2) in H by (solve [exact Hi | reflexivity | right; right; reflexivity]). open_binds.
    rewrite (secondary_step_before f i 0 _ 2 1) in E2 by (solve [exact Hi | reflexivity | right; left; reflexivity]).
    change (0 =? 2) with false in E0. cbv iota in E0. destruct (0 <? i); open_binds; repeat past; reflexivity.
  - rewrite (secondary_step_first f i 1 _ 1 0) in H by (solve [exact Hi | reflexivity | left; reflexivity]). open_binds.
    rewrite (secondary_step_before f i 1 _ 2 2) in E2 by (solve [exact Hi | reflexivity | right; right; reflexivity]).
    change (1 =? 2) with false in E0. cbv iota in E0. destruct (0 <? i); open_binds; repeat past; reflexivity.
Qed.
Lemma primary_name f command dataset fmt kind t j : fill_primary_keys f command dataset fmt kind t = Ok j -> get [K "name"] j = Ok (JStr command).
Proof. intros H. unfold fill_primary_keys in H. open_binds. repeat past. reflexivity. Qed.

Record detailed (command : string) (op : json) : Prop := { d_name : get [K "name"] op = Ok (JStr command); d_classed : classed op }.

Lemma measurement_detailed f t i c command dataset op : blank t -> 0 <= i -> component c -> fill_single_measurement f t i c command dataset = Ok op ->
  detailed (numbered command i) op /\ get [K "runmodule"; K (storage_of c); K "measurement_time_index_write"] op = Ok at_step /\ (c <> 2 -> get local_index op = Ok at_step).
Proof.
  intros B Hi Hc H. unfold fill_single_measurement in H. rewrite (storage_index c Hc) in H. open_binds. pose proof (primary_name _ _ _ _ _ _ _ E) as Hn. apply primary_classed in E; [|now apply classed_blank].
  pose proof (secondary_classed _ _ _ _ _ Hi Hc E0 E) as C. pose proof (secondary_effect _ _ _ _ _ Hi Hc E0) as (F & _). split; [split|].
  - repeat past. rewrite (proj1 F) by (destruct Hc as [-> | [-> | ->]]; reflexivity). exact Hn.
  - clear E F. destruct Hc as [-> | [-> | ->]]; repeat forward; exact C.
  - split; [destruct Hc as [-> | [-> | ->]]; repeat past; reflexivity|]. intros N. pose proof (secondary_index _ _ _ _ _ Hc N E0 Hi) as X. clear F. destruct Hc as [-> | [-> | ->]]; repeat past; exact X.
Qed.
Lemma batch_measurement_detailed f t i c command dataset op : blank t -> 0 <= i -> component c -> fill_batch_measurement f t i c command dataset = Ok op ->
  detailed (numbered command i) op /\ (source 2 State op <> None -> get local_list op = Ok at_batch).
Proof.
  intros B Hi Hc H. unfold fill_batch_measurement in H. rewrite (storage_index c Hc) in H. open_binds. pose proof (primary_name _ _ _ _ _ _ _ E) as Hn. pose proof E as E0'. apply primary_classed in E; [|now apply classed_blank].
  pose proof (secondary_batch_classed _ _ _ _ _ Hi Hc E0 E) as (C & T). pose proof (secondary_batch_effect _ _ _ _ _ Hi Hc E0) as (F & _ & G). split; [split|].
  - repeat past. exact Hn.
  - clear E F. destruct Hc as [-> | [-> | ->]]; repeat forward; exact C.
  - intros S. assert (X : src f c i 2 <> None).
    { intros N. apply S. pose proof (G 2 component_2) as G2. rewrite N in G2.
      assert (B2 : source 2 State t = None) by apply B. unfold source, either in B2. destruct (entry 2 "statefilename_read" t) eqn:X1; [discriminate|].
      unfold source, either.
      assert (S1 : forall key, In key ["statefilename_read"; "statefilelist_read"] -> get (place 2 key) op = get (place 2 key) t).
      { intros key I. unfold place. unfold fill_primary_keys in E0'. open_binds.
        destruct I as [<-|[<-|[]]]; clear Hn C T; destruct Hc as [-> | [-> | ->]]; repeat past; try (rewrite (proj1 F) by reflexivity); try (unfold batch_key in G2; cbn [Z.eqb Pos.eqb] in G2; rewrite G2); repeat past; reflexivity. }
      rewrite (entry_of_same 2 "statefilename_read" _ _ (S1 _ (or_introl eq_refl))), (entry_of_same 2 "statefilelist_read" _ _ (S1 _ (or_intror (or_introl eq_refl)))), X1. exact B2. }
    specialize (T X). unfold local_list in *. clear F. destruct Hc as [-> | [-> | ->]]; repeat past; exact T.
Qed.

Lemma samples_classed f c (sampled : bool) name i kind j j' : component c ->
  (if sampled then
     do j <- add_sample_information f c (numbered (sample_of name) i) "pickle" kind j;
     add_prior_sample_information f c (numbered (prior_sample_of name) i) "pickle" kind j
   else Ok j) = Ok j' -> classed j -> classed j' /\ get [K "name"] j' = get [K "name"] j.
Proof.
  intros Hc H C. destruct sampled; [|injection H as <-; now split]. unfold add_sample_information, add_prior_sample_information in H. rewrite (storage_index c Hc) in H. open_binds.
  match goal with X : bool |- _ => destruct X end; open_binds; (split; [destruct Hc as [-> | [-> | ->]]; repeat forward; exact C|repeat past; reflexivity]).
Qed.
Lemma space_detailed f t (sampled : bool) i op : blank t -> 0 <= i -> fill_single_operation_space f t sampled i 2 = Ok op ->
  detailed (numbered (f_local_scale_command f) i) op /\ get local_index op = Ok at_step.
Proof.
  intros B Hi H. assert (Hc : component 2) by (right; now right). unfold fill_single_operation_space in H. rewrite (storage_index 2 Hc) in H. apply bind_ok in H. destruct H as (j & E & H). apply bind_ok in H. destruct H as (j0 & E0 & H).
  apply bind_ok in H. destruct H as (j1 & E1 & H). pose proof (primary_name _ _ _ _ _ _ _ E) as Hn. apply primary_classed in E; [|now apply classed_blank].
  pose proof (secondary_classed _ _ _ _ _ Hi Hc E0 E) as C. pose proof (secondary_effect _ _ _ _ _ Hi Hc E0) as (F & _). destruct (samples_classed _ _ _ _ _ _ _ _ Hc E1 C) as (C1 & N1). open_binds. split; [split|].
  - repeat past. rewrite N1, (proj1 F) by reflexivity. exact Hn.
  - clear E C. repeat forward. exact C1.
  - change (storage_of 2) with "storage_local" in *. unfold local_index. repeat past. reflexivity.
Qed.
Lemma solved_detailed c m name j j1 j2 op : component c -> solve_once c j = Ok j1 -> (solve_files c m name j1 = Ok j2 \/ j2 = j1) -> remove_keys NOT_SOLVED j2 = Ok op -> classed j ->
  classed op /\ get [K "name"] op = get [K "name"] j.
Proof.
  intros Hc H1 H2 H3 C. unfold solve_once, solve_files in *. rewrite (storage_index c Hc) in H2. open_binds. destruct H2 as [H2| ->]; open_binds; (split; [destruct Hc as [-> | [-> | ->]]; repeat forward; exact C|repeat past; reflexivity]).
Qed.
Lemma solution_detailed f t (sampled : bool) i c command solution measurement op : blank t -> component c -> fill_single_solution f t sampled i c command solution measurement = Ok op ->
  detailed (numbered command i) op.
Proof.
  intros B Hc H. unfold fill_single_solution in H. apply bind_ok in H. destruct H as (j & E & H). apply bind_ok in H. destruct H as (j0 & E0 & H). apply bind_ok in H. destruct H as (j1 & E1 & H). apply bind_ok in H. destruct H as (j2 & E2 & H).
  pose proof (primary_name _ _ _ _ _ _ _ E) as Hn. apply primary_classed in E; [|now apply classed_blank]. destruct (samples_classed _ _ _ _ _ _ _ _ Hc E0 E) as (C1 & N1).
  destruct (solved_detailed _ _ _ _ _ _ _ Hc E1 (or_introl E2) H C1) as (C2 & N2). split; [|exact C2]. now rewrite N2, N1.
Qed.
Lemma posterior_detailed f t (sampled : bool) i c command solution measurement op : blank t -> component c -> fill_posterior_solution f t sampled i c command solution measurement = Ok op ->
  detailed (numbered command i) op.
Proof.
  intros B Hc H. unfold fill_posterior_solution in H. apply bind_ok in H. destruct H as (j & E & H). apply bind_ok in H. destruct H as (j0 & E0 & H). apply bind_ok in H. destruct H as (j1 & E1 & H). apply bind_ok in H. destruct H as (j2 & E2 & H).
  pose proof (primary_name _ _ _ _ _ _ _ E) as Hn. apply primary_classed in E; [|now apply classed_blank].
  assert (X : classed j0 /\ get [K "name"] j0 = get [K "name"] j).
  { destruct sampled; [|injection E0 as <-; now split]. unfold add_sample_information in E0. rewrite (storage_index c Hc) in E0. clear H E1 E2. open_binds. split; [destruct Hc as [-> | [-> | ->]]; repeat forward; exact E|repeat past; reflexivity]. }
  destruct (solved_detailed _ _ _ _ _ _ _ Hc E1 (or_introl E2) H (proj1 X)) as (C2 & N2). split; [|exact C2]. now rewrite N2, (proj2 X).
Qed.
Lemma prior_detailed f t (sampled : bool) i c command solution op : blank t -> component c -> fill_prior_solution f t sampled i c command solution = Ok op ->
  detailed (numbered (prior_sample_of command) i) op.
Proof.
  intros B Hc H. unfold fill_prior_solution in H. apply bind_ok in H. destruct H as (j & E & H). apply bind_ok in H. destruct H as (j0 & E0 & H). apply bind_ok in H. destruct H as (j1 & E1 & H).
  pose proof (primary_name _ _ _ _ _ _ _ E) as Hn. apply primary_classed in E; [|now apply classed_blank].
  assert (X : classed j0 /\ get [K "name"] j0 = get [K "name"] j).
  { destruct sampled; [|injection E0 as <-; now split]. unfold add_prior_sample_information in E0. rewrite (storage_index c Hc) in E0. clear H E1. open_binds.
    match goal with X : bool |- _ => destruct X end; open_binds; (split; [destruct Hc as [-> | [-> | ->]]; repeat forward; exact E|repeat past; reflexivity]). }
  destruct (solved_detailed c "" "" _ _ _ _ Hc E1 (or_intror eq_refl) H (proj1 X)) as (C2 & N2). split; [|exact C2]. now rewrite N2, (proj2 X).
Qed.

(* gridding *)
Definition outputs_at (keys : list string) (cls : string) (out : string -> string) (f : filler) (op : json) : Prop :=
  forall key d, In (key, d) (combine keys (outputs f)) -> get [K "runmodule"; K key] op = Ok (reference cls (out d)).
Lemma gridding_detailed f t i op : blank t -> grid_inputs t -> fill_output_gridding f t i = Ok op ->
  detailed (f_output_grid_command f) op /\ outputs_at OUT_KEYS OUTPUT_FILE (fun s => s) f op.
Proof.
  intros B G H. pose proof (classed_blank t B) as CB.
  unfold fill_output_gridding in H. rewrite storages_names in H. cbn [map foldM] in H. unfold gridding_read in H.
  apply bind_ok in H. destruct H as (j0 & H0 & H). pose proof (primary_name _ _ _ _ _ _ _ H0) as Hn. pose proof (primary_classed _ _ _ _ _ _ _ H0 CB) as C0.
  assert (G0 : forall k key, component k -> In key READ_KEYS -> text_at (place k key ++ [K "python_class"]) j0 = Some INPUT_FILE).
  { intros k key Ck I. etransitivity; [|exact (G k key I)]. apply text_at_same. unfold fill_primary_keys in H0. open_binds. clear H. destruct Ck as [-> | [-> | ->]], I as [<-|[<-|[<-|[]]]]; unfold place; cbn [app]; repeat past; reflexivity. }
  clear H0. open_binds. split; [split|].
  - repeat past. exact Hn.
  - intros k key cls d Ck I. repeat (destruct I as [[= <- <-]|I];
      [ first [ intros _; match goal with |- text_at (place k ?key ++ _) _ = _ => rewrite <- (G0 k key Ck ltac:(cbn [In READ_KEYS]; auto 20)) end; apply text_at_same; destruct Ck as [-> | [-> | ->]]; unfold place; cbn [app storage_of Z.eqb Pos.eqb]; repeat past; reflexivity
              | intros X; match goal with |- text_at (place k ?key ++ _) _ = Some ?cls => refine (eq_trans _ (C0 k key cls d Ck ltac:(cbn [In CLASSES]; auto 20) _)) end;
                [ apply text_at_same; destruct Ck as [-> | [-> | ->]]; unfold place; cbn [app storage_of Z.eqb Pos.eqb]; repeat past; reflexivity
                | rewrite <- X; symmetry; apply entry_of_same; destruct Ck as [-> | [-> | ->]]; unfold place; cbn [app storage_of Z.eqb Pos.eqb]; repeat past; reflexivity ] ] |]). destruct I.
  - intros key d [[= <- <-]|[[= <- <-]|[[= <- <-]|[[= <- <-]|[]]]]]; repeat past; reflexivity.
Qed.
Lemma batch_gridding_detailed f t i out op : blank t -> local_apart f -> fill_batch_output_gridding f t i out = Ok op ->
  detailed (out (f_output_grid_command f)) op /\ outputs_at BATCH_OUT_KEYS BATCH_DAYS_OUTPUT out f op /\ get local_list op = Ok at_batch /\ get [K "runmodule"; K "time_indices"] op = Ok at_batch /\
  forall key, In key ["inputsources"; "time_index"] -> get [K "runmodule"; K key] op = Err KeyError.
Proof.
  intros B (L0 & L1) H. pose proof (classed_blank t B) as CB.
  unfold fill_batch_output_gridding in H. rewrite storages_names in H. cbn [map foldM] in H. unfold batch_gridding_read in H.
  change (solution_name f 0) with (f_solution_climatology f) in H. change (solution_name f 1) with (f_solution_large_scale f) in H. change (solution_name f 2) with (f_solution_local_scale f) in H.
  rewrite (proj2 (String.eqb_neq _ _) L0), (proj2 (String.eqb_neq _ _) L1), String.eqb_refl in H.
  apply bind_ok in H. destruct H as (j0 & H0 & H). pose proof (primary_name _ _ _ _ _ _ _ H0) as Hn. pose proof (primary_classed _ _ _ _ _ _ _ H0 CB) as C0. clear H0. open_binds.
  change (storage_of 0) with "storage_climatology" in *. change (storage_of 1) with "storage_large_scale" in *. change (storage_of 2) with "storage_local" in *.
  split; [split|split; [|split; [|split]]].
  - repeat past. exact Hn.
  - clear Hn. repeat first [forward | match goal with C : classed ?j, E : remove_keys _ ?j = Ok ?j' |- _ => apply (classed_effect _ _ _ _ (remove_effect _ j j' (proj1 grid_keys) (proj2 grid_keys) E) eq_refl) in C; clear E end]. exact C0.
  - intros key d [[= <- <-]|[[= <- <-]|[[= <- <-]|[[= <- <-]|[]]]]]; repeat past; reflexivity.
  - unfold local_list. repeat past. reflexivity.
  - repeat past. reflexivity.
  - intros key I. assert (X : forall x y, remove_keys ["inputsources"; "time_index"] x = Ok y -> get [K "runmodule"; K key] y = Err KeyError) by (intros x y; exact (remove_gone _ _ _ _ I)).
    match goal with E : remove_keys _ _ = Ok ?j, E' : put ?p ?v ?j = Ok ?j' |- context [get ?q ?j'] => rewrite (get_put_diverge p v j j' q E'); [exact (X _ _ E)|] end. destruct I as [<-|[<-|[]]]; reflexivity.
Qed.

(* ---------- all operations *)
Definition finer (f : filler) (op : json) : Prop :=
  exists command fn, detailed command op /\ fn_of op = Some fn /\
  (fn = PROCESS_INPUTS -> get local_index op = Ok at_step /\ forall k, component k -> target k Measurement op <> None -> get [K "runmodule"; K (storage_of k); K "measurement_time_index_write"] op = Ok at_step) /\
  (In fn [PROCESS_INPUTS_BATCH; OUTPUT_GRID_BATCH] -> source 2 State op <> None -> get local_list op = Ok at_batch) /\
  (fn = OUTPUT_GRID -> declared op = outputs f /\ outputs_at OUT_KEYS OUTPUT_FILE (fun s => s) f op) /\
  (fn = OUTPUT_GRID_BATCH -> get [K "runmodule"; K "time_indices"] op = Ok at_batch /\ (forall key, In key ["inputsources"; "time_index"] -> get [K "runmodule"; K key] op = Err KeyError) /\
     exists out, (out = (fun s => s) \/ exists i, 0 <= i /\ out = fun s => numbered s i) /\ declared op = map out (outputs f) /\ outputs_at BATCH_OUT_KEYS BATCH_DAYS_OUTPUT out f op).
Definition titled (op : json) (command : string) : Prop := get [K "name"] op = Ok (JStr command).

Ltac apart := let X := fresh in intros X; first [discriminate X | (repeat (destruct X as [X|X]; [discriminate X|]); destruct X)].
Section Kinds.
  Variables (f : filler) (t : json) (i : Z).
  Hypotheses (S : settled f) (B : blank t) (Hi : 0 <= i).
  Lemma measurement_finer c command dataset op : component c -> c <> 2 -> fill_single_measurement f t i c command dataset = Ok op -> finer f op /\ titled op (numbered command i).
  Proof.
    intros Hc N H. pose proof (measurement_outline _ _ _ _ _ _ _ S B Hi Hc H) as O. destruct (measurement_detailed _ _ _ _ _ _ _ B Hi Hc H) as (D & M & L). split; [|exact (d_name _ _ D)].
    exists (numbered command i), PROCESS_INPUTS. split; [exact D|]. split; [exact (o_function _ _ _ _ _ _ _ _ _ O)|]. split; [|split; [apart|split; apart]].
    intros _. split; [now apply L|]. intros k Ck T. rewrite (o_target _ _ _ _ _ _ _ _ _ O k Measurement Ck) in T. cbn [only] in T. unfold when in T. destruct (Z.eqb_spec k c) as [->|]; [exact M|now elim T].
  Qed.
  Lemma batch_measurement_finer c command dataset op : component c -> fill_batch_measurement f t i c command dataset = Ok op -> finer f op /\ titled op (numbered command i).
  Proof.
    intros Hc H. pose proof (batch_measurement_outline _ _ _ _ _ _ _ S B Hi Hc H) as O. destruct (batch_measurement_detailed _ _ _ _ _ _ _ B Hi Hc H) as (D & M). split; [|exact (d_name _ _ D)].
    exists (numbered command i), PROCESS_INPUTS_BATCH. split; [exact D|]. split; [exact (o_function _ _ _ _ _ _ _ _ _ O)|]. split; [apart|]. split; [intros _; exact M|split; apart].
  Qed.
  Lemma local_finer (sampled : bool) op : fill_single_operation_space f t sampled i 2 = Ok op -> finer f op /\ titled op (numbered (f_local_scale_command f) i).
  Proof.
    intros H. pose proof (local_outline _ _ _ _ _ S B Hi H) as O. destruct (space_detailed _ _ _ _ _ B Hi H) as (D & M). split; [|exact (d_name _ _ D)].
    exists (numbered (f_local_scale_command f) i), PROCESS_INPUTS. split; [exact D|]. split; [exact (o_function _ _ _ _ _ _ _ _ _ O)|]. split; [|split; [apart|split; apart]].
    intros _. split; [exact M|]. intros k Ck T. rewrite (o_target _ _ _ _ _ _ _ _ _ O k Measurement Ck) in T. now elim T.
  Qed.
  Lemma solve_finer op command R W D src tgt c : outlines t op SOLVE c R W D src tgt -> detailed command op -> finer f op /\ titled op command.
  Proof. intros O D'. split; [|exact (d_name _ _ D')]. exists command, SOLVE. split; [exact D'|]. split; [exact (o_function _ _ _ _ _ _ _ _ _ O)|]. split; [apart|]. split; [apart|split; apart]. Qed.
  Lemma gridding_finer k op : grid_inputs t -> fill_output_gridding f t k = Ok op -> finer f op /\ titled op (f_output_grid_command f).
  Proof.
    intros G H. pose proof (gridding_outline _ _ _ _ S B G H) as O. destruct (gridding_detailed _ _ _ _ B G H) as (D & M). split; [|exact (d_name _ _ D)].
    exists (f_output_grid_command f), OUTPUT_GRID. split; [exact D|]. split; [exact (o_function _ _ _ _ _ _ _ _ _ O)|]. split; [apart|]. split; [apart|]. split; [|apart]. intros _. split; [|exact M]. rewrite (announces_declared _ _ (o_announces _ _ _ _ _ _ _ _ _ O)). reflexivity.
  Qed.
  Lemma batch_gridding_finer k out op : local_apart f -> (out = (fun s => s) \/ exists i, 0 <= i /\ out = fun s => numbered s i) -> fill_batch_output_gridding f t k out = Ok op -> finer f op /\ titled op (out (f_output_grid_command f)).
  Proof.
    intros L Hout H. pose proof (batch_gridding_outline _ _ _ _ _ S B (proj1 L) (proj2 L) H) as O. destruct (batch_gridding_detailed _ _ _ _ _ B L H) as (D & M & T & T' & G). split; [|exact (d_name _ _ D)].
    exists (out (f_output_grid_command f)), OUTPUT_GRID_BATCH. split; [exact D|]. split; [exact (o_function _ _ _ _ _ _ _ _ _ O)|]. split; [apart|]. split; [intros _ _; exact T|]. split; [apart|].
    intros _. split; [exact T'|]. split; [exact G|]. exists out. split; [exact Hout|]. split; [|exact M]. rewrite (announces_declared _ _ (o_announces _ _ _ _ _ _ _ _ _ O)). reflexivity.
  Qed.
End Kinds.

(* The names of the operations of one iteration. *)
Definition commands (f : filler) (priors : bool) : list string :=
  [f_measurement_climatology_command f; f_solution_climatology_command f] ++ (if priors then [prior_sample_of (f_solution_climatology_command f)] else []) ++
  [f_measurement_large_scale_command f; f_solution_large_scale_command f] ++ (if priors then [prior_sample_of (f_solution_large_scale_command f)] else []) ++ [f_local_scale_command f].
Lemma parts_finer {P : json -> Prop} {Q : json -> string -> Prop} op ops n ns : P op /\ Q op n -> Forall P ops /\ Forall2 Q ops ns -> Forall P (op :: ops) /\ Forall2 Q (op :: ops) (n :: ns).
Proof. intros [A B] [C D]. split; constructor; assumption. Qed.
Lemma join_finer {P : json -> Prop} {Q : json -> string -> Prop} ops ops' ns ns' : Forall P ops /\ Forall2 Q ops ns -> Forall P ops' /\ Forall2 Q ops' ns' -> Forall P (ops ++ ops') /\ Forall2 Q (ops ++ ops') (ns ++ ns').
Proof. intros [A B] [C D]. split; [now apply Forall_app|now apply Forall2_app]. Qed.

Lemma single_finer f t sampled i ops : settled f -> blank t -> 0 <= i -> single_iteration f t sampled i = Ok ops ->
  Forall (finer f) ops /\ Forall2 titled ops (map (fun n => numbered n i) (commands f false)).
Proof.
  intros S B Hi H. unfold single_iteration in H. apply bind_ok in H. destruct H as (a & E & H). apply bind_ok in H. destruct H as (b & E0 & H). apply bind_ok in H. destruct H as (c & E1 & H).
  apply bind_ok in H. destruct H as (d & E2 & H). apply bind_ok in H. destruct H as (e & E3 & [= <-]). cbn [commands app map].
  apply parts_finer; [exact (measurement_finer f t i S B Hi 0 _ _ _ component_0 ltac:(lia) E)|].
  apply parts_finer; [exact (solve_finer f t _ _ _ _ _ _ _ _ (solution_outline _ _ _ _ _ _ _ _ _ S B Hi component_0 E0) (solution_detailed _ _ _ _ _ _ _ _ _ B component_0 E0))|].
  apply parts_finer; [exact (measurement_finer f t i S B Hi 1 _ _ _ component_1 ltac:(lia) E1)|].
  apply parts_finer; [exact (solve_finer f t _ _ _ _ _ _ _ _ (solution_outline _ _ _ _ _ _ _ _ _ S B Hi component_1 E2) (solution_detailed _ _ _ _ _ _ _ _ _ B component_1 E2))|].
  apply parts_finer; [exact (local_finer f t i S B Hi _ _ E3)|]. split; constructor.
Qed.
Lemma batch_finer f t tb sampled i ops : settled f -> blank t -> blank tb -> 0 <= i -> batch_iteration f t tb sampled i = Ok ops ->
  Forall (finer f) ops /\ Forall2 titled ops (map (fun n => numbered n i) (commands f (sampled i))).
Proof.
  intros S B BB Hi H. unfold batch_iteration in H.
  apply bind_ok in H. destruct H as (a & Ha & H). apply bind_ok in H. destruct H as (b & Hb & H). apply bind_ok in H. destruct H as (pc & Hpc & H).
  apply bind_ok in H. destruct H as (c & Hc & H). apply bind_ok in H. destruct H as (d & Hd & H). apply bind_ok in H. destruct H as (pl & Hpl & H).
  apply bind_ok in H. destruct H as (e & He & [= <-]). unfold commands. rewrite !map_app. cbn [map app].
  apply parts_finer; [exact (batch_measurement_finer f tb i S BB Hi 0 _ _ _ component_0 Ha)|].
  apply parts_finer; [exact (solve_finer f t _ _ _ _ _ _ _ _ (posterior_outline _ _ _ _ _ _ _ _ _ S B Hi component_0 Hb) (posterior_detailed _ _ _ _ _ _ _ _ _ B component_0 Hb))|].
  apply join_finer.
  { destruct (sampled i); [|injection Hpc as <-; split; constructor]. apply bind_ok in Hpc. destruct Hpc as (p & Hp & [= <-]).
    apply parts_finer; [|split; constructor]. exact (solve_finer f t _ _ _ _ _ _ _ _ (prior_outline _ _ _ _ _ _ _ S B Hi component_0 Hp) (prior_detailed _ _ _ _ _ _ _ _ B component_0 Hp)). }
  apply parts_finer; [exact (batch_measurement_finer f tb i S BB Hi 1 _ _ _ component_1 Hc)|].
  apply parts_finer; [exact (solve_finer f t _ _ _ _ _ _ _ _ (posterior_outline _ _ _ _ _ _ _ _ _ S B Hi component_1 Hd) (posterior_detailed _ _ _ _ _ _ _ _ _ B component_1 Hd))|].
  apply join_finer.
  { destruct (sampled i); [|injection Hpl as <-; split; constructor]. apply bind_ok in Hpl. destruct Hpl as (p & Hp & [= <-]).
    apply parts_finer; [|split; constructor]. exact (solve_finer f t _ _ _ _ _ _ _ _ (prior_outline _ _ _ _ _ _ _ S B Hi component_1 Hp) (prior_detailed _ _ _ _ _ _ _ _ B component_1 Hp)). }
  apply parts_finer; [exact (local_finer f t i S B Hi _ _ He)|]. split; constructor.
Qed.
Lemma mapM_finer {A} (P : A -> Prop) (Q : json -> Prop) (N : json -> string -> Prop) g h l its : (forall i ops, P i -> g i = Ok ops -> Forall Q ops /\ Forall2 N ops (h i)) -> Forall P l -> mapM g l = Ok its ->
  Forall Q (concat its) /\ Forall2 N (concat its) (flat_map h l).
Proof.
  intros HG F. revert its. induction F as [|i l Pi F IH]; intros its H; cbn [mapM] in H; [injection H as <-; split; constructor|].
  apply bind_ok in H. destruct H as (o & Ho & H). apply bind_ok in H. destruct H as (os & Hos & [= <-]). cbn [concat flat_map]. apply join_finer; [now apply (HG i)|now apply IH].
Qed.

(* The names of all operations of a descriptor: of iterations without prior samples, then of the last one with them or without,
   then of the gridding. *)
Definition all_commands (f : filler) (n : Z) (priors : bool) (last : list string) : list string :=
  flat_map (fun i => map (fun c => numbered c i) (commands f (priors && (i =? n - 1)))) (zrange 0 n) ++ last.
Lemma filled_finer f d : ready f -> filled f d -> Forall (finer f) (operations d) /\
  exists n priors last, 0 <= n /\ Forall2 titled (operations d) (all_commands f n priors last) /\ (last = [] \/ last = [f_output_grid_command f] \/ last = [numbered (f_output_grid_command f) (n - 1)]).
Proof.
  intros R [n d' Hn H|n d' L Hn H|last grid d' L Hl H].
  - unfold fill_descriptor in H. apply bind_ok in H. destruct H as ([[a b] c] & Hl & H). destruct (load_ready _ _ _ _ R Hl) as (S & Ba & Bb & Bc & Gc & _).
    destruct (n =? 0); [discriminate|]. apply bind_ok in H. destruct H as (its & Hi & H). apply bind_ok in H. destruct H as (g & Hg & [= <-]). rewrite catalogue_operations.
    assert (X : Forall (finer f) (concat its ++ [g]) /\ Forall2 titled (concat its ++ [g]) (all_commands f n false [f_output_grid_command f])).
    { apply join_finer; [|apply parts_finer; [exact (gridding_finer f c S Bc _ _ Gc Hg)|split; constructor]].
      apply (mapM_finer (fun i => 0 <= i) _ _ (single_iteration f a (fun i => i =? n - 1)) _ (zrange 0 n)); [|apply zrange_nonneg; lia|exact Hi]. intros i ops Hp Ho. exact (single_finer f a _ i ops S Ba Hp Ho). }
    split; [exact (proj1 X)|]. exists n, false, [f_output_grid_command f]. split; [lia|]. split; [exact (proj2 X)|tauto].
  - unfold fill_batch_descriptor in H. apply bind_ok in H. destruct H as ([[a b] c] & Hl & H). destruct (load_ready _ _ _ _ R Hl) as (S & Ba & Bb & Bc & Gc & _).
    destruct (n =? 0); [discriminate|]. apply bind_ok in H. destruct H as (its & Hi & H). apply bind_ok in H. destruct H as (g & Hg & [= <-]). rewrite catalogue_operations.
    assert (X : Forall (finer f) (concat its ++ [g]) /\ Forall2 titled (concat its ++ [g]) (all_commands f n true [f_output_grid_command f])).
    { apply join_finer; [|apply parts_finer; [exact (batch_gridding_finer f b S Bb _ (fun s => s) g L (or_introl eq_refl) Hg)|split; constructor]].
      apply (mapM_finer (fun i => 0 <= i) _ _ (batch_iteration f a b (fun i => i =? n - 1)) _ (zrange 0 n)); [|apply zrange_nonneg; lia|exact Hi]. intros i ops Hp Ho. exact (batch_finer f a b _ i ops S Ba Bb Hp Ho). }
    split; [exact (proj1 X)|]. exists n, true, [f_output_grid_command f]. split; [lia|]. split; [exact (proj2 X)|tauto].
  - rewrite range_unfold in H. apply bind_ok in H. destruct H as ([[a b] c] & Hl' & H). destruct (load_ready _ _ _ _ R Hl') as (S & Ba & Bb & Bc & Gc & _).
    destruct (last - 0 + 1 =? 0); [discriminate|]. apply bind_ok in H. destruct H as (its & Hi & [= <-]). rewrite catalogue_operations.
    pose proof (mapM_finer (fun i => 0 <= i) (finer f) titled (range_step f a b last grid)
      (fun i => map (fun c => numbered c i) (commands f ((i =? last) && grid)) ++ (if (i =? last) && grid then [numbered (f_output_grid_command f) i] else [])) (zrange 0 (last + 1)) its) as X.
    destruct X as (X1 & X2).
    { intros i ops Hp Ho. unfold range_step in Ho. apply bind_ok in Ho. destruct Ho as (os & Ho & Hg). pose proof (batch_finer f a b _ i os S Ba Bb Hp Ho) as X. cbv beta in X.
      destruct ((i =? last) && grid); [|injection Hg as <-; now rewrite app_nil_r]. apply bind_ok in Hg. destruct Hg as (g & Hg & [= <-]). apply join_finer; [exact X|]. apply parts_finer; [|split; constructor].
      refine (batch_gridding_finer f b S Bb i (fun s => numbered s i) g L (or_intror _) Hg). now exists i. }
    { apply zrange_nonneg. lia. }
    { exact Hi. }
    split; [exact X1|]. exists (last + 1), grid, (if grid then [numbered (f_output_grid_command f) last] else []). split; [lia|]. split; [|destruct grid; [right; right; f_equal; f_equal; lia|now left]].
    replace (all_commands f (last + 1) grid (if grid then [numbered (f_output_grid_command f) last] else [])) with
      (flat_map (fun i => map (fun c => numbered c i) (commands f ((i =? last) && grid)) ++ (if (i =? last) && grid then [numbered (f_output_grid_command f) i] else [])) (zrange 0 (last + 1))); [exact X2|].
    unfold all_commands. rewrite (zrange_snoc 0 last) by lia. rewrite !flat_map_app. cbn [flat_map]. rewrite !app_nil_r, Z.eqb_refl. replace (last =? last + 1 - 1) with true by lia. cbn [andb]. rewrite andb_true_r, <- app_assoc. f_equal.
    rewrite !flat_map_concat_map. f_equal. apply map_ext_in. intros i Ii. apply zrange_In in Ii. replace (i =? last) with false by lia. replace (i =? last + 1 - 1) with false by lia. now rewrite andb_false_r, app_nil_r.
Qed.
