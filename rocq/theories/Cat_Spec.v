(* Specification vocabulary for catalogues: what references mean, which files belong to a step, what an
   operation should receive, and what it means for a catalogue to be preserved. *)
From Coq Require Import String.
From Verif Require Import Base Work_Model Work_Spec Cat_Model.
Local Open Scope Z_scope.
Local Open Scope list_scope.

(* d is the data set a name refers to (the first one of that name), at position i. *)
Definition refers_to (datasets : list dataset) (name : string) (i : nat) (d : dataset) : Prop :=
  nth_error datasets i = Some d /\ ds_name d = name /\
  forall j d', (j < i)%nat -> nth_error datasets j = Some d' -> ds_name d' <> name.

(* ss is subset number k of the data set called name, which is at position i. *)
Definition subset_of (datasets : list dataset) (name : string) (k : Z) (i : nat) (d : dataset) (ss : subset) : Prop :=
  refers_to datasets name i d /\ 0 <= k /\ nth_error (ds_subsets d) (Z.to_nat k) = Some ss.

(* Entry number e of the list of files belongs to step s: by its time if the file name pattern determines the
   step, otherwise because it has the name the pattern gives for the step (the last file of that name). *)
Definition belongs (st : step) (patterns : list string) (files : list entry) (s : Z) (e : nat) : Prop :=
  exists f, nth_error files e = Some f /\
  if st_unique st patterns then st_index_at_time st (en_time f) = Ok s
  else exists o, st_output_entry st patterns s = Ok o /\ en_name f = en_name o /\
       forall e' f', (e < e')%nat -> nth_error files e' = Some f' -> en_name f' <> en_name o.

(* es lists exactly the entries that belong to step s, in catalogue order, without repetition. *)
Definition files_of_step (st : step) (patterns : list string) (files : list entry) (s : Z) (es : list nat) : Prop :=
  StronglySorted lt es /\ forall e, In e es <-> belongs st patterns files s e.

(* The placeholder occurs in the template. *)
Inductive has_input (inp : input_file) : bparam -> Prop :=
| hi_file : has_input inp (BInputFile inp)
| hi_list : has_input inp (BInputFileList inp)
| hi_node children k c : In (k, c) children -> has_input inp c -> has_input inp (BNode children).

Inductive has_output (out : output_file) : bparam -> Prop :=
| ho_file : has_output out (BOutputFile out)
| ho_node children k c : In (k, c) children -> has_output out c -> has_output out (BNode children).

(* All data sets that the placeholders name have a path, and an input for which a file may be missing comes from
   a subset that is not empty. *)
Definition files_reachable (datasets : list dataset) (template : bparam) : Prop :=
  (forall inp, has_input inp template -> exists i d ss path,
     subset_of datasets (in_dataset inp) (in_subset inp) i d ss /\ ds_path d = Some path /\
     (in_missing inp = Allowed -> ss_matches ss <> [])) /\
  (forall out, has_output out template -> exists i d ss path,
     subset_of datasets (out_dataset out) (out_subset out) i d ss /\ ds_path d = Some path).

(* Step s has no file for some input that asks for such steps to be skipped. *)
Definition should_skip (datasets : list dataset) (st : step) (template : bparam) (s : Z) : Prop :=
  exists inp i d ss patterns,
    has_input inp template /\ in_missing inp = SkipMissing /\
    subset_of datasets (in_dataset inp) (in_subset inp) i d ss /\ ss_patterns ss = Some patterns /\
    files_of_step st patterns (ss_matches ss) s [].

(* The paths of the files that an input placeholder stands for at step s. *)
Definition input_paths (join : string -> string -> string) (datasets : list dataset) (st : step) (s : Z)
           (inp : input_file) (paths : list (option string)) : Prop :=
  exists i d ss patterns es,
    subset_of datasets (in_dataset inp) (in_subset inp) i d ss /\ ss_patterns ss = Some patterns /\
    files_of_step st patterns (ss_matches ss) s es /\
    match es with
    | [] => in_missing inp = Allowed /\ paths = [None] \/ in_missing inp = OtherPolicy /\ paths = []
    | _ :: _ => exists path, ds_path d = Some path /\
        Forall2 (fun e q => exists f, nth_error (ss_matches ss) e = Some f /\ q = Some (join path (en_name f))) es paths
    end.

(* What a template stands for at step s: [before] are the data sets of the catalogue when the operation is
   added, [after] those of the finished catalogue. *)
Inductive receives (join : string -> string -> string) (before after : list dataset) (identifier timestamp : string)
          (st : step) (s : Z) : bparam -> value -> Prop :=
| rc_lit v : receives join before after identifier timestamp st s (BLit v) (VLit v)
| rc_timestamp : receives join before after identifier timestamp st s BTimeStamp (VTimeStamp timestamp)
| rc_identifier : receives join before after identifier timestamp st s BCatalogueID (VIdentifier identifier)
| rc_list items v : nth_error items (Z.to_nat s) = Some v ->
    receives join before after identifier timestamp st s (BList items) (VLit v)
| rc_step_index : receives join before after identifier timestamp st s BStepIndex (VLit s)
| rc_step_time t : st_time_at_index st s = Ok t ->
    receives join before after identifier timestamp st s BStepTime (VLit t)
| rc_input_list inp paths : input_paths join before st s inp paths ->
    receives join before after identifier timestamp st s (BInputFileList inp) (VPaths paths)
| rc_input inp q : input_paths join before st s inp [q] ->
    receives join before after identifier timestamp st s (BInputFile inp) (VPath q)
| rc_input_none inp : input_paths join before st s inp [] ->
    receives join before after identifier timestamp st s (BInputFile inp) (VPath None)
| rc_output out i d ss patterns o path :
    subset_of after (out_dataset out) (out_subset out) i d ss -> ss_patterns ss = Some patterns ->
    st_output_entry st patterns s = Ok o -> ds_path d = Some path ->
    receives join before after identifier timestamp st s (BOutputFile out) (VPath (Some (join path (en_name o))))
| rc_node children values :
    Forall2 (fun c v => fst c = fst v /\ receives join before after identifier timestamp st s (snd c) (snd v)) children values ->
    receives join before after identifier timestamp st s (BNode children) (VNode values).

(* Every per-operation list in the stored parameters has n items. *)
Inductive lists_have_length (n : Z) : param -> Prop :=
| ll_lit v : lists_have_length n (PLit v)
| ll_time : lists_have_length n PTimeStamp
| ll_id : lists_have_length n PCatalogueID
| ll_list items : zlen items = n -> lists_have_length n (PList items)
| ll_ref items : zlen items = n -> lists_have_length n (PFileRef items)
| ll_reflist items : zlen items = n -> lists_have_length n (PFileListRef items)
| ll_node children : Forall (fun c => lists_have_length n (snd c)) children -> lists_have_length n (PNode children).

(* Nothing recorded is lost: same subset, except that a subset without entries may have received some. *)
Definition subset_kept (s s' : subset) : Prop :=
  ss_patterns s' = ss_patterns s /\ (ss_matches s = [] \/ ss_matches s' = ss_matches s).
Definition dataset_kept (d d' : dataset) : Prop :=
  ds_name d' = ds_name d /\ ds_path d' = ds_path d /\ Forall2 subset_kept (ds_subsets d) (ds_subsets d').
(* All data sets are still there at the same positions; new ones come after them. *)
Definition datasets_kept (old new : list dataset) : Prop :=
  exists same added, new = same ++ added /\ Forall2 dataset_kept old same.

(* The same value, computed from a catalogue with another identifier. *)
Inductive same_but_identifier (id' : string) : value -> value -> Prop :=
| sb_lit v : same_but_identifier id' (VLit v) (VLit v)
| sb_time t : same_but_identifier id' (VTimeStamp t) (VTimeStamp t)
| sb_id s : same_but_identifier id' (VIdentifier s) (VIdentifier id')
| sb_path p : same_but_identifier id' (VPath p) (VPath p)
| sb_paths p : same_but_identifier id' (VPaths p) (VPaths p)
| sb_node l l' : Forall2 (fun a b => fst a = fst b /\ same_but_identifier id' (snd a) (snd b)) l l' ->
    same_but_identifier id' (VNode l) (VNode l').

Section BParamInd.
  Variable P : bparam -> Prop.
  Hypothesis H1 : forall v, P (BLit v).
  Hypothesis H2 : P BTimeStamp.
  Hypothesis H3 : P BCatalogueID.
  Hypothesis H4 : forall items, P (BList items).
  Hypothesis H5 : P BStepTime.
  Hypothesis H6 : P BStepIndex.
  Hypothesis H7 : forall inp, P (BInputFile inp).
  Hypothesis H8 : forall inp, P (BInputFileList inp).
  Hypothesis H9 : forall out, P (BOutputFile out).
  Hypothesis H10 : forall children, Forall (fun c => P (snd c)) children -> P (BNode children).
  Fixpoint bparam_ind' (p : bparam) : P p :=
    match p with
    | BLit v => H1 v | BTimeStamp => H2 | BCatalogueID => H3 | BList items => H4 items
    | BStepTime => H5 | BStepIndex => H6 | BInputFile inp => H7 inp | BInputFileList inp => H8 inp
    | BOutputFile out => H9 out
    | BNode children => H10 children
        ((fix all (l : list (string * bparam)) : Forall (fun c => P (snd c)) l :=
            match l with [] => Forall_nil _ | c :: rest => Forall_cons c (bparam_ind' (snd c)) (all rest) end) children)
    end.
End BParamInd.
