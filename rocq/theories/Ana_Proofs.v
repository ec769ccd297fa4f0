From Coq Require Import QArith Qcanon.
From Verif Require Import Base Grid_Model Grid_Proofs Lin Ana_Model Ana_Spec.
Local Open Scope nat_scope.
Local Open Scope list_scope.

(* ---- tables *)

Definition mk (n : nat) (A : nat -> nat -> Qc) (b : nat -> Qc) : info :=
  {| i_precision := tab n (fun i => tab n (A i)); i_vector := tab n b |}.

Lemma mk_ext n A b A' b' :
  (forall i j, i < n -> j < n -> A i j = A' i j) -> (forall i, i < n -> b i = b' i) -> mk n A b = mk n A' b'.
Proof.
  intros HA Hb. unfold mk. f_equal.
  - apply tab_ext. intros i Hi. apply tab_ext. intros j Hj. apply HA; assumption.
  - apply tab_ext. exact Hb.
Qed.

Lemma combine_tab {A B} n (f : nat -> A) (g : nat -> B) : combine (tab n f) (tab n g) = tab n (fun k => (f k, g k)).
Proof.
  unfold tab. generalize (seq 0 n). induction l as [|x l IH]; [reflexivity|]. cbn. rewrite IH. reflexivity.
Qed.
Lemma map_tab {A B} (h : A -> B) n f : map h (tab n f) = tab n (fun k => h (f k)).
Proof. unfold tab. apply map_map. Qed.

Lemma zip_with_tab h n f g : zip_with h (tab n f) (tab n g) = Ok (tab n (fun k => h (f k) (g k))).
Proof.
  unfold zip_with. rewrite !tab_length, Nat.eqb_refl, combine_tab, map_tab. reflexivity.
Qed.
Lemma vadd_tab n f g : vadd (tab n f) (tab n g) = Ok (tab n (fun k => f k + g k)%Qc).
Proof. apply zip_with_tab. Qed.
Lemma vsub_tab n f g : vsub (tab n f) (tab n g) = Ok (tab n (fun k => f k - g k)%Qc).
Proof. apply zip_with_tab. Qed.
Lemma vec_tab (v : vec) n : length v = n -> v = tab n (vnth v).
Proof. intros <-. symmetry. apply tab_of_list. Qed.

Lemma zip_rows_map (l : list nat) n A B :
  zip_rows (map (fun i => tab n (A i)) l) (map (fun i => tab n (B i)) l) = Ok (map (fun i => tab n (fun j => A i j + B i j)%Qc) l).
Proof.
  induction l as [|i l IH]; [reflexivity|]. cbn [map zip_rows]. rewrite vadd_tab. cbn [bind]. rewrite IH. reflexivity.
Qed.
Lemma zip_rows_tab n m A B :
  zip_rows (tab n (fun i => tab m (A i))) (tab n (fun i => tab m (B i))) = Ok (tab n (fun i => tab m (fun j => A i j + B i j)%Qc)).
Proof. apply zip_rows_map. Qed.

Lemma append_mk n A b A' b' :
  append_measurement_update (mk n A b) (mk n A' b') = Ok (mk n (fun i j => A i j + A' i j)%Qc (fun i => b i + b' i)%Qc).
Proof. unfold append_measurement_update, mk. cbn [i_precision i_vector]. rewrite zip_rows_tab, vadd_tab. reflexivity. Qed.

Lemma repeat_tab {A} (a : A) n : repeat a n = tab n (fun _ => a).
Proof.
  unfold tab. rewrite <- (seq_length n 0) at 1. generalize (seq 0 n). induction l as [|x l IH]; [reflexivity|].
  cbn. rewrite IH. reflexivity.
Qed.
Lemma zeros_tab n : zeros n = tab n (fun _ => 0%Qc).
Proof. apply repeat_tab. Qed.
Lemma blank_mk n : create_blank n = mk n (fun _ _ => 0%Qc) (fun _ => 0%Qc).
Proof. unfold create_blank, mk. rewrite repeat_tab, zeros_tab. reflexivity. Qed.

Lemma table_tab (t : table) n : length t = n -> Forall (fun r => length r = n) t ->
  t = tab n (fun i => tab n (fun j => vnth (nth i t []) j)).
Proof.
  intros Hl Hr. rewrite <- (tab_of_list t []) at 1. rewrite Hl. apply tab_ext. intros i Hi.
  apply vec_tab. rewrite Forall_forall in Hr. apply Hr. apply nth_In. lia.
Qed.
Lemma shaped_mk n u : shaped n u -> u = mk n (info_at u) (vnth (i_vector u)).
Proof.
  intros (H1 & H2 & H3). destruct u as [p v]. unfold mk, info_at. cbn [i_precision i_vector] in *.
  rewrite <- (table_tab p n H1 H2), <- (vec_tab v n H3). reflexivity.
Qed.
Lemma mk_shaped n A b : shaped n (mk n A b).
Proof.
  unfold shaped, mk. cbn. rewrite !tab_length. split; [reflexivity|split; [|reflexivity]].
  apply Forall_forall. intros r Hr. apply in_map_iff in Hr. destruct Hr as (i & <- & _). apply tab_length.
Qed.
Lemma info_at_mk n A b i j : i < n -> j < n -> info_at (mk n A b) i j = A i j.
Proof. intros Hi Hj. unfold info_at, mk. cbn. rewrite tab_nth by exact Hi. apply vnth_tab. exact Hj. Qed.
Lemma vector_mk n A b i : i < n -> vnth (i_vector (mk n A b)) i = b i.
Proof. intros Hi. cbn. apply vnth_tab. exact Hi. Qed.

(* ---- information *)

Lemma create_ok n q : wf_equation n q ->
  create_from_system_observations (fst (fst q)) (snd (fst q)) (snd q) = Ok (mk n (normal_precision q) (normal_vector q)).
Proof.
  destruct q as [[J P] r]. intros (H1 & H2 & H3 & H4). cbn [fst snd]. unfold create_from_system_observations.
  rewrite H2, H3, H4, !Nat.eqb_refl. cbn [negb]. f_equal.
  unfold mk. rewrite H1. f_equal.
  - apply tab_ext. intros i _. apply tab_ext. intros j _. unfold normal_precision.
    rewrite sumn_swap. apply sumn_ext. intros l _. rewrite <- sumn_mul_r. apply sumn_ext. reflexivity.
  - apply tab_ext. intros i _. unfold normal_vector.
    rewrite sumn_swap. apply sumn_ext. intros l _. rewrite <- sumn_mul_r. apply sumn_ext. reflexivity.
Qed.

Lemma information_mk n qs :
  information n qs = mk n (fun i j => sumQ (map (fun q => normal_precision q i j) qs)) (fun i => sumQ (map (fun q => normal_vector q i) qs)).
Proof. reflexivity. Qed.

Lemma append_information n qs q :
  append_measurement_update (information n qs) (mk n (normal_precision q) (normal_vector q)) = Ok (information n (qs ++ [q])).
Proof.
  rewrite !information_mk, append_mk. f_equal. apply mk_ext; intros; rewrite map_app, sumQ_app; cbn [map]; rewrite sumQ_cons;
    unfold sumQ at 3; cbn [fold_right]; ring.
Qed.
Lemma append_informations n qs rs :
  append_measurement_update (information n qs) (information n rs) = Ok (information n (qs ++ rs)).
Proof. rewrite !information_mk, append_mk. f_equal. apply mk_ext; intros; rewrite map_app, sumQ_app; reflexivity. Qed.
Lemma information_one n q : mk n (normal_precision q) (normal_vector q) = information n [q].
Proof. rewrite information_mk. apply mk_ext; intros; cbn [map]; rewrite sumQ_cons; cbn; ring. Qed.
Lemma blank_information n : create_blank n = information n [].
Proof. rewrite blank_mk. reflexivity. Qed.
Lemma information_perm n qs rs : Permutation qs rs -> information n qs = information n rs.
Proof. intros H. rewrite !information_mk. apply mk_ext; intros; apply sumQ_perm, Permutation_map, H. Qed.
Lemma information_shaped n qs : shaped n (information n qs).
Proof. apply mk_shaped. Qed.

(* ---- stacking *)

Lemma sumn_if_lt m m' f g :
  sumn (m + m') (fun k => if k <? m then f k else g (k - m)) = (sumn m f + sumn m' g)%Qc.
Proof.
  rewrite sumn_plus. f_equal.
  - apply sumn_ext. intros k Hk. apply Nat.ltb_lt in Hk. rewrite Hk. reflexivity.
  - apply sumn_ext. intros k _. replace (m + k <? m) with false by (symmetry; apply Nat.ltb_ge; lia).
    f_equal. lia.
Qed.

(* a double sum over a block-diagonal kernel *)
Lemma sumn_block m m' (f g : nat -> Qc) (P : nat -> nat -> Qc) (f' g' : nat -> Qc) (P' : nat -> nat -> Qc) :
  sumn (m + m') (fun k => sumn (m + m') (fun l =>
     (if k <? m then f k else f' (k - m)%nat) *
     (if k <? m then (if l <? m then P k l else 0) else (if l <? m then 0 else P' (k - m)%nat (l - m)%nat)) *
     (if l <? m then g l else g' (l - m)%nat)))%Qc
  = (sumn m (fun k => sumn m (fun l => f k * P k l * g l)) + sumn m' (fun k => sumn m' (fun l => f' k * P' k l * g' l)))%Qc.
Proof.
  rewrite <- (sumn_if_lt m m' (fun k => sumn m (fun l => f k * P k l * g l)%Qc)
                              (fun k => sumn m' (fun l => f' k * P' k l * g' l)%Qc)).
  apply sumn_ext. intros k Hk. destruct (k <? m).
  - rewrite (sumn_ext _ _ (fun l => if l <? m then f k * P k l * g l else (fun _ => 0) (l - m)%nat)%Qc).
    + rewrite (sumn_if_lt m m' (fun l => f k * P k l * g l)%Qc (fun _ => 0%Qc)), (sumn_zero m') by reflexivity. ring.
    + intros l _. destruct (l <? m); ring.
  - rewrite (sumn_ext _ _ (fun l => if l <? m then (fun _ => 0) l else (fun x => f' (k - m)%nat * P' (k - m)%nat x * g' x) (l - m)%nat)%Qc).
    + rewrite (sumn_if_lt m m' (fun _ => 0%Qc) (fun x => f' (k - m)%nat * P' (k - m)%nat x * g' x)%Qc), (sumn_zero m) by reflexivity. ring.
    + intros l _. destruct (l <? m); ring.
Qed.

Lemma vnth_app (a b : vec) k : vnth (a ++ b) k = if k <? length a then vnth a k else vnth b (k - length a).
Proof.
  unfold vnth. destruct (k <? length a) eqn:E.
  - apply app_nth1. apply Nat.ltb_lt. exact E.
  - apply app_nth2. apply Nat.ltb_ge in E. lia.
Qed.

Lemma stack_precision n a b i j : wf_equation n a -> wf_equation n b ->
  normal_precision (stack a b) i j = (normal_precision a i j + normal_precision b i j)%Qc.
Proof.
  destruct a as [[J P] r], b as [[J' P'] r']. intros _ _. unfold normal_precision, stack. cbn [m_rows m_at].
  rewrite <- (sumn_block (m_rows J) (m_rows J') (fun k => m_at J k i) (fun l => m_at J l j) (m_at P)
                        (fun k => m_at J' k i) (fun l => m_at J' l j) (m_at P')).
  apply sumn_ext. intros k _. apply sumn_ext. intros l _. reflexivity.
Qed.
Lemma stack_vector n a b i : wf_equation n a -> wf_equation n b ->
  normal_vector (stack a b) i = (normal_vector a i + normal_vector b i)%Qc.
Proof.
  destruct a as [[J P] r], b as [[J' P'] r']. intros (_ & _ & _ & Hr) _. unfold normal_vector, stack. cbn [m_rows m_at].
  rewrite <- (sumn_block (m_rows J) (m_rows J') (fun k => m_at J k i) (fun l => vnth r l) (m_at P)
                        (fun k => m_at J' k i) (fun l => vnth r' l) (m_at P')).
  apply sumn_ext. intros k _. apply sumn_ext. intros l _. rewrite vnth_app, Hr. reflexivity.
Qed.
Lemma stack_wf n a b : wf_equation n a -> wf_equation n b -> wf_equation n (stack a b).
Proof.
  destruct a as [[J P] r], b as [[J' P'] r']. intros (H1 & H2 & H3 & H4) (K1 & K2 & K3 & K4).
  unfold wf_equation, stack. cbn. rewrite app_length. split; [exact H1|split; [reflexivity|split; [reflexivity|lia]]].
Qed.
Lemma stack_two n a b : wf_equation n a -> wf_equation n b -> information n [stack a b] = information n [a; b].
Proof.
  intros Ha Hb. rewrite !information_mk. apply mk_ext; intros; cbn [map]; rewrite !sumQ_cons.
  - rewrite (stack_precision n) by assumption. ring.
  - rewrite (stack_vector n) by assumption. ring.
Qed.
Lemma stack_many n : forall qs q, wf_equation n q -> Forall (wf_equation n) qs -> information n [stack_all q qs] = information n (q :: qs).
Proof.
  intros qs. induction qs as [|b qs IH]; intros q Hq Hqs; [reflexivity|].
  inversion Hqs as [|? ? Hb Hqs']; subst. cbn [stack_all fold_left]. change (fold_left stack qs (stack q b)) with (stack_all (stack q b) qs).
  rewrite IH by (try apply stack_wf; assumption).
  pose proof (stack_two n q b Hq Hb) as H.
  rewrite !information_mk in H |- *. apply mk_ext; intros; cbn [map]; rewrite !sumQ_cons.
  - rewrite (stack_precision n) by assumption. ring.
  - rewrite (stack_vector n) by assumption. ring.
Qed.
Lemma stack_all_wf n : forall qs q, wf_equation n q -> Forall (wf_equation n) qs -> wf_equation n (stack_all q qs).
Proof.
  intros qs. induction qs as [|b qs IH]; intros q Hq Hqs; [exact Hq|].
  inversion Hqs as [|? ? Hb Hqs']; subst. cbn [stack_all fold_left]. apply IH; [apply stack_wf; assumption|assumption].
Qed.

(* ---- the offset *)

Lemma expected_value_length c s o : wf_element (c_element c) -> length (expected_value c s o) = length (o_vector o).
Proof.
  intros (_ & Hf & _). unfold expected_value. destruct (c_kind c).
  1,3: destruct (assoc _ _ _); [apply Hf|apply repeat_length].
  destruct (s_state s); [apply Hf|]. destruct (el_nonlinear _); [apply Hf|apply repeat_length].
Qed.

Definition offset_at (sys : system) (i : nat) (o : observations) (k : nat) : Qc :=
  sumn (length sys) (fun j => if j =? i then 0%Qc else contribution sys j o k).

Lemma offset_step (i : nat) (o : observations) m : m = length (o_vector o) ->
  forall sys base f, Forall (fun cs => wf_element (c_element (fst cs))) sys ->
  foldM (fun acc kcs => let '(k, (c, s)) := kcs in
                        if negb (k =? i) then vadd acc (expected_value c s o) else Ok acc)
        (tab m f) (combine (seq base (length sys)) sys)
  = Ok (tab m (fun k => f k + sumn (length sys) (fun j => if (base + j)%nat =? i then 0 else contribution sys j o k))%Qc).
Proof.
  intros Hm. induction sys as [|[c s] sys IH]; intros base f Hwf.
  - cbn. f_equal. apply tab_ext. intros k _. ring.
  - inversion Hwf as [|? ? Hc Hsys]; subst. cbn [fst] in Hc. cbn [length seq combine foldM].
    destruct (base =? i) eqn:E; cbn [negb bind].
    + rewrite IH by assumption. f_equal. apply tab_ext. intros k _.
      change (S (length sys)) with (1 + length sys). rewrite sumn_plus. cbn [sumn]. rewrite Nat.add_0_r, E.
      rewrite (sumn_ext (length sys) (fun j => if S base + j =? i then 0%Qc else contribution sys j o k)
                 (fun j => if base + (1 + j) =? i then 0%Qc else contribution ((c, s) :: sys) (1 + j) o k)).
      * ring.
      * intros j _. replace (base + (1 + j)) with (S base + j) by lia. reflexivity.
    + rewrite (vec_tab (expected_value c s o) (length (o_vector o))) by (apply expected_value_length; exact Hc).
      rewrite vadd_tab. cbn [bind]. rewrite IH by assumption. f_equal. apply tab_ext. intros k _.
      change (S (length sys)) with (1 + length sys). rewrite sumn_plus. cbn [sumn]. rewrite Nat.add_0_r, E.
      rewrite (sumn_ext (length sys) (fun j => if S base + j =? i then 0%Qc else contribution sys j o k)
                 (fun j => if base + (1 + j) =? i then 0%Qc else contribution ((c, s) :: sys) (1 + j) o k)).
      * change (contribution ((c, s) :: sys) 0 o k) with (vnth (expected_value c s o) k). ring.
      * intros j _. replace (base + (1 + j)) with (S base + j) by lia. reflexivity.
Qed.

Lemma subtract_offset_ok sys i o : wf_system sys -> subtract_offset sys i o = Ok (tab (length (o_vector o)) (offset_at sys i o)).
Proof.
  intros Hwf. unfold subtract_offset. rewrite zeros_tab, (offset_step i o _ eq_refl sys 0) by exact Hwf.
  f_equal. apply tab_ext. intros k _. unfold offset_at. cbn [Nat.add]. ring.
Qed.

(* ---- processing the observations of one time *)

Lemma equation_for_wf sys i c x o : wf_element (c_element c) -> wf_observations o ->
  wf_equation (el_dim (c_element c)) (equation_for sys i c x o).
Proof.
  intros (HJ & _) (HP1 & HP2). unfold wf_equation, equation_for. destruct (HJ o x) as [H1 H2].
  rewrite tab_length, H1. split; [exact H2|split; [exact HP1|split; [exact HP2|reflexivity]]].
Qed.

Definition progress (c : component) (s : store) (t : Z) (qs : list equation) : solution :=
  {| so_store := s;
     so_meas := match qs with [] => None | _ => Some (information (el_dim (c_element c)) qs) end;
     so_time := match qs with [] => None | _ => Some t end |}.

Definition prog (c : component) (s : store) (ot : option Z) (qs : list equation) : solution :=
  {| so_store := s;
     so_meas := match qs with [] => None | _ => Some (information (el_dim (c_element c)) qs) end;
     so_time := ot |}.

Lemma process_step_at sys i c s t ot qs o x s1 :
  (ot = None \/ ot = Some t) ->
  wf_system sys -> wf_element (c_element c) -> wf_observations o -> o_time o = t ->
  linearisation c t s o = (x, s1) -> nonempty o = true ->
  process_inputs sys i c (prog c s ot qs) o = Ok (prog c s1 (Some t) (qs ++ [equation_for sys i c x o])).
Proof.
  intros Hot Hsys Hc Ho Ht Hlin Hne. unfold process_inputs. unfold nonempty in Hne. rewrite Hne.
  rewrite subtract_offset_ok by exact Hsys. cbn [bind]. unfold process_observations.
  assert (Hct : check_time (prog c s ot qs) o = Ok t).
  { unfold check_time, prog. cbn [so_time]. destruct Hot as [-> | ->]; rewrite Ht; [reflexivity|]. rewrite Z.eqb_refl. reflexivity. }
  rewrite Hct. cbn [bind].
  rewrite (vec_tab (o_vector o) (length (o_vector o)) eq_refl) at 1. rewrite vsub_tab. cbn [bind].
  change (so_store (prog c s ot qs)) with s. rewrite Hlin. cbv beta iota.
  pose proof (create_ok _ _ (equation_for_wf sys i c x o Hc Ho)) as Hcr. unfold equation_for in Hcr. cbn [fst snd] in Hcr.
  set (q := equation_for sys i c x o) in *.
  assert (Hrel : (match c_kind c, el_nonlinear (c_element c), x with
                  | Spatial, _, _ | _, false, _ | _, true, None => Ok (tab (length (o_vector o)) (fun k => vnth (o_vector o) k - offset_at sys i o k)%Qc)
                  | _, true, Some y => vsub (tab (length (o_vector o)) (fun k => vnth (o_vector o) k - offset_at sys i o k)%Qc) (el_function (c_element c) o y)
                  end) = Ok (snd q)).
  { destruct Hc as (_ & Hf & _). unfold q, equation_for. cbn [snd].
    destruct (c_kind c), (el_nonlinear (c_element c)), x as [y|]; try reflexivity.
    all: rewrite (vec_tab (el_function (c_element c) o y) (length (o_vector o)) (Hf o y)) at 1; rewrite vsub_tab; reflexivity. }
  assert (Hup : create_from_system_observations (el_jacobian (c_element c) o x) (o_precision o) (snd q)
                = Ok (mk (el_dim (c_element c)) (normal_precision q) (normal_vector q))) by exact Hcr.
  match goal with |- bind ?X _ = _ => replace X with (Ok (snd q)) by (symmetry; exact Hrel) end.
  cbn [bind]. rewrite Hup. cbn [bind].
  unfold prog at 1. cbn [so_meas]. destruct qs as [|q0 qs].
  - cbn [app]. destruct (c_kind c).
    + rewrite blank_information, append_information. cbn [bind app]. reflexivity.
    + cbn [bind]. rewrite information_one. reflexivity.
    + cbn [bind]. rewrite information_one. reflexivity.
  - rewrite append_information. cbn [bind]. unfold prog. cbn [app]. reflexivity.
Qed.

Lemma process_step sys i c s t qs o x s1 :
  wf_system sys -> wf_element (c_element c) -> wf_observations o -> o_time o = t ->
  linearisation c t s o = (x, s1) -> nonempty o = true ->
  process_inputs sys i c (progress c s t qs) o = Ok (progress c s1 t (qs ++ [equation_for sys i c x o])).
Proof.
  intros. change (progress c s t qs) with (prog c s (match qs with [] => None | _ => Some t end) qs).
  rewrite (process_step_at sys i c s t _ qs o x s1) by first [assumption | destruct qs; [left; reflexivity | right; reflexivity]].
  unfold prog, progress. destruct qs; reflexivity.
Qed.

Lemma process_skip sys i c so o : nonempty o = false -> process_inputs sys i c so o = Ok so.
Proof. unfold nonempty, process_inputs. intros ->. reflexivity. Qed.

(* storing the initial state settles the point of linearisation *)
Lemma assoc_assign {K V} (eqb : K -> K -> bool) (Heq : forall a b, eqb a b = true <-> a = b) (d : list (K * V)) k v k' :
  assoc eqb (assign eqb d k v) k' = if eqb k' k then Some v else assoc eqb d k'.
Proof.
  induction d as [|[k0 v0] d IH].
  - cbn. reflexivity.
  - cbn [assign]. destruct (eqb k k0) eqn:E.
    + cbn [assoc]. apply Heq in E. subst k0. destruct (eqb k' k); reflexivity.
    + cbn [assoc]. rewrite IH. destruct (eqb k' k0) eqn:E0; [|reflexivity].
      destruct (eqb k' k) eqn:E1; [|reflexivity].
      apply Heq in E0. apply Heq in E1. subst. assert (eqb k0 k0 = true) by (apply Heq; reflexivity). congruence.
Qed.

Lemma linearisation_settles c t s o x s1 : linearisation c t s o = (x, s1) -> forall o', linearisation c t s1 o' = (x, s1).
Proof.
  unfold linearisation. intros H o'. destruct (c_kind c).
  - injection H as <- <-. reflexivity.
  - destruct (el_nonlinear (c_element c)).
    + destruct (s_state s) eqn:E; injection H as <- <-; [rewrite E; reflexivity|reflexivity].
    + injection H as <- <-. reflexivity.
  - destruct (el_nonlinear (c_element c)).
    + destruct (assoc Z.eqb (s_part s) t) eqn:E; injection H as <- <-; [rewrite E; reflexivity|].
      cbn [s_part with_part]. rewrite assoc_assign by apply Z.eqb_eq. rewrite Z.eqb_refl. reflexivity.
    + injection H as <- <-. reflexivity.
Qed.
Lemma linearisation_point c t s o : fst (linearisation c t s o) = point c s t (Some o).
Proof.
  unfold linearisation, point. destruct (c_kind c); [reflexivity| |].
  - destruct (el_nonlinear _); [|destruct (s_state s); reflexivity]. destruct (s_state s); reflexivity.
  - destruct (el_nonlinear _); [|destruct (assoc _ _ _); reflexivity]. destruct (assoc _ _ _); reflexivity.
Qed.

Lemma process_settled sys i c s t x :
  wf_system sys -> wf_element (c_element c) -> (forall o, linearisation c t s o = (x, s)) ->
  forall loaders qs, wf_loaders loaders t ->
  foldM (fun so l => process_inputs sys i c so (l t)) (progress c s t qs) loaders
  = Ok (progress c s t (qs ++ map (equation_for sys i c x) (inputs loaders t))).
Proof.
  intros Hsys Hc Hlin. induction loaders as [|l loaders IH]; intros qs Hl.
  - cbn. rewrite app_nil_r. reflexivity.
  - cbn [foldM]. unfold inputs. cbn [map filter]. destruct (Hl l (or_introl eq_refl)) as [Ht Ho].
    assert (Hl' : wf_loaders loaders t) by (intros l' Hin; apply Hl; right; exact Hin).
    destruct (nonempty (l t)) eqn:E.
    + rewrite (process_step sys i c s t qs (l t) x s) by (try assumption; apply Hlin). cbn [bind].
      rewrite IH by exact Hl'. cbn [map]. rewrite <- app_assoc. reflexivity.
    + rewrite process_skip by exact E. cbn [bind]. apply IH. exact Hl'.
Qed.

(* the storage after the observations of a time have been processed *)
Definition stored_point (c : component) (s : store) (t : Z) (os : list observations) : store :=
  match os with [] => s | o :: _ => snd (linearisation c t s o) end.

Lemma process_all sys i c s t loaders :
  wf_system sys -> wf_element (c_element c) -> wf_loaders loaders t ->
  foldM (fun so l => process_inputs sys i c so (l t)) (component_solution s) loaders
  = Ok (progress c (stored_point c s t (inputs loaders t)) t
          (map (equation_for sys i c (point c s t (hd_error (inputs loaders t)))) (inputs loaders t))).
Proof.
  intros Hsys Hc. change (component_solution s) with (progress c s t []).
  induction loaders as [|l loaders IH]; intros Hl; [reflexivity|].
  cbn [foldM]. unfold inputs. cbn [map filter]. destruct (Hl l (or_introl eq_refl)) as [Ht Ho].
  assert (Hl' : wf_loaders loaders t) by (intros l' Hin; apply Hl; right; exact Hin).
  destruct (nonempty (l t)) eqn:E.
  - destruct (linearisation c t s (l t)) as [x s1] eqn:EL.
    rewrite (process_step sys i c s t [] (l t) x s1) by assumption. cbn [bind app].
    rewrite (process_settled sys i c s1 t x) by (try assumption; apply (linearisation_settles c t s (l t) x s1 EL)).
    pose proof (linearisation_point c t s (l t)) as Hp. rewrite EL in Hp. cbn [fst] in Hp. subst x.
    cbn [hd_error map stored_point]. rewrite EL. cbn [snd app]. reflexivity.
  - rewrite process_skip by exact E. cbn [bind]. apply IH. exact Hl'.
Qed.

(* ---- the system *)

Lemma combine_seq_nth {A} (l : list A) : forall base k, nth_error (combine (seq base (length l)) l) k
  = match nth_error l k with Some a => Some (base + k, a) | None => None end.
Proof.
  induction l as [|a l IH]; intros base k; [destruct k; reflexivity|].
  cbn [length seq combine]. destruct k as [|k]; [cbn; rewrite Nat.add_0_r; reflexivity|].
  cbn [nth_error]. rewrite IH. replace (S base + k) with (base + S k) by lia. reflexivity.
Qed.
Lemma nth_set_store sys i s j : nth_error (set_store sys i s) j
  = match nth_error sys j with Some (c, s') => Some (c, if j =? i then s else s') | None => None end.
Proof.
  unfold set_store. rewrite nth_error_map, combine_seq_nth. cbn [Nat.add].
  destruct (nth_error sys j) as [[c s']|]; reflexivity.
Qed.
Lemma set_store_length sys i s : length (set_store sys i s) = length sys.
Proof. unfold set_store. rewrite map_length, combine_length, seq_length. lia. Qed.
Lemma nth_error_eq {A} (l m : list A) : (forall k, nth_error l k = nth_error m k) -> l = m.
Proof.
  revert m. induction l as [|a l IH]; intros [|b m] H; [reflexivity|specialize (H 0); discriminate|specialize (H 0); discriminate|].
  pose proof (H 0) as H0. cbn in H0. injection H0 as ->. f_equal. apply IH. intros k. exact (H (S k)).
Qed.
Lemma set_store_twice sys i s s' : set_store (set_store sys i s) i s' = set_store sys i s'.
Proof.
  apply nth_error_eq. intros k. rewrite !nth_set_store. destruct (nth_error sys k) as [[c s0]|]; [|reflexivity].
  destruct (k =? i); reflexivity.
Qed.
Lemma set_store_same sys i c s : nth_error sys i = Some (c, s) -> set_store sys i s = sys.
Proof.
  intros H. apply nth_error_eq. intros k. rewrite nth_set_store. destruct (Nat.eqb_spec k i) as [->|Hk].
  - rewrite H. reflexivity.
  - destruct (nth_error sys k) as [[c0 s0]|]; reflexivity.
Qed.
Lemma set_store_wf sys i s : wf_system sys -> wf_system (set_store sys i s).
Proof.
  unfold wf_system. rewrite !Forall_forall. intros H [c s'] Hin. apply In_nth_error in Hin. destruct Hin as [k Hk].
  rewrite nth_set_store in Hk. destruct (nth_error sys k) as [[c0 s0]|] eqn:E; [|discriminate].
  injection Hk as -> _. apply nth_error_In in E. exact (H _ E).
Qed.
Lemma wf_at sys i c s : wf_system sys -> nth_error sys i = Some (c, s) -> wf_element (c_element c).
Proof. unfold wf_system. rewrite Forall_forall. intros H Hn. apply nth_error_In in Hn. exact (H _ Hn). Qed.

Lemma residual_set_store sys i s o k : residual (set_store sys i s) i o k = residual sys i o k.
Proof.
  unfold residual. rewrite set_store_length. f_equal. apply sumn_ext. intros j _.
  destruct (Nat.eqb_spec j i) as [|Hj]; [reflexivity|]. unfold contribution. rewrite nth_set_store.
  destruct (nth_error sys j) as [[c s']|]; [|reflexivity]. apply Nat.eqb_neq in Hj. rewrite Hj. reflexivity.
Qed.
Lemma equation_for_ext sys sys' i i' c x o :
  (forall k, residual sys i o k = residual sys' i' o k) -> equation_for sys i c x o = equation_for sys' i' c x o.
Proof.
  intros H. unfold equation_for. f_equal. apply tab_ext. intros k _.
  destruct (c_kind c), (el_nonlinear (c_element c)), x; rewrite ?H; reflexivity.
Qed.
Lemma equation_for_set_store sys i s c x o : equation_for (set_store sys i s) i c x o = equation_for sys i c x o.
Proof. apply equation_for_ext. intros k. apply residual_set_store. Qed.

Section Solving.
Variable solve : table -> vec -> vec.

Lemma posterior_ok e u : wf_element e -> shaped (el_dim e) u ->
  maximum_a_posteriori solve (el_prior e) u = Ok (posterior solve (el_dim e) (el_prior e) u).
Proof.
  intros (_ & _ & Hp1 & Hp2) (Hu1 & Hu2 & _). unfold maximum_a_posteriori, posterior.
  rewrite (table_tab (el_prior e) _ Hp1 Hp2) at 1. rewrite (table_tab (i_precision u) _ Hu1 Hu2) at 1.
  rewrite zip_rows_tab. reflexivity.
Qed.

(* what one call of update_component_time leaves in the storage of the component *)
Definition after_time (sys : system) (i : nat) (c : component) (s : store) (os : list observations) (t : Z) : store :=
  let n := el_dim (c_element c) in
  let u := information n (map (equation_for sys i c (point c s t (hd_error os))) os) in
  match c_kind c, os with
  | Spatial, [] => s
  | Spatial, _ => with_part s (assign Z.eqb (s_part s) t (posterior solve n (el_prior (c_element c)) u))
  | _, [] => with_meas s (assign okey_eqb (s_meas s) None None)
  | _, _ => let s1 := stored_point c s t os in with_meas s1 (assign okey_eqb (s_meas s1) (Some t) (Some u))
  end.

Lemma update_time_ok c s t qs : wf_element (c_element c) ->
  update_time_step solve c (progress c s t qs) = Ok (component_solution
    (match c_kind c, qs with
     | Spatial, [] => s
     | Spatial, _ => with_part s (assign Z.eqb (s_part s) t (posterior solve (el_dim (c_element c)) (el_prior (c_element c)) (information (el_dim (c_element c)) qs)))
     | _, [] => with_meas s (assign okey_eqb (s_meas s) None None)
     | _, _ => with_meas s (assign okey_eqb (s_meas s) (Some t) (Some (information (el_dim (c_element c)) qs)))
     end)).
Proof.
  intros Hc. unfold update_time_step, progress. cbn [so_meas so_time so_store].
  destruct (c_kind c), qs as [|q qs]; try reflexivity.
  rewrite posterior_ok by (try exact Hc; apply information_shaped). reflexivity.
Qed.

Lemma spatial_point_store c s t o : c_kind c = Spatial -> linearisation c t s o = (None, s).
Proof. unfold linearisation. intros ->. reflexivity. Qed.

Lemma update_component_time_ok sys loaders i t c s :
  wf_system sys -> nth_error sys i = Some (c, s) -> loaders <> [] -> wf_loaders loaders t ->
  update_component_time solve sys loaders i t = Ok (set_store sys i (after_time sys i c s (inputs loaders t) t)).
Proof.
  intros Hsys Hi Hne Hl. unfold update_component_time.
  destruct loaders as [|l loaders]; [congruence|]. cbn [length Nat.eqb].
  unfold component_at. rewrite Hi. cbn [bind].
  pose proof (wf_at _ _ _ _ Hsys Hi) as Hc.
  rewrite (process_all sys i c s t (l :: loaders)) by assumption. cbn [bind].
  rewrite update_time_ok by exact Hc. cbn [bind so_store component_solution]. f_equal. f_equal.
  unfold after_time. destruct (inputs (l :: loaders) t) as [|o os]; [reflexivity|].
  cbn [map stored_point hd_error]. destruct (c_kind c) eqn:Ek; try reflexivity.
  rewrite spatial_point_store by exact Ek. reflexivity.
Qed.

Lemma stored_point_linear c s t os : el_nonlinear (c_element c) = false -> stored_point c s t os = s.
Proof.
  intros H. unfold stored_point. destruct os as [|o os]; [reflexivity|]. unfold linearisation.
  rewrite H. destruct (c_kind c); reflexivity.
Qed.

(* ---- all the times of one component *)

Lemma update_component_time_keeps sys loaders i t sys' : update_component_time solve sys loaders i t = Ok sys' ->
  length sys' = length sys /\ (forall j, j <> i -> nth_error sys' j = nth_error sys j) /\
  (forall j, option_map fst (nth_error sys' j) = option_map fst (nth_error sys j)).
Proof.
  unfold update_component_time. destruct (length loaders =? 0); [discriminate|].
  unfold component_at. destruct (nth_error sys i) as [[c s]|]; [|discriminate]. cbn [bind].
  destruct (foldM _ _ _) as [so|]; [|discriminate]. cbn [bind]. destruct (update_time_step _ _ _) as [so'|]; [|discriminate].
  cbn [bind]. intros H. injection H as <-. split; [apply set_store_length|split].
  - intros j Hj. rewrite nth_set_store. apply Nat.eqb_neq in Hj. rewrite Hj. destruct (nth_error sys j) as [[? ?]|]; reflexivity.
  - intros j. rewrite nth_set_store. destruct (nth_error sys j) as [[? ?]|]; reflexivity.
Qed.
Lemma update_component_solution_keeps sys i sys' : update_component_solution solve sys i = Ok sys' ->
  length sys' = length sys /\ (forall j, j <> i -> nth_error sys' j = nth_error sys j) /\
  (forall j, option_map fst (nth_error sys' j) = option_map fst (nth_error sys j)).
Proof.
  unfold update_component_solution. unfold component_at. destruct (nth_error sys i) as [[c s]|]; [|discriminate]. cbn [bind].
  destruct (update_solution _ _ _) as [s'|]; [|discriminate]. cbn [bind]. intros H. injection H as <-.
  split; [apply set_store_length|split].
  - intros j Hj. rewrite nth_set_store. apply Nat.eqb_neq in Hj. rewrite Hj. destruct (nth_error sys j) as [[? ?]|]; reflexivity.
  - intros j. rewrite nth_set_store. destruct (nth_error sys j) as [[? ?]|]; reflexivity.
Qed.
Lemma update_component_keeps sys loaders i times sys' : update_component solve sys loaders i times = Ok sys' ->
  length sys' = length sys /\ (forall j, j <> i -> nth_error sys' j = nth_error sys j) /\
  (forall j, option_map fst (nth_error sys' j) = option_map fst (nth_error sys j)).
Proof.
  unfold update_component. revert sys. induction times as [|t times IH]; intros sys H.
  - cbn [foldM bind] in H. apply update_component_solution_keeps. exact H.
  - cbn [foldM] in H. destruct (update_component_time solve sys loaders i t) as [sys1|] eqn:E; [|discriminate]. cbn [bind] in H.
    apply update_component_time_keeps in E. destruct E as (E1 & E2 & E3). specialize (IH sys1 H).
    destruct IH as (I1 & I2 & I3). split; [lia|split].
    + intros j Hj. rewrite I2, E2 by exact Hj. reflexivity.
    + intros j. rewrite I3, E3. reflexivity.
Qed.

(* linear space-time and delayed components: the measurements only *)
Definition day (sys : system) (i : nat) (c : component) (x : Z -> option vec) (loaders : list loader) (t : Z) : list equation :=
  map (equation_for sys i c (x t)) (inputs loaders t).
Definition entry (sys : system) (i : nat) (c : component) (x : Z -> option vec) (loaders : list loader) (t : Z) : option Z * option info :=
  match inputs loaders t with
  | [] => (None, None)
  | _ => (Some t, Some (information (el_dim (c_element c)) (day sys i c x loaders t)))
  end.
Definition assign_all {K V} (eqb : K -> K -> bool) (d : list (K * V)) (kvs : list (K * V)) : list (K * V) :=
  fold_left (fun d kv => assign eqb d (fst kv) (snd kv)) kvs d.

(* nothing that processing reads changes from one time to the next *)
Definition settled (c : component) (s : store) (x : Z -> option vec) : Prop :=
  c_kind c <> Spatial /\ forall t o, linearisation c t s o = (x t, s).

Lemma settled_with_meas c s x ms : settled c s x -> settled c (with_meas s ms) x.
Proof.
  intros [Hk H]. split; [exact Hk|]. intros t o. specialize (H t o). unfold linearisation in *.
  destruct (c_kind c); [congruence| |].
  - cbn [s_state with_meas]. destruct (el_nonlinear (c_element c)).
    + destruct (s_state s) eqn:E; [congruence|]. exfalso. injection H as _ H. apply (f_equal s_state) in H. cbn in H. congruence.
    + congruence.
  - cbn [s_part with_meas]. destruct (el_nonlinear (c_element c)).
    + destruct (assoc Z.eqb (s_part s) t) eqn:E; [congruence|]. exfalso. injection H as _ H. apply (f_equal s_part) in H. cbn in H.
      rewrite <- H in E. rewrite assoc_assign in E by apply Z.eqb_eq. rewrite Z.eqb_refl in E. discriminate.
    + congruence.
Qed.

Lemma okey_eqb_iff a b : okey_eqb a b = true <-> a = b.
Proof.
  destruct a as [x|], b as [y|]; cbn; try (split; congruence); try tauto.
  rewrite Z.eqb_eq. split; congruence.
Qed.
Lemma with_meas_same s : with_meas s (s_meas s) = s.
Proof. destruct s; reflexivity. Qed.
Lemma with_meas_twice s a b : with_meas (with_meas s a) b = with_meas s b.
Proof. reflexivity. Qed.

Lemma after_time_settled sys i c s x loaders t : settled c s x ->
  after_time sys i c s (inputs loaders t) t
  = with_meas s (assign okey_eqb (s_meas s) (fst (entry sys i c x loaders t)) (snd (entry sys i c x loaders t))).
Proof.
  intros [Hk Hl]. unfold after_time, entry, day. destruct (inputs loaders t) as [|o os] eqn:E.
  - destruct (c_kind c); [congruence|reflexivity|reflexivity].
  - cbn [hd_error stored_point]. rewrite Hl. cbn [snd].
    pose proof (linearisation_point c t s o) as Hp. rewrite Hl in Hp. cbn [fst] in Hp. rewrite <- Hp.
    cbn [fst snd]. destruct (c_kind c); [congruence|reflexivity|reflexivity].
Qed.

Lemma entry_set_store sys i s c x loaders t : entry (set_store sys i s) i c x loaders t = entry sys i c x loaders t.
Proof.
  unfold entry, day. destruct (inputs loaders t) as [|o os]; [reflexivity|]. do 3 f_equal.
  apply map_ext. intros o'. apply equation_for_set_store.
Qed.

Lemma times_ok i c x loaders : loaders <> [] -> forall times sys s,
  wf_system sys -> nth_error sys i = Some (c, s) -> settled c s x -> (forall t, In t times -> wf_loaders loaders t) ->
  foldM (fun sys t => update_component_time solve sys loaders i t) sys times
  = Ok (set_store sys i (with_meas s (assign_all okey_eqb (s_meas s) (map (entry sys i c x loaders) times)))).
Proof.
  intros Hne. induction times as [|t times IH]; intros sys s Hsys Hi Hset Hl.
  - cbn. rewrite with_meas_same, (set_store_same sys i c s Hi). reflexivity.
  - cbn [foldM]. rewrite (update_component_time_ok sys loaders i t c s) by (try assumption; apply Hl; left; reflexivity).
    cbn [bind]. rewrite (after_time_settled sys i c s x) by exact Hset.
    set (s1 := with_meas s _).
    rewrite (IH _ s1).
    + rewrite set_store_twice. unfold s1. rewrite with_meas_twice. f_equal. f_equal. f_equal.
      cbn [map assign_all fold_left s_meas with_meas]. unfold assign_all. f_equal.
      apply map_ext. intros t'. apply entry_set_store.
    + apply set_store_wf, Hsys.
    + rewrite nth_set_store, Hi, Nat.eqb_refl. reflexivity.
    + apply settled_with_meas, Hset.
    + intros t' Ht'. apply Hl. right. exact Ht'.
Qed.

(* ---- dictionaries *)

Lemma assign_keys {K V} (eqb : K -> K -> bool) (Heq : forall a b, eqb a b = true <-> a = b) (d : list (K * V)) k v :
  map fst (assign eqb d k v) = if existsb (eqb k) (map fst d) then map fst d else map fst d ++ [k].
Proof.
  induction d as [|[k0 v0] d IH]; [reflexivity|]. cbn [assign map fst existsb]. destruct (eqb k k0) eqn:E; [reflexivity|].
  cbn [map fst orb]. rewrite IH. destruct (existsb (eqb k) (map fst d)); reflexivity.
Qed.
Lemma existsb_key {K} (eqb : K -> K -> bool) (Heq : forall a b, eqb a b = true <-> a = b) l k : existsb (eqb k) l = true <-> In k l.
Proof.
  rewrite existsb_exists. split; [intros (x & Hin & E); apply Heq in E; subst; exact Hin|].
  intros H. exists k. split; [exact H|]. apply Heq. reflexivity.
Qed.
Lemma assign_NoDup {K V} (eqb : K -> K -> bool) (Heq : forall a b, eqb a b = true <-> a = b) (d : list (K * V)) k v :
  NoDup (map fst d) -> NoDup (map fst (assign eqb d k v)).
Proof.
  intros H. rewrite assign_keys by exact Heq. destruct (existsb (eqb k) (map fst d)) eqn:E; [exact H|].
  apply NoDup_Add with (a := k) (l := map fst d).
  - rewrite <- (app_nil_r (map fst d)) at 1. apply Add_app.
  - split; [exact H|]. intros Hin. apply (existsb_key eqb Heq) in Hin. congruence.
Qed.
Lemma assign_all_NoDup {K V} (eqb : K -> K -> bool) (Heq : forall a b, eqb a b = true <-> a = b) kvs : forall (d : list (K * V)),
  NoDup (map fst d) -> NoDup (map fst (assign_all eqb d kvs)).
Proof.
  induction kvs as [|[k v] kvs IH]; intros d H; [exact H|]. cbn [assign_all fold_left]. apply IH. apply assign_NoDup; assumption.
Qed.
Lemma assoc_In {K V} (eqb : K -> K -> bool) (Heq : forall a b, eqb a b = true <-> a = b) (d : list (K * V)) k v :
  NoDup (map fst d) -> (assoc eqb d k = Some v <-> In (k, v) d).
Proof.
  induction d as [|[k0 v0] d IH]; intros Hnd; [split; [discriminate|intros []]|].
  cbn [map fst] in Hnd. apply NoDup_cons_iff in Hnd. destruct Hnd as [Hk0 Hnd]. cbn [assoc]. destruct (eqb k k0) eqn:E.
  - apply Heq in E. subst k0. split.
    + intros H. injection H as ->. left. reflexivity.
    + intros [H|H]; [congruence|]. exfalso. apply Hk0. apply in_map_iff. exists (k, v). split; [reflexivity|exact H].
  - rewrite IH by exact Hnd. split; [intros H; right; exact H|]. intros [H|H]; [|exact H].
    injection H as -> ->. assert (eqb k k = true) by (apply Heq; reflexivity). congruence.
Qed.
Lemma assoc_assign_all {K V} (eqb : K -> K -> bool) (Heq : forall a b, eqb a b = true <-> a = b) kvs k : forall (d : list (K * V)),
  assoc eqb (assign_all eqb d kvs) k = match last_write eqb kvs k with Some v => Some v | None => assoc eqb d k end.
Proof.
  induction kvs as [|[k0 v0] kvs IH]; intros d; [reflexivity|].
  cbn [assign_all fold_left last_write fst snd]. change (fold_left _ kvs ?x) with (assign_all eqb x kvs).
  rewrite IH. destruct (last_write eqb kvs k) as [v|]; [reflexivity|].
  rewrite assoc_assign by exact Heq. destruct (eqb k k0); reflexivity.
Qed.
Lemma last_write_None {K V} (eqb : K -> K -> bool) (Heq : forall a b, eqb a b = true <-> a = b) (kvs : list (K * V)) k :
  last_write eqb kvs k = None <-> ~ In k (map fst kvs).
Proof.
  induction kvs as [|[k0 v0] kvs IH]; [split; [intros _ []|reflexivity]|]. cbn [last_write map fst].
  destruct (last_write eqb kvs k) as [v|].
  - split; [discriminate|]. intros H. exfalso. apply H. right.
    destruct (in_dec (fun a b => match bool_dec (eqb a b) true with left e => left (proj1 (Heq a b) e) | right n => right (fun e => n (proj2 (Heq a b) e)) end) k (map fst kvs)) as [Hin|Hn]; [exact Hin|].
    apply IH in Hn. discriminate.
  - destruct (eqb k k0) eqn:E.
    + apply Heq in E. subst. split; [discriminate|]. intros H. exfalso. apply H. left. reflexivity.
    + split; [|reflexivity]. intros _ [H|H]; [subst; assert (eqb k k = true) by (apply Heq; reflexivity); congruence|].
      apply (proj1 IH eq_refl). exact H.
Qed.
Lemma last_write_In {K V} (eqb : K -> K -> bool) (Heq : forall a b, eqb a b = true <-> a = b) (kvs : list (K * V)) k v :
  NoDup (map fst kvs) -> (last_write eqb kvs k = Some v <-> In (k, v) kvs).
Proof.
  induction kvs as [|[k0 v0] kvs IH]; intros Hnd; [split; [discriminate|intros []]|].
  cbn [map fst] in Hnd. apply NoDup_cons_iff in Hnd. destruct Hnd as [Hk0 Hnd]. specialize (IH Hnd). cbn [last_write].
  destruct (last_write eqb kvs k) as [w|] eqn:E.
  - split.
    + intros H. injection H as ->. right. apply IH. reflexivity.
    + intros [H|H]; [|apply IH; exact H]. exfalso. injection H as -> ->.
      apply (last_write_None eqb Heq kvs k) in Hk0. congruence.
  - destruct (eqb k k0) eqn:E0.
    + apply Heq in E0. subst k0. split; [intros H; injection H as ->; left; reflexivity|].
      intros [H|H]; [congruence|]. apply IH in H. discriminate.
    + split; [discriminate|]. intros [H|H].
      * injection H as -> ->. assert (eqb k k = true) by (apply Heq; reflexivity). congruence.
      * apply IH in H. discriminate.
Qed.

Lemma NoDup_pairs {K V} (d : list (K * V)) : NoDup (map fst d) -> NoDup d.
Proof. apply NoDup_map_inv. Qed.
(* assigning every key that a dictionary has, each once, leaves just the assignments *)
Lemma assign_all_perm {K V} (eqb : K -> K -> bool) (Heq : forall a b, eqb a b = true <-> a = b) (d kvs : list (K * V)) :
  NoDup (map fst d) -> NoDup (map fst kvs) -> incl (map fst d) (map fst kvs) -> Permutation (assign_all eqb d kvs) kvs.
Proof.
  intros Hd Hk Hincl.
  assert (Hn : NoDup (map fst (assign_all eqb d kvs))) by (apply assign_all_NoDup; assumption).
  apply NoDup_Permutation; [apply NoDup_pairs, Hn|apply NoDup_pairs, Hk|].
  intros [k v]. rewrite <- (assoc_In eqb Heq _ k v Hn), assoc_assign_all by exact Heq.
  destruct (last_write eqb kvs k) as [w|] eqn:E.
  - rewrite <- (last_write_In eqb Heq kvs k v Hk), E. tauto.
  - split; [|intros H; apply (last_write_In eqb Heq kvs k v Hk) in H; congruence].
    intros H. exfalso. apply (assoc_In eqb Heq d k v Hd) in H. apply (last_write_None eqb Heq) in E. apply E, Hincl.
    apply in_map_iff. exists (k, v). split; [reflexivity|exact H].
Qed.

(* ---- the solution of a space-time component *)

Lemma append_all_entries n (E : Z -> list equation) : forall times qs,
  append_all (information n qs) (map (fun t => (Some t, Some (information n (E t)))) times) = Ok (information n (qs ++ flat_map E times)).
Proof.
  induction times as [|t times IH]; intros qs; [cbn; rewrite app_nil_r; reflexivity|].
  cbn [map append_all flat_map]. rewrite append_informations. cbn [bind]. rewrite IH, app_assoc. reflexivity.
Qed.

Lemma flat_map_perm {A B} (f : A -> list B) l m : Permutation l m -> Permutation (flat_map f l) (flat_map f m).
Proof.
  induction 1; cbn; [constructor|apply Permutation_app_head; assumption| |eapply Permutation_trans; eassumption].
  rewrite !app_assoc. apply Permutation_app_tail, Permutation_app_comm.
Qed.

Lemma entries_perm sys i c x loaders times ms n :
  NoDup times -> (forall t, In t times -> inputs loaders t <> []) ->
  n = el_dim (c_element c) ->
  NoDup (map fst ms) -> (forall k, In k (map fst ms) -> exists t, In t times /\ k = Some t) ->
  exists times', Permutation times' times /\
    assign_all okey_eqb ms (map (entry sys i c x loaders) times)
    = map (fun t => (Some t, Some (information n (day sys i c x loaders t)))) times'.
Proof.
  intros Hnd Hin -> Hms Hkeys.
  assert (He : map (entry sys i c x loaders) times
             = map (fun t => (Some t, Some (information (el_dim (c_element c)) (day sys i c x loaders t)))) times).
  { apply map_ext_in. intros t Ht. unfold entry. specialize (Hin t Ht). destruct (inputs loaders t); [congruence|reflexivity]. }
  rewrite He.
  assert (Hk : map fst (map (fun t => (Some t, Some (information (el_dim (c_element c)) (day sys i c x loaders t)))) times) = map Some times).
  { rewrite map_map. reflexivity. }
  pose proof (assign_all_perm okey_eqb okey_eqb_iff ms
    (map (fun t => (Some t, Some (information (el_dim (c_element c)) (day sys i c x loaders t)))) times) Hms) as Hp.
  rewrite Hk in Hp. specialize (Hp (FinFun.Injective_map_NoDup (fun a b (e : Some a = Some b) => f_equal (fun o => match o with Some z => z | None => a end) e) Hnd)).
  assert (Hi : incl (map fst ms) (map Some times)).
  { intros k Hk'. destruct (Hkeys k Hk') as (t & Ht & ->). apply in_map. exact Ht. }
  specialize (Hp Hi). apply Permutation_map_inv in Hp. destruct Hp as (times' & Heq & Hperm).
  exists times'. split; [apply Permutation_sym, Hperm|exact Heq].
Qed.

Lemma update_component_spacetime sys loaders i times c s :
  wf_system sys -> nth_error sys i = Some (c, s) -> c_kind c = SpaceTime -> loaders <> [] -> NoDup times ->
  (forall t, In t times -> wf_loaders loaders t /\ inputs loaders t <> []) -> stored_for times s ->
  (el_nonlinear (c_element c) = true -> (exists x, s_state s = Some x /\ length x = el_dim (c_element c)) /\
                                       forall p v, length (solve p v) = el_dim (c_element c)) ->
  exists times', Permutation times' times /\
  update_component solve sys loaders i times
  = Ok (set_store sys i
      {| s_state := Some (new_state (c_element c) (s_state s)
                       (posterior solve (el_dim (c_element c)) (el_prior (c_element c))
                         (information (el_dim (c_element c)) (flat_map (day sys i c (fun _ => s_state s) loaders) times))));
         s_meas := map (fun t => (Some t, Some (information (el_dim (c_element c)) (day sys i c (fun _ => s_state s) loaders t)))) times';
         s_part := s_part s |}).
Proof.
  intros Hsys Hi Hk Hne Hnd Hl [Hst1 Hst2] Hnl.
  pose proof (wf_at _ _ _ _ Hsys Hi) as Hc.
  assert (Hset : settled c s (fun _ => s_state s)).
  { split; [congruence|]. intros t o. unfold linearisation. rewrite Hk. destruct (el_nonlinear (c_element c)); [|reflexivity].
    destruct (proj1 (Hnl eq_refl)) as (x & -> & _). reflexivity. }
  destruct (entries_perm sys i c (fun _ => s_state s) loaders times (s_meas s) _ Hnd (fun t Ht => proj2 (Hl t Ht)) eq_refl Hst1 Hst2)
    as (times' & Hperm & Hent).
  exists times'. split; [exact Hperm|].
  unfold update_component. rewrite (times_ok i c (fun _ => s_state s) loaders Hne times sys s Hsys Hi Hset (fun t Ht => proj1 (Hl t Ht))).
  cbn [bind]. rewrite Hent. unfold update_component_solution, component_at.
  rewrite nth_set_store, Hi, Nat.eqb_refl. cbn [bind]. unfold update_solution. rewrite Hk. cbn [s_meas with_meas].
  rewrite blank_information, append_all_entries. cbn [bind app].
  rewrite (information_perm _ (flat_map (day sys i c (fun _ => s_state s) loaders) times')
             (flat_map (day sys i c (fun _ => s_state s) loaders) times)) by (apply flat_map_perm, Hperm).
  rewrite posterior_ok by (try exact Hc; apply information_shaped). cbn [bind].
  cbn [s_state with_meas]. unfold new_state. destruct (el_nonlinear (c_element c)) eqn:En.
  - destruct (Hnl eq_refl) as ((x & Hx & Hxl) & Hsl). rewrite Hx.
    match goal with |- context [vadd ?v x] => rewrite (vec_tab v (el_dim (c_element c))) at 1 by (unfold posterior; apply Hsl) end.
    rewrite (vec_tab x (el_dim (c_element c)) Hxl) at 1. rewrite vadd_tab. cbn [bind]. rewrite set_store_twice. reflexivity.
  - cbn [bind]. rewrite set_store_twice. reflexivity.
Qed.

(* ---- spatial components over several times *)

Definition spatial_writes (sys : system) (i : nat) (c : component) (loaders : list loader) (t : Z) : list (Z * vec) :=
  match inputs loaders t with
  | [] => []
  | _ => [(t, posterior solve (el_dim (c_element c)) (el_prior (c_element c))
               (information (el_dim (c_element c)) (day sys i c (fun _ => None) loaders t)))]
  end.
Lemma with_part_same s : with_part s (s_part s) = s.
Proof. destruct s; reflexivity. Qed.
Lemma assign_all_app {K V} (eqb : K -> K -> bool) (d : list (K * V)) a b : assign_all eqb d (a ++ b) = assign_all eqb (assign_all eqb d a) b.
Proof. apply fold_left_app. Qed.

Lemma after_time_spatial sys i c s loaders t : c_kind c = Spatial ->
  after_time sys i c s (inputs loaders t) t = with_part s (assign_all Z.eqb (s_part s) (spatial_writes sys i c loaders t)).
Proof.
  intros Hk. unfold after_time, spatial_writes, day, point. rewrite Hk. destruct (inputs loaders t) as [|o os].
  - cbn. rewrite with_part_same. reflexivity.
  - reflexivity.
Qed.
Lemma spatial_writes_set_store sys i s c loaders t : spatial_writes (set_store sys i s) i c loaders t = spatial_writes sys i c loaders t.
Proof.
  unfold spatial_writes, day. destruct (inputs loaders t) as [|o os]; [reflexivity|]. do 4 f_equal.
  apply map_ext. intros o'. apply equation_for_set_store.
Qed.
Lemma spatial_times_ok i c loaders : loaders <> [] -> c_kind c = Spatial -> forall times sys s,
  wf_system sys -> nth_error sys i = Some (c, s) -> (forall t, In t times -> wf_loaders loaders t) ->
  foldM (fun sys t => update_component_time solve sys loaders i t) sys times
  = Ok (set_store sys i (with_part s (assign_all Z.eqb (s_part s) (flat_map (spatial_writes sys i c loaders) times)))).
Proof.
  intros Hne Hk. induction times as [|t times IH]; intros sys s Hsys Hi Hl.
  - cbn. rewrite with_part_same, (set_store_same sys i c s Hi). reflexivity.
  - cbn [foldM]. rewrite (update_component_time_ok sys loaders i t c s) by (try assumption; apply Hl; left; reflexivity).
    cbn [bind]. rewrite (after_time_spatial sys i c s) by exact Hk.
    set (s1 := with_part s _).
    rewrite (IH _ s1).
    + rewrite set_store_twice. unfold s1. cbn [with_part s_part s_state s_meas]. f_equal. f_equal.
      cbn [flat_map]. rewrite assign_all_app. unfold with_part. cbn. f_equal. f_equal.
      apply flat_map_ext. intros t'. apply spatial_writes_set_store.
    + apply set_store_wf, Hsys.
    + rewrite nth_set_store, Hi, Nat.eqb_refl. reflexivity.
    + intros t' Ht'. apply Hl. right. exact Ht'.
Qed.

Lemma last_write_app {K V} (eqb : K -> K -> bool) (a b : list (K * V)) k :
  last_write eqb (a ++ b) k = match last_write eqb b k with Some v => Some v | None => last_write eqb a k end.
Proof.
  induction a as [|[k0 v0] a IH]; [cbn; destruct (last_write eqb b k); reflexivity|].
  cbn [app last_write]. rewrite IH. destruct (last_write eqb b k); reflexivity.
Qed.

(* one value per key, whatever the repetitions *)
Lemma last_write_flat_map {V} (w : Z -> option V) t : forall times,
  last_write Z.eqb (flat_map (fun t => match w t with Some v => [(t, v)] | None => [] end) times) t
  = if existsb (Z.eqb t) times then w t else None.
Proof.
  induction times as [|t0 times IH]; [reflexivity|]. cbn [flat_map existsb]. rewrite last_write_app, IH.
  destruct (Z.eqb_spec t t0) as [<-|Hne].
  - cbn [orb]. destruct (existsb (Z.eqb t) times).
    + destruct (w t) eqn:E; [reflexivity|]. reflexivity.
    + destruct (w t) eqn:E; [|reflexivity]. cbn. rewrite Z.eqb_refl. reflexivity.
  - cbn [orb]. destruct (existsb (Z.eqb t) times); [destruct (w t) eqn:E|].
    + reflexivity.
    + destruct (w t0); [|reflexivity]. cbn. apply Z.eqb_neq in Hne. rewrite Hne. reflexivity.
    + destruct (w t0); [|reflexivity]. cbn. apply Z.eqb_neq in Hne. rewrite Hne. reflexivity.
Qed.

Lemma spatial_component_ok sys loaders i times c s :
  wf_system sys -> nth_error sys i = Some (c, s) -> c_kind c = Spatial -> loaders <> [] ->
  (forall t, In t times -> wf_loaders loaders t) ->
  exists s', update_component solve sys loaders i times = Ok (set_store sys i s') /\ s_state s' = s_state s /\ s_meas s' = s_meas s /\
  forall t, assoc Z.eqb (s_part s') t
    = if existsb (Z.eqb t) times && negb (match inputs loaders t with [] => true | _ => false end)
      then Some (posterior solve (el_dim (c_element c)) (el_prior (c_element c))
                  (information (el_dim (c_element c)) (map (equation_for sys i c None) (inputs loaders t))))
      else assoc Z.eqb (s_part s) t.
Proof.
  intros Hsys Hi Hk Hne Hl.
  exists (with_part s (assign_all Z.eqb (s_part s) (flat_map (spatial_writes sys i c loaders) times))).
  split; [|split; [reflexivity|split; [reflexivity|]]].
  - unfold update_component. rewrite (spatial_times_ok i c loaders Hne Hk times sys s Hsys Hi Hl). cbn [bind].
    unfold update_component_solution, component_at. rewrite nth_set_store, Hi, Nat.eqb_refl. cbn [bind].
    unfold update_solution. rewrite Hk. cbn [bind]. rewrite set_store_twice. reflexivity.
  - intros t. cbn [s_part with_part]. rewrite assoc_assign_all by apply Z.eqb_eq.
    set (w := fun t => match inputs loaders t with
                       | [] => None
                       | _ => Some (posterior solve (el_dim (c_element c)) (el_prior (c_element c))
                                     (information (el_dim (c_element c)) (map (equation_for sys i c None) (inputs loaders t))))
                       end).
    assert (Hw : flat_map (spatial_writes sys i c loaders) times
               = flat_map (fun t => match w t with Some v => [(t, v)] | None => [] end) times).
    { apply flat_map_ext. intros t'. unfold spatial_writes, w, day. destruct (inputs loaders t'); reflexivity. }
    rewrite Hw, last_write_flat_map. unfold w. destruct (existsb (Z.eqb t) times); cbn [andb]; [|reflexivity].
    destruct (inputs loaders t); reflexivity.
Qed.

(* ---- delayed components *)

Lemma delayed_updates e n : wf_element e -> el_nonlinear e = false -> n = el_dim e -> forall (E : Z -> list equation) times s,
  foldM (update_delayed solve e) s (map (fun t => (Some t, Some (information n (E t)))) times)
  = Ok (with_part s (assign_all Z.eqb (s_part s) (map (fun t => (t, posterior solve n (el_prior e) (information n (E t)))) times))).
Proof.
  intros He Hl -> E. induction times as [|t times IH]; intros s.
  - cbn. rewrite with_part_same. reflexivity.
  - cbn [map foldM]. cbn [update_delayed]. rewrite blank_information, append_informations. cbn [bind app].
    rewrite posterior_ok by (try exact He; apply information_shaped). cbn [bind]. rewrite Hl. cbn [bind].
    rewrite IH. cbn [with_part s_part s_state s_meas assign_all map fold_left fst snd]. reflexivity.
Qed.

Lemma last_write_map {V} (f : Z -> V) t : forall times,
  last_write Z.eqb (map (fun t => (t, f t)) times) t = if existsb (Z.eqb t) times then Some (f t) else None.
Proof.
  intros times. rewrite <- (last_write_flat_map (fun t => Some (f t)) t times). reflexivity.
Qed.
Lemma existsb_perm {A} (f : A -> bool) l m : Permutation l m -> existsb f l = existsb f m.
Proof.
  induction 1; cbn; [reflexivity|congruence| |congruence]. destruct (f x), (f y); reflexivity.
Qed.

Lemma delayed_component_ok sys loaders i times c s :
  wf_system sys -> nth_error sys i = Some (c, s) -> c_kind c = Delayed -> el_nonlinear (c_element c) = false ->
  loaders <> [] -> NoDup times ->
  (forall t, In t times -> wf_loaders loaders t /\ inputs loaders t <> []) -> stored_for times s ->
  exists s', update_component solve sys loaders i times = Ok (set_store sys i s') /\
  forall t, assoc Z.eqb (s_part s') t
    = if existsb (Z.eqb t) times
      then Some (posterior solve (el_dim (c_element c)) (el_prior (c_element c))
                  (information (el_dim (c_element c)) (map (equation_for sys i c (assoc Z.eqb (s_part s) t)) (inputs loaders t))))
      else assoc Z.eqb (s_part s) t.
Proof.
  intros Hsys Hi Hk Hlin Hne Hnd Hl [Hst1 Hst2].
  pose proof (wf_at _ _ _ _ Hsys Hi) as Hc.
  set (x := fun t => assoc Z.eqb (s_part s) t).
  assert (Hset : settled c s x).
  { split; [congruence|]. intros t o. unfold linearisation. rewrite Hk, Hlin. reflexivity. }
  destruct (entries_perm sys i c x loaders times (s_meas s) _ Hnd (fun t Ht => proj2 (Hl t Ht)) eq_refl Hst1 Hst2)
    as (times' & Hperm & Hent).
  eexists. split.
  - unfold update_component. rewrite (times_ok i c x loaders Hne times sys s Hsys Hi Hset (fun t Ht => proj1 (Hl t Ht))).
    cbn [bind]. rewrite Hent. unfold update_component_solution, component_at.
    rewrite nth_set_store, Hi, Nat.eqb_refl. cbn [bind]. unfold update_solution. rewrite Hk. cbn [s_meas with_meas].
    rewrite (delayed_updates _ _ Hc Hlin eq_refl). cbn [bind]. rewrite set_store_twice. reflexivity.
  - intros t. cbn [s_part with_part with_meas]. rewrite assoc_assign_all by apply Z.eqb_eq.
    rewrite last_write_map, (existsb_perm _ _ _ Hperm). destruct (existsb (Z.eqb t) times); reflexivity.
Qed.

(* ---- a time without observations *)

Lemma assign_In {K V} (eqb : K -> K -> bool) (d : list (K * V)) k v kv : In kv (assign eqb d k v) -> snd kv = v \/ In kv d.
Proof.
  induction d as [|[k0 v0] d IH]; cbn [assign].
  - intros [<-|[]]. left. reflexivity.
  - destruct (eqb k k0); intros [<-|H].
    + left. reflexivity.
    + right. right. exact H.
    + right. left. reflexivity.
    + destruct (IH H) as [H'|H']; [left; exact H'|right; right; exact H'].
Qed.
Lemma assign_all_In {K V} (eqb : K -> K -> bool) kvs kv : forall (d : list (K * V)),
  In kv (assign_all eqb d kvs) -> In (snd kv) (map snd kvs) \/ In kv d.
Proof.
  induction kvs as [|[k v] kvs IH]; intros d H; [right; exact H|].
  cbn [assign_all fold_left fst snd] in H. apply IH in H. destruct H as [H|H]; [left; right; exact H|].
  apply assign_In in H. destruct H as [H|H]; [left; left; symmetry; exact H|right; exact H].
Qed.
Lemma append_shaped n u v : shaped n u -> shaped n v -> exists w, append_measurement_update u v = Ok w /\ shaped n w.
Proof.
  intros Hu Hv. rewrite (shaped_mk n u Hu), (shaped_mk n v Hv), append_mk. eexists. split; [reflexivity|apply mk_shaped].
Qed.
Lemma append_all_missing n ms : (forall k v, In (k, Some v) ms -> shaped n v) -> (exists k, In (k, None) ms) ->
  forall u, shaped n u -> append_all u ms = Err AttributeError.
Proof.
  induction ms as [|[k [v|]] ms IH]; intros Hs [k0 Hin] u Hu; [destruct Hin| |reflexivity].
  cbn [append_all]. destruct (append_shaped n u v Hu (Hs k v (or_introl eq_refl))) as (w & -> & Hw). cbn [bind].
  apply IH; [|exists k0; destruct Hin as [H|H]; [discriminate|exact H]|exact Hw].
  intros k1 v1 H. apply (Hs k1 v1). right. exact H.
Qed.

Lemma empty_time_breaks sys loaders i times c s t :
  wf_system sys -> nth_error sys i = Some (c, s) -> c_kind c = SpaceTime ->
  (el_nonlinear (c_element c) = true -> s_state s <> None) -> loaders <> [] ->
  (forall t, In t times -> wf_loaders loaders t) ->
  (forall k v, In (k, Some v) (s_meas s) -> shaped (el_dim (c_element c)) v) ->
  In t times -> inputs loaders t = [] ->
  update_component solve sys loaders i times = Err AttributeError.
Proof.
  intros Hsys Hi Hk Hnl Hne Hl Hms Ht Hempty.
  assert (Hset : settled c s (fun _ => s_state s)).
  { split; [congruence|]. intros t' o. unfold linearisation. rewrite Hk. destruct (el_nonlinear (c_element c)); [|reflexivity].
    specialize (Hnl eq_refl). destruct (s_state s); [reflexivity|congruence]. }
  unfold update_component. rewrite (times_ok i c (fun _ => s_state s) loaders Hne times sys s Hsys Hi Hset Hl). cbn [bind].
  unfold update_component_solution, component_at. rewrite nth_set_store, Hi, Nat.eqb_refl. cbn [bind].
  unfold update_solution. rewrite Hk. cbn [s_meas with_meas].
  rewrite (append_all_missing (el_dim (c_element c))); [reflexivity| | |rewrite blank_mk; apply mk_shaped].
  - intros k v H. apply assign_all_In in H. destruct H as [H|H]; [|apply (Hms k v H)].
    cbn [snd] in H. rewrite map_map in H. apply in_map_iff in H. destruct H as (t' & H & _). unfold entry in H.
    destruct (inputs loaders t'); [discriminate|]. cbn [snd] in H. injection H as <-. apply information_shaped.
  - exists None.
    assert (Hnone : assoc okey_eqb (assign_all okey_eqb (s_meas s) (map (entry sys i c (fun _ => s_state s) loaders) times)) None = Some None).
    { rewrite assoc_assign_all by apply okey_eqb_iff.
      assert (Hlw : last_write okey_eqb (map (entry sys i c (fun _ => s_state s) loaders) times) None = Some None).
      { clear Hl. revert Ht. induction times as [|t0 times IH]; intros Ht; [destruct Ht|]. cbn [map last_write].
        destruct (entry sys i c (fun _ => s_state s) loaders t0) as [k v] eqn:E.
        destruct (in_dec Z.eq_dec t times) as [Hin|Hn]; [rewrite IH by exact Hin; reflexivity|].
        destruct Ht as [->|Ht]; [|contradiction].
        unfold entry in E. rewrite Hempty in E. injection E as <- <-.
        destruct (last_write okey_eqb (map (entry sys i c (fun _ => s_state s) loaders) times) None) as [o|] eqn:El; [|reflexivity].
        f_equal. clear IH Hn.
        revert o El. induction times as [|t1 times IH]; intros o El; [discriminate|]. cbn [map last_write] in El.
        destruct (entry sys i c (fun _ => s_state s) loaders t1) as [k v] eqn:E.
        destruct (last_write okey_eqb (map (entry sys i c (fun _ => s_state s) loaders) times) None) as [o'|].
        - injection El as <-. apply IH. reflexivity.
        - unfold entry in E. destruct (inputs loaders t1); injection E as <- <-; cbn in El; congruence. }
      rewrite Hlw. reflexivity. }
    clear -Hnone. revert Hnone. generalize (assign_all okey_eqb (s_meas s) (map (entry sys i c (fun _ => s_state s) loaders) times)).
    intros d. induction d as [|[k v] d IH]; cbn [assoc]; [discriminate|].
    destruct (okey_eqb None k) eqn:E; [|intros H; right; apply IH, H].
    apply okey_eqb_iff in E. subst k. intros H. injection H as ->. left. reflexivity.
Qed.

(* ---- several times at once *)

Definition last_time (loaders : Z -> list loader) (times : list Z) (ot : option Z) : option Z :=
  fold_left (fun _ t => match inputs (loaders t) t with [] => None | _ => Some t end) times ot.

Lemma process_prog sys i c s t x :
  wf_system sys -> wf_element (c_element c) -> (forall o, linearisation c t s o = (x, s)) ->
  forall loaders qs ot, (ot = None \/ ot = Some t) -> wf_loaders loaders t ->
  foldM (fun so l => process_inputs sys i c so (l t)) (prog c s ot qs) loaders
  = Ok (prog c s (match inputs loaders t with [] => ot | _ => Some t end) (qs ++ map (equation_for sys i c x) (inputs loaders t))).
Proof.
  intros Hsys Hc Hlin. induction loaders as [|l loaders IH]; intros qs ot Hot Hl.
  - cbn. rewrite app_nil_r. reflexivity.
  - cbn [foldM]. unfold inputs. cbn [map filter]. destruct (Hl l (or_introl eq_refl)) as [Ht Ho].
    assert (Hl' : wf_loaders loaders t) by (intros l' Hin; apply Hl; right; exact Hin).
    destruct (nonempty (l t)) eqn:E.
    + rewrite (process_step_at sys i c s t ot qs (l t) x s) by (try assumption; apply Hlin). cbn [bind].
      rewrite IH by (try exact Hl'; right; reflexivity). cbn [map]. rewrite <- app_assoc. f_equal. f_equal.
      destruct (inputs loaders t); reflexivity.
    + rewrite process_skip by exact E. cbn [bind]. apply IH; assumption.
Qed.

Lemma batch_loop sys i c s x : wf_system sys -> wf_element (c_element c) -> settled c s x ->
  forall times loaders ot qs,
  (forall t, In t times -> loaders t <> [] /\ wf_loaders (loaders t) t) ->
  foldM (fun so tl => let '(t, ls) := tl in
                    if length ls =? 0 then Err IndexError else
                    do so <- foldM (fun so l => process_inputs sys i c so (l t)) (reset_time c so) ls;
                    match c_kind c with Spatial => update_time_step solve c so | _ => Ok so end)
        (prog c s ot qs) (combine times (map loaders times))
  = Ok (prog c s (last_time loaders times ot)
             (qs ++ flat_map (fun t => map (equation_for sys i c (x t)) (inputs (loaders t) t)) times)).
Proof.
  intros Hsys Hc [Hk Hlin]. induction times as [|t times IH]; intros loaders ot qs Hl.
  - cbn. rewrite app_nil_r. reflexivity.
  - cbn [map combine foldM]. destruct (Hl t (or_introl eq_refl)) as [Hne Hwf].
    destruct (loaders t) as [|l ls] eqn:El; [congruence|]. cbn [length Nat.eqb].
    assert (Hr : reset_time c (prog c s ot qs) = prog c s None qs).
    { unfold reset_time, prog. destruct (c_kind c); [congruence|reflexivity|reflexivity]. }
    rewrite Hr, (process_prog sys i c s t (x t)) by (try assumption; try apply Hlin; left; reflexivity). cbn [bind].
    assert (Hb : forall so, (match c_kind c with Spatial => update_time_step solve c so | _ => Ok so end) = Ok so).
    { intros so. destruct (c_kind c); [congruence|reflexivity|reflexivity]. }
    rewrite Hb. cbn [bind]. rewrite IH by (intros t' Ht'; apply Hl; right; exact Ht').
    cbn [flat_map]. rewrite El, app_assoc. f_equal. f_equal. unfold last_time. cbn [fold_left]. rewrite El. reflexivity.
Qed.

Lemma last_time_snoc loaders ts t ot : last_time loaders (ts ++ [t]) ot = match inputs (loaders t) t with [] => None | _ => Some t end.
Proof. unfold last_time. rewrite fold_left_app. reflexivity. Qed.

Lemma batch_ok sys i c s x times loaders : wf_system sys -> nth_error sys i = Some (c, s) -> settled c s x ->
  (forall t, In t times -> loaders t <> [] /\ wf_loaders (loaders t) t) ->
  let qs := flat_map (fun t => map (equation_for sys i c (x t)) (inputs (loaders t) t)) times in
  update_component_times solve sys (map loaders times) i times
  = Ok (set_store sys i (with_meas s (assign okey_eqb (s_meas s) (last_time loaders times None)
       (match qs with [] => None | _ => Some (information (el_dim (c_element c)) qs) end)))).
Proof.
  intros Hsys Hi Hset Hl qs. unfold update_component_times, component_at. rewrite Hi. cbn [bind].
  pose proof (wf_at _ _ _ _ Hsys Hi) as Hc.
  change (component_solution s) with (prog c s None []).
  rewrite (batch_loop sys i c s x Hsys Hc Hset times loaders None [] Hl). cbn [bind app]. fold qs.
  destruct Hset as [Hk _].
  assert (Hu : update_time_step solve c (prog c s (last_time loaders times None) qs)
             = Ok (component_solution (with_meas s (assign okey_eqb (s_meas s) (last_time loaders times None)
                  (match qs with [] => None | _ => Some (information (el_dim (c_element c)) qs) end))))).
  { unfold update_time_step, prog. cbn [so_meas so_time so_store]. destruct (c_kind c); [congruence|reflexivity|reflexivity]. }
  destruct (c_kind c) eqn:Ek; [congruence| |]; rewrite Hu; reflexivity.
Qed.

(* spatial: the same as one time after the other *)
Lemma batch_spatial_loop sys i c : wf_system sys -> wf_element (c_element c) -> c_kind c = Spatial ->
  forall times loaders s,
  (forall t, In t times -> loaders t <> [] /\ wf_loaders (loaders t) t) ->
  foldM (fun so tl => let '(t, ls) := tl in
                    if length ls =? 0 then Err IndexError else
                    do so <- foldM (fun so l => process_inputs sys i c so (l t)) (reset_time c so) ls;
                    match c_kind c with Spatial => update_time_step solve c so | _ => Ok so end)
        (component_solution s) (combine times (map loaders times))
  = Ok (component_solution (with_part s (assign_all Z.eqb (s_part s) (flat_map (fun t => spatial_writes sys i c (loaders t) t) times)))).
Proof.
  intros Hsys Hc Hk. induction times as [|t times IH]; intros loaders s Hl.
  - cbn. rewrite with_part_same. reflexivity.
  - cbn [map combine foldM]. destruct (Hl t (or_introl eq_refl)) as [Hne Hwf].
    destruct (loaders t) as [|l ls] eqn:El; [congruence|]. cbn [length Nat.eqb].
    assert (Hr : reset_time c (component_solution s) = component_solution s).
    { unfold reset_time. rewrite Hk. reflexivity. }
    rewrite Hr, (process_all sys i c s t (l :: ls)) by assumption. cbn [bind].
    rewrite <- El in *. rewrite Hk. rewrite update_time_ok by exact Hc. rewrite Hk. cbn [bind].
    assert (Hs1 : stored_point c s t (inputs (loaders t) t) = s).
    { unfold stored_point. destruct (inputs (loaders t) t); [reflexivity|]. rewrite spatial_point_store by exact Hk. reflexivity. }
    rewrite Hs1. set (s1 := match _ with [] => s | _ => _ end).
    assert (Hs : s1 = with_part s (assign_all Z.eqb (s_part s) (spatial_writes sys i c (loaders t) t))).
    { unfold s1, spatial_writes, day, point. rewrite Hk. destruct (inputs (loaders t) t) as [|o os]; [cbn; rewrite with_part_same; reflexivity|].
      reflexivity. }
    rewrite Hk in IH. rewrite Hs, IH by (intros t' Ht'; apply Hl; right; exact Ht').
    cbn [flat_map]. rewrite assign_all_app. reflexivity.
Qed.
Lemma batch_spatial_ok sys i c s times loaders : wf_system sys -> nth_error sys i = Some (c, s) -> c_kind c = Spatial ->
  (forall t, In t times -> loaders t <> [] /\ wf_loaders (loaders t) t) ->
  update_component_times solve sys (map loaders times) i times
  = foldM (fun sys t => update_component_time solve sys (loaders t) i t) sys times.
Proof.
  intros Hsys Hi Hk Hl. unfold update_component_times, component_at. rewrite Hi. cbn [bind].
  rewrite (batch_spatial_loop sys i c Hsys (wf_at _ _ _ _ Hsys Hi) Hk times loaders s Hl). cbn [bind].
  rewrite Hk. cbn [bind so_store component_solution].
  symmetry. revert sys s Hsys Hi Hl. induction times as [|t times IH]; intros sys s Hsys Hi Hl.
  - cbn. rewrite with_part_same, (set_store_same sys i c s Hi). reflexivity.
  - cbn [foldM]. destruct (Hl t (or_introl eq_refl)) as [Hne Hwf].
    rewrite (update_component_time_ok sys (loaders t) i t c s) by assumption.
    cbn [bind]. rewrite (after_time_spatial sys i c s) by exact Hk. set (s1 := with_part s _).
    rewrite (IH _ s1).
    + rewrite set_store_twice. unfold s1. cbn [flat_map]. rewrite assign_all_app. unfold with_part. cbn. f_equal. f_equal. f_equal. f_equal.
      apply flat_map_ext. intros t'. apply spatial_writes_set_store.
    + apply set_store_wf, Hsys.
    + rewrite nth_set_store, Hi, Nat.eqb_refl. reflexivity.
    + intros t' Ht'. apply Hl. right. exact Ht'.
Qed.
End Solving.

(* ---- the order of the components *)

Lemma sumn_list {A} (g : A -> Qc) (l : list A) :
  sumn (length l) (fun j => match nth_error l j with Some a => g a | None => 0%Qc end) = sumQ (map g l).
Proof.
  induction l as [|a l IH]; [reflexivity|]. cbn [length map]. rewrite sumQ_cons, <- IH.
  change (S (length l)) with (1 + length l). rewrite sumn_plus. cbn [sumn]. cbn [nth_error Nat.add]. ring.
Qed.
Lemma others_sum {A} (g : A -> Qc) : forall (l : list A) i,
  sumn (length l) (fun j => if j =? i then 0%Qc else match nth_error l j with Some a => g a | None => 0%Qc end)
  = sumQ (map g (firstn i l ++ skipn (S i) l)).
Proof.
  induction l as [|a l IH]; intros i; [destruct i; reflexivity|].
  cbn [length]. change (S (length l)) with (1 + length l). rewrite sumn_plus. cbn [sumn].
  destruct i as [|i].
  - cbn [firstn app skipn]. rewrite <- sumn_list. cbn [Nat.eqb].
    rewrite (sumn_ext (length l) _ (fun j => match nth_error l j with Some a => g a | None => 0%Qc end)); [ring|].
    intros k _. reflexivity.
  - cbn [firstn app skipn map Nat.eqb nth_error]. rewrite sumQ_cons, <- IH.
    rewrite (sumn_ext (length l) _ (fun j => if j =? i then 0%Qc else match nth_error l j with Some a => g a | None => 0%Qc end)); [ring|].
    intros k _. reflexivity.
Qed.
Lemma residual_others sys i o k : residual sys i o k
  = (vnth (o_vector o) k - sumQ (map (fun cs => vnth (expected_value (fst cs) (snd cs) o) k) (firstn i sys ++ skipn (S i) sys)))%Qc.
Proof.
  unfold residual. f_equal. rewrite <- others_sum. apply sumn_ext. intros j _.
  destruct (j =? i); [reflexivity|]. unfold contribution. destruct (nth_error sys j) as [[c s]|]; reflexivity.
Qed.
Lemma residual_ext_at before a b others o k :
  residual (before ++ a :: others) (length before) o k = residual (before ++ b :: others) (length before) o k.
Proof.
  rewrite !residual_others. rewrite !firstn_app, !firstn_all, !Nat.sub_diag, !firstn_O, !app_nil_r.
  assert (H : forall x, skipn (S (length before)) (before ++ x :: others) = others).
  { intros x. rewrite skipn_app, skipn_all2 by lia. replace (S (length before) - length before) with 1 by lia. reflexivity. }
  rewrite !H. reflexivity.
Qed.
Lemma residual_same_others sys i sys' i' o k : same_others sys i sys' i' -> residual sys i o k = residual sys' i' o k.
Proof.
  intros [_ Hp]. rewrite !residual_others. f_equal. apply sumQ_perm, Permutation_map, Hp.
Qed.

(* ---- evaluating the whole *)

Lemma evaluate_step o m : m = length (o_vector o) -> forall sys f, wf_system sys ->
  foldM (fun acc cs => vadd acc (expected_value (fst cs) (snd cs) o)) (tab m f) sys
  = Ok (tab m (fun k => f k + sumQ (map (fun cs => vnth (expected_value (fst cs) (snd cs) o) k) sys))%Qc).
Proof.
  intros Hm. induction sys as [|[c s] sys IH]; intros f Hwf.
  - cbn. f_equal. apply tab_ext. intros k _. ring.
  - inversion Hwf as [|? ? Hc Hsys]; subst. cbn [fst snd] in *. cbn [foldM fst snd].
    rewrite (vec_tab (expected_value c s o) (length (o_vector o))) by (apply expected_value_length; exact Hc).
    rewrite vadd_tab. cbn [bind]. rewrite IH by exact Hsys. f_equal. apply tab_ext. intros k _. cbn [map fst snd].
    rewrite sumQ_cons. ring.
Qed.
Lemma evaluate_ok sys o : wf_system sys ->
  evaluate_pointwise sys o = Ok (tab (length (o_vector o)) (fun k => sumQ (map (fun cs => vnth (expected_value (fst cs) (snd cs) o) k) sys))).
Proof.
  intros H. unfold evaluate_pointwise. rewrite zeros_tab, (evaluate_step o _ eq_refl) by exact H. f_equal.
  apply tab_ext. intros k _. ring.
Qed.

(* ---- merging *)

Lemma nth_heap_set h a u k : nth_error (heap_set h a u) k = match nth_error h k with Some v => Some (if k =? a then u else v) | None => None end.
Proof.
  unfold heap_set. rewrite nth_error_map, combine_seq_nth. cbn [Nat.add]. destruct (nth_error h k); reflexivity.
Qed.
Lemma heap_set_length h a u : length (heap_set h a u) = length h.
Proof. unfold heap_set. rewrite map_length, combine_length, seq_length. lia. Qed.

Definition plus_all (n : nat) (u : info) (rest : list info) : info := times_more n u rest 1.

Lemma times_more_mk n u rest k : times_more n u rest k
  = mk n (fun i j => info_at u i j + qz (Z.of_nat k) * sumQ (map (fun v => info_at v i j) rest))%Qc
         (fun i => vnth (i_vector u) i + qz (Z.of_nat k) * sumQ (map (fun v => vnth (i_vector v) i) rest))%Qc.
Proof. reflexivity. Qed.
Lemma times_more_shaped n u rest k : shaped n (times_more n u rest k).
Proof. rewrite times_more_mk. apply mk_shaped. Qed.

Lemma append_shaped_value n u v : shaped n u -> shaped n v ->
  append_measurement_update u v = Ok (mk n (fun i j => info_at u i j + info_at v i j)%Qc (fun i => vnth (i_vector u) i + vnth (i_vector v) i)%Qc).
Proof. intros Hu Hv. rewrite (shaped_mk n u Hu) at 1. rewrite (shaped_mk n v Hv) at 1. apply append_mk. Qed.

Lemma plus_all_cons n u v rest : 
  plus_all n (mk n (fun i j => info_at u i j + info_at v i j)%Qc (fun i => vnth (i_vector u) i + vnth (i_vector v) i)%Qc) rest
  = plus_all n u (v :: rest).
Proof.
  unfold plus_all. rewrite !times_more_mk. apply mk_ext.
  - intros i j Hi Hj. rewrite info_at_mk by assumption. cbn [map]. rewrite sumQ_cons. change (Z.of_nat 1) with 1%Z. rewrite qz_1. ring.
  - intros i Hi. rewrite vector_mk by assumption. cbn [map]. rewrite sumQ_cons. change (Z.of_nat 1) with 1%Z. rewrite qz_1. ring.
Qed.

Lemma merge_fold n a : forall rest us h u,
  nth_error h a = Some u -> shaped n u -> ~ In a rest -> contents h rest us -> Forall (shaped n) us ->
  exists h', foldM (fun h b => heap_append h a b) h rest = Ok h' /\ nth_error h' a = Some (plus_all n u us) /\
             length h' = length h /\ forall b, b <> a -> nth_error h' b = nth_error h b.
Proof.
  induction rest as [|b rest IH]; intros us h u Ha Hu Hna Hc Hs.
  - inversion Hc; subst. exists h. split; [reflexivity|split; [|split; [reflexivity|reflexivity]]].
    rewrite Ha. f_equal. unfold plus_all. rewrite times_more_mk. rewrite (shaped_mk n u Hu) at 1.
    apply mk_ext; intros; cbn; ring.
  - inversion Hc as [|? v ? us' Hb Hc']; subst. inversion Hs as [|? ? Hv Hs']; subst.
    cbn [foldM]. unfold heap_append at 1. rewrite Ha, Hb. rewrite (append_shaped_value n u v Hu Hv). cbn [bind].
    set (w := mk n _ _). assert (Hab : b <> a) by (intros ->; apply Hna; left; reflexivity).
    destruct (IH us' (heap_set h a w) w) as (h' & H1 & H2 & H3 & H4).
    + rewrite nth_heap_set, Ha, Nat.eqb_refl. reflexivity.
    + apply mk_shaped.
    + intros Hin. apply Hna. right. exact Hin.
    + assert (Hna' : ~ In a rest) by (intros Hin; apply Hna; right; exact Hin). clear -Hc' Hna'.
      induction Hc' as [|x y l l' Hx Hl IH]; constructor.
      * rewrite nth_heap_set, Hx. destruct (Nat.eqb_spec x a) as [->|]; [|reflexivity]. exfalso. apply Hna'. left. reflexivity.
      * apply IH. intros Hin. apply Hna'. right. exact Hin.
    + exact Hs'.
    + exists h'. split; [exact H1|split; [|split]].
      * rewrite H2. f_equal. unfold w. apply plus_all_cons.
      * rewrite H3. apply heap_set_length.
      * intros b' Hb'. rewrite H4 by exact Hb'. rewrite nth_heap_set. apply Nat.eqb_neq in Hb'. rewrite Hb'.
        destruct (nth_error h b'); reflexivity.
Qed.

Lemma qz_S k : qz (Z.of_nat (S k)) = (qz (Z.of_nat k) + 1)%Qc.
Proof. rewrite <- qz_1, <- qz_plus. f_equal. lia. Qed.
Lemma times_more_S n u rest k : plus_all n (times_more n u rest k) rest = times_more n u rest (S k).
Proof.
  unfold plus_all. rewrite (times_more_mk n (times_more n u rest k)), (times_more_mk n u rest (S k)). apply mk_ext.
  - intros i j Hi Hj. rewrite times_more_mk, info_at_mk by assumption. rewrite (qz_S k). change (Z.of_nat 1) with 1%Z. rewrite qz_1. ring.
  - intros i Hi. rewrite times_more_mk, vector_mk by assumption. rewrite (qz_S k). change (Z.of_nat 1) with 1%Z. rewrite qz_1. ring.
Qed.
Lemma times_more_0 n u rest : shaped n u -> times_more n u rest 0 = u.
Proof.
  intros H. rewrite times_more_mk. transitivity (mk n (info_at u) (vnth (i_vector u))); [|symmetry; apply shaped_mk, H]. apply mk_ext; intros; change (qz (Z.of_nat 0)) with (qz 0);
    replace (qz 0) with 0%Qc by (apply Qc_is_canon; reflexivity); ring.
Qed.

Lemma merge_in_memory n a rest u us : forall k j h,
  nth_error h a = Some (times_more n u us j) -> ~ In a rest -> contents h rest us -> Forall (shaped n) us ->
  merge_repeatedly k h (InMemory (a :: rest)) = Ok (map (fun m => Some (times_more n u us (j + S m))) (seq 0 k)).
Proof.
  induction k as [|k IH]; intros j h Ha Hna Hc Hs; [reflexivity|].
  cbn [merge_repeatedly]. unfold merge_updates. cbn [read_objects merge_objects].
  destruct (merge_fold n a rest us h (times_more n u us j) Ha (times_more_shaped n u us j) Hna Hc Hs) as (h' & H1 & H2 & H3 & H4).
  rewrite H1. cbn [bind]. rewrite H2, times_more_S in *.
  rewrite (IH (S j) h'); [|exact H2|exact Hna| |exact Hs].
  - cbn [bind seq map]. f_equal. f_equal; [f_equal; f_equal; lia|]. rewrite <- seq_shift, map_map. apply map_ext.
    intros m. do 2 f_equal. lia.
  - clear -Hc Hna H4. induction Hc as [|x y l l' Hx Hl IHc]; constructor.
    + rewrite H4; [exact Hx|]. intros ->. apply Hna. left. reflexivity.
    + apply IHc. intros Hin. apply Hna. right. exact Hin.
Qed.

Lemma contents_fresh (us : list info) : forall h, contents (h ++ us) (seq (length h) (length us)) us.
Proof.
  induction us as [|u us IH]; intros h; [constructor|]. cbn [length seq]. constructor.
  - rewrite nth_error_app2 by lia. rewrite Nat.sub_diag. reflexivity.
  - specialize (IH (h ++ [u])). rewrite <- app_assoc in IH. cbn [app] in IH. rewrite app_length in IH. cbn [length] in IH.
    replace (length h + 1) with (S (length h)) in IH by lia. exact IH.
Qed.
Lemma merge_on_file n u us : forall k h, shaped n u -> Forall (shaped n) us ->
  merge_repeatedly k h (OnFile (u :: us)) = Ok (repeat (Some (plus_all n u us)) k).
Proof.
  induction k as [|k IH]; intros h Hu Hs; [reflexivity|].
  cbn [merge_repeatedly]. unfold merge_updates. cbn [read_objects length seq merge_objects].
  pose proof (contents_fresh (u :: us) h) as Hc. cbn [length seq] in Hc. inversion Hc as [|? ? ? ? Ha Hc']; subst.
  assert (Hna : ~ In (length h) (seq (S (length h)) (length us))) by (intros Hin; apply in_seq in Hin; lia).
  destruct (merge_fold n (length h) _ us (h ++ u :: us) u Ha Hu Hna Hc' Hs) as (h' & H1 & H2 & H3 & H4).
  rewrite H1. cbn [bind]. rewrite (IH h' Hu Hs). cbn [bind]. rewrite H2. reflexivity.
Qed.

(* ---- storages *)

Lemma quantity_eqb_iff a b : quantity_eqb a b = true <-> a = b.
Proof. destruct a, b; cbn; split; congruence. Qed.
Lemma qkey_eqb_iff a b : qkey_eqb a b = true <-> a = b.
Proof.
  destruct a as [q t], b as [q' t']. unfold qkey_eqb. cbn [fst snd]. rewrite andb_true_iff, quantity_eqb_iff, Z.eqb_eq.
  split; [intros [-> ->]; reflexivity|intros H; injection H as -> ->; split; reflexivity].
Qed.
Lemma memory_read_write m q t v q' t' :
  memory_read (memory_write m q t v) q' t' = if qkey_eqb (q', t') (q, t) then Some v else memory_read m q' t'.
Proof.
  destruct m as [a b c d x]. unfold qkey_eqb. cbn [fst snd].
  destruct q, q'; cbn [memory_write memory_read me_state me_std me_sample me_prior quantity_eqb andb];
    rewrite ?assoc_assign by apply Z.eqb_eq; reflexivity.
Qed.
Lemma memory_read_measurement m t v q' t' : memory_read (memory_measurement_write m t v) q' t' = memory_read m q' t'.
Proof. destruct q'; reflexivity. Qed.
Lemma memory_history ops q t : forall m,
  memory_read (fold_left memory_step ops m) q t
  = match last_write qkey_eqb (state_writes ops) (q, t) with Some v => Some v | None => memory_read m q t end.
Proof.
  induction ops as [|[q0 t0 v0|t0 v0] ops IH]; intros m; [reflexivity| |].
  - cbn [fold_left memory_step]. rewrite IH, memory_read_write. unfold state_writes at 2. cbn [flat_map app last_write]. fold (state_writes ops).
    destruct (last_write qkey_eqb (state_writes ops) (q, t)); [reflexivity|]. destruct (qkey_eqb (q, t) (q0, t0)); reflexivity.
  - cbn [fold_left memory_step]. rewrite IH, memory_read_measurement. reflexivity.
Qed.
Lemma memory_measurements ops : forall m, me_measurement (fold_left memory_step ops m) = assign_all Z.eqb (me_measurement m) (measurement_writes ops).
Proof.
  induction ops as [|[q0 t0 v0|t0 v0] ops IH]; intros m; [reflexivity| |].
  - cbn [fold_left memory_step]. rewrite IH. destruct m, q0; reflexivity.
  - cbn [fold_left memory_step]. rewrite IH. reflexivity.
Qed.

(* lookup tables of file lists *)
Lemma combine_seq_snoc {A} (l : list A) a base : combine (l ++ [a]) (seq base (length (l ++ [a]))) = combine l (seq base (length l)) ++ [(a, base + length l)].
Proof.
  revert base. induction l as [|x l IH]; intros base; [cbn; rewrite Nat.add_0_r; reflexivity|].
  cbn [app length seq combine]. rewrite IH. cbn [app]. do 3 f_equal. f_equal. lia.
Qed.
Lemma dict_of_snoc keys k : dict_of (keys ++ [k]) = assign Z.eqb (dict_of keys) k (length keys).
Proof. unfold dict_of. rewrite combine_seq_snoc, fold_left_app. reflexivity. Qed.
Lemma dict_of_last keys k i : assoc Z.eqb (dict_of keys) k = Some i <-> last_position keys k i.
Proof.
  revert i. induction keys as [|a keys IH] using rev_ind; intros i.
  - split; [discriminate|]. intros [H _]. destruct i; discriminate.
  - rewrite dict_of_snoc, assoc_assign by apply Z.eqb_eq. unfold last_position.
    destruct (Z.eqb_spec k a) as [->|Hne].
    + split.
      * intros H. injection H as <-. split.
        -- rewrite nth_error_app2, Nat.sub_diag by lia. reflexivity.
        -- intros j Hj. rewrite nth_error_app2 by lia. destruct (j - length keys) as [|m] eqn:E; [lia|]. destruct m; discriminate.
      * intros [H1 H2]. f_equal. destruct (Nat.lt_trichotomy i (length keys)) as [Hlt|[->|Hgt]]; [|reflexivity|].
        -- exfalso. apply (H2 (length keys) Hlt). rewrite nth_error_app2, Nat.sub_diag by lia. reflexivity.
        -- exfalso. rewrite nth_error_app2 in H1 by lia. destruct (i - length keys) as [|m] eqn:E; [lia|]. destruct m; discriminate.
    + rewrite IH. unfold last_position. split; intros [H1 H2].
      * assert (Hi : i < length keys) by (apply nth_error_Some; congruence).
        split; [rewrite nth_error_app1 by exact Hi; exact H1|].
        intros j Hj. destruct (Nat.lt_ge_cases j (length keys)) as [Hlt|Hge].
        -- rewrite nth_error_app1 by exact Hlt. apply H2, Hj.
        -- rewrite nth_error_app2 by exact Hge. destruct (j - length keys) as [|m]; cbn; [congruence|destruct m; discriminate].
      * destruct (Nat.lt_ge_cases i (length keys)) as [Hlt|Hge].
        -- rewrite nth_error_app1 in H1 by exact Hlt. split; [exact H1|]. intros j Hj Hjk.
           apply (H2 j Hj). rewrite nth_error_app1 by (apply nth_error_Some; congruence). exact Hjk.
        -- rewrite nth_error_app2 in H1 by exact Hge. destruct (i - length keys) as [|m]; cbn in H1; [congruence|destruct m; discriminate].
Qed.
Lemma dict_of_unique keys k k' i : assoc Z.eqb (dict_of keys) k = Some i -> assoc Z.eqb (dict_of keys) k' = Some i -> k = k'.
Proof. rewrite !dict_of_last. intros [H _] [H' _]. congruence. Qed.
Lemma dict_of_None keys k : assoc Z.eqb (dict_of keys) k = None <-> ~ In k keys.
Proof.
  induction keys as [|a keys IH] using rev_ind; [split; [intros _ []|reflexivity]|].
  rewrite dict_of_snoc, assoc_assign, in_app_iff by apply Z.eqb_eq. destruct (Z.eqb_spec k a) as [->|Hne].
  - split; [discriminate|]. intros H. exfalso. apply H. right. left. reflexivity.
  - rewrite IH. split; [intros H [H'|[H'|[]]]; [auto|congruence]|intros H H'; apply H; left; exact H'].
Qed.
Lemma file_lookup_unique x k k' i : assoc Z.eqb (file_lookup x) k = Some i -> assoc Z.eqb (file_lookup x) k' = Some i -> k = k'.
Proof. unfold file_lookup. destruct (ix_times x); apply dict_of_unique. Qed.

Lemma indexed_read_write x fs fs' q t v q' t' : own_files x -> indexed_write x fs q t v = Ok fs' ->
  indexed_read x fs' q' t' = if qkey_eqb (q', t') (q, t) then Ok (Some v) else indexed_read x fs q' t'.
Proof.
  intros [Hrw Hown] H. unfold indexed_write in H. unfold indexed_read. rewrite Hrw.
  destruct (ix_write x q) as [l|] eqn:El; [|discriminate]. unfold file_write in H.
  destruct (assoc Z.eqb (file_lookup x) t) as [i|] eqn:Ei; [|discriminate].
  destruct (nth_error l i) as [f|] eqn:Ef; [|discriminate]. injection H as <-.
  destruct (qkey_eqb (q', t') (q, t)) eqn:E.
  - apply qkey_eqb_iff in E. injection E as -> ->. rewrite El. unfold file_read. rewrite Ei, Ef. unfold readpickle, writepickle.
    rewrite assoc_assign, Z.eqb_refl by apply Z.eqb_eq. reflexivity.
  - destruct (ix_write x q') as [l'|] eqn:El'; [|reflexivity]. unfold file_read.
    destruct (assoc Z.eqb (file_lookup x) t') as [i'|] eqn:Ei'; [|reflexivity].
    destruct (nth_error l' i') as [f'|] eqn:Ef'; [|reflexivity]. unfold readpickle, writepickle.
    rewrite assoc_assign by apply Z.eqb_eq. destruct (Z.eqb_spec f' f) as [->|]; [|reflexivity].
    exfalso. destruct (Hown q q' l l' i i' f El El' Ef Ef') as [-> ->].
    pose proof (file_lookup_unique x t t' i' Ei Ei') as ->.
    assert (qkey_eqb (q', t') (q', t') = true) by (apply qkey_eqb_iff; reflexivity). congruence.
Qed.
Lemma indexed_history x : own_files x -> forall ws fs fs' q t,
  foldM (fun fs w => indexed_write x fs (fst (fst w)) (snd (fst w)) (snd w)) fs ws = Ok fs' ->
  indexed_read x fs' q t = match last_write qkey_eqb ws (q, t) with Some v => Ok (Some v) | None => indexed_read x fs q t end.
Proof.
  intros Hx. induction ws as [|[[q0 t0] v0] ws IH]; intros fs fs' q t H.
  - injection H as <-. reflexivity.
  - cbn [foldM fst snd] in H. destruct (indexed_write x fs q0 t0 v0) as [fs1|] eqn:E; [|discriminate]. cbn [bind] in H.
    rewrite (IH fs1 fs' q t H). cbn [last_write]. destruct (last_write qkey_eqb ws (q, t)); [reflexivity|].
    rewrite (indexed_read_write x fs fs1 q0 t0 v0 q t Hx E). destruct (qkey_eqb (q, t) (q0, t0)); reflexivity.
Qed.

(* batched *)
(* the copies in memory agree with the files *)
Definition faithful (b : batched) (fk : files * kept) : Prop :=
  bt_keep b = true -> forall q v, assoc quantity_eqb (snd fk) q = Some v -> exists f, bt_write b q = Some f /\ assoc Z.eqb (fst fk) f = Some v.
Lemma faithful_value b fk q : own_file b -> faithful b fk -> batched_value b fk q = on_disk b (fst fk) q.
Proof.
  intros [Hrw _] Hf. unfold batched_value, on_disk, batched_read. rewrite Hrw. destruct (bt_write b q) as [f|] eqn:Ef; [|reflexivity].
  destruct (bt_keep b) eqn:Ek.
  - destruct (assoc quantity_eqb (snd fk) q) as [v|] eqn:Ev.
    + destruct (Hf Ek q v Ev) as (f' & Hf' & Hv). rewrite Ef in Hf'. injection Hf' as <-. cbn [bind]. unfold readpickle. rewrite Hv. reflexivity.
    + destruct (readpickle (fst fk) f); reflexivity.
  - destruct (readpickle (fst fk) f); reflexivity.
Qed.
Lemma batched_step_ok b fk o fk' : own_file b -> faithful b fk -> batched_step b fk o = Ok fk' ->
  faithful b fk' /\ forall q, on_disk b (fst fk') q
    = match o with BWrite q0 v => if quantity_eqb q q0 then Ok (Some v) else on_disk b (fst fk) q | BRead _ => on_disk b (fst fk) q end.
Proof.
  intros [Hrw Hown] Hf H. destruct o as [q0 v0|q0]; cbn [batched_step] in H.
  - unfold batched_write in H. destruct (bt_write b q0) as [f0|] eqn:Ef0; [|discriminate]. injection H as <-. cbn [fst snd]. split.
    + intros Ek q v. cbn [fst snd]. rewrite Ek.
      rewrite assoc_assign by apply quantity_eqb_iff. destruct (quantity_eqb q q0) eqn:E.
      * apply quantity_eqb_iff in E. subst. intros H. injection H as ->. exists f0. split; [exact Ef0|].
        unfold writepickle. rewrite assoc_assign, Z.eqb_refl by apply Z.eqb_eq. reflexivity.
      * intros H. destruct (Hf Ek q v H) as (f & Hfq & Hv). exists f. split; [exact Hfq|].
        unfold writepickle. rewrite assoc_assign by apply Z.eqb_eq. destruct (Z.eqb_spec f f0) as [->|]; [|exact Hv].
        exfalso. pose proof (Hown q q0 f0 Hfq Ef0) as ->. assert (quantity_eqb q0 q0 = true) by (apply quantity_eqb_iff; reflexivity). congruence.
    + intros q. unfold on_disk. destruct (quantity_eqb q q0) eqn:E.
      * apply quantity_eqb_iff in E. subst. rewrite Ef0. unfold readpickle, writepickle.
        rewrite assoc_assign, Z.eqb_refl by apply Z.eqb_eq. reflexivity.
      * destruct (bt_write b q) as [f|] eqn:Ef; [|reflexivity]. unfold readpickle, writepickle.
        rewrite assoc_assign by apply Z.eqb_eq. destruct (Z.eqb_spec f f0) as [->|]; [|reflexivity].
        exfalso. pose proof (Hown q q0 f0 Ef Ef0) as ->. assert (quantity_eqb q0 q0 = true) by (apply quantity_eqb_iff; reflexivity). congruence.
  - unfold batched_read in H. rewrite Hrw in H. destruct (bt_write b q0) as [f0|] eqn:Ef0.
    + destruct (bt_keep b) eqn:Ek.
      * destruct (assoc quantity_eqb (snd fk) q0) as [v0|] eqn:Ev0.
        -- cbn [bind] in H. injection H as <-. split; [intros _; apply (Hf Ek)|reflexivity].
        -- unfold readpickle in H. destruct (assoc Z.eqb (fst fk) f0) as [v0|] eqn:Er; [|discriminate]. cbn [bind] in H.
           injection H as <-. split; [|reflexivity]. intros _ q v. cbn [fst snd]. rewrite assoc_assign by apply quantity_eqb_iff.
           destruct (quantity_eqb q q0) eqn:E; [|apply (Hf Ek)]. apply quantity_eqb_iff in E. subst. intros H. injection H as <-.
           exists f0. split; assumption.
      * unfold readpickle in H. destruct (assoc Z.eqb (fst fk) f0) as [v0|] eqn:Er; [|discriminate]. cbn [bind] in H.
        injection H as <-. split; [intros Hk; congruence|reflexivity].
    + cbn [bind] in H. injection H as <-. split; [exact Hf|reflexivity].
Qed.
Lemma batched_history b : own_file b -> forall ops fk fk' q, faithful b fk ->
  foldM (batched_step b) fk ops = Ok fk' ->
  batched_value b fk' q = match last_write quantity_eqb (batched_writes ops) q with Some v => Ok (Some v) | None => on_disk b (fst fk) q end.
Proof.
  intros Hb. induction ops as [|o ops IH]; intros fk fk' q Hf H.
  - injection H as <-. apply faithful_value; assumption.
  - cbn [foldM] in H. destruct (batched_step b fk o) as [fk1|] eqn:E; [|discriminate]. cbn [bind] in H.
    destruct (batched_step_ok b fk o fk1 Hb Hf E) as [Hf1 Hd]. rewrite (IH fk1 fk' q Hf1 H), Hd.
    destruct o as [q0 v0|q0]; [|reflexivity]. unfold batched_writes at 2. cbn [flat_map app last_write]. fold (batched_writes ops).
    destruct (last_write quantity_eqb (batched_writes ops) q); [reflexivity|]. destruct (quantity_eqb q q0); reflexivity.
Qed.
