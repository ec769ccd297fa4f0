(* What the analysis system is for, independently of how it is computed. *)
From Coq Require Import QArith Qcanon.
From Verif Require Import Base Grid_Model Lin Ana_Model.
Local Open Scope nat_scope.
Local Open Scope list_scope.

(* A measurement equation: design J, precision P of the errors, and right-hand side r. *)
Definition equation := (matrix * matrix * vec)%type.

(* Entries of J^T P J and of J^T P r. *)
Definition normal_precision (q : equation) (i j : nat) : Qc :=
  let '(J, P, r) := q in
  sumn (m_rows J) (fun k => sumn (m_rows J) (fun l => m_at J k i * m_at P k l * m_at J l j)%Qc).
Definition normal_vector (q : equation) (i : nat) : Qc :=
  let '(J, P, r) := q in
  sumn (m_rows J) (fun k => sumn (m_rows J) (fun l => m_at J k i * m_at P k l * vnth r l)%Qc).

(* The information that several independent measurement equations carry about [n] parameters: the sum. *)
Definition information (n : nat) (qs : list equation) : info :=
  {| i_precision := tab n (fun i => tab n (fun j => sumQ (map (fun q => normal_precision q i j) qs)));
     i_vector := tab n (fun i => sumQ (map (fun q => normal_vector q i) qs)) |}.

(* Two equations stacked: designs one above the other, precisions on the diagonal, right-hand sides joined. *)
Definition stack (a b : equation) : equation :=
  let '(J, P, r) := a in let '(J', P', r') := b in
  let m := m_rows J in
  ({| m_rows := m + m_rows J'; m_cols := m_cols J; m_at := fun k j => if k <? m then m_at J k j else m_at J' (k - m) j |},
   {| m_rows := m + m_rows J'; m_cols := m + m_rows J';
      m_at := fun k l => if k <? m then (if l <? m then m_at P k l else 0%Qc)
                         else (if l <? m then 0%Qc else m_at P' (k - m) (l - m)) |},
   r ++ r').
Definition stack_all (q : equation) (qs : list equation) : equation := fold_left stack qs q.

(* Shapes fit. *)
Definition wf_equation (n : nat) (q : equation) : Prop :=
  let '(J, P, r) := q in m_cols J = n /\ m_rows P = m_rows J /\ m_cols P = m_rows J /\ length r = m_rows J.
Definition wf_observations (o : observations) : Prop :=
  m_rows (o_precision o) = length (o_vector o) /\ m_cols (o_precision o) = length (o_vector o).
Definition wf_element (e : element) : Prop :=
  (forall o x, m_rows (el_jacobian e o x) = length (o_vector o) /\ m_cols (el_jacobian e o x) = el_dim e) /\
  (forall o x, length (el_function e o x) = length (o_vector o)) /\
  length (el_prior e) = el_dim e /\ Forall (fun r => length r = el_dim e) (el_prior e).
Definition wf_system (sys : system) : Prop := Forall (fun cs => wf_element (c_element (fst cs))) sys.

(* The contribution of component [j] at observation [k]. *)
Definition contribution (sys : system) (j : nat) (o : observations) (k : nat) : Qc :=
  match nth_error sys j with Some (c, s) => vnth (expected_value c s o) k | None => 0%Qc end.
(* Observation [k] minus the contributions of all components but [i]. *)
Definition residual (sys : system) (i : nat) (o : observations) (k : nat) : Qc :=
  (vnth (o_vector o) k - sumn (length sys) (fun j => if j =? i then 0%Qc else contribution sys j o k))%Qc.

(* The equation component [i] is to be fitted to by the observations [o]; a nonlinear one is linearised at [x], and its value
   there is taken off as well. *)
Definition equation_for (sys : system) (i : nat) (c : component) (x : option vec) (o : observations) : equation :=
  (el_jacobian (c_element c) o x, o_precision o,
   tab (length (o_vector o)) (fun k =>
     match c_kind c, el_nonlinear (c_element c), x with
     | Spatial, _, _ | _, false, _ | _, true, None => residual sys i o k
     | _, true, Some y => (residual sys i o k - vnth (el_function (c_element c) o y) k)%Qc
     end)).

Definition nonempty (o : observations) : bool := 0 <? length (o_vector o).
(* The observations of one time that there are. *)
Definition inputs (loaders : list loader) (t : Z) : list observations := filter nonempty (map (fun l => l t) loaders).
(* Loaders deliver well-shaped data for the time asked for. *)
Definition wf_loaders (loaders : list loader) (t : Z) : Prop :=
  forall l, In l loaders -> o_time (l t) = t /\ wf_observations (l t).

(* The point of linearisation of a component at time [t] (for linear components its current state, which their design
   ignores or may use; spatial components have none), given the first observations processed. *)
Definition point (c : component) (s : store) (t : Z) (first : option observations) : option vec :=
  let current := match c_kind c with
                 | Spatial => None
                 | SpaceTime => s_state s
                 | Delayed => assoc Z.eqb (s_part s) t
                 end in
  match c_kind c, el_nonlinear (c_element c), current, first with
  | Spatial, _, _, _ => None
  | _, true, None, Some o => Some (el_initial (c_element c) o)
  | _, _, x, _ => x
  end.

(* Solving with prior precision [prior] (n by n) and information [u]. *)
Definition posterior (solve : table -> vec -> vec) (n : nat) (prior : table) (u : info) : vec :=
  solve (tab n (fun i => tab n (fun j => (vnth (nth i prior []) j + vnth (nth i (i_precision u) []) j)%Qc))) (i_vector u).

(* Two systems list the same components (with their storages), the [i]-th of one being the [i']-th of the other. *)
Definition same_others (sys : system) (i : nat) (sys' : system) (i' : nat) : Prop :=
  nth_error sys i = nth_error sys' i' /\
  Permutation (firstn i sys ++ skipn (S i) sys) (firstn i' sys' ++ skipn (S i') sys').

(* The last value written under a key in a list of writes (oldest first). *)
Fixpoint last_write {K V} (eqb : K -> K -> bool) (ws : list (K * V)) (k : K) : option V :=
  match ws with
  | [] => None
  | (k', v) :: ws => match last_write eqb ws k with Some w => Some w | None => if eqb k k' then Some v else None end
  end.

(* The last position at which a key occurs. *)
Definition last_position (keys : list Z) (k : Z) (i : nat) : Prop :=
  nth_error keys i = Some k /\ forall j, i < j -> nth_error keys j <> Some k.

(* Entries of stored information; [times_more n u rest k] is [u] with [k] times the sum of [rest] added. *)
Definition info_at (u : info) (i j : nat) : Qc := vnth (nth i (i_precision u) []) j.
Definition shaped (n : nat) (u : info) : Prop :=
  length (i_precision u) = n /\ Forall (fun r => length r = n) (i_precision u) /\ length (i_vector u) = n.
Definition times_more (n : nat) (u : info) (rest : list info) (k : nat) : info :=
  {| i_precision := tab n (fun i => tab n (fun j => (info_at u i j + qz (Z.of_nat k) * sumQ (map (fun v => info_at v i j) rest))%Qc));
     i_vector := tab n (fun i => (vnth (i_vector u) i + qz (Z.of_nat k) * sumQ (map (fun v => vnth (i_vector v) i) rest))%Qc) |}.

(* Measurements have been stored for these times only, each once. *)
Definition stored_for (times : list Z) (s : store) : Prop :=
  NoDup (map fst (s_meas s)) /\ forall k, In k (map fst (s_meas s)) -> exists t, In t times /\ k = Some t.

(* What becomes of the state of a space-time component when [v] is the solution: the step from the point of linearisation is
   added for a nonlinear one. *)
Definition new_state (e : element) (old : option vec) (v : vec) : vec :=
  if el_nonlinear e then match old with Some x => tab (el_dim e) (fun k => vnth v k + vnth x k)%Qc | None => v end else v.

(* the contents of the objects *)
Definition contents (h : heap) (objects : list nat) (us : list info) : Prop :=
  Forall2 (fun a u => nth_error h a = Some u) objects us.

(* Calls on storages. *)
Inductive memory_op := WriteQ (q : quantity) (t : Z) (v : vec) | WriteM (t : Z) (v : vec).
Definition memory_step (m : memory) (o : memory_op) : memory :=
  match o with WriteQ q t v => memory_write m q t v | WriteM t v => memory_measurement_write m t v end.
Definition qkey_eqb (a b : quantity * Z) : bool := quantity_eqb (fst a) (fst b) && (snd a =? snd b)%Z.

Definition state_writes (ops : list memory_op) : list ((quantity * Z) * vec) :=
  flat_map (fun o => match o with WriteQ q t v => [((q, t), v)] | WriteM _ _ => [] end) ops.
Definition measurement_writes (ops : list memory_op) : list (Z * vec) :=
  flat_map (fun o => match o with WriteQ _ _ _ => [] | WriteM t v => [(t, v)] end) ops.

(* every file name is used for one quantity at one position, and a quantity is read where it is written *)
Definition own_files (x : indexed) : Prop :=
  (forall q, ix_read x q = ix_write x q) /\
  (forall q q' l l' i i' f, ix_write x q = Some l -> ix_write x q' = Some l' ->
     nth_error l i = Some f -> nth_error l' i' = Some f -> q = q' /\ i = i').

Inductive batched_op := BWrite (q : quantity) (v : vec) | BRead (q : quantity).
Definition batched_step (b : batched) (fk : files * kept) (o : batched_op) : result (files * kept) :=
  match o with
  | BWrite q v => batched_write b (fst fk) (snd fk) q v
  | BRead q => do (_, k) <- batched_read b (fst fk) (snd fk) q; Ok (fst fk, k)
  end.
Definition batched_writes (ops : list batched_op) : list (quantity * vec) :=
  flat_map (fun o => match o with BWrite q v => [(q, v)] | BRead _ => [] end) ops.
Definition own_file (b : batched) : Prop :=
  (forall q, bt_read b q = bt_write b q) /\
  (forall q q' f, bt_write b q = Some f -> bt_write b q' = Some f -> q = q').

Definition batched_value (b : batched) (fk : files * kept) (q : quantity) : result (option vec) :=
  do (v, _) <- batched_read b (fst fk) (snd fk) q; Ok v.
Definition on_disk (b : batched) (fs : files) (q : quantity) : result (option vec) :=
  match bt_write b q with None => Ok None | Some f => do v <- readpickle fs f; Ok (Some v) end.
