(* Model of the elements an analysis component is built from (src/eustace/analysis/advanced_standard/elements): combinations of
   elements and their hyperparameters, and the bias, seasonal, Kronecker and factor elements.
   Simplifications: numbers are exact rationals; sparse matrices are given by shape and entries; sines, cosines and the SPDE
   precision matrices are given functions; printing is left out. *)
From Coq Require Import QArith Qcanon.
From Verif Require Import Base Grid_Model Lin Ana_Model.
Local Open Scope nat_scope.
Local Open Scope list_scope.

(* ---- hyperparameters *)

(* covariate.py:15-32 CovariateHyperparameters, local.py:10-33 LocalHyperparameters, spacetimespde.py:15-35
   SpaceTimeSPDEHyperparameters, seasonal.py:28-52 SeasonalHyperparameters, combination.py:11-53 CombinationHyperparameters *)
Inductive hyper :=
| HCovariate (value : Qc)
| HLocal (log_sigma log_rho : Qc)
| HSpaceTime (space_log_sigma space_log_rho time_log_rho : Qc)
| HSeasonal (harmonics : vec)
| HCombination (elementparameters : list hyper).

(* numpy.hstack on a list of 1D arrays *)
Definition hstack1 (vs : list vec) : result vec := match vs with [] => Err ValueError | _ => Ok (concat vs) end.

(* get_array: covariate.py:23-26, local.py:19-23, spacetimespde.py:24-28, seasonal.py:44-47, combination.py:20-24 *)
Fixpoint get_array (h : hyper) : result vec :=
  match h with
  | HCovariate v => Ok [v]
  | HLocal a b => Ok [a; b]
  | HSpaceTime a b c => Ok [a; b; c]
  | HSeasonal vs => Ok vs
  | HCombination hs =>
      do vs <- (fix go (hs : list hyper) : result (list vec) :=
                  match hs with [] => Ok [] | h :: hs => do v <- get_array h; do r <- go hs; Ok (v :: r) end) hs;
      hstack1 vs
  end.

(* combination.py:43-53 get_element_ranges; a range is the list of its indices *)
Fixpoint ranges_from (start : nat) (hs : list hyper) : result (list (list nat)) :=
  match hs with
  | [] => Ok []
  | h :: hs => do v <- get_array h;
               do r <- ranges_from (start + length v) hs;
               Ok (seq start (length v) :: r)
  end.
Definition get_element_ranges (hs : list hyper) : result (list (list nat)) := ranges_from 0 hs.

(* ranges[-1][-1] *)
Definition last_index (rs : list (list nat)) : option nat :=
  match rev rs with [] => None | r :: _ => match rev r with [] => None | i :: _ => Some i end end.
(* values[indices] *)
Definition pick (vs : vec) (is : list nat) : vec := map (vnth vs) is.

(* set_array: covariate.py:28-31, local.py:25-29, spacetimespde.py:30-35, seasonal.py:49-52, combination.py:26-41.  The result is
   the object afterwards, also when an exception is raised, and the exception if any. *)
Fixpoint set_array (h : hyper) (vs : vec) : hyper * option err :=
  match h with
  | HCovariate v => match vs with a :: _ => (HCovariate a, None) | [] => (h, Some IndexError) end
  | HLocal a b =>
      match vs with
      | a' :: b' :: _ => (HLocal a' b', None)
      | [a'] => (HLocal a' b, Some IndexError)
      | [] => (h, Some IndexError)
      end
  | HSpaceTime a b c =>
      match vs with
      | a' :: b' :: c' :: _ => (HSpaceTime a' b' c', None)
      | [a'; b'] => (HSpaceTime a' b' c, Some IndexError)
      | [a'] => (HSpaceTime a' b c, Some IndexError)
      | [] => (h, Some IndexError)
      end
  | HSeasonal _ => (HSeasonal vs, None)
  | HCombination hs =>
      match get_element_ranges hs with
      | Err e => (h, Some e)
      | Ok rs =>
          match last_index rs with
          | None => (h, Some IndexError)
          | Some n =>
              if length vs =? n + 1 then
                let (hs', e) := (fix go (hs : list hyper) (rs : list (list nat)) : list hyper * option err :=
                   match hs, rs with
                   | h :: hs, r :: rs =>
                       let (h', e) := set_array h (pick vs r) in
                       match e with
                       | Some _ => (h' :: hs, e)
                       | None => let (hs', e') := go hs rs in (h' :: hs', e')
                       end
                   | hs, _ => (hs, None)
                   end) hs rs in
                (HCombination hs', e)
              else (h, Some ValueError)
          end
      end
  end.

(* ---- designs *)

(* ElementDesign (element.py:60-107).  [d_function] is the call design_function(state), [d_function2] the call
   design_function(state, rectified); [d_matrix] is None for classes without design_matrix. *)
Record design := { d_nonlinear : bool; d_dim : nat; d_initial : vec;
                   d_function : vec -> result vec; d_function2 : vec -> bool -> result vec;
                   d_jacobian : option vec -> result matrix }.

(* matrix.dot(vector) *)
Definition mdot (A : matrix) (x : vec) : result vec :=
  if m_cols A =? length x then Ok (tab (m_rows A) (fun i => sumn (m_cols A) (fun j => m_at A i j * vnth x j)%Qc))
  else Err ValueError.
(* abs on entries *)
Definition qabs (x : Qc) : Qc := if Qclt_le_dec x 0 then (- x)%Qc else x.
Definition mabs (A : matrix) : matrix := {| m_rows := m_rows A; m_cols := m_cols A; m_at := fun i j => qabs (m_at A i j) |}.

(* element.py:110-144 ElementLinearDesign for a design matrix *)
Definition linear_function (A : matrix) (x : vec) (rectified : bool) : result vec := mdot (if rectified then mabs A else A) x.
Definition linear_design (A : matrix) : design :=
  {| d_nonlinear := false; d_dim := m_cols A; d_initial := [];
     d_function := fun x => linear_function A x false; d_function2 := linear_function A;
     d_jacobian := fun _ => Ok A |}.

(* scipy.sparse.hstack: equal numbers of rows *)
Definition hstack (ms : list matrix) : result matrix :=
  match ms with
  | [] => Err ValueError
  | m :: _ =>
      if forallb (fun m' => m_rows m' =? m_rows m) ms then
        Ok (fold_right (fun a b => {| m_rows := m_rows m; m_cols := m_cols a + m_cols b;
                                      m_at := fun i j => if j <? m_cols a then m_at a i j else m_at b i (j - m_cols a) |})
                       {| m_rows := m_rows m; m_cols := 0; m_at := fun _ _ => 0%Qc |} ms)
      else Err ValueError
  end.

(* combination.py:127-148 element_states (and 245-268): slices of the state *)
Fixpoint split_state (dims : list nat) (x : vec) : list vec :=
  match dims with [] => [] | n :: dims => firstn n x :: split_state dims (skipn n x) end.
Definition element_states (ds : list design) (x : option vec) : list (option vec) :=
  match x with
  | None => map (fun _ => None) ds
  | Some x => map Some (split_state (map d_dim ds) x)
  end.

(* 150-162 design_function; vectorlist[0] of no elements is an IndexError *)
Definition combination_function (ds : list design) (x : vec) (rectified : bool) : result vec :=
  do vs <- mapM (fun dx => d_function2 (fst dx) (snd dx) rectified) (combine ds (split_state (map d_dim ds) x));
  match vs with
  | [] => Err IndexError
  | v :: _ => foldM vadd (zeros (length v)) vs
  end.
(* 165-174 design_jacobian *)
Definition combination_jacobian (ds : list design) (x : option vec) : result matrix :=
  do ms <- mapM (fun dx => d_jacobian (fst dx) (snd dx)) (combine ds (element_states ds x));
  hstack ms.
(* 104-124 design_initial_state *)
Definition combination_initial (ds : list design) : vec :=
  flat_map (fun d => if d_nonlinear d then d_initial d else zeros (d_dim d)) ds.
(* 80-184 CombinationDesign *)
Definition combination_design (ds : list design) : design :=
  {| d_nonlinear := existsb d_nonlinear ds; d_dim := list_sum (map d_dim ds);
     d_initial := combination_initial ds;
     d_function := fun x => combination_function ds x false; d_function2 := combination_function ds;
     d_jacobian := combination_jacobian ds |}.

(* scipy.sparse.kron *)
Definition kron (A B : matrix) : matrix :=
  {| m_rows := m_rows A * m_rows B; m_cols := m_cols A * m_cols B;
     m_at := fun i j => (m_at A (i / m_rows B) (j / m_cols B) * m_at B (i mod m_rows B) (j mod m_cols B))%Qc |}.

(* kronecker.py:27-56 SpaceTimeKroneckerDesign *)
Definition kronecker_design (time_A space_A : matrix) : design := linear_design (kron time_A space_A).

(* factor.py:29-71 SpaceTimeFactorDesign; time_A has one row.  design_function takes one argument only. *)
Definition factor_function (time_A space_A : matrix) (x : vec) : result vec :=
  let n := m_cols space_A in
  do v_space <- mdot space_A (firstn n x);
  do v_time <- mdot time_A (skipn n x);
  Ok (map (fun s => s * vnth v_time 0)%Qc v_space).
Definition factor_jacobian (time_A space_A : matrix) (x : option vec) : result matrix :=
  match x with
  | None => Err TypeError
  | Some x =>
      let n := m_cols space_A in
      do v_space <- mdot space_A (firstn n x);
      do v_time <- mdot time_A (skipn n x);
      let jacobian_space := {| m_rows := m_rows space_A; m_cols := n; m_at := fun i j => (vnth v_time 0 * m_at space_A i j)%Qc |} in
      let column := {| m_rows := length v_space; m_cols := 1; m_at := fun i _ => vnth v_space i |} in
      hstack [jacobian_space; kron time_A column]
  end.
Definition factor_design (time_A space_A : matrix) : design :=
  {| d_nonlinear := true; d_dim := m_cols space_A + m_cols time_A;
     d_initial := zeros (m_cols space_A) ++ repeat 1%Qc (m_cols time_A);
     d_function := factor_function time_A space_A; d_function2 := fun _ _ => Err TypeError;
     d_jacobian := factor_jacobian time_A space_A |}.

(* bias.py:68-90 and bias_insitu_land.py:70-92 design_matrix: A[rows, columns] = 1.0 on a sparse matrix of zeros; indices
   outside are refused, negative ones count from the end *)
Definition wrap (n : nat) (i : Z) : option nat :=
  if ((- Z.of_nat n <=? i) && (i <? Z.of_nat n))%Z then Some (Z.to_nat (if i <? 0 then i + Z.of_nat n else i)%Z) else None.
Definition bias_matrix (observations biases : nat) (effect : option (list (Z * Z))) : result matrix :=
  match effect with
  | None => Ok {| m_rows := observations; m_cols := biases; m_at := fun _ _ => 0%Qc |}
  | Some es =>
      do ps <- mapM (fun e => match wrap observations (fst e), wrap biases (snd e) with
                              | Some i, Some j => Ok (i, j)
                              | _, _ => Err IndexError
                              end) es;
      Ok {| m_rows := observations; m_cols := biases;
            m_at := fun i j => if existsb (fun p => (fst p =? i) && (snd p =? j)) ps then 1%Qc else 0%Qc |}
  end.

(* seasonal.py:87-116 build_A_time: the values of the harmonics at the decimal year of the observations, [sine] and [cosine] by order *)
Definition build_A_time (include_local_mean : bool) (n_harmonics : nat) (sine cosine : nat -> Qc) : vec :=
  (if include_local_mean then [1%Qc] else []) ++ flat_map (fun order => [sine order; cosine order]) (seq 1 n_harmonics).
(* 135-140 design_matrix *)
Definition row (v : vec) : matrix := {| m_rows := 1; m_cols := length v; m_at := fun _ j => vnth v j |}.
Definition seasonal_design (include_local_mean : bool) (n_harmonics : nat) (sine cosine : nat -> Qc) (A_space : matrix) : design :=
  linear_design (kron (row (build_A_time include_local_mean n_harmonics sine cosine)) A_space).

(* ---- priors *)

(* scipy.sparse.block_diag *)
Definition block_diag (ms : list matrix) : result matrix :=
  match ms with
  | [] => Err ValueError
  | _ => Ok (fold_right (fun a b =>
      {| m_rows := m_rows a + m_rows b; m_cols := m_cols a + m_cols b;
         m_at := fun i j => if i <? m_rows a then (if j <? m_cols a then m_at a i j else 0%Qc)
                            else (if j <? m_cols a then 0%Qc else m_at b (i - m_rows a) (j - m_cols a)) |})
      {| m_rows := 0; m_cols := 0; m_at := fun _ _ => 0%Qc |} ms)
  end.
Definition empty_matrix (n : nat) : matrix := {| m_rows := n; m_cols := n; m_at := fun _ _ => 0%Qc |}.

(* ElementPrior (element.py:155-170) for given hyperparameters *)
Record prior := { p_dim : nat; p_precision : result matrix; p_derivative : Z -> result matrix }.

(* combination.py:201-208 prior_precision *)
Definition combination_precision (ps : list prior) : result matrix :=
  do ms <- mapM p_precision ps; block_diag ms.
(* 210-242 prior_precision_derivative *)
Definition in_range (i : Z) (r : list nat) : bool := existsb (fun k => (Z.of_nat k =? i)%Z) r.
Definition combination_derivative (hs : list hyper) (ps : list prior) (index : Z) : result matrix :=
  do ranges <- get_element_ranges hs;
  do ms <- mapM (fun kr => let '(k, r) := kr in
                   match nth_error ps k with
                   | None => Err IndexError
                   | Some p => if in_range index r then p_derivative p (index - Z.of_nat (hd 0%nat r))%Z else Ok (empty_matrix (p_dim p))
                   end) (combine (seq 0 (length ranges)) ranges);
  block_diag ms.
(* 189-268 CombinationPrior *)
Definition combination_prior (hs : list hyper) (ps : list prior) : prior :=
  {| p_dim := list_sum (map p_dim ps); p_precision := combination_precision ps; p_derivative := combination_derivative hs ps |}.

(* covariate.py:35-81 CovariatePrior: [precision] and [derivative] are exp(-2 v) and -2 exp(-2 v) *)
Definition covariate_prior (n : nat) (precision derivative : Qc) : prior :=
  let diagonal c := {| m_rows := n; m_cols := n; m_at := fun i j => if i =? j then c else 0%Qc |} in
  {| p_dim := n; p_precision := Ok (diagonal precision);
     p_derivative := fun i => if (i =? 0)%Z then Ok (diagonal derivative) else Err ValueError |}.

(* latitudeharmonics.py:79-100 LatitudeHarmonicsPrior; [part] gives the values for one hyperparameter *)
Definition latitude_harmonics_prior (hs : list hyper) (part : hyper -> Qc * Qc) : result prior :=
  if length hs =? 4 then Ok (combination_prior hs (map (fun h => covariate_prior 1 (fst (part h)) (snd (part h))) hs)) else Err ValueError.

(* seasonal.py:143-230 SeasonalElementPrior; [Q] and [dQ] are build_Q_stationary and build_dQdp_stationary for the SPDE *)
Definition n_spatial_components (n_harmonics : nat) (include_local_mean : bool) : nat :=
  2 * n_harmonics + (if include_local_mean then 1 else 0).
Definition harmonic_index_for_spatial_component (include_local_mean : bool) (s : nat) : nat :=
  (s + (if include_local_mean then 1 else 0)) / 2.
(* 38-42 harmonic_parameters *)
Definition harmonic_parameters (harmonics : vec) (k : nat) : result (Qc * Qc) :=
  match nth_error harmonics (2 * k), nth_error harmonics (2 * k + 1) with
  | Some a, Some b => Ok (a, b)
  | _, _ => Err IndexError
  end.
Definition seasonal_precision (harmonics : vec) (n_harmonics : nat) (include_local_mean : bool) (Q : Qc -> Qc -> matrix) : result matrix :=
  do ms <- mapM (fun s => do ab <- harmonic_parameters harmonics (harmonic_index_for_spatial_component include_local_mean s);
                          Ok (Q (fst ab) (snd ab)))
                (seq 0 (n_spatial_components n_harmonics include_local_mean));
  block_diag ms.
Definition seasonal_derivative (harmonics : vec) (n_harmonics : nat) (include_local_mean : bool) (n : nat)
    (dQ : nat -> Qc -> Qc -> matrix) (index : nat) : result matrix :=
  do ms <- mapM (fun s => let k := harmonic_index_for_spatial_component include_local_mean s in
                          if index / 2 =? k then do ab <- harmonic_parameters harmonics k; Ok (dQ (index mod 2) (fst ab) (snd ab))
                          else Ok (empty_matrix n))
                (seq 0 (n_spatial_components n_harmonics include_local_mean));
  block_diag ms.
