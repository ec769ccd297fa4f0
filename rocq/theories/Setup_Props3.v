(* C161: the components of the analysis *)
From Coq Require Import QArith Qcanon String Ascii.
From Verif Require Import Base Time_Model Time_Spec Grid_Model Lin Ana_Model Comb_Model Obs_Model Obs_Spec Cpp_Model Src_Model Src_Spec Spde_Model Lat_Model Lat_Spec
  Conn_Model Conn_Spec Conn_Proofs Conn_Proofs2 Conn_Props Conn_Props2 Setup_Model Setup_Spec Setup_Proofs Setup_Props2.
Local Open Scope Z_scope.
Local Open Scope list_scope.

Lemma local_bias_fits lg rad g : Forall2 fits (map fst (local_bias lg rad g)) (map snd (local_bias lg rad g)).
Proof. unfold local_bias. destruct (String.eqb g _); [repeat constructor|]. destruct (String.eqb g _); [repeat constructor|]. destruct (String.eqb g _); repeat constructor. Qed.
Lemma flat_fits (f : string -> list (element * hyper)) groups : (forall g, Forall2 fits (map fst (f g)) (map snd (f g))) -> Forall2 fits (map fst (flat_map f groups)) (map snd (flat_map f groups)).
Proof. intros H. induction groups as [|g gs IH]; [constructor|]. cbn [flat_map]. rewrite !map_app. apply Forall2_app; [apply H|exact IH]. Qed.

(* Elements and hyperparameters correspond one to one and in kind, for every list of groups of biases. *)
Theorem C161_local_fits : forall lg rad bias_terms groups, let '(elements, hypers) := local_definition lg rad bias_terms groups in Forall2 fits elements hypers.
Proof. intros lg rad bias groups. unfold local_definition. cbv zeta. constructor; [exact I|]. destruct bias; [|constructor]. apply flat_fits. intros g. apply local_bias_fits. Qed.
Print Assumptions C161_local_fits.
Example C161_local_fits_nonvacuous : List.length (fst (local_definition (fun x => x) (fun x => x) true ["surfaceairmodel_land_global"; "surfaceairmodel_ice_global"]%string)) = 5%nat.
Proof. reflexivity. Qed.
Theorem C161_large_scale_fits : forall lg rad bias_terms file, let '(elements, hypers) := large_scale_definition lg rad bias_terms file in Forall2 fits elements hypers.
Proof. intros lg rad bias file. unfold large_scale_definition. cbv zeta. constructor; [exact I|]. constructor; [exact I|]. destruct bias; cbn [fst snd]; [constructor; [exact I|constructor]|constructor]. Qed.
Print Assumptions C161_large_scale_fits.
Example C161_large_scale_fits_nonvacuous : forall lg rad file, List.length (fst (large_scale_definition lg rad true file)) = 3%nat. Proof. reflexivity. Qed.
Theorem C161_climatology_fits : forall lg rad elements hypers, Forall2 fits elements hypers ->
  let '(all_elements, all_hypers) := climatology_definition lg rad (elements, hypers) in Forall2 fits all_elements all_hypers.
Proof. intros lg rad es hs F. unfold climatology_definition. cbn [fst snd app]. do 3 (constructor; [exact I|]). exact F. Qed.
Print Assumptions C161_climatology_fits.
Example C161_climatology_fits_nonvacuous : Forall2 fits [ECovariate "altitude"%string] [HCovariate (qz 1)]. Proof. constructor; [exact I|constructor]. Qed.
(* With stored hyperparameters for the local element, all others fit. *)
Theorem C161_nonstationary_fits : forall lg bias_terms groups stored, let '(elements, hypers) := nonstationary_definition lg bias_terms groups stored in
  exists es hs, elements = ENonStationary 7 :: es /\ hypers = stored :: hs /\ Forall2 fits es hs.
Proof.
  intros lg bias groups stored. unfold nonstationary_definition. cbv zeta. eexists. eexists. split; [reflexivity|]. split; [reflexivity|]. destruct bias; [|constructor].
  apply flat_fits. intros g. unfold nonstationary_bias. destruct (_ || _); [repeat constructor|]. destruct (String.eqb g _); repeat constructor.
Qed.
Print Assumptions C161_nonstationary_fits.
Example C161_nonstationary_fits_nonvacuous : List.length (fst (nonstationary_definition (fun x => x) true ["surfaceairmodel_land_global"; "surfaceairmodel_ice_global"]%string (HLocal 0%Qc 0%Qc))) = 3%nat.
Proof. reflexivity. Qed.

(* Joined, the hyperparameters have as many numbers as the elements have together. *)
Theorem C161_parameters : forall elements hypers, elements <> [] -> Forall2 fits elements hypers ->
  exists v, get_array (HCombination hypers) = Ok v /\ List.length v = list_sum (map hyper_size elements).
Proof.
  intros es hs Ne F. cbn [get_array].
  set (go := fix go (hs : list hyper) : result (list vec) := match hs with [] => Ok [] | h :: hs => do v <- get_array h; do r <- go hs; Ok (v :: r) end).
  assert (G : exists vs, go hs = Ok vs /\ List.length vs = List.length es /\ List.length (concat vs) = list_sum (map hyper_size es)).
  { clear Ne. induction F as [|e h es hs K F (vs & E & L & S)]; [exists []; repeat split|].
    assert (H : exists v, get_array h = Ok v /\ List.length v = hyper_size e) by (destruct e, h; try contradiction; eexists; split; reflexivity).
    destruct H as (v & Ev & Lv). exists (v :: vs). cbn [go]. rewrite Ev. cbn [bind]. rewrite E. cbn [bind]. split; [reflexivity|]. cbn [List.length concat map list_sum fold_right]. rewrite app_length, L, Lv, S. split; reflexivity. }
  destruct G as (vs & E & L & S). rewrite E. cbn [bind]. exists (concat vs). split; [|exact S]. destruct vs; [destruct es; [congruence|discriminate]|reflexivity].
Qed.
Print Assumptions C161_parameters.
Example C161_parameters_nonvacuous : list_sum (map hyper_size (fst (large_scale_definition (fun x => x) (fun x => x) true "f"%string))) = 7%nat. Proof. reflexivity. Qed.

(* The groups named in the settings get their biases, and no others do. *)
Lemma in_local lg rad g e : In e (map fst (local_bias lg rad g)) <->
  exists n spatial, satellite_biases g = Some (n, spatial) /\ (e = EBias g n \/ spatial = true /\ e = ESpatialBias g 6).
Proof.
  unfold local_bias, satellite_biases. cbn [find fst]. rewrite !(String.eqb_sym g).
  destruct (String.eqb_spec "surfaceairmodel_land_global" g) as [E|_]; [|destruct (String.eqb_spec "surfaceairmodel_ocean_global" g) as [E|_]; [|destruct (String.eqb_spec "surfaceairmodel_ice_global" g) as [E|_]]]; cbn [map fst In].
  - split; [intros [<- |[<- |[]]]; eexists; eexists; (split; [reflexivity|]); auto|]. intros (n & s & H & K). injection H as <- <-. destruct K as [-> |[_ ->]]; auto.
  - split; [intros [<- |[]]; eexists; eexists; (split; [reflexivity|]); auto|]. intros (n & s & H & K). injection H as <- <-. destruct K as [-> |[K _]]; [auto|discriminate].
  - split; [intros [<- |[<- |[]]]; eexists; eexists; (split; [reflexivity|]); auto|]. intros (n & s & H & K). injection H as <- <-. destruct K as [-> |[_ ->]]; auto.
  - split; [intros []|]. intros (n & s & H & _). discriminate.
Qed.
Theorem C161_local_elements : forall lg rad groups e, In e (fst (local_definition lg rad true groups)) <->
  e = ELocal 7 \/ exists g n spatial, In g groups /\ satellite_biases g = Some (n, spatial) /\ (e = EBias g n \/ spatial = true /\ e = ESpatialBias g 6).
Proof.
  intros lg rad groups e. unfold local_definition. cbv zeta. cbn [fst In]. split.
  - intros [<- |H]; [now left|right]. apply in_map_iff in H. destruct H as (p & <- & H). apply in_flat_map in H. destruct H as (g & G & H).
    apply (in_map fst) in H. apply (proj1 (in_local _ _ _ _)) in H. destruct H as (n & s & A & B). exists g, n, s. auto.
  - intros [-> |(g & n & s & G & A & B)]; [now left|right]. assert (H : In e (map fst (local_bias lg rad g))) by (apply in_local; exists n, s; auto).
    apply in_map_iff in H. destruct H as (p & <- & H). apply in_map. apply in_flat_map. exists g. auto.
Qed.
Print Assumptions C161_local_elements.
Example C161_local_elements_nonvacuous : satellite_biases "surfaceairmodel_ice_global" = Some (2%nat, true) /\ satellite_biases "surfaceairmodel_ocean_global" = Some (1%nat, false). Proof. split; reflexivity. Qed.
(* each once for every time its group is named *)
Definition biases_of (g : string) : nat := match satellite_biases g with Some (_, true) => 2%nat | Some (_, false) => 1%nat | None => 0%nat end.
Theorem C161_local_number : forall lg rad groups, List.length (fst (local_definition lg rad true groups)) = S (list_sum (map biases_of groups)).
Proof.
  intros lg rad groups. unfold local_definition. cbv zeta. cbn [fst List.length]. rewrite map_length. f_equal. induction groups as [|g gs IH]; [reflexivity|]. cbn [flat_map map list_sum fold_right]. rewrite app_length, IH. f_equal.
  unfold local_bias, biases_of, satellite_biases. cbn [find fst]. rewrite !(String.eqb_sym g). destruct (String.eqb "surfaceairmodel_land_global" g); [reflexivity|]. destruct (String.eqb "surfaceairmodel_ocean_global" g); [reflexivity|]. destruct (String.eqb "surfaceairmodel_ice_global" g); reflexivity.
Qed.
Print Assumptions C161_local_number.
Example C161_local_number_nonvacuous : list_sum (map biases_of ["surfaceairmodel_land_global"; "surfaceairmodel_ice_global"; "surfaceairmodel_ocean_global"]%string) = 5%nat. Proof. reflexivity. Qed.
Theorem C161_nonstationary_elements : forall lg groups stored e, In e (fst (nonstationary_definition lg true groups stored)) <->
  e = ENonStationary 7 \/ exists g n spatial, In g groups /\ satellite_biases g = Some (n, spatial) /\ e = EBias g n.
Proof.
  assert (IN : forall lg g e, In e (map fst (nonstationary_bias lg g)) <-> exists n spatial, satellite_biases g = Some (n, spatial) /\ e = EBias g n).
  { intros lg g e. unfold nonstationary_bias, satellite_biases. cbn [find fst]. rewrite !(String.eqb_sym g).
    destruct (String.eqb "surfaceairmodel_land_global" g); [|destruct (String.eqb "surfaceairmodel_ocean_global" g); [|destruct (String.eqb "surfaceairmodel_ice_global" g)]]; cbn [orb map fst In].
    1-3: (split; [intros [<- |[]]; eexists; eexists; split; reflexivity|]; intros (n & s & H & ->); injection H as <- <-; auto).
    split; [intros []|]. intros (n & s & H & _). discriminate. }
  intros lg groups stored e. unfold nonstationary_definition. cbv zeta. cbn [fst In]. split.
  - intros [<- |H]; [now left|right]. apply in_map_iff in H. destruct H as (p & <- & H). apply in_flat_map in H. destruct H as (g & G & H).
    apply (in_map fst) in H. apply (proj1 (IN _ _ _)) in H. destruct H as (n & s & A & B). exists g, n, s. auto.
  - intros [-> |(g & n & s & G & A & B)]; [now left|right]. assert (H : In e (map fst (nonstationary_bias lg g))) by (apply IN; exists n, s; auto).
    apply in_map_iff in H. destruct H as (p & <- & H). apply in_map. apply in_flat_map. exists g. auto.
Qed.
Print Assumptions C161_nonstationary_elements.
Example C161_nonstationary_elements_nonvacuous : satellite_biases "surfaceairmodel_land_global" = Some (1%nat, true). Proof. reflexivity. Qed.
Theorem C161_without_biases : forall lg rad groups stored file,
  fst (local_definition lg rad false groups) = [ELocal 7] /\ fst (nonstationary_definition lg false groups stored) = [ENonStationary 7] /\ ~ In (EInsituLand file) (fst (large_scale_definition lg rad false file)).
Proof. intros. split; [reflexivity|]. split; [reflexivity|]. cbn. intros [H|[H|[]]]; discriminate. Qed.
Print Assumptions C161_without_biases.

(* With these numbers of biases the observations of every source can be related to every bias of the settings: none is an error. *)
Lemma global_bias st s g : s = SatLand \/ s = SatOcean -> group_of s = Some g -> files_of s st ->
  exists A, bias_design st g 1 = Ok A /\ m_rows A = number_of_observations st /\ m_cols A = 1%nat.
Proof.
  intros S G F. destruct (C156_global st s g None S G F) as (e & E & H). unfold bias_design. rewrite E. cbn [bind bias_matrix].
  match goal with |- context [mapM ?f e] => destruct (mapM_some f e) as [r R] end.
  - intros p I. apply In_nth_error in I. destruct I as [k I]. apply H in I. destruct I as [L ->]. cbn [fst snd]. rewrite wrap_own by exact L. change 0 with (Z.of_nat 0). rewrite wrap_own by lia. eexists. reflexivity.
  - rewrite R. cbn [bind]. eexists. split; [reflexivity|]. split; reflexivity.
Qed.
Theorem C161_biases_apply : forall st s cs g n spatial, st_files st <> [] -> files_of s st -> location_polar_coordinates st = Ok cs -> satellite_biases g = Some (n, spatial) ->
  (exists A, bias_design st g n = Ok A /\ m_rows A = number_of_observations st /\ m_cols A = n) /\
  (forall latents build_A, exists A, spatial_bias_design latents build_A st g = Ok A).
Proof.
  intros st s cs g n spatial Ne F C SB.
  assert (G : exists s', (s' = SatLand /\ n = 1%nat \/ s' = SatOcean /\ n = 1%nat \/ s' = SatIce /\ n = 2%nat) /\ group_of s' = Some g).
  { unfold satellite_biases in SB. cbn [find fst] in SB.
    destruct (String.eqb_spec "surfaceairmodel_land_global" g) as [<- |_]; [injection SB as <- _; exists SatLand; auto|].
    destruct (String.eqb_spec "surfaceairmodel_ocean_global" g) as [<- |_]; [injection SB as <- _; exists SatOcean; auto|].
    destruct (String.eqb_spec "surfaceairmodel_ice_global" g) as [<- |_]; [injection SB as <- _; exists SatIce; auto|discriminate]. }
  destruct G as (s' & S & G). assert (D : group_of s = Some g \/ group_of s <> Some g) by (destruct (group_of s) as [x|]; [destruct (String.string_dec x g); [left|right]; congruence|right; discriminate]).
  destruct D as [D|D].
  - assert (s = s') as <-. { destruct s, s'; try reflexivity; cbn in D, G; rewrite <- G in D; discriminate. }
    split; [|intros latents build_A; eexists; apply (C160_spatial_bias_own latents build_A st s g cs); [tauto|exact D|exact F|exact C]].
    destruct S as [[-> ->]|[[-> ->]|[-> ->]]].
    + apply (global_bias st SatLand g); auto.
    + apply (global_bias st SatOcean g); auto.
    + cbn in D. injection D as <-. destruct (C156_ice_design st cs F C) as (A & E & R & K & _). exists A. auto.
  - split.
    + unfold bias_design. rewrite (C156_other_source st s g None Ne F (ex_intro _ s' G) D). cbn [bind bias_matrix]. eexists. split; [reflexivity|]. split; reflexivity.
    + intros latents build_A. destruct (C160_spatial_bias_other latents build_A st s g Ne F (ex_intro _ s' G) D) as (A & E & _). exists A. exact E.
Qed.
Print Assumptions C161_biases_apply.
Example C161_biases_apply_nonvacuous : st_files ice_st <> [] /\ files_of SatIce ice_st /\ exists cs, location_polar_coordinates ice_st = Ok cs.
Proof. destruct C156_ice_nonvacuous as (F & C & _). split; [discriminate|]. split; [exact F|]. eexists. exact C. Qed.

(* A misspelt name of a group is not refused; the analysis runs without its biases. *)
Theorem C161_unknown_group_refuted : forall lg rad group stored, satellite_biases group = None ->
  local_definition lg rad true [group] = local_definition lg rad true [] /\ nonstationary_definition lg true [group] stored = nonstationary_definition lg true [] stored.
Proof.
  intros lg rad g stored. unfold satellite_biases, local_definition, nonstationary_definition, local_bias, nonstationary_bias. cbv zeta. cbn [find fst flat_map]. rewrite !(String.eqb_sym g).
  destruct (String.eqb "surfaceairmodel_land_global" g); [discriminate|]. destruct (String.eqb "surfaceairmodel_ocean_global" g); [discriminate|]. destruct (String.eqb "surfaceairmodel_ice_global" g); [discriminate|]. split; reflexivity.
Qed.
Print Assumptions C161_unknown_group_refuted.
Example C161_unknown_group_refuted_nonvacuous : satellite_biases "surfaceairmodel_Land_global" = None. Proof. reflexivity. Qed.
