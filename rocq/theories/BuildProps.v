(** Properties C71 to C74. *)
From Coq Require Import QArith Qabs Reals Sorted Lra.
From Verif Require Import Py PyLemmas Json ActiveSiteModel EventModel BasisModel LceModel LceSpec
  MatcherModel MatcherProps BuildModel BuildSpec BuildProofs.
Local Open Scope nat_scope.

(** Examples: two sodium sites around an oxygen site, on a line. *)
Definition b_species (s : string) : species := Species s (Some s) None.
Definition b_three : option (list species) := Some (map b_species ["Na"; "K"; "X"]%string).
Definition b_two : option (list species) := Some (map b_species ["Na"; "X"]%string).
Definition b_env : local_env Q :=
  LocalEnv ["Na"; "Na"; "O"]%string [-(1); 1; 0]%Q [0; 1; 2]%Z [b_two; b_two; b_two] OccupationBasis "h".
Definition b_cheb : local_env Q :=
  LocalEnv ["Na"; "Na"; "O"]%string [-(1); 1; 0]%Q [0; 1; 2]%Z [b_two; b_two; b_two] (ChebyshevBasis 2) "h".
Definition b_env3 : local_env Q :=
  LocalEnv ["Na"; "Na"]%string [0; 1]%Q [0; 1]%Z [b_three; b_three] (ChebyshevBasis 3) "h".
Definition b_round (x : Q) : Q := x.
Definition b_orbit (_ : list cluster) : string := "o".
Definition b_feature (_ : string) (_ _ : list nat) : string := "f".
Definition b_cutoffs : list Q := [5; 5; 1]%Q.
Definition b_model : lce R :=
  Lce [[[0]; [1]]; [[2]]; [[0; 1]]; [[0; 2]; [1; 2]]; [[0; 1; 2]]]%Z None ["o"; "o"; "o"; "o"; "o"]%string (Some "h"%string)
    None None None None.
Example build_example :
  build b_round line b_orbit b_feature b_env b_cutoffs = Ok b_model /\
  well_formed line b_env /\ well_formed line b_cheb /\ well_formed line b_env3.
Proof.
  split; [vm_compute; reflexivity|]. unfold well_formed. split_and!; try reflexivity; intros; apply line_sym.
Qed.

(** C71: an expansion is built whenever there are three cutoffs and every local site has a
    known number of states. *)
Theorem build_succeeds {P} round8 (distance : P -> P -> Q) orbit_fingerprint feature_fingerprint env cutoffs :
  well_formed distance env -> 3 <= length cutoffs ->
  (forall i, i < length (e_species env) -> exists k, states_is env i k) ->
  (uses_state_indices (e_basis env) = true -> 0 < length (e_species env)) ->
  exists m, build round8 distance orbit_fingerprint feature_fingerprint env cutoffs = Ok m.
Proof. intros WF. exact (build_succeeds_lemma round8 distance orbit_fingerprint feature_fingerprint env WF cutoffs). Qed.
Print Assumptions build_succeeds.

Lemma b_states env l : e_site_indices env = map Z.of_nat (seq 0 (length l)) -> e_allowed env = map Some l ->
  forall i, i < length l -> exists k, states_is (P:=Q) env i k.
Proof.
  intros H1 H2 i Hi. destruct (lookup_lt_is_Some_2 l i Hi) as [x Hx]. exists (length x), (Z.of_nat i), x. split_and!; [| |done].
  - rewrite H1. change (map ?f ?s) with (f <$> s). rewrite list_lookup_fmap, lookup_seq_lt by done. done.
  - rewrite H2. apply KmcProofs.py_get_nat. change (map ?f ?s) with (f <$> s). by rewrite list_lookup_fmap, Hx.
Qed.
Example build_succeeds_example :
  exists m m3, build b_round line b_orbit b_feature b_cheb b_cutoffs = Ok m /\
               build b_round line b_orbit b_feature b_env3 b_cutoffs = Ok m3.
Proof.
  destruct build_example as (_ & _ & W1 & W2).
  destruct (build_succeeds b_round line b_orbit b_feature b_cheb b_cutoffs W1) as [m Hm].
  { simpl. lia. }
  { apply (b_states b_cheb [map b_species ["Na"; "X"]; map b_species ["Na"; "X"]; map b_species ["Na"; "X"]]%string); reflexivity. }
  { simpl. lia. }
  destruct (build_succeeds b_round line b_orbit b_feature b_env3 b_cutoffs W2) as [m3 Hm3].
  { simpl. lia. }
  { apply (b_states b_env3 [map b_species ["Na"; "K"; "X"]; map b_species ["Na"; "K"; "X"]]%string); reflexivity. }
  { simpl. lia. }
  exists m, m3. done.
Qed.

(** C71: the features group exactly the sets of one to four local sites within the cutoffs;
    no set is in two groups, and two features of the same group differ in their
    decoration. *)
Theorem features_group_the_admissible_clusters {P} round8 (distance : P -> P -> Q) orbit_fingerprint feature_fingerprint env cutoffs m :
  well_formed distance env ->
  build round8 distance orbit_fingerprint feature_fingerprint env cutoffs = Ok m ->
  (forall f c, clusters_of m f c -> c <> [] /\ NoDup c /\ forall s, s ∈ c -> admissible distance env cutoffs s) /\
  (forall s, admissible distance env cutoffs s -> exists f c, clusters_of m f c /\ s ∈ c) /\
  (forall f g c c' s, clusters_of m f c -> clusters_of m g c' -> s ∈ c -> s ∈ c' ->
     c = c' /\ (f = g \/ exists d d', decoration_of m f d /\ decoration_of m g d' /\ d <> d')).
Proof. intros WF Hb. exact (clusters_lemma round8 distance orbit_fingerprint feature_fingerprint env WF cutoffs m Hb). Qed.
Print Assumptions features_group_the_admissible_clusters.

Example admissible_example :
  admissible line b_env b_cutoffs [0; 2] /\ clusters_of b_model 3 [[0; 2]; [1; 2]] /\
  ~ admissible line b_env [1; 5; 1]%Q [0; 1].
Proof.
  split_and!.
  - split; [simpl; lia|]. split; [repeat constructor|]. split; [intros i Hi; rewrite !elem_of_cons, elem_of_nil in Hi; simpl; lia|].
    intros i j d c Hi Hj Hij (x & y & Hx & Hy & ->) (k & Ek & Hk & Hc). rewrite !elem_of_cons, elem_of_nil in Hi, Hj.
    assert (i = 0) as -> by lia. assert (j = 2) as -> by lia. simpl in Ek. assert (k = 0) as -> by lia.
    simpl in *. simplify_eq. reflexivity.
  - eexists. split; reflexivity.
  - intros (_ & _ & _ & H). specialize (H 0 1 (line (-(1)) 1) 1%Q). cut (line (-(1)) 1 < 1)%Q; [by intros E; vm_compute in E|].
    apply H; [left|right; left|lia| |exists 0; split_and!; [reflexivity|lia|reflexivity]]. exists (-(1))%Q, 1%Q. done.
Qed.

(** C71: each group has one feature for every choice of basis functions that all its
    clusters can use: the function numbered [b] at a position needs a site with more than
    [b + 1] states (or [b = 0]). *)
Theorem features_cover_the_decorations {P} round8 (distance : P -> P -> Q) orbit_fingerprint feature_fingerprint env cutoffs m f c :
  well_formed distance env ->
  build round8 distance orbit_fingerprint feature_fingerprint env cutoffs = Ok m ->
  uses_state_indices (e_basis env) = true -> clusters_of m f c -> forall d,
  (exists g, clusters_of m g c /\ decoration_of m g d) <->
  (forall s, s ∈ c -> length d = length s) /\
  forall pos b s i k, d !! pos = Some b -> s ∈ c -> s !! pos = Some i -> states_is env i k -> b < Nat.max 1 (k - 1).
Proof. intros WF Hb. exact (decorations_lemma round8 distance orbit_fingerprint feature_fingerprint env WF cutoffs m Hb f c). Qed.
Print Assumptions features_cover_the_decorations.

Example decorations_example : exists m,
  build b_round line b_orbit b_feature b_env3 b_cutoffs = Ok m /\ uses_state_indices (e_basis b_env3) = true /\
  clusters_of m 3 [[0; 1]] /\ decoration_of m 3 [0; 1] /\ clusters_of m 4 [[0; 1]] /\ decoration_of m 4 [1; 0].
Proof.
  destruct build_succeeds_example as (_ & m & _ & Hm).
  assert (E : rmap (fun m => (l_sites m, option_map fst (l_decorations m))) (build b_round line b_orbit b_feature b_env3 b_cutoffs) =
    Ok ([[[0]; [1]]; [[0]; [1]]; [[0; 1]]; [[0; 1]]; [[0; 1]]; [[0; 1]]]%Z,
        Some [[[0]; [0]]; [[1]; [1]]; [[0; 0]]; [[0; 1]]; [[1; 0]]; [[1; 1]]]%Z)) by (vm_compute; reflexivity).
  rewrite Hm in E. simpl in E. injection E as E1 E2. destruct (l_decorations m) as [[basis values]|] eqn:D; [|done].
  injection E2 as E2. exists m. unfold clusters_of, decoration_of. rewrite E1, D, E2. split_and!; [done|done|by eexists| |by eexists|];
    (eexists _, _, _; split; [reflexivity|]; split; [reflexivity|]; intros x Hx; by apply elem_of_list_singleton in Hx as ->).
Qed.

(** C72: when unequal distances differ by more than the tolerance, two clusters are in the
    same group exactly when they have the same shape. *)
Theorem groups_are_congruence_classes {P} round8 (distance : P -> P -> Q) orbit_fingerprint feature_fingerprint env cutoffs m f g c c' s t :
  well_formed distance env ->
  build round8 distance orbit_fingerprint feature_fingerprint env cutoffs = Ok m ->
  separated distance env -> clusters_of m f c -> clusters_of m g c' -> s ∈ c -> t ∈ c' ->
  congruent distance env s t <-> c = c'.
Proof. intros WF Hb. exact (classes_lemma round8 distance orbit_fingerprint feature_fingerprint env WF cutoffs m Hb f g c c' s t). Qed.
Print Assumptions groups_are_congruence_classes.

Example separated_example : separated line b_env.
Proof.
  intros i j k l d d' Hij Hkl (x & y & Hx & Hy & ->) (x' & y' & Hx' & Hy' & ->).
  destruct i as [|[|[|i]]]; try done; destruct j as [|[|[|j]]]; try done; destruct k as [|[|[|k]]]; try done; destruct l as [|[|[|l]]]; try done;
    simpl in Hx, Hy, Hx', Hy'; simplify_eq; intros H; vm_compute in H; first [by exfalso; apply H | by vm_compute].
Qed.

(** C73: for every occupation the features are defined: each is the sum over the clusters of
    its group of the products of the sites' factors. *)
Theorem feature_values_are_cluster_sums {P} round8 (distance : P -> P -> Q) orbit_fingerprint feature_fingerprint env cutoffs m occ :
  well_formed distance env ->
  build round8 distance orbit_fingerprint feature_fingerprint env cutoffs = Ok m -> legal_codes env occ ->
  exists corr, calculate_correlation 0%R 1%R Rplus Rmult IZR m occ = Ok corr /\ length corr = length (l_sites m) /\
    forall f x, corr !! f = Some x -> feature_value env m occ f x.
Proof. intros WF Hb. exact (values_lemma round8 distance orbit_fingerprint feature_fingerprint env WF cutoffs m Hb occ). Qed.
Print Assumptions feature_values_are_cluster_sums.

(** C73: a structure's features are those of the codes at the local sites, and they are what
    [compute] multiplies by the coefficients. *)
Theorem structure_features_are_local_features {P} round8 (distance : P -> P -> Q) orbit_fingerprint feature_fingerprint env cutoffs m occ codes :
  well_formed distance env ->
  build round8 distance orbit_fingerprint feature_fingerprint env cutoffs = Ok m ->
  sees occ (e_site_indices env) codes ->
  corr_from_occupation m env occ = calculate_correlation 0%R 1%R Rplus Rmult IZR m codes.
Proof. intros WF Hb. exact (structure_features_lemma round8 distance orbit_fingerprint feature_fingerprint env WF cutoffs m Hb occ codes). Qed.
Print Assumptions structure_features_are_local_features.
Theorem compute_uses_the_fitted_features {P} round8 (distance : P -> P -> Q) orbit_fingerprint feature_fingerprint env cutoffs m
    ps keci empty fps hash m' occ e corr :
  well_formed distance env ->
  build round8 distance orbit_fingerprint feature_fingerprint env cutoffs = Ok m ->
  provides ps keci empty fps hash -> set_parameters m ps = (m', Ok tt) ->
  local_env_indices e = e_site_indices env ->
  corr_from_occupation m env occ = Ok corr -> length keci = length corr ->
  lce_compute 0%R 1%R Rplus Rmult IZR m' occ e = Ok (Rsum (zip_with Rmult keci corr) + empty)%R.
Proof. intros WF Hb. exact (fitted_features_lemma round8 distance orbit_fingerprint feature_fingerprint env WF cutoffs m Hb ps keci empty fps hash m' occ e corr). Qed.
Print Assumptions compute_uses_the_fitted_features.

Example fitted_features_example : exists m',
  set_parameters b_model (ParamObject [1; 2; 3; 4; 5]%R 6%R None (Some "h"%string)) = (m', Ok tt) /\
  l_keci m' = Some [1; 2; 3; 4; 5]%R /\
  exists corr, corr_from_occupation b_model b_env [1; 0; 1]%Z = Ok corr /\ length corr = 5.
Proof.
  eexists. split; [reflexivity|]. split; [reflexivity|].
  destruct build_example as (Hb & WF & _).
  destruct (feature_values_are_cluster_sums b_round line b_orbit b_feature b_env b_cutoffs b_model [1; 0; 1]%Z WF Hb) as (corr & Hc & Hl & _).
  { split; [done|]. discriminate. }
  exists corr. split; [|done].
  rewrite (structure_features_are_local_features b_round line b_orbit b_feature b_env b_cutoffs b_model [1; 0; 1]%Z [1; 0; 1]%Z WF Hb); [done|].
  repeat constructor.
Qed.

Theorem other_environments_are_refused {P} round8 (distance : P -> P -> Q) orbit_fingerprint feature_fingerprint (env reference : local_env P) cutoffs m occ :
  well_formed distance env ->
  build round8 distance orbit_fingerprint feature_fingerprint env cutoffs = Ok m ->
  (e_hash env <> "" /\ e_hash reference <> e_hash env) \/
    length (e_site_indices reference) < length (e_species env) ->
  corr_from_occupation m reference occ = Err ValueError.
Proof. exact (refusal_lemma round8 distance orbit_fingerprint feature_fingerprint env reference cutoffs m occ). Qed.
Print Assumptions other_environments_are_refused.

Example legal_example : legal_codes b_env [1; 0; 1]%Z /\ sees [1; 0; 1; 1]%Z (e_site_indices b_env) [1; 0; 1]%Z /\
  legal_codes b_env3 [0; 2]%Z.
Proof.
  split_and!.
  - split; [done|]. discriminate.
  - repeat constructor.
  - split; [done|]. intros _ i v k Hv (a & l & Ha & Hg & ->). destruct i as [|[|i]]; simpl in *; simplify_eq; vm_compute in Hg; simplify_eq; simpl; lia.
Qed.

(** C74: a symmetry of the environment leaves every feature whose positions all use the same
    basis function unchanged. *)
Theorem symmetry_keeps_uniform_features {P} round8 (distance : P -> P -> Q) orbit_fingerprint feature_fingerprint env cutoffs m
    p occ occ' corr corr' :
  well_formed distance env ->
  build round8 distance orbit_fingerprint feature_fingerprint env cutoffs = Ok m ->
  symmetry distance env p -> moved env p occ occ' -> legal_codes env occ ->
  calculate_correlation 0%R 1%R Rplus Rmult IZR m occ = Ok corr ->
  calculate_correlation 0%R 1%R Rplus Rmult IZR m occ' = Ok corr' ->
  length corr' = length corr /\ forall f, uniform m f -> corr' !! f = corr !! f.
Proof. intros WF Hb. exact (symmetry_lemma round8 distance orbit_fingerprint feature_fingerprint env WF cutoffs m Hb p occ occ' corr corr'). Qed.
Print Assumptions symmetry_keeps_uniform_features.

(** C74: with at most two states per site, the value the model computes for an event is the
    same after any symmetry of the environment. *)
Theorem symmetry_keeps_computed_values {P} round8 (distance : P -> P -> Q) orbit_fingerprint feature_fingerprint env cutoffs m
    ps m' p occ occ' e e' codes codes' :
  well_formed distance env ->
  build round8 distance orbit_fingerprint feature_fingerprint env cutoffs = Ok m ->
  set_parameters m ps = (m', Ok tt) -> binary env -> symmetry distance env p ->
  sees occ (local_env_indices e) codes -> sees occ' (local_env_indices e') codes' ->
  moved env p codes codes' -> legal_codes env codes ->
  lce_compute 0%R 1%R Rplus Rmult IZR m' occ' e' = lce_compute 0%R 1%R Rplus Rmult IZR m' occ e.
Proof. intros WF Hb. exact (compute_symmetry_lemma round8 distance orbit_fingerprint feature_fingerprint env WF cutoffs m Hb ps m' p occ occ' e e' codes codes'). Qed.
Print Assumptions symmetry_keeps_computed_values.

Example symmetry_example :
  symmetry line b_env [1; 0; 2] /\ moved b_env [1; 0; 2] [1; 0; 1]%Z [0; 1; 1]%Z /\ binary b_env /\ binary b_cheb.
Proof.
  split_and!.
  - split_and!.
    + constructor.
    + intros [|[|[|i]]] a H; simpl in H; simplify_eq; reflexivity.
    + intros [|[|[|i]]] a k H; simpl in H; simplify_eq; split; intros (b & l & Hb & Hg & ->);
        simpl in Hb; simplify_eq; vm_compute in Hg; simplify_eq; eexists _, _; (split; [reflexivity|]); (split; [vm_compute; reflexivity|reflexivity]).
    + intros i j a b d d' Hi Hj Hij (x & y & Hx & Hy & ->) (x' & y' & Hx' & Hy' & ->).
      destruct i as [|[|[|i]]]; simpl in Hi; simplify_eq; destruct j as [|[|[|j]]]; simpl in Hj; simplify_eq;
        simpl in *; simplify_eq; vm_compute; reflexivity.
  - split_and!; try done. intros [|[|[|i]]] a H; simpl in H; simplify_eq; reflexivity.
  - by left.
  - right. intros i k (a & l & Ha & Hg & ->). destruct i as [|[|[|i]]]; simpl in Ha; simplify_eq; vm_compute in Hg; simplify_eq; simpl; lia.
Qed.

(** Features whose positions use different basis functions are not symmetric: the decoration
    follows the numbering of the sites. *)
Theorem symmetry_keeps_every_feature_refuted :
  exists m p occ occ' corr corr' f x x',
    well_formed line b_env3 /\ build b_round line b_orbit b_feature b_env3 b_cutoffs = Ok m /\
    symmetry line b_env3 p /\ moved b_env3 p occ occ' /\ legal_codes b_env3 occ /\
    calculate_correlation 0%R 1%R Rplus Rmult IZR m occ = Ok corr /\
    calculate_correlation 0%R 1%R Rplus Rmult IZR m occ' = Ok corr' /\
    corr !! f = Some x /\ corr' !! f = Some x' /\ x <> x'.
Proof.
  destruct build_succeeds_example as (_ & m & _ & Hm). destruct build_example as (_ & _ & _ & WF).
  assert (E : rmap (fun m => (l_sites m, option_map fst (l_decorations m))) (build b_round line b_orbit b_feature b_env3 b_cutoffs) =
    Ok ([[[0]; [1]]; [[0]; [1]]; [[0; 1]]; [[0; 1]]; [[0; 1]]; [[0; 1]]]%Z,
        Some [[[0]; [0]]; [[1]; [1]]; [[0; 0]]; [[0; 1]]; [[1; 0]]; [[1; 1]]]%Z)) by (vm_compute; reflexivity).
  rewrite Hm in E. simpl in E. injection E as E1 E2.
  assert (V : forall a b corr x, legal_codes b_env3 [a; b] ->
    calculate_correlation 0%R 1%R Rplus Rmult IZR m [a; b] = Ok corr -> corr !! 3 = Some x ->
    exists r0 r1 y0 y1, site_basis_values (ChebyshevBasis 3) 3 !! Z.to_nat a = Some r0 /\ r0 !! 0 = Some y0 /\
      site_basis_values (ChebyshevBasis 3) 3 !! Z.to_nat b = Some r1 /\ r1 !! 1 = Some y1 /\ x = (y0 * y1)%R).
  { intros a b corr x Leg Hc Hx.
    destruct (feature_values_are_cluster_sums b_round line b_orbit b_feature b_env3 b_cutoffs m [a; b] WF Hm Leg) as (corr0 & Hc0 & _ & Hv).
    rewrite Hc in Hc0. injection Hc0 as <-. destruct (Hv 3 x Hx) as (c & table & (l & Hl & Ec) & L & -> & Ht).
    rewrite E1 in Hl. injection Hl as Hl. subst l. assert (Hc3 : c = [[0; 1]]) by (apply map_map_of_nat_inj; by rewrite <- Ec).
    subst c. destruct table as [|row [|]]; try done. destruct (Ht 0 [0; 1] row eq_refl eq_refl) as [Lr Hr].
    destruct row as [|y0 [|y1 [|]]]; try done.
    assert (D : forall d, decoration_of m 3 d -> d = [0; 1]).
    { intros d (basis & values & l & H1 & H2 & H3). rewrite H1 in E2. injection E2 as ->. injection H2 as <-.
      apply map_of_nat_inj. symmetry. apply (H3 [0; 1]%Z). left. }
    destruct (Hr 0 0 y0 eq_refl eq_refl) as (v0 & Hv0 & d0 & b0 & k0 & r0 & Hd0 & Hb0 & (a0 & l0 & Ha0 & Hg0 & ->) & Hr0 & Hy0).
    destruct (Hr 1 1 y1 eq_refl eq_refl) as (v1 & Hv1 & d1 & b1 & k1 & r1 & Hd1 & Hb1 & (a1 & l1 & Ha1 & Hg1 & ->) & Hr1 & Hy1).
    apply D in Hd0, Hd1. subst d0 d1. simpl in Hv0, Hv1, Hb0, Hb1, Ha0, Ha1. simplify_eq.
    vm_compute in Hg0, Hg1. simplify_eq. exists r0, r1, y0, y1. split_and!; try done. unfold Rsum, Rprod. simpl. ring. }
  assert (L0 : legal_codes b_env3 [0; 1]%Z /\ legal_codes b_env3 [1; 0]%Z).
  { split; (split; [done|]); intros _ i v k Hv (a & l & Ha & Hg & ->); destruct i as [|[|i]]; simpl in *; simplify_eq; vm_compute in Hg; simplify_eq; simpl; lia. }
  destruct L0 as [L0 L1].
  destruct (feature_values_are_cluster_sums b_round line b_orbit b_feature b_env3 b_cutoffs m _ WF Hm L0) as (corr & Hc & Hl & _).
  destruct (feature_values_are_cluster_sums b_round line b_orbit b_feature b_env3 b_cutoffs m _ WF Hm L1) as (corr' & Hc' & Hl' & _).
  rewrite E1 in Hl, Hl'. simpl in Hl, Hl'.
  destruct (lookup_lt_is_Some_2 corr 3) as [x Hx]; [lia|]. destruct (lookup_lt_is_Some_2 corr' 3) as [x' Hx']; [lia|].
  exists m, [1; 0], [0; 1]%Z, [1; 0]%Z, corr, corr', 3, x, x'. split_and!; try done.
  - split_and!.
    + constructor.
    + intros [|[|i]] a H; simpl in H; simplify_eq; reflexivity.
    + intros [|[|i]] a k H; simpl in H; simplify_eq; split; intros (b & l & Hb & Hg & ->);
        simpl in Hb; simplify_eq; vm_compute in Hg; simplify_eq; eexists _, _; (split; [reflexivity|]); (split; [vm_compute; reflexivity|reflexivity]).
    + intros i j a b d d' Hi Hj Hij (x1 & y & Hx1 & Hy & ->) (x1' & y' & Hx1' & Hy' & ->).
      destruct i as [|[|i]]; simpl in Hi; simplify_eq; destruct j as [|[|j]]; simpl in Hj; simplify_eq;
        simpl in *; simplify_eq; vm_compute; reflexivity.
  - split_and!; try done. intros [|[|i]] a H; simpl in H; simplify_eq; reflexivity.
  - destruct (V _ _ _ _ L0 Hc Hx) as (r0 & r1 & y0 & y1 & A1 & A2 & A3 & A4 & ->).
    destruct (V _ _ _ _ L1 Hc' Hx') as (s0 & s1 & z0 & z1 & B1 & B2 & B3 & B4 & ->).
    simpl in A1, A3, B1, B3. injection A1 as <-. injection A3 as <-. injection B1 as <-. injection B3 as <-.
    simpl in A2, A4, B2, B4. injection A2 as <-. injection A4 as <-. injection B2 as <-. injection B4 as <-.
    unfold encoded. simpl. lra.
Qed.
Print Assumptions symmetry_keeps_every_feature_refuted.
