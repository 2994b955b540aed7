(** Properties C38-C40: cluster expansion values, orbits and parameters. *)
From Coq Require Import Reals Lra.
From Verif Require Import Py Json ActiveSiteModel EventModel LceModel LceSpec CompositeModel
  LceProofs.

(* ---------------- C38 ---------------- *)
(** Whenever [compute] returns a value it is the cluster expansion formula: the
    occupations of the event's environment sites are read in order, every cluster site
    contributes its factor, and the value is the empty-cluster term plus the sum over
    orbits of coefficient times the sum over clusters of the product of factors. *)
Theorem lce_value_is_cluster_expansion :
  forall (m : lce R) occ e r,
  Rcompute m occ e = Ok r ->
  exists keci empty env table,
    l_keci m = Some keci /\ l_empty m = Some empty /\
    Forall2 (fun s v => py_get occ s = Ok v) (local_env_indices e) env /\
    factors m env table /\ length keci = length (l_sites m) /\
    r = (empty + expansion keci table)%R.
Proof. exact lce_compute_spec. Qed.
Print Assumptions lce_value_is_cluster_expansion.

(** And it does return that value whenever parameters are set, fit, and all indices
    are in range. *)
Theorem lce_value_defined :
  forall (m : lce R) occ e keci empty env table,
  l_keci m = Some keci -> l_empty m = Some empty ->
  fitting m keci (l_param_fingerprints m) (l_param_hash m) ->
  Forall2 (fun s v => py_get occ s = Ok v) (local_env_indices e) env ->
  (forall basis values, l_decorations m = Some (basis, values) -> same_shape (l_sites m) basis) ->
  factors m env table -> length keci = length (l_sites m) ->
  Rcompute m occ e = Ok (empty + expansion keci table)%R.
Proof. exact lce_compute_total. Qed.
Print Assumptions lce_value_defined.

(** No other site matters. *)
Theorem lce_value_reads_only_the_environment :
  forall (m : lce R) occ occ' e,
  (forall s, s ∈ local_env_indices e -> py_get occ' s = py_get occ s) ->
  Rcompute m occ' e = Rcompute m occ e.
Proof. exact lce_reads_environment. Qed.
Print Assumptions lce_value_reads_only_the_environment.

(** A plain model with two point clusters in one orbit and a pair in another, and a
    decorated one with three states. *)
Definition ex_plain : lce R :=
  {| l_sites := [[[0]; [1]]; [[0; 1]]]%Z; l_decorations := None;
     l_features := ["p"; "q"]%string; l_env_hash := Some "h"%string;
     l_keci := Some [2; 3]%R; l_empty := Some 5%R;
     l_param_fingerprints := Some ["p"; "q"]%string; l_param_hash := Some "h"%string |}.
Definition ex_decorated : lce R :=
  {| l_sites := [[[0; 1]]]%Z;
     l_decorations := Some ([[[1; 0]]]%Z,
       [[[-1; 1]; [0; -1]; [1; 1]]; [[-1; 0]; [1; 0]; [0; 0]]]%R);
     l_features := ["f"]%string; l_env_hash := None;
     l_keci := Some [7]%R; l_empty := Some 1%R;
     l_param_fingerprints := None; l_param_hash := None |}.
Definition ex_event : event := Event [0; 1]%Z [3; 2]%Z.

Example lce_value_example :
  Rcompute ex_plain [9; 9; 1; 1]%Z ex_event = Ok 12%R /\
  Rcompute ex_plain [9; 9; 0; 1]%Z ex_event = Ok 7%R /\
  Rcompute ex_decorated [9; 9; 0; 1]%Z ex_event = Ok 8%R.
Proof.
  unfold Rcompute.
  split; [|split]; cbv -[Rplus Rmult IZR Ropp]; f_equal; lra.
Qed.

Example lce_factors_example :
  factors ex_plain [1; 1]%Z [[[1]; [1]]; [[1; 1]]]%R /\
  factors ex_decorated [1; 0]%Z [[[-1; -1]]]%R /\
  fitting ex_plain [2; 3]%R (l_param_fingerprints ex_plain) (l_param_hash ex_plain).
Proof.
  split; [|split].
  - split; [repeat constructor|]. unfold entry; simpl.
    intros [|[|[|o]]] [|[|c]] [|[|p]] site H; simpl in H; try discriminate; injection H as <-;
      (eexists; split; [reflexivity|]; exists 1%Z; split; [reflexivity|]; simpl; lra).
  - split; [repeat constructor|]. unfold entry; simpl.
    intros [|[|o]] [|[|c]] [|[|[|p]]] site H; simpl in H; try discriminate; injection H as <-;
      (eexists; split; [reflexivity|]; eexists; split; [reflexivity|]; simpl;
       do 3 eexists; split; [reflexivity|]; split; [reflexivity|]; split; reflexivity).
  - split; [done|]. split; [intros l [= <-]; done|]. intros h h' [= <-] [= <-]. done.
Qed.

(* ---------------- C39 ---------------- *)
(** Nothing is lost or duplicated, for any equality test. *)
Theorem orbits_partition_clusters :
  forall C (eqb : C -> C -> bool) clusters,
  concat (build_orbits eqb clusters) ≡ₚ clusters.
Proof. exact @build_orbits_permutation. Qed.
Print Assumptions orbits_partition_clusters.

(** For a reflexive test: there are representatives, taken from the clusters in order
    of first appearance, one per orbit, such that the i-th orbit is, in the original
    order, exactly the clusters whose first equal representative is the i-th. *)
Theorem orbits_group_by_first_match :
  forall C (eqb : C -> C -> bool) clusters,
  (forall c, eqb c c = true) ->
  exists reps, length reps = length (build_orbits eqb clusters) /\ sublist reps clusters /\
    (forall i o, build_orbits eqb clusters !! i = Some o ->
       o = List.filter (fun c => bool_decide (first_match eqb reps c = Some i)) clusters) /\
    (forall i r, reps !! i = Some r -> first_match eqb reps r = Some i) /\
    (forall c, c ∈ clusters -> is_Some (first_match eqb reps c)).
Proof. exact @build_orbits_grouped. Qed.
Print Assumptions orbits_group_by_first_match.

(** For an equivalence, two clusters are in the same orbit exactly when they are
    equal. *)
Theorem orbits_are_equivalence_classes :
  forall C (eqb : C -> C -> bool) clusters i j oi oj ci cj,
  (forall c, eqb c c = true) ->
  (forall a b, eqb a b = true -> eqb b a = true) ->
  (forall a b c, eqb a b = true -> eqb b c = true -> eqb a c = true) ->
  build_orbits eqb clusters !! i = Some oi -> build_orbits eqb clusters !! j = Some oj ->
  ci ∈ oi -> cj ∈ oj ->
  (eqb ci cj = true <-> i = j).
Proof. exact @build_orbits_equivalence. Qed.
Print Assumptions orbits_are_equivalence_classes.

Example orbits_example :
  build_orbits (fun a b => Z.eqb (a mod 3) (b mod 3)) [4; 2; 1; 6; 5; 7]%Z
  = [[4; 1; 7]; [2; 5]; [6]]%Z.
Proof. reflexivity. Qed.

(** A tolerance test is not transitive, and then two unequal clusters can share an
    orbit while two equal ones do not: the grouping depends on the order. *)
Theorem tolerance_orbits_depend_on_order_refuted :
  exists eqb : Z -> Z -> bool,
    (forall c, eqb c c = true) /\ (forall a b, eqb a b = eqb b a) /\
    exists clusters clusters', clusters' ≡ₚ clusters /\
      length (build_orbits eqb clusters) <> length (build_orbits eqb clusters').
Proof.
  exists (fun a b => (Z.abs (a - b) <=? 1)%Z). split; [|split].
  - intros c. rewrite Z.sub_diag. done.
  - intros a b. f_equal. lia.
  - exists [0; 1; 2]%Z, [1; 0; 2]%Z. split; [|done]. apply Permutation_swap.
Qed.
Print Assumptions tolerance_orbits_depend_on_order_refuted.

(* ---------------- C40 ---------------- *)
(** Accepted parameters fit the model, are stored unchanged, and nothing else about the
    model changes; the stored parameters keep passing the check made by every
    [compute]. *)
Theorem accepted_parameters_fit :
  forall T (m : lce T) p m',
  set_parameters m p = (m', Ok tt) ->
  exists keci empty fps hash,
    provides p keci empty fps hash /\ fitting m keci fps hash /\
    l_keci m' = Some keci /\ l_empty m' = Some empty /\
    l_sites m' = l_sites m /\ l_decorations m' = l_decorations m /\
    l_features m' = l_features m /\ l_env_hash m' = l_env_hash m /\
    l_param_fingerprints m' = Some (l_features m) /\
    fitting m' keci (l_param_fingerprints m') (l_param_hash m').
Proof. exact @set_parameters_accepted. Qed.
Print Assumptions accepted_parameters_fit.

(** Every fitting payload is accepted. *)
Theorem fitting_parameters_accepted :
  forall T (m : lce T) p keci empty fps hash,
  provides p keci empty fps hash -> fitting m keci fps hash ->
  snd (set_parameters m p) = Ok tt.
Proof. exact @set_parameters_accepts. Qed.
Print Assumptions fitting_parameters_accepted.

(** A rejected payload leaves the model as it was. *)
Theorem rejected_parameters_change_nothing :
  forall T (m : lce T) p m' x, set_parameters m p = (m', Err x) -> m' = m.
Proof. exact @set_parameters_rejected. Qed.
Print Assumptions rejected_parameters_change_nothing.

Example parameters_example :
  snd (set_parameters ex_plain (ParamDict (Some [1; 1]%R) (Some 0%R) (Some ["p"; "q"]%string) None)) = Ok tt /\
  snd (set_parameters ex_plain (ParamDict (Some [1; 1]%R) (Some 0%R) (Some ["q"; "p"]%string) None)) = Err ValueError /\
  snd (set_parameters ex_plain (ParamObject [1]%R 0%R None None)) = Err ValueError /\
  snd (set_parameters ex_plain (ParamObject [1; 1]%R 0%R None (Some "other"%string))) = Err ValueError /\
  snd (set_parameters ex_plain (ParamDict None (Some 0%R) None None)) = Err KeyError /\
  snd (set_parameters ex_plain ParamOther) = Err TypeError.
Proof. repeat split. Qed.

(** Without fingerprints in the payload only the number is checked: coefficients given
    in another orbit order are accepted and give another value. *)
Theorem parameters_order_checked_without_fingerprints_refuted :
  exists (m : lce R) keci keci' occ e r r',
    keci' ≡ₚ keci /\ l_features m <> [] /\
    snd (set_parameters m (ParamObject keci 0%R None None)) = Ok tt /\
    snd (set_parameters m (ParamObject keci' 0%R None None)) = Ok tt /\
    Rcompute (fst (set_parameters m (ParamObject keci 0%R None None))) occ e = Ok r /\
    Rcompute (fst (set_parameters m (ParamObject keci' 0%R None None))) occ e = Ok r' /\
    r <> r'.
Proof.
  exists ex_plain, [2; 3]%R, [3; 2]%R, [9; 9; 0; 1]%Z, ex_event, 2%R, 3%R.
  split; [apply Permutation_swap|]. split; [done|]. split; [done|]. split; [done|].
  unfold Rcompute. split; [|split]; [cbv -[Rplus Rmult IZR Ropp]; f_equal; lra..|lra].
Qed.
Print Assumptions parameters_order_checked_without_fingerprints_refuted.
