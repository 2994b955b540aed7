(** Property C98: the kinetics of generated events. *)
From Coq Require Import QArith Reals Lra Lia.
From Verif Require Import Py PyLemmas ActiveSiteModel EventModel StateModel HopModel KmcModel KmcSpec LceModel CompositeModel CompositeSpec CompositeProofs CompositeProps
  ProposeModel ProposeSpec MatcherModel MatcherSpec GeneratorModel GeneratorSpec GeneratorProofs GeneratorProps LatticeProps KineticsSpec KineticsProofs GenKineticsProofs.
Local Open Scope R_scope.

(** Every generated event lists the site it leads to in its own environment, so the models see the endpoint. *)
Theorem generated_events_see_their_target :
  forall P parse fp (get_neighbors : list gsite -> nat -> Q -> list (near P)) order_leb (distance : P -> P -> Q) round8
    (Hdistance : forall x y, (distance x y == distance y x)%Q) rq cell n kind initial target c g,
  resolved parse fp rq cell n kind initial target c -> distinct_local_indices (rq_full rq) -> search_in_cell get_neighbors cell ->
  GeneratorSpec.run parse fp get_neighbors order_leb distance round8 rq = Ok g ->
  forall e, e ∈ events (g_lib g) -> exists f t env, e = Event [f; t] env /\ t ∈ env /\ Forall (fun i => (0 <= i)%Z) (f :: t :: env).
Proof. exact @generated_lemma. Qed.
Print Assumptions generated_events_see_their_target.
(** Those between different sites whose codes agree are events of the statements about equilibrium (C96). *)
Theorem generated_events_are_proper :
  forall P parse fp (get_neighbors : list gsite -> nat -> Q -> list (near P)) order_leb (distance : P -> P -> Q) round8
    (Hdistance : forall x y, (distance x y == distance y x)%Q) rq cell n kind initial target c g,
  resolved parse fp rq cell n kind initial target c -> distinct_local_indices (rq_full rq) -> search_in_cell get_neighbors cell ->
  GeneratorSpec.run parse fp get_neighbors order_leb distance round8 rq = Ok g ->
  forall lk e f t env codes, e ∈ events (g_lib g) -> e = Event [f; t] env -> f <> t -> event_codes lk e = Ok codes -> endpoint_consistent codes ->
  proper_event lk e.
Proof. exact @generated_proper. Qed.
Print Assumptions generated_events_are_proper.
(** The hypotheses are met by [chain_example]; its events are between different sites and have the usual codes. *)
Example chain_events_example :
  match chain_run (chain_request chain_full [2; 1; 1]%Z 3 false) with
  | Ok g => Forall (fun e => exists f t env, e = Event [f; t] env /\ f <> t /\ t ∈ env /\ event_codes None e = Ok (0, 1, 1, 0)%Z) (events (g_lib g))
            /\ length (events (g_lib g)) = 8%nat
  | Err _ => False
  end.
Proof.
  vm_compute. split; [|done].
  repeat (constructor; [eexists _, _, _; split; [reflexivity|]; split; [done|]; split; [|done]; first [left|right; left]|]). constructor.
Qed.

(** Hence a hop and the way back need not be equally fast when there are no site energies: all events of a generated
    library between two states, with a barrier model that looks at the first site of the environment. *)
Definition target_kra : lce R :=
  {| l_sites := [[[0]]]%Z; l_decorations := None; l_features := ["p"]%string; l_env_hash := None;
     l_keci := Some [10]; l_empty := Some 300; l_param_fingerprints := Some ["p"]%string; l_param_hash := None |}.
Definition hop_rate (x : R) : R := 1 * exp (- (x + 0 / 2) / (boltzmann_constant * 300)).
Lemma chain_rate occ e d x : event_codes None e = Ok (0, 1, 1, 0)%Z -> event_direction occ e (0, 1, 1, 0)%Z = Ok d ->
  Rcompute target_kra occ e = Ok x ->
  compute_probability no_ext (Composite (Some target_kra) NoSite) None 1 300 tt occ e = Ok (if (d =? 0)%Z then 0 else hop_rate x).
Proof. intros Hc Hd Hx. eapply rate_is_arrhenius; [exact Hc|exact Hd|reflexivity|exact Hx|reflexivity|lra]. Qed.
Lemma chain_value occ e z i : nth_error (local_env_indices e) 0 = Some i -> (0 <= i)%Z -> length (local_env_indices e) = 2%nat ->
  Forall (fun j => exists y, py_get occ j = Ok y) (local_env_indices e) -> py_get occ i = Ok z -> Rcompute target_kra occ e = Ok (300 + 10 * IZR z).
Proof.
  intros Hi Hi0 Hl Hok Hz. destruct (local_env_indices e) as [|a [|b [|? ?]]] eqn:He; try done. cbn in Hi. injection Hi as ->.
  unfold Rcompute, lce_compute. cbn -[py_get rmapM]. rewrite He. apply Forall_cons_1 in Hok as [[y1 H1] Hok]. apply Forall_cons_1 in Hok as [[y2 H2] _].
  cbn [rmapM rbind]. rewrite Hz, H2. cbn. rewrite bool_decide_true by done. change (py_get [z; y2] 0%Z) with (@Ok Z z). cbn. f_equal. lra.
Qed.
Theorem generated_hops_are_as_fast_as_the_way_back_refuted :
  exists rq cell n kind initial target c g model s s' p p',
    resolved ex_parse ex_fp rq cell n kind initial target c /\ distinct_local_indices (rq_full rq) /\ search_in_cell chain cell /\
    chain_run rq = Ok g /\ Forall (proper_event None) (events (g_lib g)) /\ c_site model = NoSite /\
    rmapM (compute_probability no_ext model None 1 300 tt s) (events (g_lib g)) = Ok p /\
    rmapM (compute_probability no_ext model None 1 300 tt s') (events (g_lib g)) = Ok p' /\
    0 < flow (events (g_lib g)) p s s' /\ flow (events (g_lib g)) p s s' <> flow (events (g_lib g)) p' s' s.
Proof.
  destruct chain_example as (Hres & Hdl & Hsc & _ & Hrun).
  exists (chain_request chain_full [2; 1; 1]%Z 3 false), chain_cell, (2, 1, 1)%Z, BySpecies, (IdMany ["Na"]%string), (IdMany ["Na"]%string), (chain_cutoffs 3).
  destruct (chain_run (chain_request chain_full [2; 1; 1]%Z 3 false)) as [g|] eqn:Hg; [|done].
  exists g, (Composite (Some target_kra) NoSite), [0; 1; 1; 1]%Z, [1; 1; 1; 0]%Z,
    [hop_rate 310; hop_rate 310; 0; 0; hop_rate 300; 0; 0; hop_rate 310], [hop_rate 300; 0; 0; hop_rate 310; 0; 0; hop_rate 310; hop_rate 310].
  assert (Hes : events (g_lib g) = [Event [0; 3] [3; 2]; Event [0; 2] [3; 2]; Event [1; 2] [2; 3]; Event [1; 3] [2; 3];
    Event [2; 0] [0; 1]; Event [2; 1] [0; 1]; Event [3; 1] [1; 0]; Event [3; 0] [1; 0]]%Z).
  { vm_compute in Hg. injection Hg as <-. reflexivity. }
  clear Hrun. split; [done|]. split; [done|]. split; [done|]. split; [done|]. rewrite Hes. clear Hes Hg.
  split. { repeat (constructor; [eexists _, _, _, (0, 1, 1, 0)%Z; split; [reflexivity|]; split; [lia|]; split; [lia|]; split; [lia|]; done|]). constructor. }
  split; [done|].
  assert (Hval : forall occ f t i j z y, (0 <=? i)%Z = true -> py_get occ i = Ok z -> py_get occ j = Ok y ->
    Rcompute target_kra occ (Event [f; t] [i; j]) = Ok (300 + 10 * IZR z)).
  { intros occ f t i j z y Hi%Z.leb_le Hz Hy. apply (chain_value occ (Event [f; t] [i; j]) z i); [done|done|done| |done].
    constructor; [by exists z|]. constructor; [by exists y|constructor]. }
  assert (H310 : 300 + 10 * IZR 1 = 310) by lra. assert (H300 : 300 + 10 * IZR 0 = 300) by lra.
  split; [|split].
  - cbn [rmapM].
    rewrite (chain_rate [0; 1; 1; 1]%Z (Event [0; 3] [3; 2])%Z 1%Z _ eq_refl eq_refl (Hval [0; 1; 1; 1]%Z 0%Z 3%Z 3%Z 2%Z 1%Z 1%Z eq_refl eq_refl eq_refl)), H310. cbn [rbind Z.eqb].
    rewrite (chain_rate [0; 1; 1; 1]%Z (Event [0; 2] [3; 2])%Z 1%Z _ eq_refl eq_refl (Hval [0; 1; 1; 1]%Z 0%Z 2%Z 3%Z 2%Z 1%Z 1%Z eq_refl eq_refl eq_refl)), H310. cbn [rbind Z.eqb].
    rewrite (chain_rate [0; 1; 1; 1]%Z (Event [1; 2] [2; 3])%Z 0%Z _ eq_refl eq_refl (Hval [0; 1; 1; 1]%Z 1%Z 2%Z 2%Z 3%Z 1%Z 1%Z eq_refl eq_refl eq_refl)). cbn [rbind Z.eqb].
    rewrite (chain_rate [0; 1; 1; 1]%Z (Event [1; 3] [2; 3])%Z 0%Z _ eq_refl eq_refl (Hval [0; 1; 1; 1]%Z 1%Z 3%Z 2%Z 3%Z 1%Z 1%Z eq_refl eq_refl eq_refl)). cbn [rbind Z.eqb].
    rewrite (chain_rate [0; 1; 1; 1]%Z (Event [2; 0] [0; 1])%Z (-1)%Z _ eq_refl eq_refl (Hval [0; 1; 1; 1]%Z 2%Z 0%Z 0%Z 1%Z 0%Z 1%Z eq_refl eq_refl eq_refl)), H300. cbn [rbind Z.eqb].
    rewrite (chain_rate [0; 1; 1; 1]%Z (Event [2; 1] [0; 1])%Z 0%Z _ eq_refl eq_refl (Hval [0; 1; 1; 1]%Z 2%Z 1%Z 0%Z 1%Z 0%Z 1%Z eq_refl eq_refl eq_refl)). cbn [rbind Z.eqb].
    rewrite (chain_rate [0; 1; 1; 1]%Z (Event [3; 1] [1; 0])%Z 0%Z _ eq_refl eq_refl (Hval [0; 1; 1; 1]%Z 3%Z 1%Z 1%Z 0%Z 1%Z 0%Z eq_refl eq_refl eq_refl)). cbn [rbind Z.eqb].
    rewrite (chain_rate [0; 1; 1; 1]%Z (Event [3; 0] [1; 0])%Z (-1)%Z _ eq_refl eq_refl (Hval [0; 1; 1; 1]%Z 3%Z 0%Z 1%Z 0%Z 1%Z 0%Z eq_refl eq_refl eq_refl)), H310. reflexivity.
  - cbn [rmapM].
    rewrite (chain_rate [1; 1; 1; 0]%Z (Event [0; 3] [3; 2])%Z (-1)%Z _ eq_refl eq_refl (Hval [1; 1; 1; 0]%Z 0%Z 3%Z 3%Z 2%Z 0%Z 1%Z eq_refl eq_refl eq_refl)), H300. cbn [rbind Z.eqb].
    rewrite (chain_rate [1; 1; 1; 0]%Z (Event [0; 2] [3; 2])%Z 0%Z _ eq_refl eq_refl (Hval [1; 1; 1; 0]%Z 0%Z 2%Z 3%Z 2%Z 0%Z 1%Z eq_refl eq_refl eq_refl)). cbn [rbind Z.eqb].
    rewrite (chain_rate [1; 1; 1; 0]%Z (Event [1; 2] [2; 3])%Z 0%Z _ eq_refl eq_refl (Hval [1; 1; 1; 0]%Z 1%Z 2%Z 2%Z 3%Z 1%Z 0%Z eq_refl eq_refl eq_refl)). cbn [rbind Z.eqb].
    rewrite (chain_rate [1; 1; 1; 0]%Z (Event [1; 3] [2; 3])%Z (-1)%Z _ eq_refl eq_refl (Hval [1; 1; 1; 0]%Z 1%Z 3%Z 2%Z 3%Z 1%Z 0%Z eq_refl eq_refl eq_refl)), H310. cbn [rbind Z.eqb].
    rewrite (chain_rate [1; 1; 1; 0]%Z (Event [2; 0] [0; 1])%Z 0%Z _ eq_refl eq_refl (Hval [1; 1; 1; 0]%Z 2%Z 0%Z 0%Z 1%Z 1%Z 1%Z eq_refl eq_refl eq_refl)). cbn [rbind Z.eqb].
    rewrite (chain_rate [1; 1; 1; 0]%Z (Event [2; 1] [0; 1])%Z 0%Z _ eq_refl eq_refl (Hval [1; 1; 1; 0]%Z 2%Z 1%Z 0%Z 1%Z 1%Z 1%Z eq_refl eq_refl eq_refl)). cbn [rbind Z.eqb].
    rewrite (chain_rate [1; 1; 1; 0]%Z (Event [3; 1] [1; 0])%Z 1%Z _ eq_refl eq_refl (Hval [1; 1; 1; 0]%Z 3%Z 1%Z 1%Z 0%Z 1%Z 1%Z eq_refl eq_refl eq_refl)), H310. cbn [rbind Z.eqb].
    rewrite (chain_rate [1; 1; 1; 0]%Z (Event [3; 0] [1; 0])%Z 1%Z _ eq_refl eq_refl (Hval [1; 1; 1; 0]%Z 3%Z 0%Z 1%Z 0%Z 1%Z 1%Z eq_refl eq_refl eq_refl)), H310. reflexivity.
  - assert (Hpos : forall x, 0 < hop_rate x) by (intros x; unfold hop_rate; apply Rmult_lt_0_compat; [lra|apply exp_pos]).
    cbn [flow].
    repeat match goal with |- context [decide (?a = ?b)] =>
      first [rewrite (decide_True (P := a = b)) by (vm_compute; reflexivity)|rewrite (decide_False (P := a = b)) by (vm_compute; discriminate)] end.
    split; [pose proof (Hpos 310); lra|].
    assert (hop_rate 310 <> hop_rate 300).
    { unfold hop_rate. intros Heq. apply Rmult_eq_reg_l in Heq; [|lra]. apply exp_inv in Heq. pose proof (k_B_pos : 0 < boltzmann_constant).
      apply (f_equal (fun x => x * (boltzmann_constant * 300))) in Heq. unfold Rdiv in Heq. rewrite !Rmult_assoc, Rinv_l in Heq; lra. }
    lra.
Qed.
Print Assumptions generated_hops_are_as_fast_as_the_way_back_refuted.
