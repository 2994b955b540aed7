(** Properties C15-C17 and the composite instance of C05. *)
From Coq Require Import Reals Lra.
From Verif Require Import Py Json ActiveSiteModel EventModel EventSpec EventProofs StateModel
  HopModel KmcModel KmcSpec ProposeModel LceModel LceSpec CompositeModel CompositeSpec
  LceProofs CompositeProofs.
Local Open Scope R_scope.

(* ---------------- C15 ---------------- *)
(** Any submodels, any external site model, any temperature. *)
Theorem rate_positive_iff_hoppable :
  forall E (ext_compute : E -> list Z -> event -> result R) c lk v t m occ e codes r,
  0 < v -> event_codes lk e = Ok codes ->
  compute_probability ext_compute c lk v t m occ e = Ok r ->
  (hoppable codes occ e -> 0 < r) /\ (~ hoppable codes occ e -> r = 0).
Proof. exact @rate_positive_lemma. Qed.
Print Assumptions rate_positive_iff_hoppable.

(** The value for a hoppable event is the Arrhenius law on the barrier
    [E_KRA + dE/2]. *)
Theorem rate_is_arrhenius :
  forall E (ext_compute : E -> list Z -> event -> result R) c lk v t m occ e codes d kra ek dE,
  event_codes lk e = Ok codes -> event_direction occ e codes = Ok d ->
  kra_model c = Some kra -> Rcompute kra occ e = Ok ek ->
  site_energy_difference ext_compute c m occ e d = Ok dE -> 0 < t ->
  compute_probability ext_compute c lk v t m occ e =
  Ok (if (d =? 0)%Z then 0 else v * exp (- (ek + dE / 2) / (boltzmann_constant * t))).
Proof. exact @rate_total_lemma. Qed.
Print Assumptions rate_is_arrhenius.

(** A barrier model reading the two sites next to the hop and a site model reading one
    of them. *)
Definition ex_kra : lce R :=
  {| l_sites := [[[0]; [1]]]%Z; l_decorations := None;
     l_features := ["p"]%string; l_env_hash := None;
     l_keci := Some [10]; l_empty := Some 300;
     l_param_fingerprints := Some ["p"]%string; l_param_hash := None |}.
Definition ex_site : lce R :=
  {| l_sites := [[[0]]]%Z; l_decorations := None;
     l_features := ["s"]%string; l_env_hash := None;
     l_keci := Some [4]; l_empty := Some 0;
     l_param_fingerprints := None; l_param_hash := None |}.
Definition ex_comp : composite := Composite (Some ex_kra) (LceSite ex_site).
Definition no_ext (_ : unit) (_ : list Z) (_ : event) : result R := Err AttributeError.
Definition no_init (_ : list Z) (_ : event_lib) : result unit := Ok tt.
Definition no_apply (m : unit) (_ : event) (_ : list Z) : result unit := Ok m.
Definition ev : event := Event [0; 1]%Z [2; 3]%Z.

Lemma ex_energies occ d :
  occ = [0; 1; 1; 0]%Z \/ occ = [1; 0; 1; 0]%Z ->
  Rcompute ex_kra occ ev = Ok 310 /\
  site_energy_difference no_ext ex_comp tt occ ev d = Ok (IZR d * 4).
Proof.
  intros [-> | ->]; (split; [|unfold site_energy_difference]; unfold Rcompute;
    cbv -[Rplus Rmult IZR Ropp]; f_equal; lra).
Qed.

Example rate_positive_example :
  event_codes None ev = Ok (0, 1, 1, 0)%Z /\
  hoppable (0, 1, 1, 0)%Z [0; 1; 1; 0]%Z ev /\
  ~ hoppable (0, 1, 1, 0)%Z [1; 1; 1; 0]%Z ev /\
  compute_probability no_ext ex_comp None 5 300 tt [0; 1; 1; 0]%Z ev
    = Ok (5 * exp (- (310 + 1 * 4 / 2) / (boltzmann_constant * 300))) /\
  compute_probability no_ext ex_comp None 5 300 tt [1; 1; 1; 0]%Z ev = Ok 0.
Proof.
  split; [done|]. split.
  { exists 0%Z, 1%Z, 0%Z, 1%Z. split; [done|]. split; [done|]. split; [done|]. by left. }
  split.
  { intros (f & t & x & y & [= <- <-] & [= <-] & [= <-] & Hor). lia. }
  split; [|reflexivity].
  erewrite rate_is_arrhenius; [|reflexivity|reflexivity|reflexivity
    |exact (proj1 (ex_energies _ 0%Z (or_introl eq_refl)))|exact (proj2 (ex_energies _ _ (or_introl eq_refl)))|lra].
  reflexivity.
Qed.

(* ---------------- C16 ---------------- *)
Theorem detailed_balance :
  forall E (ext_compute : E -> list Z -> event -> result R) c lk v t m occ f g env occ' r r'
         codes d dE m',
  let e := Event [f; g] env in
  lce_only c -> 0 < v -> 0 < t -> (0 <= f)%Z -> (0 <= g)%Z -> f <> g ->
  (forall s, s ∈ env -> (0 <= s)%Z) ->
  f ∉ env -> g ∉ env ->
  event_codes lk e = Ok codes -> endpoint_consistent codes ->
  event_direction occ e codes = Ok d -> d <> 0%Z ->
  swap_occupations occ e = Ok occ' ->
  site_energy_difference ext_compute c m occ e d = Ok dE ->
  compute_probability ext_compute c lk v t m occ e = Ok r ->
  compute_probability ext_compute c lk v t m' occ' e = Ok r' ->
  0 < r' /\ r / r' = exp (- dE / (boltzmann_constant * t)).
Proof. exact @detailed_balance_lemma. Qed.
Print Assumptions detailed_balance.

Example detailed_balance_example :
  lce_only ex_comp /\ endpoint_consistent default_hop_state_codes /\
  (0%Z ∉ [2; 3]%Z) /\ (1%Z ∉ [2; 3]%Z) /\
  swap_occupations [0; 1; 1; 0]%Z ev = Ok [1; 0; 1; 0]%Z /\
  site_energy_difference no_ext ex_comp tt [0; 1; 1; 0]%Z ev 1 = Ok 4 /\
  (exists r r', compute_probability no_ext ex_comp None 5 300 tt [0; 1; 1; 0]%Z ev = Ok r /\
     compute_probability no_ext ex_comp None 5 300 tt [1; 0; 1; 0]%Z ev = Ok r' /\
     r / r' = exp (- 4 / (boltzmann_constant * 300))).
Proof.
  assert (H1 : 0%Z ∉ [2; 3]%Z) by (rewrite !elem_of_cons; intros [?|[?|?%elem_of_nil]]; done).
  assert (H2 : 1%Z ∉ [2; 3]%Z) by (rewrite !elem_of_cons; intros [?|[?|?%elem_of_nil]]; done).
  assert (HdE : site_energy_difference no_ext ex_comp tt [0; 1; 1; 0]%Z ev 1 = Ok 4).
  { rewrite (proj2 (ex_energies _ 1 (or_introl eq_refl))). f_equal. lra. }
  split; [done|]. split; [done|]. split; [done|]. split; [done|]. split; [done|].
  split; [done|].
  assert (Hr : exists r, compute_probability no_ext ex_comp None 5 300 tt [0; 1; 1; 0]%Z ev = Ok r).
  { eexists. eapply rate_is_arrhenius; [reflexivity|reflexivity|reflexivity
      |exact (proj1 (ex_energies _ 0%Z (or_introl eq_refl)))|exact (proj2 (ex_energies _ _ (or_introl eq_refl)))|lra]. }
  assert (Hr' : exists r, compute_probability no_ext ex_comp None 5 300 tt [1; 0; 1; 0]%Z ev = Ok r).
  { eexists. eapply rate_is_arrhenius; [reflexivity|reflexivity|reflexivity
      |exact (proj1 (ex_energies _ 0%Z (or_intror eq_refl)))|exact (proj2 (ex_energies _ _ (or_intror eq_refl)))|lra]. }
  destruct Hr as [r Hr], Hr' as [r' Hr']. exists r, r'. split; [done|]. split; [done|].
  eapply (detailed_balance unit no_ext ex_comp None 5 300 tt _ 0%Z 1%Z [2; 3]%Z _ r r' _ 1%Z 4 tt);
    try done; try lra; try lia.
  - intros s Hs. rewrite !elem_of_cons in Hs. destruct Hs as [->|[->|Hs%elem_of_nil]]; [lia|lia|done].
  - reflexivity.
  - reflexivity.
Qed.

(** When the environment contains an endpoint the two rates see different barriers and
    the ratio is wrong: here no site model is used, so the ratio should be 1. *)
Theorem detailed_balance_with_endpoint_in_environment_refuted :
  exists c occ e occ' r r',
    lce_only c /\ c_site c = NoSite /\ endpoint_consistent default_hop_state_codes /\
    swap_occupations occ e = Ok occ' /\
    compute_probability no_ext c None 1 300 tt occ e = Ok r /\
    compute_probability no_ext c None 1 300 tt occ' e = Ok r' /\
    0 < r' /\ r / r' <> exp (- 0 / (boltzmann_constant * 300)).
Proof.
  exists (Composite (Some ex_kra) NoSite), [0; 1; 1]%Z, (Event [0; 1]%Z [0; 2]%Z), [1; 0; 1]%Z.
  do 2 eexists.
  assert (H1 : Rcompute ex_kra [0; 1; 1]%Z (Event [0; 1]%Z [0; 2]%Z) = Ok 310)
    by (unfold Rcompute; cbv -[Rplus Rmult IZR Ropp]; f_equal; lra).
  assert (H2 : Rcompute ex_kra [1; 0; 1]%Z (Event [0; 1]%Z [0; 2]%Z) = Ok 320)
    by (unfold Rcompute; cbv -[Rplus Rmult IZR Ropp]; f_equal; lra).
  split; [done|]. split; [done|]. split; [done|]. split; [done|].
  split; [eapply rate_is_arrhenius; [reflexivity|reflexivity|reflexivity|exact H1|reflexivity|lra]|].
  split; [eapply rate_is_arrhenius; [reflexivity|reflexivity|reflexivity|exact H2|reflexivity|lra]|].
  cbn [Z.eqb endpoint_direction_from_codes andb Pos.eqb default_hop_state_codes].
  simpl. pose proof (k_B_pos : 0 < boltzmann_constant).
  split; [apply Rmult_lt_0_compat; [lra|apply exp_pos]|].
  pose proof (exp_pos (- (320 + 0 / 2) / (boltzmann_constant * 300))).
  replace (1 * exp (- (310 + 0 / 2) / (boltzmann_constant * 300)) / (1 * exp (- (320 + 0 / 2) / (boltzmann_constant * 300))))
    with (exp (- (310 + 0 / 2) / (boltzmann_constant * 300)) * / exp (- (320 + 0 / 2) / (boltzmann_constant * 300)))
    by (field; lra).
  rewrite <-exp_Ropp, <-exp_plus. intros Heq. apply exp_inv in Heq.
  set (x := boltzmann_constant * 300) in *. assert (Hx : 0 < x) by (unfold x; lra).
  replace (- (310 + 0 / 2) / x + - (- (320 + 0 / 2) / x)) with (10 / x) in Heq by (field; lra).
  replace (- 0 / x) with 0 in Heq by (field; lra).
  assert (0 < 10 / x); [|lra]. apply Rdiv_lt_0_compat; lra.
Qed.
Print Assumptions detailed_balance_with_endpoint_in_environment_refuted.

(* ---------------- C05, for the composite model ---------------- *)
Theorem composite_rates_never_stale :
  forall E ext_initialize ext_apply (ext_compute : E -> list Z -> event -> result R)
         c lk v t init lib st k hist k',
  lce_only c ->
  exact_dependencies (events lib) (get_dependent_events lib) ->
  indices_in_range (events lib) (length (occupations st)) ->
  construct Rplus (composite_initialize ext_initialize c init)
    (compute_probability ext_compute c lk v t) lib lk st = Ok k ->
  updates Rplus (composite_apply ext_apply c)
    (compute_probability ext_compute c lk v t) k hist = Ok k' ->
  fresh (compute_probability ext_compute c lk v t) k'.
Proof. exact @composite_fresh_lemma. Qed.
Print Assumptions composite_rates_never_stale.

(* ---------------- C17 ---------------- *)
(** Whatever happened before, the next event drawn is hoppable in the state it is
    about to be applied to. *)
Theorem only_hoppable_events_drawn :
  forall E ext_initialize ext_apply (ext_compute : E -> list Z -> event -> result R)
         c lk v t init lib st k hist k' u1 u2 e dt,
  lce_only c -> 0 < v ->
  exact_dependencies (events lib) (get_dependent_events lib) ->
  indices_in_range (events lib) (length (occupations st)) ->
  construct Rplus (composite_initialize ext_initialize c init)
    (compute_probability ext_compute c lk v t) lib lk st = Ok k ->
  updates Rplus (composite_apply ext_apply c)
    (compute_probability ext_compute c lk v t) k hist = Ok k' ->
  0 <= u1 < 1 -> propose Rselect k' u1 u2 = Ok (e, dt) ->
  exists codes, event_codes lk e = Ok codes /\ hoppable codes (occupations (k_state k')) e.
Proof. exact @only_hoppable_lemma. Qed.
Print Assumptions only_hoppable_events_drawn.

(** A two-event library on which construction succeeds. *)
Definition ex_clib : event_lib :=
  match generate_event_dependencies
          (add_event (add_event empty_lib ev) (Event [2; 1]%Z [3; 0]%Z)) with
  | Ok l => l | Err _ => empty_lib end.
Example only_hoppable_example :
  exact_dependencies (events ex_clib) (get_dependent_events ex_clib) /\
  indices_in_range (events ex_clib) 4 /\
  exists k k', construct Rplus (composite_initialize no_init ex_comp tt)
      (compute_probability no_ext ex_comp None 5 300) ex_clib None (State [0; 1; 1; 0]%Z 0 0%Z) = Ok k /\
    updates Rplus (composite_apply no_apply ex_comp)
      (compute_probability no_ext ex_comp None 5 300) k [(ev, 1)] = Ok k' /\
    occupations (k_state k') = [1; 0; 1; 0]%Z.
Proof.
  split.
  { destruct (generate_total (add_event (add_event empty_lib ev) (Event [2; 1]%Z [3; 0]%Z))) as (l & Hl).
    pose proof (generate_exact _ _ Hl) as [H _].
    unfold ex_clib. rewrite Hl. rewrite (proj1 (generate_events_same _ _ Hl)). exact H. }
  split.
  { intros e s He Hs. change (events ex_clib) with [ev; Event [2; 1]%Z [3; 0]%Z] in He.
    apply elem_of_cons in He as [->|He]; [|apply elem_of_cons in He as [->|He]; [|by apply elem_of_nil in He]];
    destruct Hs as [Hs|Hs]; simpl in Hs; repeat (apply elem_of_cons in Hs as [->|Hs]; [lia|]);
      by apply elem_of_nil in Hs. }
  pose proof (k_B_pos : (0 < k_B)%R).
  assert (Hx : k_B * 300 <> 0) by lra.
  assert (Hrate : forall occ e, occ = [0; 1; 1; 0]%Z \/ occ = [1; 0; 1; 0]%Z ->
            e = ev \/ e = Event [2; 1]%Z [3; 0]%Z ->
            exists r, compute_probability no_ext ex_comp None 5 300 tt occ e = Ok r).
  { intros occ e [-> | ->] [-> | ->]; unfold compute_probability; simpl;
      try destruct (Req_EM_T _ _); eauto; try lra. }
  destruct (Hrate [0; 1; 1; 0]%Z ev) as [r1 H1]; [auto..|].
  destruct (Hrate [0; 1; 1; 0]%Z (Event [2; 1]%Z [3; 0]%Z)) as [r2 H2]; [auto..|].
  destruct (Hrate [1; 0; 1; 0]%Z ev) as [r3 H3]; [auto..|].
  destruct (Hrate [1; 0; 1; 0]%Z (Event [2; 1]%Z [3; 0]%Z)) as [r4 H4]; [auto..|].
  do 2 eexists. split; [|split].
  - unfold construct. change (events ex_clib) with [ev; Event [2; 1]%Z [3; 0]%Z].
    cbn [rbind composite_initialize ex_comp c_site occupations rmapM]. rewrite H1. cbn [rbind].
    rewrite H2. reflexivity.
  - unfold updates, update. simpl.
    change (get_dependent_events ex_clib 0) with [0; 1]%nat. simpl.
    unfold refresh. change (events ex_clib) with [ev; Event [2; 1]%Z [3; 0]%Z].
    simpl. rewrite H3. simpl. rewrite H4. reflexivity.
  - reflexivity.
Qed.
