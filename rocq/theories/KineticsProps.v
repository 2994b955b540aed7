(** C95-C97: the kinetics of whole simulations. *)
From Coq Require Import QArith Reals Lra Lia.
From stdpp Require Import relations.
From Verif Require Import Py PyLemmas EventModel StateModel HopModel KmcModel KmcSpec TrackerModel LceModel CompositeModel CompositeSpec CompositeProofs CompositeProps
  ProposeModel ProposeSpec ProposeProofs MatcherModel GeneratorModel GeneratorSpec KineticsSpec KineticsProofs.
Local Open Scope R_scope.

(* ---------------- C95 ---------------- *)
(** The same simulation with [a] times the attempt frequency and the same random numbers: it fails with the same
    exception, or it takes the same events: all occupations, the number of steps, the state of the model and everything
    the tracker has (positions, displacements, hop counts and samples) are equal; the rates are [a] times as large and
    the clock runs [a] times as fast.  The number of passes is arbitrary, so this holds after each step. *)
Theorem attempt_frequency_only_sets_the_clock :
  forall a E S ext_initialize (ext_apply : E -> event -> list Z -> result E) ext_compute (sample : S -> list vec -> list nat -> state R -> result S)
    c init lk v temp lib st str mobile s0 eqp kp pl draws, 0 < a -> clock_blind sample ->
  match whole_simulation ext_initialize ext_apply ext_compute sample c init lk v temp lib st str mobile s0 eqp kp pl draws,
        whole_simulation ext_initialize ext_apply ext_compute sample c init lk (a * v) temp lib st str mobile s0 eqp kp pl draws with
  | Ok (k, tr), Ok (k', tr') =>
      tr' = tr /\ occupations (k_state k') = occupations (k_state k) /\ step (k_state k') = step (k_state k) /\ k_model k' = k_model k
      /\ k_prob k' = map (Rmult a) (k_prob k)
      /\ time (k_state k') - time st = (time (k_state k) - time st) / a
  | Err x, Err y => x = y
  | _, _ => False
  end.
Proof. exact @clock_lemma. Qed.
Print Assumptions attempt_frequency_only_sets_the_clock.

Definition ex_lib : event_lib :=
  match generate_event_dependencies (add_event empty_lib ev) with Ok l => l | Err _ => empty_lib end.
Definition ex_str : structure :=
  Structure ["Li"; "Li"; "O"; "O"]%string [Vec 0 0 0; Vec (1 # 2) 0 0; Vec 0 (1 # 2) 0; Vec 0 0 (1 # 2)]%Q
    (Vec 4 0 0, Vec 0 4 0, Vec 0 0 4).
Definition keep (s : list (list Z)) (_ : list vec) (_ : list nat) (st : state R) : result (list (list Z)) := Ok (occupations st :: s).
(** A simulation that succeeds, with a sampling that records the occupations. *)
Example clock_example : clock_blind keep /\
  exists k tr, whole_simulation no_init no_apply no_ext keep ex_comp tt None 5 300 ex_lib (State [0; 1; 1; 0]%Z 0 0%Z) ex_str "Li" [] 0 1 1
    (fun _ => (1 / 2, 1 / 2)) = Ok (k, tr) /\ occupations (k_state k) = [1; 0; 1; 0]%Z /\ t_sampling tr = [[1; 0; 1; 0]]%Z.
Proof.
  split; [intros s d h st st' H _; unfold keep; by rewrite H|].
  destruct (ex_energies [0; 1; 1; 0]%Z 1 (or_introl eq_refl)) as [Hk1 Hs1].
  destruct (ex_energies [1; 0; 1; 0]%Z (-1) (or_intror eq_refl)) as [Hk2 Hs2].
  assert (H1 : exists r, 0 < r /\ compute_probability no_ext ex_comp None 5 300 tt [0; 1; 1; 0]%Z ev = Ok r).
  { eexists. split; [|eapply rate_is_arrhenius; [reflexivity|reflexivity|reflexivity|exact Hk1|exact Hs1|lra]].
    cbn. apply Rmult_lt_0_compat; [lra|apply exp_pos]. }
  assert (H2 : exists r, compute_probability no_ext ex_comp None 5 300 tt [1; 0; 1; 0]%Z ev = Ok r).
  { eexists. eapply rate_is_arrhenius; [reflexivity|reflexivity|reflexivity|exact Hk2|exact Hs2|lra]. }
  destruct H1 as (r & Hr & H1), H2 as [r' H2].
  assert (Hsel : exists dt, Rselect [r] (1 / 2) (1 / 2) = Ok (0%nat, dt)).
  { destruct (Rselect_total [r] (1 / 2) (1 / 2)) as (i & x & Hi & Hx & _).
    - by constructor; [lra|].
    - cbn. lra.
    - lra.
    - destruct i as [|i]; [|destruct i; done]. eexists. exact Hi. }
  destruct Hsel as [dt Hdt].
  unfold whole_simulation, construct. change (events ex_lib) with [ev]. cbn [rmapM rbind].
  change (composite_initialize no_init ex_comp tt (occupations (State [0; 1; 1; 0]%Z 0 0%Z)) ex_lib) with (@Ok unit tt). cbn [rbind occupations].
  rewrite H1. cbn [rbind cumsum cumsum_from].
  unfold simulate, KmcModel.run. change (Z.to_nat 0 * 1)%nat with 0%nat. change (Z.to_nat 1 * 1)%nat with 1%nat. cbn [equilibrate rbind k_state k_lookup occupations].
  match goal with |- context [create ?a ?b ?c ?d ?e] => set (tr0 := create a b c d e) end. vm_compute in tr0. subst tr0. cbn [rbind produce fst snd].
  unfold propose. cbn [k_cum k_lib k_state]. rewrite Hdt. cbn [rbind fst snd].
  change (py_get (events ex_lib) (Z.of_nat 0)) with (@Ok event ev). cbn [rbind fst snd].
  match goal with |- context [TrackerModel.update ex_str ?t ?o ev] => set (u := TrackerModel.update ex_str t o ev) end.
  vm_compute in u. subst u. cbn [rbind].
  unfold KmcModel.update, apply_event. cbn [k_state k_lib k_model k_prob k_lookup occupations StateModel.time step].
  change (swap_occupations [0; 1; 1; 0]%Z ev) with (@Ok (list Z) [1; 0; 1; 0]%Z). cbn [rbind occupations].
  change (composite_apply no_apply ex_comp tt ev [1; 0; 1; 0]%Z) with (@Ok unit tt). cbn [rbind].
  change (list_index (events ex_lib) ev) with (@Ok nat 0%nat). cbn [rbind].
  change (get_dependent_events ex_lib 0) with [0%nat]. cbn [rfold]. unfold refresh.
  change (py_get (events ex_lib) (Z.of_nat 0)) with (@Ok event ev). cbn [rbind]. rewrite H2. cbn [rbind].
  change (py_set [r] (Z.of_nat 0) r') with (@Ok (list R) [r']). cbn [rbind k_state].
  unfold sample_properties, keep. cbn. eexists. eexists. split; [reflexivity|]. split; reflexivity.
Qed.

(* ---------------- C96 ---------------- *)
(** The next state is [t] with the probability: the sum of the rates of the events that lead from the present state to
    [t], divided by the sum of all rates. *)
Theorem transition_probability : forall E (k : kmc R E) u2 t,
  running_sums Rplus (k_prob k) (k_cum k) -> length (k_prob k) = length (events (k_lib k)) ->
  all_nonneg (k_prob k) -> 0 < total_rate (k_prob k) ->
  probability (fun u => exists e dt, propose Rselect k u u2 = Ok (e, dt) /\ swap_occupations (occupations (k_state k)) e = Ok t)
    (flow (events (k_lib k)) (k_prob k) (occupations (k_state k)) t / total_rate (k_prob k)).
Proof. exact @transition_lemma'. Qed.
Print Assumptions transition_probability.

(** When each hop and its way back lead over the same energy, the Boltzmann distribution over any closed set of states is
    stationary: into each state flows as much as out of it; and for states with possible events, when the state before
    a step has weight Boltzmann factor times total rate, so has the state after it. *)
Theorem boltzmann_distribution_is_stationary :
  forall E (ext_compute : E -> list Z -> event -> result R) c lk v temp ms (H : list Z -> R) states es rates t,
  0 < v -> Forall (proper_event lk) es -> NoDup states -> closed_under lk states es ->
  same_saddle ext_compute c lk ms H states es ->
  (forall s, s ∈ states -> rmapM (compute_probability ext_compute c lk v temp (ms s) s) es = Ok (rates s)) -> t ∈ states ->
  let weight s := exp (- H s / (boltzmann_constant * temp)) in
  Rsum (fun s => weight s * flow es (rates s) s t) states = weight t * total_rate (rates t)
  /\ ((forall s, s ∈ states -> 0 < total_rate (rates s)) ->
      Rsum (fun s => weight s * total_rate (rates s) * (flow es (rates s) s t / total_rate (rates s))) states
      = weight t * total_rate (rates t)).
Proof. exact @stationary_both. Qed.
Print Assumptions boltzmann_distribution_is_stationary.

(** Sufficient: expansions that do not look at the endpoints of the events, and a site model that gives differences of
    the energy. *)
Theorem models_that_look_elsewhere_have_one_saddle :
  forall E (ext_compute : E -> list Z -> event -> result R) c lk ms (H : list Z -> R) states es,
  lce_only c -> Forall (proper_event lk) es -> Forall (looks_elsewhere c) es -> differences_of ext_compute c lk ms H states es ->
  same_saddle ext_compute c lk ms H states es.
Proof. exact @saddle_lemma. Qed.
Print Assumptions models_that_look_elsewhere_have_one_saddle.
(** In general the rates of a hop and of the way back differ by the difference of their barriers. *)
Theorem rate_ratio_is_of_the_barriers :
  forall E (ext_compute : E -> list Z -> event -> result R) c lk v temp m m' s f g env s' r r' codes x x',
  let e := Event [f; g] env in
  0 < v -> (0 <= f)%Z -> (0 <= g)%Z -> f <> g -> event_codes lk e = Ok codes -> endpoint_consistent codes ->
  hoppable codes s e -> swap_occupations s e = Ok s' ->
  compute_probability ext_compute c lk v temp m s e = Ok r -> compute_probability ext_compute c lk v temp m' s' e = Ok r' ->
  barrier ext_compute c lk m s e x -> barrier ext_compute c lk m' s' e x' ->
  0 < r' /\ r / r' = exp (- (x - x') / (boltzmann_constant * temp)).
Proof. exact @ratio_lemma. Qed.
Print Assumptions rate_ratio_is_of_the_barriers.

Definition ex_states : list (list Z) := [[0; 1; 1; 0]; [1; 0; 1; 0]]%Z.
Definition ex_H (s : list Z) : R := match s with 0%Z :: _ => 0 | _ => 4 end.
Lemma ev_proper : Forall (proper_event None) [ev].
Proof. constructor; [|constructor]. exists 0%Z, 1%Z, [2; 3]%Z, (0, 1, 1, 0)%Z. split; [done|]. split; [lia|]. split; [lia|]. split; [lia|]. done. Qed.
Lemma ev_elsewhere : Forall (looks_elsewhere ex_comp) [ev].
Proof.
  constructor; [|constructor]. intros l p i Hl (orbit & cl & Ho & Hcl & Hp) Hi.
  assert (Hp' : (p = 0 \/ p = 1)%Z).
  { destruct Hl as [[= <-]|[= <-]]; apply elem_of_list_singleton in Ho as ->.
    - apply elem_of_cons in Hcl as [->|Hcl]; [|apply elem_of_list_singleton in Hcl as ->]; apply elem_of_list_singleton in Hp; lia.
    - apply elem_of_list_singleton in Hcl as ->. apply elem_of_list_singleton in Hp. lia. }
  destruct Hp' as [->| ->]; cbn in Hi; injection Hi as <-; (split; [lia|]); cbn; rewrite !elem_of_cons, elem_of_nil; lia.
Qed.
Example stationary_example :
  Forall (proper_event None) [ev] /\ Forall (looks_elsewhere ex_comp) [ev] /\ NoDup ex_states /\ closed_under None ex_states [ev]
  /\ differences_of no_ext ex_comp None (fun _ => tt) ex_H ex_states [ev]
  /\ exists rates, (forall s, s ∈ ex_states -> rmapM (compute_probability no_ext ex_comp None 5 300 tt s) [ev] = Ok (rates s) /\ 0 < total_rate (rates s))
     /\ rates [0; 1; 1; 0]%Z <> rates [1; 0; 1; 0]%Z.
Proof.
  split; [exact ev_proper|]. split; [exact ev_elsewhere|].
  split. { apply NoDup_cons. split; [|apply NoDup_singleton]. rewrite elem_of_list_singleton. done. }
  split.
  { intros s e codes Hs He _ _. apply elem_of_list_singleton in He as ->. apply elem_of_cons in Hs as [->|Hs].
    - exists [1; 0; 1; 0]%Z. split; [done|]. right. left.
    - apply elem_of_list_singleton in Hs as ->. exists [0; 1; 1; 0]%Z. split; [done|]. left. }
  split.
  { intros s e codes d s' Hs He Hc Hd _ Hsw. apply elem_of_list_singleton in He as ->. injection Hc as <-. apply elem_of_cons in Hs as [->|Hs].
    - injection Hd as <-. injection Hsw as <-. rewrite (proj2 (ex_energies _ _ (or_introl eq_refl))). f_equal. cbn. lra.
    - apply elem_of_list_singleton in Hs as ->. injection Hd as <-. injection Hsw as <-.
      rewrite (proj2 (ex_energies _ _ (or_intror eq_refl))). f_equal. cbn. lra. }
  exists (fun s => [5 * exp (- (310 + (match s with 0%Z :: _ => 4 | _ => -4 end) / 2) / (boltzmann_constant * 300))]). split.
  - intros s Hs. split; [|cbn; rewrite Rplus_0_r; apply Rmult_lt_0_compat; [lra|apply exp_pos]].
    apply elem_of_cons in Hs as [->|Hs]; [|apply elem_of_list_singleton in Hs as ->]; cbn [rmapM].
    + rewrite (rate_is_arrhenius _ no_ext ex_comp None 5 300 tt _ ev (0, 1, 1, 0)%Z 1 ex_kra 310 (1 * 4));
        [|reflexivity|reflexivity|reflexivity|exact (proj1 (ex_energies _ 1 (or_introl eq_refl)))|exact (proj2 (ex_energies _ 1 (or_introl eq_refl)))|lra].
      cbn [rbind Z.eqb]. do 5 f_equal. lra.
    + rewrite (rate_is_arrhenius _ no_ext ex_comp None 5 300 tt _ ev (0, 1, 1, 0)%Z (-1) ex_kra 310 (-1 * 4));
        [|reflexivity|reflexivity|reflexivity|exact (proj1 (ex_energies _ (-1) (or_intror eq_refl)))|exact (proj2 (ex_energies _ (-1) (or_intror eq_refl)))|lra].
      cbn [rbind Z.eqb]. do 5 f_equal. lra.
  - intros Heq. injection Heq as Heq. apply Rmult_eq_reg_l in Heq; [|lra]. apply exp_inv in Heq.
    pose proof k_B_pos. unfold boltzmann_constant, k_B in *. lra.
Qed.

(** Microscopic reversibility: in equilibrium a path of states and the reversed path are equally frequent. *)
Theorem reversed_paths_are_as_frequent :
  forall E (ext_compute : E -> list Z -> event -> result R) c lk v temp ms (H : list Z -> R) states es rates s l t,
  0 < v -> Forall (proper_event lk) es -> NoDup states -> closed_under lk states es ->
  same_saddle ext_compute c lk ms H states es ->
  (forall s, s ∈ states -> rmapM (compute_probability ext_compute c lk v temp (ms s) s) es = Ok (rates s)) ->
  Forall (fun x => x ∈ states) (s :: l) -> last (s :: l) = Some t ->
  let weight s := exp (- H s / (boltzmann_constant * temp)) in
  weight s * path_rate es rates (s :: l) = weight t * path_rate es rates (rev (s :: l)).
Proof. exact @path_both. Qed.
Print Assumptions reversed_paths_are_as_frequent.
(** If all states can be reached from each other, the Boltzmann distribution is the only stationary distribution. *)
Theorem boltzmann_distribution_is_the_only_stationary_one :
  forall E (ext_compute : E -> list Z -> event -> result R) c lk v temp ms (H : list Z -> R) states es rates f,
  0 < v -> Forall (proper_event lk) es -> NoDup states -> closed_under lk states es ->
  same_saddle ext_compute c lk ms H states es ->
  (forall s, s ∈ states -> rmapM (compute_probability ext_compute c lk v temp (ms s) s) es = Ok (rates s)) ->
  connected lk states es ->
  (forall t, t ∈ states -> Rsum (fun s => f s * flow es (rates s) s t) states = f t * total_rate (rates t)) -> Rsum f states = 1 ->
  let weight s := exp (- H s / (boltzmann_constant * temp)) in
  forall s, s ∈ states -> f s = weight s / Rsum weight states.
Proof. exact @unique_both. Qed.
Print Assumptions boltzmann_distribution_is_the_only_stationary_one.
(** The other hypotheses are those of [stationary_example]. *)
Example connected_example : connected None ex_states [ev].
Proof.
  assert (H1 : one_hop None [ev] [0; 1; 1; 0]%Z [1; 0; 1; 0]%Z).
  { exists ev, (0, 1, 1, 0)%Z. split; [left|]. split; [done|]. split; [|done]. exists 0%Z, 1%Z, 0%Z, 1%Z. split; [done|]. split; [done|]. split; [done|]. by left. }
  assert (H2 : one_hop None [ev] [1; 0; 1; 0]%Z [0; 1; 1; 0]%Z).
  { exists ev, (0, 1, 1, 0)%Z. split; [left|]. split; [done|]. split; [|done]. exists 0%Z, 1%Z, 1%Z, 0%Z. split; [done|]. split; [done|]. split; [done|]. by right. }
  intros s t Hs Ht.
  apply elem_of_cons in Hs as [->|Hs]; [|apply elem_of_list_singleton in Hs as ->];
    (apply elem_of_cons in Ht as [->|Ht]; [|apply elem_of_list_singleton in Ht as ->]); first [apply rtc_refl|by apply rtc_once].
Qed.
(** Without a site model, and with barriers that do not look at the endpoints of the hop, all arrangements of the ions are equally likely: the uniform distribution is stationary on
    the arrangements of the contents of the initial state. *)
Theorem without_site_energies_all_arrangements_are_equally_likely :
  forall E (ext_compute : E -> list Z -> event -> result R) c lk v temp m s0 es rates t,
  c_site c = NoSite -> 0 < v -> Forall (proper_event lk) es -> Forall (looks_elsewhere c) es ->
  (forall s, s ≡ₚ s0 -> rmapM (compute_probability ext_compute c lk v temp m s) es = Ok (rates s)) -> t ≡ₚ s0 ->
  Rsum (fun s => flow es (rates s) s t) (arrangements s0) = total_rate (rates t).
Proof. exact @uniform_lemma. Qed.
Print Assumptions without_site_energies_all_arrangements_are_equally_likely.
Example arrangements_example : length (arrangements [0; 1; 1; 0]%Z) = 6%nat /\ Forall (looks_elsewhere (Composite (Some ex_kra) NoSite)) [ev] /\
  exists rates, (forall s, s ≡ₚ [0; 1; 1; 0]%Z -> rmapM (compute_probability no_ext (Composite (Some ex_kra) NoSite) None 5 300 tt s) [ev] = Ok (rates s))
    /\ 0 < total_rate (rates [0; 1; 1; 0]%Z).
Proof.
  split; [reflexivity|]. split.
  { pose proof ev_elsewhere as He. apply Forall_cons_1 in He as [He _]. constructor; [|constructor]. intros l p i [Hl|Hl]; [|done]. apply (He l p i). by left. }
  set (c := Composite (Some ex_kra) NoSite).
  assert (Hok : forall s, s ≡ₚ [0; 1; 1; 0]%Z -> exists r, compute_probability no_ext c None 5 300 tt s ev = Ok r).
  { intros s Hs%arrangements_elem.
    assert (Hin : s ∈ [[0; 1; 1; 0]; [1; 0; 1; 0]; [1; 1; 0; 0]; [0; 1; 0; 1]; [0; 0; 1; 1]; [1; 0; 0; 1]]%Z)
      by (revert Hs; vm_compute (arrangements _); rewrite !elem_of_cons, !elem_of_nil; tauto).
    assert (Hkt : k_B * 300 <> 0) by (pose proof k_B_pos; lra).
    rewrite !elem_of_cons, elem_of_nil in Hin.
    destruct Hin as [->|[->|[->|[->|[->|[->|[]]]]]]]; unfold compute_probability;
      (eexists; cbv -[Rplus Rmult Ropp Rdiv IZR k_B exp Req_EM_T]; first [reflexivity|destruct (Req_EM_T _ _) as [Hz|]; [by destruct Hkt|reflexivity]]). }
  exists (fun s => match compute_probability no_ext c None 5 300 tt s ev with Ok r => [r] | Err _ => [] end). split.
  - intros s Hs. destruct (Hok s Hs) as [r Hr]. cbn [rmapM]. by rewrite Hr.
  - destruct (Hok [0; 1; 1; 0]%Z (reflexivity _)) as [r Hr]. rewrite Hr. cbn. rewrite Rplus_0_r.
    assert (H5 : 0 < 5) by lra.
    apply (proj1 (rate_positive_lemma _ _ _ _ _ _ _ _ _ _ H5 (eq_refl : event_codes None ev = Ok (0, 1, 1, 0)%Z) Hr)).
    exists 0%Z, 1%Z, 0%Z, 1%Z. split; [done|]. split; [done|]. split; [done|]. by left.
Qed.

(* ---------------- C97 ---------------- *)
(** Two events whose endpoints and environments have the same contents have the same rate. *)
Theorem same_surroundings_same_rate :
  forall E (ext_compute : E -> list Z -> event -> result R) c lk v temp m m' occ occ' e e', lce_only c ->
  same_contents occ occ' e e' -> event_codes lk e = event_codes lk e' ->
  compute_probability ext_compute c lk v temp m occ e = compute_probability ext_compute c lk v temp m' occ' e'.
Proof. exact @contents_lemma. Qed.
Print Assumptions same_surroundings_same_rate.
(** The kinetics do not depend on where in the supercell something happens: the event moved by a lattice translation
    has, in the moved state, the same rate, and leads to the moved state. *)
Theorem kinetics_are_translation_invariant :
  forall E (ext_compute : E -> list Z -> event -> result R) c lk v temp m m' n t occ occ' e e', lce_only c -> positive n ->
  state_moved n t occ occ' -> event_moved n t e e' -> event_codes lk e = event_codes lk e' ->
  compute_probability ext_compute c lk v temp m occ e = compute_probability ext_compute c lk v temp m' occ' e'
  /\ forall occ1, swap_occupations occ e = Ok occ1 -> exists occ1', swap_occupations occ' e' = Ok occ1' /\ state_moved n t occ1 occ1'.
Proof. exact @translation_lemma. Qed.
Print Assumptions kinetics_are_translation_invariant.
(** Two sites in each of three cells in a row; the translation by one cell. *)
Example translation_example :
  positive (3, 1, 1)%Z /\ state_moved (3, 1, 1)%Z (1, 0, 0)%Z [0; 1; 1; 0; 0; 1]%Z [1; 0; 1; 1; 0; 0]%Z
  /\ event_moved (3, 1, 1)%Z (1, 0, 0)%Z (Event [0; 1] [5])%Z (Event [1; 2] [3])%Z
  /\ swap_occupations [0; 1; 1; 0; 0; 1]%Z (Event [0; 1] [5])%Z = Ok [1; 0; 1; 0; 0; 1]%Z.
Proof.
  split; [cbn; lia|]. split; [split; [done|]|split; [|done]].
  - intros k k' (p & [[x y] z] & (Hx & Hy & Hz) & -> & ->). cbn.
    assert (y = 0%Z) as -> by lia. assert (z = 0%Z) as -> by lia.
    assert (Hc : (x = 0 \/ x = 1 \/ x = 2)%Z) by lia.
    destruct p as [|[|p]].
    + destruct Hc as [->|[->| ->]]; reflexivity.
    + destruct Hc as [->|[->| ->]]; reflexivity.
    + rewrite !lookup_ge_None_2; [done| |]; cbn [length]; destruct Hc as [->|[->| ->]];
        match goal with |- context [(Z.of_nat _ * ?u + ?a * 1 + ?b)%Z] =>  let a' := eval vm_compute in a in let b' := eval vm_compute in b in change a with a'; change b with b' end; lia.
  - split; repeat constructor.
    + exists 0%nat, (0, 0, 0)%Z. cbn. split; [lia|done].
    + exists 0%nat, (1, 0, 0)%Z. cbn. split; [lia|done].
    + exists 1%nat, (2, 0, 0)%Z. cbn. split; [lia|done].
Qed.
