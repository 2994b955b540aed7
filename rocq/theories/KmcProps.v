(** Properties C05-C07 and C12-C14: the rate cache, conservation and accounting. *)
From Coq Require Import Reals Lra.
From Verif Require Import Py Json ActiveSiteModel EventModel EventSpec EventProofs StateModel
  StateProofs HopModel KmcModel KmcSpec KmcProofs ProposeModel ProposeSpec EngineProofs.
Local Open Scope nat_scope.

(* ---------------- C05 ---------------- *)
(** Any number type, any model: if the dependency answers are exact and committing an
    event changes only rates of events sharing a site with it, the stored rates are
    the model's current rates after every history. *)
Theorem cached_rates_never_stale :
  forall T M add model_initialize model_apply compute_probability lib lk st
         (k : kmc T M) hist k',
  exact_dependencies (events lib) (get_dependent_events lib) ->
  rates_local model_apply compute_probability (events lib) (length (occupations st)) ->
  construct add model_initialize compute_probability lib lk st = Ok k ->
  updates add model_apply compute_probability k hist = Ok k' ->
  fresh compute_probability k'.
Proof. exact @fresh_always_lemma. Qed.
Print Assumptions cached_rates_never_stale.

(** The locality premise holds for every stateless model that reads only the event's
    own sites, when the library's indices are in range. *)
Theorem own_site_models_are_local :
  forall T M model_apply (compute_probability : M -> list Z -> event -> result T) lib n,
  indices_in_range (events lib) n ->
  (forall m e occ m', model_apply m e occ = Ok m' -> m' = m) ->
  reads_own_sites compute_probability ->
  rates_local model_apply compute_probability (events lib) n.
Proof. exact @own_sites_local. Qed.
Print Assumptions own_site_models_are_local.

(** A small engine: the rate is 1 for a hoppable event and 0 otherwise. *)
Definition ex_rate (_ : unit) (occ : list Z) (e : event) : result Z :=
  let* d := event_direction occ e default_hop_state_codes in Ok (d * d)%Z.
Definition ex_init (_ : list Z) (_ : event_lib) : result unit := Ok tt.
Definition ex_apply (m : unit) (_ : event) (_ : list Z) : result unit := Ok m.
Definition e01 : event := Event [0; 1]%Z [].
Definition e12 : event := Event [1; 2]%Z [].
Definition ex_lib : event_lib :=
  match generate_event_dependencies (add_event (add_event empty_lib e01) e12) with
  | Ok l => l | Err _ => empty_lib end.
Definition ex_st : state Z := State [0; 1; 1]%Z 0%Z 0%Z.
Definition ex_construct := construct Z.add ex_init ex_rate.
Definition ex_updates := updates Z.add ex_apply ex_rate.

Lemma ex_rate_own_sites : reads_own_sites ex_rate.
Proof.
  intros m occ occ' e Hlen Hr Hs. unfold ex_rate, event_direction.
  destruct (unpack2 (mobile_ion_indices e)) as [[f t]|] eqn:E; [|done]. simpl.
  destruct e as [mi env]. simpl in E.
  apply PyLemmas.unpack2_ok in E as ->.
  assert (Hg : forall s, touches (Event [f; t] env) s -> py_get occ' s = py_get occ s).
  { intros s Ht. specialize (Hs s Ht). specialize (Hr s Ht).
    destruct (lookup_lt_is_Some_2 occ (Z.to_nat s)) as [x Hx]; [lia|].
    rewrite (proj2 (PyLemmas.py_get_nonneg occ s x ltac:(lia)) Hx).
    rewrite Hx in Hs. apply PyLemmas.py_get_nonneg; [lia|done]. }
  rewrite !Hg by (left; simpl; set_solver). done.
Qed.

Example cached_rates_example :
  exact_dependencies (events ex_lib) (get_dependent_events ex_lib) /\
  rates_local ex_apply ex_rate (events ex_lib) 3 /\
  match ex_construct ex_lib None ex_st with
  | Ok k => k_prob k = [1; 0]%Z /\
      match ex_updates k [(e01, 5); (e12, 7); (e12, 1)]%Z with
      | Ok k' => occupations (k_state k') = [1; 0; 1]%Z /\ k_prob k' = [1; 1]%Z /\
                 k_cum k' = [1; 2]%Z /\ time (k_state k') = 13%Z
      | Err _ => False
      end
  | Err _ => False
  end.
Proof.
  split.
  { destruct (generate_total (add_event (add_event empty_lib e01) e12)) as (l & Hl).
    pose proof (generate_exact _ _ Hl) as [H _].
    unfold ex_lib. rewrite Hl. rewrite (proj1 (generate_events_same _ _ Hl)). exact H. }
  split.
  { apply own_sites_local; [| |exact ex_rate_own_sites].
    - intros e s He Hs. change (events ex_lib) with [e01; e12] in He.
      apply elem_of_cons in He as [->|He]; [|apply elem_of_cons in He as [->|He]; [|by apply elem_of_nil in He]];
      destruct Hs as [Hs|Hs]; simpl in Hs; repeat (apply elem_of_cons in Hs as [->|Hs]; [lia|]);
        by apply elem_of_nil in Hs.
    - intros m e occ m' [= <-]. done. }
  vm_compute. repeat split.
Qed.

(* ---------------- C06 ---------------- *)
(** Without generated dependencies (nothing raises). *)
Theorem rates_fresh_without_dependencies_refuted :
  exists lib st k k',
    event_dependencies lib = None /\ indices_in_range (events lib) 3 /\
    reads_own_sites ex_rate /\
    ex_construct lib None st = Ok k /\ ex_updates k [(e01, 1%Z)] = Ok k' /\
    ~ fresh ex_rate k'.
Proof.
  set (lib := add_event (add_event empty_lib e01) e12).
  exists lib, ex_st.
  destruct (ex_construct lib None ex_st) as [k|] eqn:Hk; [|discriminate].
  destruct (ex_updates k [(e01, 1%Z)]) as [k'|] eqn:Hk'.
  2:{ vm_compute in Hk. injection Hk as <-. discriminate. }
  exists k, k'. split; [done|]. split.
  { intros e s He Hs. change (events lib) with [e01; e12] in He.
    apply elem_of_cons in He as [->|He]; [|apply elem_of_cons in He as [->|He]; [|by apply elem_of_nil in He]];
    destruct Hs as [Hs|Hs]; simpl in Hs; repeat (apply elem_of_cons in Hs as [->|Hs]; [lia|]);
      by apply elem_of_nil in Hs. }
  split; [exact ex_rate_own_sites|]. split; [done|]. split; [done|].
  vm_compute in Hk. injection Hk as <-. vm_compute in Hk'. injection Hk' as <-.
  intros [_ H]. destruct (H 1 e12 eq_refl) as (r & Hr & Hc).
  vm_compute in Hr, Hc. congruence.
Qed.
Print Assumptions rates_fresh_without_dependencies_refuted.

(** With dependencies generated before the last event was added. *)
Theorem rates_fresh_after_late_add_refuted :
  exists lib0 lib st k k',
    generate_event_dependencies (add_event empty_lib e01) = Ok lib0 /\
    lib = add_event lib0 e12 /\
    ex_construct lib None st = Ok k /\ ex_updates k [(e01, 1%Z)] = Ok k' /\
    ~ fresh ex_rate k'.
Proof.
  destruct (generate_event_dependencies (add_event empty_lib e01)) as [lib0|] eqn:H0;
    [|discriminate].
  exists lib0, (add_event lib0 e12), ex_st. vm_compute in H0. injection H0 as <-.
  eexists. eexists. split; [reflexivity|]. split; [reflexivity|].
  split; [vm_compute; reflexivity|]. split; [vm_compute; reflexivity|].
  intros [_ H]. destruct (H 1 e12 eq_refl) as (r & Hr & Hc).
  vm_compute in Hr, Hc. congruence.
Qed.
Print Assumptions rates_fresh_after_late_add_refuted.

(** With exact dependencies but a negative index, which names the same site as a
    non-negative one. *)
Theorem rates_fresh_with_negative_indices_refuted :
  exists lib st k k',
    exact_dependencies (events lib) (get_dependent_events lib) /\
    ex_construct lib None st = Ok k /\ ex_updates k [(e01, 1%Z)] = Ok k' /\
    ~ fresh ex_rate k'.
Proof.
  destruct (generate_event_dependencies
    (add_event (add_event empty_lib e01) (Event [-2; 2]%Z []))) as [lib|] eqn:H0;
    [|discriminate].
  exists lib, ex_st. pose proof (generate_exact _ _ H0) as [Hex _].
  rewrite <- (proj1 (generate_events_same _ _ H0)) in Hex.
  vm_compute in H0. injection H0 as <-.
  eexists. eexists. split; [exact Hex|].
  split; [vm_compute; reflexivity|]. split; [vm_compute; reflexivity|].
  intros [_ H]. destruct (H 1 _ eq_refl) as (r & Hr & Hc).
  vm_compute in Hr, Hc. congruence.
Qed.
Print Assumptions rates_fresh_with_negative_indices_refuted.

(* ---------------- C07 ---------------- *)
(** In any arithmetic: the stored cumulative list is the running sum of the stored
    rates, added left to right. *)
Theorem cumulative_list_is_running_sum :
  forall T M add model_initialize model_apply compute_probability lib lk st
         (k : kmc T M) hist k',
  construct add model_initialize compute_probability lib lk st = Ok k ->
  updates add model_apply compute_probability k hist = Ok k' ->
  running_sums add (k_prob k') (k_cum k').
Proof. exact @cumulative_lemma. Qed.
Print Assumptions cumulative_list_is_running_sum.

(** Over the reals: entry [i] is the sum of the first [i+1] rates. *)
Theorem cumulative_entry_is_partial_sum : forall p i s,
  cumsum Rplus p !! i = Some s <-> i < length p /\ s = rate_before p (S i).
Proof. exact ProposeProofs.cumsum_R. Qed.
Print Assumptions cumulative_entry_is_partial_sum.

(* ---------------- C12 ---------------- *)
Theorem accepted_events_conserve_contents :
  forall T M add model_apply compute_probability (k : kmc T M) hist k',
  updates add model_apply compute_probability k hist = Ok k' ->
  occupations (k_state k') ≡ₚ occupations (k_state k) /\
  step (k_state k') = (step (k_state k) + Z.of_nat (length hist))%Z /\
  time (k_state k') = fold_left add (map snd hist) (time (k_state k)).
Proof. exact @conservation_lemma. Qed.
Print Assumptions accepted_events_conserve_contents.

Theorem accepted_event_exchanges_endpoints : forall occ f t env occ',
  (0 <= f)%Z -> (0 <= t)%Z ->
  swap_occupations occ (Event [f; t] env) = Ok occ' ->
  occ' !! Z.to_nat f = occ !! Z.to_nat t /\ occ' !! Z.to_nat t = occ !! Z.to_nat f /\
  forall k, k <> Z.to_nat f -> k <> Z.to_nat t -> occ' !! k = occ !! k.
Proof. exact accepted_event_lemma. Qed.
Print Assumptions accepted_event_exchanges_endpoints.

Example conservation_example :
  swap_occupations [5; 6; 7]%Z (Event [2; 0] [1])%Z = Ok [7; 6; 5]%Z.
Proof. reflexivity. Qed.

(* ---------------- C13 ---------------- *)
(** A completed run took exactly the configured number of events; only production
    waiting times are on the clock. *)
Theorem run_step_and_time_accounting :
  forall T M zero add model_apply compute_probability select TR
         tracker_create tracker_update tracker_sample eqp kp pl draws
         (k : kmc T M) k' (r : TR),
  (forall t, add t zero = t) ->
  run zero add model_apply compute_probability select tracker_create tracker_update
    tracker_sample eqp kp pl draws k = Ok (k', r) ->
  exists k1 eq prod,
    walk add model_apply compute_probability select (fun _ => zero) draws 0 k eq k1 /\
    walk add model_apply compute_probability select (fun dt => dt) draws (length eq) k1 prod k' /\
    length eq = Z.to_nat eqp * pl /\ length prod = Z.to_nat kp * pl /\
    step (k_state k') = (step (k_state k) + Z.of_nat (length eq + length prod))%Z /\
    time (k_state k1) = time (k_state k) /\
    time (k_state k') = fold_left add (map snd prod) (time (k_state k)).
Proof. exact @run_accounting_lemma. Qed.
Print Assumptions run_step_and_time_accounting.

(** On real numbers, with non-negative rates and draws in (0,1): the clock grows by the
    sum of the production waiting times, all of them positive. *)
Theorem run_time_grows :
  forall M model_initialize model_apply
         (compute_probability : M -> list Z -> event -> result R),
  (forall m occ e r, compute_probability m occ e = Ok r -> (0 <= r)%R) ->
  forall TR tracker_create tracker_update tracker_sample lib lk st k0 hist k
         eqp kp pl draws k' (r : TR),
  (forall j, (0 <= fst (draws j) < 1)%R /\ (0 < snd (draws j) < 1)%R) ->
  construct Rplus model_initialize compute_probability lib lk st = Ok k0 ->
  updates Rplus model_apply compute_probability k0 hist = Ok k ->
  run 0%R Rplus model_apply compute_probability Rselect tracker_create tracker_update
    tracker_sample eqp kp pl draws k = Ok (k', r) ->
  exists waits, length waits = Z.to_nat kp * pl /\ Forall (fun x => 0 < x)%R waits /\
    (time (k_state k') = time (k_state k) + total_rate waits)%R /\
    (time (k_state k) <= time (k_state k'))%R /\
    (0 < Z.to_nat kp * pl -> (time (k_state k) < time (k_state k'))%R).
Proof.
  intros. eapply run_time_lemma; eauto. eapply updates_rates_ok; eauto.
  eapply construct_rates_ok; eauto.
Qed.
Print Assumptions run_time_grows.

(** Scripted selection: the first draw names the event, the second is the waiting
    time.  One equilibration pass and two production passes of length 1. *)
Definition ex_select (cum : list Z) (u1 u2 : Z) : result (nat * Z) := Ok (Z.to_nat u1, u2).
Example run_example :
  match ex_construct ex_lib None ex_st with
  | Ok k =>
      match run 0%Z Z.add ex_apply ex_rate ex_select (fun _ _ => Ok tt) (fun r _ _ => Ok r)
              (fun r _ => Ok r) 1 2 1
              (fun i => nth i [(0, 9); (1, 3); (1, 4)] (0, 0))%Z k with
      | Ok (k', _) => step (k_state k') = 3%Z /\ time (k_state k') = 7%Z /\
                      occupations (k_state k') = [1; 0; 1]%Z
      | Err _ => False
      end
  | Err _ => False
  end.
Proof. vm_compute. repeat split. Qed.

(** The number of steps per pass is not always the number of mobile ions: it counts
    every symbol that contains the mobile species as a substring. *)
Theorem pass_length_counts_mobile_ions_refuted :
  exists symbols mobile, pass_length symbols mobile = 3 /\
    length (List.filter (String.eqb mobile) symbols) = 1.
Proof. exists ["F"; "Fe"; "Fe"; "O"]%string, "F"%string. vm_compute. done. Qed.
Print Assumptions pass_length_counts_mobile_ions_refuted.

(* ---------------- C14 ---------------- *)
Theorem hop_can_be_undone : forall occ f t env codes d occ',
  (0 <= f)%Z -> (0 <= t)%Z -> f <> t -> endpoint_consistent codes ->
  event_direction occ (Event [f; t] env) codes = Ok d -> d <> 0%Z ->
  swap_occupations occ (Event [f; t] env) = Ok occ' ->
  event_direction occ' (Event [f; t] env) codes = Ok (- d)%Z /\
  swap_occupations occ' (Event [f; t] env) = Ok occ.
Proof. exact hop_undone_lemma. Qed.
Print Assumptions hop_can_be_undone.

Example undo_example :
  endpoint_consistent default_hop_state_codes /\
  event_direction [0; 1; 1]%Z e01 default_hop_state_codes = Ok 1%Z /\
  swap_occupations [0; 1; 1]%Z e01 = Ok [1; 0; 1]%Z /\
  event_direction [1; 0; 1]%Z e01 default_hop_state_codes = Ok (-1)%Z.
Proof. vm_compute. repeat split. discriminate. Qed.
