(** Proofs about the composite rate model. *)
From Coq Require Import Reals Lra.
From Verif Require Import Py PyLemmas Json ActiveSiteModel EventModel EventSpec EventProofs
  StateModel StateProofs HopModel KmcModel KmcSpec KmcProofs ProposeModel ProposeSpec
  ProposeProofs EngineProofs LceModel LceSpec CompositeModel CompositeSpec LceProofs.
Local Open Scope R_scope.

Lemma k_B_pos : 0 < k_B.
Proof. unfold k_B. lra. Qed.

Lemma direction_hoppable codes occ e d :
  event_direction occ e codes = Ok d -> d <> 0%Z <-> hoppable codes occ e.
Proof.
  unfold event_direction, hoppable. destruct codes as [[[a b] c] g]. intros H.
  apply rbind_ok in H as ([f t] & Hu & H). apply unpack2_ok in Hu.
  apply rbind_ok in H as (x & Hx & H). apply rbind_ok in H as (y & Hy & [= <-]).
  unfold endpoint_direction_from_codes.
  split.
  - intros Hd. exists f, t, x, y. split; [done|]. split; [done|]. split; [done|].
    destruct (Z.eqb_spec x a), (Z.eqb_spec y b); simpl in Hd; [by left| | |];
      (destruct (Z.eqb_spec x c), (Z.eqb_spec y g); simpl in Hd; try lia; by right).
  - intros (f' & t' & x' & y' & Hft & Hx' & Hy' & Hor).
    rewrite Hu in Hft. injection Hft as <- <-.
    rewrite Hx in Hx'. injection Hx' as <-. rewrite Hy in Hy'. injection Hy' as <-.
    destruct Hor as [[-> ->]|[-> ->]]; rewrite !Z.eqb_refl; simpl; [lia|].
    destruct (_ && _); lia.
Qed.

Section Composite.
  Context {E : Type}.
  Variable ext_initialize : list Z -> event_lib -> result E.
  Variable ext_apply : E -> event -> list Z -> result E.
  Variable ext_compute : E -> list Z -> event -> result R.
  Notation rate c lk v t := (compute_probability ext_compute c lk v t).

  Lemma rate_inv c lk v t m occ e r :
    rate c lk v t m occ e = Ok r ->
    exists codes d, event_codes lk e = Ok codes /\ event_direction occ e codes = Ok d /\
      ((d = 0%Z /\ r = 0) \/
       (d <> 0%Z /\ exists kra ek delta, kra_model c = Some kra /\ Rcompute kra occ e = Ok ek /\
          site_energy_difference ext_compute c m occ e d = Ok delta /\ k_B * t <> 0 /\
          r = v * exp (- (ek + delta / 2) / (k_B * t)))).
  Proof.
    unfold compute_probability. intros H.
    apply rbind_ok in H as (codes & Hc & H). apply rbind_ok in H as (d & Hd & H).
    exists codes, d. split; [done|]. split; [done|].
    destruct (Z.eqb_spec d 0) as [->|Hne]; [left; split; [done|congruence]|right].
    split; [done|]. destruct (kra_model c) as [kra|]; [|done].
    apply rbind_ok in H as (ek & Hek & H). apply rbind_ok in H as (delta & Hdl & H).
    destruct (Req_EM_T _ _); [done|]. injection H as <-. eauto 10.
  Qed.

  Lemma rate_positive_lemma c lk v t m occ e codes r :
    0 < v -> event_codes lk e = Ok codes -> rate c lk v t m occ e = Ok r ->
    (hoppable codes occ e -> 0 < r) /\ (~ hoppable codes occ e -> r = 0).
  Proof.
    intros Hv Hcodes H. apply rate_inv in H as (codes' & d & Hc & Hd & H). ok_eq; simplify_eq.
    rewrite <-(direction_hoppable _ _ _ _ Hd).
    destruct H as [[-> ->]|(Hne & kra & ek & delta & _ & _ & _ & _ & ->)].
    - split; done.
    - split; [|done]. intros _. apply Rmult_lt_0_compat; [done|apply exp_pos].
  Qed.

  Lemma rate_nonneg c lk v t m occ e r :
    0 <= v -> rate c lk v t m occ e = Ok r -> 0 <= r.
  Proof.
    intros Hv H. apply rate_inv in H as (codes & d & _ & _ & H).
    destruct H as [[_ ->]|(_ & kra & ek & delta & _ & _ & _ & _ & ->)]; [lra|].
    apply Rmult_le_pos; [done|]. left. apply exp_pos.
  Qed.

  Lemma rate_total_lemma c lk v t m occ e codes d kra ek delta :
    event_codes lk e = Ok codes -> event_direction occ e codes = Ok d ->
    kra_model c = Some kra -> Rcompute kra occ e = Ok ek ->
    site_energy_difference ext_compute c m occ e d = Ok delta -> 0 < t ->
    rate c lk v t m occ e =
    Ok (if (d =? 0)%Z then 0 else v * exp (- (ek + delta / 2) / (k_B * t))).
  Proof.
    intros Hc Hd Hk Hek Hdl Ht. unfold compute_probability. rewrite Hc. simpl. rewrite Hd. simpl.
    destruct (d =? 0)%Z; [done|]. rewrite Hk, Hek. simpl. rewrite Hdl. simpl.
    destruct (Req_EM_T _ _) as [Hz|]; [|done]. pose proof k_B_pos.
    pose proof (Rmult_lt_0_compat _ _ k_B_pos Ht). lra.
  Qed.

  Lemma detailed_balance_lemma c lk v t m occ f tt env occ' r r' codes d dE m' :
    let e := Event [f; tt] env in
    lce_only c -> 0 < v -> 0 < t -> (0 <= f)%Z -> (0 <= tt)%Z -> f <> tt ->
    (forall s, s ∈ env -> (0 <= s)%Z) ->
    f ∉ env -> tt ∉ env ->
    event_codes lk e = Ok codes -> endpoint_consistent codes ->
    event_direction occ e codes = Ok d -> d <> 0%Z ->
    swap_occupations occ e = Ok occ' ->
    site_energy_difference ext_compute c m occ e d = Ok dE ->
    rate c lk v t m occ e = Ok r -> rate c lk v t m' occ' e = Ok r' ->
    0 < r' /\ r / r' = exp (- dE / (k_B * t)).
  Proof.
    intros e Hlce Hv Ht Hf Htt Hne Henv Hfe Hte Hcodes Hcons Hd Hd0 Hsw HdE Hr Hr'.
    destruct (hop_undone_lemma _ _ _ _ _ _ _ Hf Htt Hne Hcons Hd Hd0 Hsw) as [Hd' _].
    assert (Hread : forall s, s ∈ local_env_indices e -> py_get occ' s = py_get occ s).
    { intros s Hs. simpl in Hs. pose proof (Henv s Hs) as Hs0.
      assert (Hlk : occ' !! Z.to_nat s = occ !! Z.to_nat s).
      { eapply swap_others; [exact Hf|exact Htt|exact Hsw| |].
        - intros Heq. apply Hfe. replace f with s by lia. done.
        - intros Heq. apply Hte. replace tt with s by lia. done. }
      apply py_get_same; [done|by eapply swap_length|done]. }
    apply rate_inv in Hr as (c1 & d1 & Hc1 & Hd1 & Hr).
    apply rate_inv in Hr' as (c2 & d2 & Hc2 & Hd2 & Hr'). ok_eq; simplify_eq.
    destruct Hr as [[? _]|(_ & kra & ek & delta & Hkra & Hek & Hdl & Hkt & ->)]; [done|].
    destruct Hr' as [[? _]|(_ & kra2 & ek2 & delta2 & Hkra2 & Hek2 & Hdl2 & _ & ->)]; [lia|].
    ok_eq; simplify_eq.
    rewrite (lce_reads_environment kra _ _ _ Hread) in Hek2. ok_eq; simplify_eq.
    assert (delta2 = - delta).
    { unfold site_energy_difference in *. destruct (c_site c) as [|l|] eqn:Hs; [..|by contradict Hs].
      - ok_eq; simplify_eq. lra.
      - rewrite (lce_reads_environment l _ _ _ Hread) in Hdl2.
        destruct (Rcompute l occ e) as [x|]; [|done]. simpl in *. ok_eq; simplify_eq.
        rewrite opp_IZR. lra. }
    subst delta2. split; [apply Rmult_lt_0_compat; [done|apply exp_pos]|].
    pose proof (exp_pos (- (ek2 + - delta / 2) / (k_B * t))).
    replace (v * exp (- (ek2 + delta / 2) / (k_B * t)) / (v * exp (- (ek2 + - delta / 2) / (k_B * t))))
      with (exp (- (ek2 + delta / 2) / (k_B * t)) * / exp (- (ek2 + - delta / 2) / (k_B * t))).
    2:{ field. lra. }
    rewrite <-exp_Ropp, <-exp_plus. f_equal. field. split; [|].
    - intros ->. apply Hkt. lra.
    - pose proof k_B_pos. lra.
  Qed.

  (** The composite model with LCE submodels only reads the event's own sites. *)
  Lemma composite_own_sites c lk v t :
    lce_only c -> reads_own_sites (rate c lk v t).
  Proof.
    intros Hlce m occ occ' e Hlen Hr Hs.
    assert (Hg : forall s, touches e s -> py_get occ' s = py_get occ s).
    { intros s Ht. specialize (Hs s Ht). specialize (Hr s Ht).
      destruct (lookup_lt_is_Some_2 occ (Z.to_nat s)) as [x Hx]; [lia|].
      rewrite (proj2 (py_get_nonneg occ s x ltac:(lia)) Hx).
      rewrite Hx in Hs. apply py_get_nonneg; [lia|done]. }
    assert (Henv : forall s, s ∈ local_env_indices e -> py_get occ' s = py_get occ s).
    { intros s Hse. apply Hg. by right. }
    unfold compute_probability. destruct (event_codes lk e) as [codes|]; [|done]. simpl.
    assert (Hd : event_direction occ' e codes = event_direction occ e codes).
    { unfold event_direction. destruct (unpack2 (mobile_ion_indices e)) as [[f g]|] eqn:Hu; [|done].
      apply unpack2_ok in Hu. simpl. rewrite !Hg; [done|left; rewrite Hu; set_solver..]. }
    rewrite Hd. destruct (event_direction occ e codes) as [d|]; [|done]. simpl.
    destruct (d =? 0)%Z; [done|]. destruct (kra_model c) as [kra|]; [|done].
    rewrite (lce_reads_environment kra _ _ _ Henv).
    destruct (Rcompute kra occ e); [|done]. simpl.
    unfold site_energy_difference. destruct (c_site c) as [|l|] eqn:Hl; [done| |by contradict Hl].
    rewrite (lce_reads_environment l _ _ _ Henv). done.
  Qed.

  Lemma composite_stateless c m e occ m' :
    lce_only c -> composite_apply ext_apply c m e occ = Ok m' -> m' = m.
  Proof.
    unfold lce_only, composite_apply. intros Hc.
    destruct (c_site c); [by intros [= <-]..|done].
  Qed.

  Notation kconstruct c lk v t init :=
    (construct Rplus (composite_initialize ext_initialize c init) (rate c lk v t)).
  Notation kupdates c lk v t := (updates Rplus (composite_apply ext_apply c) (rate c lk v t)).

  Lemma composite_fresh_lemma c lk v t init lib st k hist k' :
    lce_only c ->
    exact_dependencies (events lib) (get_dependent_events lib) ->
    indices_in_range (events lib) (length (occupations st)) ->
    kconstruct c lk v t init lib lk st = Ok k ->
    kupdates c lk v t k hist = Ok k' ->
    fresh (rate c lk v t) k'.
  Proof.
    intros Hc Hx Hr Hk Hu. eapply fresh_always_lemma; [exact Hx| |exact Hk|exact Hu].
    apply own_sites_local; [done| |by apply composite_own_sites].
    intros m e occ m'. by apply composite_stateless.
  Qed.

  Lemma only_hoppable_lemma c lk v t init lib st k hist k' u1 u2 e dt :
    lce_only c -> 0 < v ->
    exact_dependencies (events lib) (get_dependent_events lib) ->
    indices_in_range (events lib) (length (occupations st)) ->
    kconstruct c lk v t init lib lk st = Ok k ->
    kupdates c lk v t k hist = Ok k' ->
    0 <= u1 < 1 -> propose Rselect k' u1 u2 = Ok (e, dt) ->
    exists codes, event_codes lk e = Ok codes /\ hoppable codes (occupations (k_state k')) e.
  Proof.
    intros Hc Hv Hx Hr Hk Hu Hu1 Hp.
    pose proof (composite_fresh_lemma _ _ _ _ _ _ _ _ _ _ Hc Hx Hr Hk Hu) as [Hlen Hfresh].
    assert (Hnn : forall m occ e r, rate c lk v t m occ e = Ok r -> 0 <= r).
    { intros m occ e' r'. apply rate_nonneg. lra. }
    assert (Hok : rates_ok k').
    { eapply updates_rates_ok; [exact Hnn| |exact Hu]. eapply construct_rates_ok; [exact Hnn|exact Hk]. }
    destruct (propose_positive _ _ _ _ _ Hok Hu1 Hp) as (i & x & Hi & Hxi & Hpos & _).
    destruct (Hfresh i e Hi) as (r & Hri & Hrate). ok_eq; simplify_eq.
    pose proof Hrate as Hrate'. apply rate_inv in Hrate' as (codes & d & Hcodes & _).
    exists codes. split; [done|].
    destruct (rate_positive_lemma _ _ _ _ _ _ _ _ _ Hv Hcodes Hrate) as [_ H0].
    pose proof Hrate as Hi2. apply rate_inv in Hi2 as (c2 & d2 & Hc2 & Hd2 & Hor). ok_eq; simplify_eq.
    apply (direction_hoppable _ _ _ _ Hd2). destruct Hor as [[_ ->]|[? _]]; [lra|done].
  Qed.
End Composite.
