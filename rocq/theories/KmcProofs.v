(** Proofs about the simulation engine. *)
From Verif Require Import Py PyLemmas Json ActiveSiteModel EventModel EventSpec EventProofs
  StateModel StateProofs HopModel KmcModel KmcSpec.
Local Open Scope nat_scope.

Lemma py_get_nat {A} (l : list A) n x : py_get l (Z.of_nat n) = Ok x <-> l !! n = Some x.
Proof. rewrite py_get_nonneg by lia. by rewrite Nat2Z.id. Qed.

Lemma py_set_nat {A} (l l' : list A) n x :
  py_set l (Z.of_nat n) x = Ok l' <-> n < length l /\ l' = <[n := x]> l.
Proof.
  destruct (decide (n < length l)) as [Hn|Hn].
  - rewrite py_set_ok by lia. rewrite Nat2Z.id. split; [intros [= <-]; done|].
    intros [_ ->]; done.
  - split; [|lia]. unfold py_set. intros H.
    destruct (py_norm (length l) (Z.of_nat n)) as [k|] eqn:E; [|discriminate].
    pose proof (py_norm_lt _ _ _ E). unfold py_norm in E.
    rewrite (proj2 (Z.leb_le 0 (Z.of_nat n))) in E by lia.
    destruct (_ <? _)%Z eqn:E2; [|discriminate].
    apply Z.ltb_lt in E2. lia.
Qed.

Section KmcProofs.
  Context {T M : Type}.
  Variable zero : T.
  Variable add : T -> T -> T.
  Variable model_initialize : list Z -> event_lib -> result M.
  Variable model_apply : M -> event -> list Z -> result M.
  Variable compute_probability : M -> list Z -> event -> result T.
  Variable select : list T -> T -> T -> result (nat * T).

  Notation update := (update add model_apply compute_probability).
  Notation updates := (updates add model_apply compute_probability).
  Notation construct := (construct add model_initialize compute_probability).
  Notation fresh := (fresh compute_probability).
  Notation refresh := (refresh compute_probability).
  Notation propose := (propose select).
  Notation walk := (walk add model_apply compute_probability select).

  (* ---------------- running sums ---------------- *)
  Lemma cumsum_from_spec acc l :
    length (cumsum_from add acc l) = length l /\
    (forall x, l !! 0 = Some x -> cumsum_from add acc l !! 0 = Some (add acc x)) /\
    forall i s x, cumsum_from add acc l !! i = Some s -> l !! S i = Some x ->
      cumsum_from add acc l !! S i = Some (add s x).
  Proof.
    revert acc; induction l as [|y l IH]; intros acc; simpl.
    { split; [done|]. split; [done|]. intros i s x H _. by rewrite lookup_nil in H. }
    destruct (IH (add acc y)) as (H1 & H2 & H3).
    split; [by rewrite H1|]. split; [by intros x [= ->]|].
    intros [|i] s x Hs Hx; simpl in *; [injection Hs as <-; auto|eauto].
  Qed.

  Lemma cumsum_spec p : running_sums add p (cumsum add p).
  Proof.
    unfold running_sums. destruct p as [|x l]; simpl.
    { split; [done|]. split; [done|]. intros i s x H. by rewrite lookup_nil in H. }
    destruct (cumsum_from_spec x l) as (H1 & H2 & H3).
    split; [by rewrite H1|]. split; [done|].
    intros [|i] s y Hs Hy; simpl in *; [injection Hs as <-; auto|eauto].
  Qed.

  (* ---------------- one update ---------------- *)
  Lemma refresh_fold lib m occ deps p p' :
    rfold (refresh lib m occ) p deps = Ok p' ->
    length p' = length p /\
    forall j, (j ∈ deps -> exists e r, events lib !! j = Some e /\
                 compute_probability m occ e = Ok r /\ p' !! j = Some r) /\
              (j ∉ deps -> p' !! j = p !! j).
  Proof.
    revert p. induction deps as [|d deps IH]; intros p H; simpl in H.
    { injection H as <-. split; [done|]. intros j. split; [|done].
      intros Hj. by apply elem_of_nil in Hj. }
    apply rbind_ok in H as (p1 & H1 & H).
    unfold KmcModel.refresh in H1.
    apply rbind_ok in H1 as (e & He & H1). apply rbind_ok in H1 as (r & Hr & H1).
    apply py_get_nat in He. apply py_set_nat in H1 as [Hd ->].
    destruct (IH _ H) as [Hlen Hj]. rewrite insert_length in Hlen. split; [done|].
    intros j. destruct (Hj j) as [Ha Hb]. split.
    - intros Hin. destruct (decide (j ∈ deps)) as [Hin'|Hni]; [auto|].
      apply elem_of_cons in Hin as [->|Hin]; [|done].
      exists e, r. split; [done|]. split; [done|]. rewrite Hb by done.
      by apply list_lookup_insert.
    - intros Hni. apply not_elem_of_cons in Hni as [Hne Hni].
      rewrite Hb by done. by apply list_lookup_insert_ne.
  Qed.

  Lemma update_inv k e dt k' :
    update k e dt = Ok k' ->
    k_lib k' = k_lib k /\ k_lookup k' = k_lookup k /\
    swap_occupations (occupations (k_state k)) e = Ok (occupations (k_state k')) /\
    time (k_state k') = add (time (k_state k)) dt /\
    step (k_state k') = (step (k_state k) + 1)%Z /\
    model_apply (k_model k) e (occupations (k_state k')) = Ok (k_model k') /\
    e ∈ events (k_lib k) /\
    (exists i, events (k_lib k) !! i = Some e /\
       rfold (refresh (k_lib k) (k_model k') (occupations (k_state k'))) (k_prob k)
         (get_dependent_events (k_lib k) i) = Ok (k_prob k')) /\
    k_cum k' = cumsum add (k_prob k').
  Proof.
    unfold KmcModel.update. intros H. apply rbind_ok in H as (st & Hst & H).
    apply rbind_ok in H as (m & Hm & H). apply rbind_ok in H as (i & Hi & H).
    apply rbind_ok in H as (p & Hp & [= <-]). simpl.
    unfold apply_event in Hst. apply rbind_ok in Hst as (occ & Hocc & [= <-]).
    simpl in *. apply list_index_ok in Hi as [Hi _].
    repeat split; try done.
    - by eapply elem_of_list_lookup_2.
    - exists i. done.
  Qed.

  Lemma update_fresh_step k e dt k' :
    exact_dependencies (events (k_lib k)) (get_dependent_events (k_lib k)) ->
    (forall e', e' ∈ events (k_lib k) -> ~ share_site e e' ->
       compute_probability (k_model k') (occupations (k_state k')) e' =
       compute_probability (k_model k) (occupations (k_state k)) e') ->
    fresh k -> update k e dt = Ok k' -> fresh k'.
  Proof.
    intros Hdep Hloc [Hlen Hfr] Hu.
    apply update_inv in Hu as (Hlib & _ & Hsw & _ & _ & Hm & Hin & (i & Hi & Hp) & _).
    destruct (refresh_fold _ _ _ _ _ _ Hp) as [Hlen' Hj].
    unfold KmcSpec.fresh. rewrite Hlib. split; [lia|].
    intros j ej Hej. destruct (Hj j) as [Ha Hb].
    destruct (Hdep i e Hi) as [_ Hex].
    destruct (decide (j ∈ get_dependent_events (k_lib k) i)) as [Hd|Hd].
    - destruct (Ha Hd) as (e2 & r & He2 & Hr & Hpr). simplify_eq. eauto.
    - destruct (Hfr j ej Hej) as (r & Hr & Hc). exists r. rewrite Hb by done. split; [done|].
      rewrite <- Hc. apply Hloc; [by eapply elem_of_list_lookup_2|].
      intros Hs. apply Hd. apply Hex. eauto.
  Qed.

  Lemma update_fresh k e dt k' :
    exact_dependencies (events (k_lib k)) (get_dependent_events (k_lib k)) ->
    rates_local model_apply compute_probability (events (k_lib k))
      (length (occupations (k_state k))) ->
    fresh k -> update k e dt = Ok k' -> fresh k'.
  Proof.
    intros Hdep Hloc Hfr Hu. eapply update_fresh_step; [done| |done|done].
    pose proof (update_inv _ _ _ _ Hu) as (_ & _ & Hsw & _ & _ & Hm & Hin & _).
    intros e' He' Hns. eapply Hloc; [reflexivity|exact Hin|exact He'|exact Hsw|exact Hm|exact Hns].
  Qed.

  Lemma updates_inv (P : kmc T M -> Prop) :
    (forall k e dt k', P k -> update k e dt = Ok k' -> P k') ->
    forall hist k k', P k -> updates k hist = Ok k' -> P k'.
  Proof.
    intros Hstep hist. induction hist as [|[e dt] hist IH]; intros k k' HP H; simpl in H.
    - by injection H as <-.
    - apply rbind_ok in H as (k1 & H1 & H). eapply IH; [|exact H]. eapply Hstep; eauto.
  Qed.

  Lemma construct_inv lib lk st k :
    construct lib lk st = Ok k ->
    k_lib k = lib /\ k_lookup k = lk /\ k_state k = st /\ fresh k /\
    k_cum k = cumsum add (k_prob k).
  Proof.
    unfold KmcModel.construct. intros H. apply rbind_ok in H as (c & _ & H).
    apply rbind_ok in H as (m & Hm & H). apply rbind_ok in H as (p & Hp & [= <-]). simpl.
    repeat split; simpl; [by eapply rmapM_length|].
    intros i e He. destruct (rmapM_lookup_l _ _ _ _ _ Hp He) as (r & Hr & Hc). eauto.
  Qed.

  (** The invariant carried along histories. *)
  Definition engine_ok (lib : event_lib) (n : nat) (k : kmc T M) : Prop :=
    k_lib k = lib /\ length (occupations (k_state k)) = n /\ fresh k /\
    k_cum k = cumsum add (k_prob k).

  Lemma update_engine_ok lib n k e dt k' :
    exact_dependencies (events lib) (get_dependent_events lib) ->
    rates_local model_apply compute_probability (events lib) n ->
    engine_ok lib n k -> update k e dt = Ok k' -> engine_ok lib n k'.
  Proof.
    intros Hdep Hloc (<- & <- & Hfr & Hcum) Hu.
    pose proof (update_inv _ _ _ _ Hu) as (Hlib & _ & Hsw & _ & _ & _ & _ & _ & Hc).
    split; [done|]. split; [by eapply swap_length|]. split; [|done].
    by eapply update_fresh.
  Qed.

  Lemma fresh_always_lemma lib lk st k hist k' :
    exact_dependencies (events lib) (get_dependent_events lib) ->
    rates_local model_apply compute_probability (events lib) (length (occupations st)) ->
    construct lib lk st = Ok k -> updates k hist = Ok k' -> fresh k'.
  Proof.
    intros Hdep Hloc Hc Hu.
    apply construct_inv in Hc as (Hlib & _ & Hst & Hfr & Hcum).
    assert (H : engine_ok lib (length (occupations st)) k').
    { eapply updates_inv; [|  |exact Hu].
      - intros k1 e dt k2 H1 H2. eapply update_engine_ok; eauto.
      - unfold engine_ok. by subst. }
    apply H.
  Qed.

  (** Own-site rates are local. *)
  Lemma own_sites_local lib n :
    indices_in_range (events lib) n ->
    (forall m e occ m', model_apply m e occ = Ok m' -> m' = m) ->
    reads_own_sites compute_probability ->
    rates_local model_apply compute_probability (events lib) n.
  Proof.
    clear zero add model_initialize select.
    intros Hr Hm Hown m occ e occ' m' e' Hlen He He' Hsw Ha Hns.
    apply Hm in Ha as ->. apply Hown; [by eapply swap_length|intros s Hs; rewrite Hlen; by eapply Hr|].
    intros s Hs. pose proof (swap_spec _ _ _ Hsw) as (f & t & _ & _ & _ & _ & Hft & _).
    destruct e as [mi env]. simpl in Hft. subst mi.
    assert (Hf : (0 <= f < Z.of_nat n)%Z). { eapply Hr; [exact He|]. left. simpl. set_solver. }
    assert (Ht : (0 <= t < Z.of_nat n)%Z). { eapply Hr; [exact He|]. left. simpl. set_solver. }
    assert (Hsr : (0 <= s < Z.of_nat n)%Z). { eapply Hr; [exact He'|done]. }
    assert (Hne : s <> f /\ s <> t).
    { split; intros ->; apply Hns; eexists; (split; [|exact Hs]); left; simpl; set_solver. }
    eapply swap_others; [| |exact Hsw| |]; lia.
  Qed.

  Lemma update_cum k e dt k' :
    update k e dt = Ok k' -> running_sums add (k_prob k') (k_cum k').
  Proof.
    intros H. apply update_inv in H as (_ & _ & _ & _ & _ & _ & _ & _ & ->).
    apply cumsum_spec.
  Qed.

  Lemma cumulative_lemma lib lk st k hist k' :
    construct lib lk st = Ok k -> updates k hist = Ok k' ->
    running_sums add (k_prob k') (k_cum k').
  Proof.
    intros Hc Hu. eapply (updates_inv (fun k => running_sums add (k_prob k) (k_cum k)));
      [| |exact Hu].
    - intros. by eapply update_cum.
    - apply construct_inv in Hc as (_ & _ & _ & _ & ->). apply cumsum_spec.
  Qed.

  (* ---------------- conservation ---------------- *)
  Lemma conservation_lemma k hist k' :
    updates k hist = Ok k' ->
    occupations (k_state k') ≡ₚ occupations (k_state k) /\
    step (k_state k') = (step (k_state k) + Z.of_nat (length hist))%Z /\
    time (k_state k') = fold_left add (map snd hist) (time (k_state k)).
  Proof.
    revert k. induction hist as [|[e dt] hist IH]; intros k H; simpl in H.
    { injection H as <-. split; [done|]. simpl. split; [lia|done]. }
    apply rbind_ok in H as (k1 & H1 & H). simpl in H1.
    apply update_inv in H1 as (_ & _ & Hsw & Ht & Hs & _).
    destruct (IH _ H) as (Hp & Hst & Htm). rewrite Hp. split; [by eapply swap_permutation|].
    simpl. split; [lia|]. by rewrite Htm, Ht.
  Qed.

  (* ---------------- the run ---------------- *)
  Lemma walk_snoc clock draws i k l k1 e dt k2 :
    walk clock draws i k l k1 ->
    propose k1 (fst (draws (i + length l))) (snd (draws (i + length l))) = Ok (e, dt) ->
    update k1 e (clock dt) = Ok k2 ->
    walk clock draws i k (l ++ [(e, dt)]) k2.
  Proof.
    induction 1 as [|i k e' dt' k' rest k'' Hp Hu Hw IH]; intros H1 H2.
    - simpl in H1. rewrite Nat.add_0_r in H1. econstructor; [done..|]. constructor.
    - simpl. econstructor; [done..|]. apply IH; [|done].
      simpl in H1. rewrite <- plus_n_Sm in H1. done.
  Qed.

  Lemma walk_updates clock draws i k l k' :
    walk clock draws i k l k' ->
    updates k (map (fun h => (fst h, clock (snd h))) l) = Ok k'.
  Proof.
    induction 1 as [|i k e dt k1 rest k2 Hp Hu Hw IH]; [done|].
    unfold KmcModel.updates. cbn [map rfold fst snd]. rewrite Hu. exact IH.
  Qed.

  Context {R : Type}.
  Variable tracker_create : state T -> option lookup -> result R.
  Variable tracker_update : R -> state T -> event -> result R.
  Variable tracker_sample : R -> state T -> result R.

  Lemma equilibrate_walk n i draws k k' :
    equilibrate zero add model_apply compute_probability select n i draws k = Ok k' ->
    exists l, walk (fun _ => zero) draws i k l k' /\ length l = n.
  Proof.
    revert i k. induction n as [|n IH]; intros i k H; simpl in H.
    { injection H as <-. exists []. split; [constructor|done]. }
    apply rbind_ok in H as ([e dt] & Hp & H). apply rbind_ok in H as (k1 & Hu & H).
    apply IH in H as (l & Hw & Hl). exists ((e, dt) :: l).
    split; [|simpl; lia]. econstructor; eauto.
  Qed.

  Lemma produce_walk n i draws k r k' r' :
    produce add model_apply compute_probability select tracker_update tracker_sample
      n i draws k r = Ok (k', r') ->
    exists l, walk (fun dt => dt) draws i k l k' /\ length l = n.
  Proof.
    revert i k r. induction n as [|n IH]; intros i k r H; simpl in H.
    { injection H as <- <-. exists []. split; [constructor|done]. }
    apply rbind_ok in H as ([e dt] & Hp & H). apply rbind_ok in H as (r1 & Ht & H).
    apply rbind_ok in H as (k1 & Hu & H). apply rbind_ok in H as (r2 & Hs & H).
    apply IH in H as (l & Hw & Hl). exists ((e, dt) :: l).
    split; [|simpl; lia]. econstructor; eauto.
  Qed.

  Lemma run_accounting_lemma eqp kp pl draws k k' r :
    (forall t, add t zero = t) ->
    run zero add model_apply compute_probability select tracker_create tracker_update
      tracker_sample eqp kp pl draws k = Ok (k', r) ->
    exists k1 eq prod,
      walk (fun _ => zero) draws 0 k eq k1 /\
      walk (fun dt => dt) draws (length eq) k1 prod k' /\
      length eq = Z.to_nat eqp * pl /\ length prod = Z.to_nat kp * pl /\
      step (k_state k') = (step (k_state k) + Z.of_nat (length eq + length prod))%Z /\
      time (k_state k1) = time (k_state k) /\
      time (k_state k') = fold_left add (map snd prod) (time (k_state k)).
  Proof.
    intros Hz H. unfold run in H.
    apply rbind_ok in H as (k1 & He & H). apply rbind_ok in H as (r0 & _ & H).
    apply equilibrate_walk in He as (eq & Hw1 & Hl1).
    apply produce_walk in H as (prod & Hw2 & Hl2).
    exists k1, eq, prod. rewrite Hl1. repeat (split; [done|]).
    pose proof (conservation_lemma _ _ _ (walk_updates _ _ _ _ _ _ Hw1)) as (_ & Hs1 & Ht1).
    pose proof (conservation_lemma _ _ _ (walk_updates _ _ _ _ _ _ Hw2)) as (_ & Hs2 & Ht2).
    rewrite !map_length in *. split; [lia|].
    rewrite map_map in Ht1, Ht2. simpl in Ht1, Ht2.
    assert (Hzero : forall (l : list (event * T)) t,
      fold_left add (map (fun _ => zero) l) t = t).
    { intros l. induction l as [|x l IH]; intros t; simpl; [done|]. by rewrite Hz. }
    rewrite Hzero in Ht1. rewrite Ht2, Ht1. done.
  Qed.
End KmcProofs.

(* ---------------- undoing a hop ---------------- *)
Lemma hop_undone_lemma occ f t env codes d occ' :
  (0 <= f)%Z -> (0 <= t)%Z -> f <> t -> endpoint_consistent codes ->
  event_direction occ (Event [f; t] env) codes = Ok d -> d <> 0%Z ->
  swap_occupations occ (Event [f; t] env) = Ok occ' ->
  event_direction occ' (Event [f; t] env) codes = Ok (- d)%Z /\
  swap_occupations occ' (Event [f; t] env) = Ok occ.
Proof.
  intros Hf Ht Hft Hc Hd Hd0 Hsw. split; [|by eapply swap_twice].
  apply swap_in_range_inv in Hsw as (x & y & Hx & Hy & -> & Hx' & Hy'); [|done..].
  unfold event_direction in *. simpl in *.
  rewrite (proj2 (py_get_nonneg occ f x Hf) Hx) in Hd. simpl in Hd.
  rewrite (proj2 (py_get_nonneg occ t y Ht) Hy) in Hd. simpl in Hd.
  rewrite (proj2 (py_get_nonneg _ f y Hf) Hx'). simpl.
  rewrite (proj2 (py_get_nonneg _ t x Ht) Hy'). simpl.
  injection Hd as <-. destruct codes as [[[a b] c] e]. destruct Hc as (<- & <- & Hab).
  unfold endpoint_direction_from_codes in *.
  destruct (Z.eqb_spec x a), (Z.eqb_spec y b), (Z.eqb_spec x b), (Z.eqb_spec y a);
    simpl in *; subst; done.
Qed.

Lemma accepted_event_lemma occ f t env occ' :
  (0 <= f)%Z -> (0 <= t)%Z ->
  swap_occupations occ (Event [f; t] env) = Ok occ' ->
  occ' !! Z.to_nat f = occ !! Z.to_nat t /\ occ' !! Z.to_nat t = occ !! Z.to_nat f /\
  forall k, k <> Z.to_nat f -> k <> Z.to_nat t -> occ' !! k = occ !! k.
Proof.
  intros Hf Ht H. pose proof (fun k => swap_others _ _ _ _ _ k Hf Ht H).
  apply swap_in_range_inv in H as (x & y & Hx & Hy & -> & Hx' & Hy'); [|done..].
  rewrite Hx', Hy', Hx, Hy. done.
Qed.
