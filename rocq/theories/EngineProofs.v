(** Proofs about the engine running on real numbers. *)
From Coq Require Import Reals Lra.
From Verif Require Import Py PyLemmas Json ActiveSiteModel EventModel EventSpec
  StateModel StateProofs HopModel KmcModel KmcSpec KmcProofs ProposeModel ProposeSpec
  ProposeProofs.
Local Open Scope R_scope.

Section Engine.
  Context {M : Type}.
  Variable model_initialize : list Z -> event_lib -> result M.
  Variable model_apply : M -> event -> list Z -> result M.
  Variable compute_probability : M -> list Z -> event -> result R.
  Hypothesis rates_nonneg : forall m occ e r, compute_probability m occ e = Ok r -> 0 <= r.

  Notation update := (update Rplus model_apply compute_probability).
  Notation updates := (updates Rplus model_apply compute_probability).
  Notation construct := (construct Rplus model_initialize compute_probability).
  Notation propose := (propose Rselect).
  Notation walk := (walk Rplus model_apply compute_probability Rselect).

  (** What every engine state satisfies. *)
  Definition rates_ok (k : kmc R M) : Prop :=
    all_nonneg (k_prob k) /\ k_cum k = cumsum Rplus (k_prob k) /\
    length (k_prob k) = length (events (k_lib k)).

  Lemma construct_rates_ok lib lk st k : construct lib lk st = Ok k -> rates_ok k.
  Proof.
    unfold KmcModel.construct. intros H. apply rbind_ok in H as (c & _ & H).
    apply rbind_ok in H as (m & Hm & H). apply rbind_ok in H as (p & Hp & [= <-]).
    unfold rates_ok. simpl. split; [|split; [done|by eapply rmapM_length]].
    unfold all_nonneg. apply Forall_lookup. intros i x Hx.
    destruct (rmapM_lookup _ _ _ _ _ Hp Hx) as (e & He & Hc). eauto.
  Qed.

  Lemma update_rates_ok k e dt k' : rates_ok k -> update k e dt = Ok k' -> rates_ok k'.
  Proof.
    intros (Hp & Hc & Hl) Hu.
    apply update_inv in Hu as (Hlib & _ & _ & _ & _ & _ & _ & (i & Hi & Hr) & Hcum).
    destruct (refresh_fold _ _ _ _ _ _ _ Hr) as [Hlen Hj].
    split; [|split; [done|rewrite Hlib; lia]].
    unfold all_nonneg in *. rewrite Forall_lookup in *. intros j x Hx.
    destruct (Hj j) as [Ha Hb].
    destruct (decide (j ∈ get_dependent_events (k_lib k) i)) as [Hd|Hd].
    - destruct (Ha Hd) as (e2 & r & _ & Hcp & Hx'). simplify_eq. eauto.
    - rewrite Hb in Hx by done. eauto.
  Qed.

  Lemma updates_rates_ok hist k k' : rates_ok k -> updates k hist = Ok k' -> rates_ok k'.
  Proof.
    intros Hk Hu. eapply (updates_inv Rplus model_apply compute_probability rates_ok);
      [|exact Hk|exact Hu].
    intros. eapply update_rates_ok; eauto.
  Qed.

  Lemma total_nonneg p : all_nonneg p -> 0 <= total_rate p.
  Proof. induction 1; simpl; lra. Qed.

  Lemma propose_positive k u1 u2 e dt :
    rates_ok k -> 0 <= u1 < 1 -> propose k u1 u2 = Ok (e, dt) ->
    exists i x, events (k_lib k) !! i = Some e /\ k_prob k !! i = Some x /\ 0 < x /\
      0 < total_rate (k_prob k) /\ dt = Rwaiting (total_rate (k_prob k)) u2.
  Proof.
    intros (Hp & Hc & Hl) Hu H. unfold KmcModel.propose in H.
    apply rbind_ok in H as ([i d] & Hs & H). apply rbind_ok in H as (e' & He & [= -> <-]).
    simpl in He. apply py_get_nat in He. rewrite Hc in Hs.
    assert (Ht : 0 < total_rate (k_prob k)).
    { pose proof (total_nonneg _ Hp). destruct (Req_dec (total_rate (k_prob k)) 0) as [Hz|]; [|lra].
      destruct (k_prob k) as [|x0 p0] eqn:E; [unfold Rselect, select_event in Hs; done|].
      rewrite zero_total_lemma in Hs; [discriminate|done|done]. }
    destruct (Rselect_total (k_prob k) u1 u2 Hp Ht Hu) as (j & x & Hs' & Hx & Hx0 & _).
    rewrite Hs in Hs'. injection Hs' as -> ->. exists j, x. done.
  Qed.

  Lemma propose_available k u1 u2 :
    rates_ok k -> 0 <= u1 < 1 -> 0 < total_rate (k_prob k) ->
    exists e dt, propose k u1 u2 = Ok (e, dt).
  Proof.
    intros (Hp & Hc & Hl) Hu Ht. unfold KmcModel.propose. rewrite Hc.
    destruct (Rselect_total (k_prob k) u1 u2 Hp Ht Hu) as (j & x & Hs' & Hx & Hx0 & _).
    rewrite Hs'. simpl. apply lookup_lt_Some in Hx.
    destruct (lookup_lt_is_Some_2 (events (k_lib k)) j) as [e He]; [lia|].
    rewrite (proj2 (py_get_nat _ _ _) He). simpl. eauto.
  Qed.

  Lemma walk_waits_positive clock draws i k l k' :
    (forall j, 0 <= fst (draws j) < 1 /\ 0 < snd (draws j) < 1) ->
    rates_ok k -> walk clock draws i k l k' ->
    Forall (fun h => 0 < snd h) l /\ rates_ok k'.
  Proof.
    intros Hd Hk Hw. induction Hw as [|i k e dt k1 rest k2 Hp Hu Hw IH]; [by split|].
    destruct (Hd i) as [Hd1 Hd2].
    destruct (propose_positive _ _ _ _ _ Hk Hd1 Hp) as (j & x & _ & _ & _ & Ht & ->).
    destruct IH as [IH1 IH2]; [by eapply update_rates_ok|].
    split; [|done]. constructor; [|done]. exact (proj1 (waiting_lemma _ _ 0 Ht Hd2)).
  Qed.

  Lemma fold_left_Rplus l t : fold_left Rplus l t = t + total_rate l.
  Proof.
    revert t; induction l as [|x l IH]; intros t; simpl; [lra|]. rewrite IH. lra.
  Qed.

  Lemma total_positive l : Forall (fun x => 0 < x) l -> 0 <= total_rate l /\ (l <> [] -> 0 < total_rate l).
  Proof.
    induction 1 as [|x l Hx Hl IH]; simpl; [split; [lra|done]|]. split; [|intros _]; lra.
  Qed.

  Context {TR : Type}.
  Variable tracker_create : state R -> option lookup -> result TR.
  Variable tracker_update : TR -> state R -> event -> result TR.
  Variable tracker_sample : TR -> state R -> result TR.

  Lemma run_time_lemma eqp kp pl draws k k' r :
    (forall j, 0 <= fst (draws j) < 1 /\ 0 < snd (draws j) < 1) ->
    rates_ok k ->
    run 0 Rplus model_apply compute_probability Rselect tracker_create tracker_update
      tracker_sample eqp kp pl draws k = Ok (k', r) ->
    exists waits, length waits = (Z.to_nat kp * pl)%nat /\ Forall (fun x => 0 < x) waits /\
      time (k_state k') = time (k_state k) + total_rate waits /\
      time (k_state k) <= time (k_state k') /\
      ((0 < Z.to_nat kp * pl)%nat -> time (k_state k) < time (k_state k')).
  Proof.
    intros Hd Hk H. apply run_accounting_lemma in H as (k1 & eq & prod & Hw1 & Hw2 & _ & Hl & _ & _ & Ht);
      [|intros; lra].
    destruct (walk_waits_positive _ _ _ _ _ _ Hd Hk Hw1) as [_ Hk1].
    destruct (walk_waits_positive _ _ _ _ _ _ Hd Hk1 Hw2) as [Hpos _].
    exists (map snd prod). rewrite fold_left_Rplus in Ht.
    assert (Hpos' : Forall (fun x => 0 < x) (map snd prod)) by (by apply Forall_fmap).
    destruct (total_positive _ Hpos') as [H1 H2].
    rewrite map_length. split; [done|]. split; [done|]. split; [done|].
    split; [lra|]. intros Hn. rewrite Ht.
    assert (map snd prod <> []). { destruct prod; [simpl in Hl; lia|done]. }
    specialize (H2 H). lra.
  Qed.
End Engine.
