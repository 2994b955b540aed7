(** Proofs about event selection over the reals. *)
From Coq Require Import Reals Lra.
From Verif Require Import Py PyLemmas KmcModel KmcSpec KmcProofs ProposeModel ProposeSpec.
Local Open Scope nat_scope.

Section Bisect.
  Context {T : Type}.
  Variable leb : T -> T -> bool.

  (** On an array whose entries [<= v] form a prefix, bisection returns the length of
      that prefix. *)
  Lemma bisect_prefix a v c : forall fuel lo hi,
    (forall i x, a !! i = Some x -> (leb x v = true <-> i < c)) ->
    lo <= c -> c <= hi -> hi <= length a -> hi - lo < fuel ->
    bisect_right leb fuel a v lo hi = Ok c.
  Proof.
    induction fuel as [|fuel IH]; intros lo hi Hp Hlo Hhi Hlen Hf; [lia|]. cbn [bisect_right].
    destruct (Nat.ltb_spec lo hi) as [Hlt|Hge]; [|f_equal; lia].
    pose proof (Nat.div_mod (lo + hi) 2 ltac:(lia)) as Hdm.
    pose proof (Nat.mod_upper_bound (lo + hi) 2 ltac:(lia)).
    set (mid := (lo + hi) / 2) in *.
    assert (Hmid : lo <= mid < hi) by lia.
    destruct (lookup_lt_is_Some_2 a mid) as [x Hx]; [lia|]. rewrite Hx.
    destruct (leb x v) eqn:E.
    - apply (Hp mid x Hx) in E. apply IH; [done|lia..].
    - apply IH; [done|lia| |lia|lia].
      destruct (decide (mid < c)) as [Hm|Hm]; [|lia].
      apply (Hp mid x Hx) in Hm. congruence.
  Qed.

  Lemma searchsorted_prefix a v c :
    (forall i x, a !! i = Some x -> (leb x v = true <-> i < c)) -> c <= length a ->
    searchsorted_right leb a v = Ok c.
  Proof. intros H Hc. apply bisect_prefix; [done|lia..]. Qed.

  (** The number of entries [<= v] at the front. *)
  Fixpoint front (v : T) (a : list T) : nat :=
    match a with
    | [] => 0
    | x :: a' => if leb x v then S (front v a') else 0
    end.

  Lemma front_prefix v a :
    (forall i x y, a !! i = Some x -> a !! S i = Some y -> leb y v = true -> leb x v = true) ->
    front v a <= length a /\
    forall i x, a !! i = Some x -> (leb x v = true <-> i < front v a).
  Proof.
    induction a as [|z a IH]; intros Hm; simpl.
    { split; [lia|]. intros i x H. by rewrite lookup_nil in H. }
    assert (Hm' : forall i x y, a !! i = Some x -> a !! S i = Some y ->
      leb y v = true -> leb x v = true).
    { intros i x y Hx Hy. apply (Hm (S i) x y); done. }
    specialize (IH Hm') as [Hl Hi]. destruct (leb z v) eqn:E.
    - split; [lia|]. intros [|i] x Hx; simpl in Hx.
      + injection Hx as <-. split; [lia|done].
      + rewrite (Hi i x Hx). lia.
    - split; [lia|]. intros i x Hx. split; [|lia]. intros Hle. exfalso.
      clear Hi. revert x Hx Hle. induction i as [|i IHi]; intros x Hx Hle.
      + simpl in Hx. congruence.
      + destruct (lookup_lt_is_Some_2 (z :: a) i) as [w Hw].
        { apply lookup_lt_Some in Hx. lia. }
        eapply IHi; [exact Hw|]. eapply Hm; eauto.
  Qed.

  Lemma searchsorted_monotone a v :
    (forall i x y, a !! i = Some x -> a !! S i = Some y -> leb y v = true -> leb x v = true) ->
    exists c, searchsorted_right leb a v = Ok c /\ c <= length a /\
      forall i x, a !! i = Some x -> (leb x v = true <-> i < c).
  Proof.
    intros H. destruct (front_prefix v a H) as [H1 H2].
    exists (front v a). split; [by apply searchsorted_prefix|done].
  Qed.
End Bisect.

Local Open Scope R_scope.

Lemma Rleb_true x y : Rleb x y = true <-> x <= y.
Proof. unfold Rleb. destruct (Rle_dec x y); split; auto; discriminate. Qed.

Lemma rate_before_S p i x : p !! i = Some x -> rate_before p (S i) = rate_before p i + x.
Proof.
  unfold rate_before. revert i; induction p as [|y p IH]; intros [|i] H; simpl in H.
  - discriminate.
  - discriminate.
  - injection H as ->. simpl. destruct p; simpl; lra.
  - cbn [take total_rate]. rewrite (IH i H). simpl. lra.
Qed.

Lemma rate_before_full p i : (length p <= i)%nat -> rate_before p i = total_rate p.
Proof. intros H. unfold rate_before. by rewrite take_ge. Qed.

Lemma cumsum_R p i s :
  cumsum Rplus p !! i = Some s <-> ((i < length p)%nat /\ s = rate_before p (S i)).
Proof.
  pose proof (cumsum_spec Rplus p) as (Hlen & Hhd & Hstep).
  revert s. induction i as [|i IH]; intros s.
  - destruct p as [|x p]; simpl.
    + split; [done|]. intros [H _]. lia.
    + unfold rate_before. simpl. rewrite Rplus_0_r. split.
      * intros [= <-]. split; [lia|done].
      * intros [_ ->]. done.
  - destruct (decide (S i < length p)%nat) as [Hi|Hi].
    2:{ split; [|lia]. intros H. apply lookup_lt_Some in H. lia. }
    destruct (lookup_lt_is_Some_2 p (S i)) as [x Hx]; [done|].
    assert (Hprev : cumsum Rplus p !! i = Some (rate_before p (S i))).
    { apply IH. split; [lia|done]. }
    rewrite (Hstep _ _ _ Hprev Hx), (rate_before_S p (S i) x Hx). split.
    + intros [= <-]. done.
    + intros [_ ->]. done.
Qed.

Lemma cumsum_last_R p : last (cumsum Rplus p) = match p with [] => None | _ => Some (total_rate p) end.
Proof.
  destruct p as [|x p]; [done|].
  pose proof (cumsum_spec Rplus (x :: p)) as (Hlen & _).
  rewrite last_lookup, Hlen. simpl length. simpl pred.
  apply cumsum_R. split; [simpl; lia|]. rewrite rate_before_full; [done|simpl; lia].
Qed.

Lemma rate_before_mono p i j :
  all_nonneg p -> (i <= j)%nat -> rate_before p i <= rate_before p j.
Proof.
  intros Hp Hij. induction Hij as [|j Hij IH]; [lra|].
  destruct (p !! j) as [x|] eqn:E.
  - rewrite (rate_before_S _ _ _ E). unfold all_nonneg in Hp.
    rewrite Forall_lookup in Hp. specialize (Hp j x E). lra.
  - apply lookup_ge_None in E. rewrite (rate_before_full p (S j)) by lia.
    rewrite (rate_before_full p j) in IH by lia. lra.
Qed.

Lemma Rselect_lemma p u1 u2 i dt :
  all_nonneg p -> 0 < total_rate p -> 0 <= u1 ->
  Rselect (cumsum Rplus p) u1 u2 = Ok (i, dt) ->
  dt = Rwaiting (total_rate p) u2 /\
  (i <= length p)%nat /\
  rate_before p i <= u1 * total_rate p /\
  ((i < length p)%nat -> u1 * total_rate p < rate_before p (S i)).
Proof.
  intros Hp Ht Hu H. unfold Rselect, select_event in H. rewrite cumsum_last_R in H.
  destruct p as [|x0 p0]; [simpl in Ht; lra|]. set (p := x0 :: p0) in *.
  unfold Rzero in H. destruct (Req_EM_T _ _) as [E|_]; [lra|].
  apply rbind_ok in H as (c & Hc & [= -> <-]). split; [done|].
  pose proof (searchsorted_monotone Rleb
    (map (fun c => c / total_rate p) (cumsum Rplus p)) u1) as Hs.
  destruct Hs as (c & Hc' & Hle & Hi).
  { intros k a b Ha Hb. rewrite !Rleb_true. rewrite !list_lookup_fmap in Ha, Hb.
    apply fmap_Some in Ha as (sa & Ha & ->). apply fmap_Some in Hb as (sb & Hb & ->).
    apply cumsum_R in Ha as [_ ->]. apply cumsum_R in Hb as [_ ->].
    pose proof (rate_before_mono p (S k) (S (S k)) Hp ltac:(lia)).
    intros Hab. eapply Rle_trans; [|exact Hab]. apply Rmult_le_compat_r; [|done].
    left. by apply Rinv_0_lt_compat. }
  rewrite Hc in Hc'. injection Hc' as <-.
  pose proof (cumsum_spec Rplus p) as (Hlen & _). rewrite map_length, Hlen in Hle.
  split; [done|].
  assert (Hk : forall k, (k < length p)%nat ->
    (rate_before p (S k) <= u1 * total_rate p <-> (k < i)%nat)).
  { intros k Hk. rewrite <- (Hi k (rate_before p (S k) / total_rate p)).
    - rewrite Rleb_true. split; intros H.
      + apply (Rmult_le_reg_r (total_rate p)); [done|]. unfold Rdiv.
        rewrite Rmult_assoc, Rinv_l by lra. lra.
      + apply (Rmult_le_compat_r (total_rate p)) in H; [|lra]. unfold Rdiv in H.
        rewrite Rmult_assoc, Rinv_l in H by lra. lra.
    - rewrite list_lookup_fmap. rewrite (proj2 (cumsum_R p k (rate_before p (S k)))); done. }
  split.
  - destruct i as [|i].
    + change (rate_before p 0) with 0. apply Rmult_le_pos; lra.
    + apply Hk; lia.
  - intros Hil. destruct (Rlt_le_dec (u1 * total_rate p) (rate_before p (S i))) as [|Hge]; [done|].
    apply Hk in Hge; lia.
Qed.

Lemma Rselect_total p u1 u2 :
  all_nonneg p -> 0 < total_rate p -> 0 <= u1 < 1 ->
  exists i x, Rselect (cumsum Rplus p) u1 u2 = Ok (i, Rwaiting (total_rate p) u2) /\
    p !! i = Some x /\ 0 < x /\
    rate_before p i <= u1 * total_rate p < rate_before p (S i).
Proof.
  intros Hp Ht Hu.
  assert (Hex : exists i dt, Rselect (cumsum Rplus p) u1 u2 = Ok (i, dt)).
  { unfold Rselect, select_event. rewrite cumsum_last_R.
    destruct p as [|x0 p0]; [simpl in Ht; lra|]. set (p := x0 :: p0) in *.
    unfold Rzero. destruct (Req_EM_T _ _) as [E|_]; [lra|].
    destruct (searchsorted_monotone Rleb
      (map (fun c => c / total_rate p) (cumsum Rplus p)) u1) as (c & Hc' & _).
    { intros k a b Ha Hb. rewrite !Rleb_true. rewrite !list_lookup_fmap in Ha, Hb.
      apply fmap_Some in Ha as (sa & Ha & ->). apply fmap_Some in Hb as (sb & Hb & ->).
      apply cumsum_R in Ha as [_ ->]. apply cumsum_R in Hb as [_ ->].
      pose proof (rate_before_mono p (S k) (S (S k)) Hp ltac:(lia)).
      intros Hab. eapply Rle_trans; [|exact Hab]. apply Rmult_le_compat_r; [|done].
      left. by apply Rinv_0_lt_compat. }
    rewrite Hc'. simpl. eauto. }
  destruct Hex as (i & dt & H).
  destruct (Rselect_lemma _ _ _ _ _ Hp Ht (proj1 Hu) H) as (-> & Hle & H1 & H2).
  destruct (decide (i < length p)%nat) as [Hi|Hi].
  - destruct (lookup_lt_is_Some_2 p i) as [x Hx]; [done|].
    specialize (H2 Hi). pose proof (rate_before_S _ _ _ Hx).
    exists i, x. repeat split; try done. lra.
  - rewrite rate_before_full in H1 by lia. nra.
Qed.

Lemma selection_interval_lemma p u1 u2 i :
  all_nonneg p -> 0 < total_rate p -> 0 <= u1 < 1 ->
  ((exists dt, Rselect (cumsum Rplus p) u1 u2 = Ok (i, dt)) <->
   (i < length p)%nat /\
   rate_before p i / total_rate p <= u1 < rate_before p (S i) / total_rate p).
Proof.
  intros Hp Ht Hu.
  destruct (Rselect_total p u1 u2 Hp Ht Hu) as (j & x & Hsel & Hx & Hx0 & Hj1 & Hj2).
  assert (Hconv : forall k, rate_before p k / total_rate p <= u1 <-> rate_before p k <= u1 * total_rate p).
  { intros k. split; intros H.
    - apply (Rmult_le_compat_r (total_rate p)) in H; [|lra]. unfold Rdiv in H.
      rewrite Rmult_assoc, Rinv_l in H by lra. lra.
    - apply (Rmult_le_reg_r (total_rate p)); [done|]. unfold Rdiv.
      rewrite Rmult_assoc, Rinv_l by lra. lra. }
  split.
  - intros (dt & H). rewrite Hsel in H. injection H as -> _. split; [by eapply lookup_lt_Some|].
    split; [by apply Hconv|]. apply Rnot_le_lt. rewrite Hconv. lra.
  - intros (Hi & H1 & H2). apply Hconv in H1.
    assert (H2' : u1 * total_rate p < rate_before p (S i)).
    { apply Rnot_le_lt. rewrite <- Hconv. lra. }
    assert (i = j) as ->; [|eauto].
    destruct (lt_eq_lt_dec i j) as [[Hlt|]|Hlt]; [|done|].
    + pose proof (rate_before_mono p (S i) j Hp ltac:(lia)). lra.
    + pose proof (rate_before_mono p (S j) i Hp ltac:(lia)). lra.
Qed.

Lemma interval_length_lemma p i x :
  0 < total_rate p -> p !! i = Some x ->
  rate_before p (S i) / total_rate p - rate_before p i / total_rate p = x / total_rate p.
Proof. intros Ht Hx. rewrite (rate_before_S _ _ _ Hx). field. lra. Qed.

Lemma waiting_lemma total u t :
  0 < total -> 0 < u < 1 -> 
  0 < Rwaiting total u /\ (0 <= t -> (t < Rwaiting total u <-> u < exp (- (total * t)))).
Proof.
  intros Ht Hu. unfold Rwaiting.
  assert (Hln : ln u < 0). { rewrite <- ln_1. apply ln_increasing; lra. }
  assert (Heq : -1 / total * ln u = (- ln u) / total) by (field; lra).
  rewrite Heq. split.
  - apply Rdiv_lt_0_compat; lra.
  - intros Ht0. split; intros H.
    + apply (Rmult_lt_compat_r total) in H; [|done]. unfold Rdiv in H.
      rewrite Rmult_assoc, Rinv_l in H by lra.
      rewrite <- (exp_ln u) by lra. apply exp_increasing. lra.
    + apply (Rmult_lt_reg_r total); [done|]. unfold Rdiv.
      rewrite Rmult_assoc, Rinv_l by lra.
      apply (ln_increasing u) in H; [|lra]. rewrite ln_exp in H. lra.
Qed.

Lemma zero_total_lemma p u1 u2 :
  p <> [] -> total_rate p = 0 -> Rselect (cumsum Rplus p) u1 u2 = Err ZeroDivisionError.
Proof.
  intros Hp Ht. unfold Rselect, select_event. rewrite cumsum_last_R.
  destruct p as [|x p]; [done|]. unfold Rzero. destruct (Req_EM_T _ _); done.
Qed.
