(** Proofs about event selection in double arithmetic. *)
From Coq Require Import Reals Lra ZArith.
From Flocq Require Import Core BinarySingleNaN.
From Verif Require Import Py PyLemmas KmcModel KmcSpec KmcProofs ProposeModel ProposeProofs
  FloatModel FloatSpec.
Local Open Scope R_scope.

Notation fexp64 := (SpecFloat.fexp 53 1024).
Notation rnd := (round radix2 fexp64 (round_mode mode_NE)).

Lemma fexp_valid : Valid_exp fexp64.
Proof. apply fexp_correct. done. Qed.
Local Existing Instance fexp_valid.

Lemma format x : generic_format radix2 fexp64 (B2R (x : f64)).
Proof. apply generic_format_B2R. Qed.

Lemma one_format : generic_format radix2 fexp64 1.
Proof.
  replace 1 with (bpow radix2 0) by done. apply generic_format_bpow. vm_compute. discriminate.
Qed.

Lemma overflow_not_finite (x : f64) s :
  B2SF x = binary_overflow 53 1024 mode_NE s -> is_finite x = false.
Proof. intros H. rewrite <- is_finite_SF_B2SF, H. done. Qed.

Lemma fplus_value x y :
  finite x -> finite y -> finite (fplus x y) -> value (fplus x y) = rnd (value x + value y).
Proof.
  intros Hx Hy Hxy. pose proof (Bplus_correct _ _ _ _ mode_NE x y Hx Hy) as H.
  destruct (Rlt_bool _ _); [apply H|]. destruct H as [H _].
  apply overflow_not_finite in H. unfold finite, fplus in Hxy. congruence.
Qed.

Lemma fplus_ge x y :
  finite x -> finite y -> finite (fplus x y) -> 0 <= value y -> value x <= value (fplus x y).
Proof.
  intros Hx Hy Hxy H. rewrite fplus_value by done.
  apply round_ge_generic; [typeclasses eauto..|apply format|]. unfold value in *. lra.
Qed.

Lemma fplus_0 x y :
  finite x -> finite y -> finite (fplus x y) -> value y = 0 -> value (fplus x y) = value x.
Proof.
  intros Hx Hy Hxy H. rewrite fplus_value by done. rewrite H, Rplus_0_r.
  apply round_generic; [typeclasses eauto|apply format].
Qed.

Lemma fdiv_value x total :
  finite x -> finite total -> 0 < value total -> 0 <= value x <= value total ->
  finite (fdiv x total) /\ value (fdiv x total) = rnd (value x / value total).
Proof.
  intros Hx Ht H0 Hle.
  pose proof (Bdiv_correct _ _ _ _ mode_NE x total) as H.
  assert (Hq : 0 <= value x / value total <= 1).
  { assert (0 < / value total) by (by apply Rinv_0_lt_compat). split.
    - apply Rmult_le_pos; lra.
    - apply (Rmult_le_reg_r (value total)); [done|]. unfold Rdiv.
      rewrite Rmult_assoc, Rinv_l by lra. lra. }
  assert (Hr : 0 <= rnd (value x / value total) <= 1).
  { split.
    - apply round_ge_generic; [typeclasses eauto..|apply generic_format_0|lra].
    - apply round_le_generic; [typeclasses eauto..|apply one_format|lra]. }
  unfold value in *.
  rewrite Rlt_bool_true in H.
  2:{ rewrite Rabs_pos_eq by lra. apply Rle_lt_trans with 1; [lra|].
      change 1 with (bpow radix2 0). apply bpow_lt. lia. }
  destruct H as (H1 & H2 & _); [lra|]. split; [|done].
  unfold finite, fdiv. rewrite H2. done.
Qed.

Lemma fleb_value x y : finite x -> finite y -> (fleb x y = true <-> value x <= value y).
Proof.
  intros Hx Hy. unfold fleb. rewrite Bleb_correct by done. split.
  - intros H. destruct (Rle_bool_spec (B2R x) (B2R y)); [done|discriminate].
  - intros H. apply Rle_bool_true. done.
Qed.

(** The running sums of a list of non-negative finite rates whose sums stay finite. *)
Lemma fcumsum_facts p :
  Forall (fun x => finite x /\ 0 <= value x) p -> Forall finite (fcumsum p) ->
  length (fcumsum p) = length p /\
  (forall i s, fcumsum p !! i = Some s -> 0 <= value s) /\
  (forall i s s', fcumsum p !! i = Some s -> fcumsum p !! S i = Some s' ->
     value s <= value s') /\
  (forall i x s s', p !! S i = Some x -> value x = 0 ->
     fcumsum p !! i = Some s -> fcumsum p !! S i = Some s' -> value s' = value s).
Proof.
  intros Hp Hf. destruct (cumsum_spec fplus p) as (Hlen & Hhd & Hstep).
  rewrite Forall_lookup in Hp. rewrite Forall_lookup in Hf.
  assert (Hnext : forall i x s s', p !! S i = Some x -> fcumsum p !! i = Some s ->
    fcumsum p !! S i = Some s' -> s' = fplus s x).
  { intros i x s s' Hx Hs Hs'. specialize (Hstep _ _ _ Hs Hx). unfold fcumsum in Hs'.
    congruence. }
  assert (Hex : forall i s', fcumsum p !! i = Some s' -> exists x, p !! i = Some x).
  { intros i s' H. apply lookup_lt_Some in H. apply lookup_lt_is_Some_2.
    unfold fcumsum in H. lia. }
  assert (Hmono : forall i s s', fcumsum p !! i = Some s -> fcumsum p !! S i = Some s' ->
     value s <= value s').
  { intros i s s' Hs Hs'. destruct (Hex _ _ Hs') as (x & Hx).
    rewrite (Hnext _ _ _ _ Hx Hs Hs'). destruct (Hp _ _ Hx).
    apply fplus_ge; [by eapply Hf|done| |done].
    rewrite <- (Hnext _ _ _ _ Hx Hs Hs'). by eapply Hf. }
  split; [done|]. split; [|split; [done|]].
  - intros i. induction i as [|i IH]; intros s Hs.
    + destruct (Hex _ _ Hs) as (x & Hx). destruct (Hp _ _ Hx).
      destruct p as [|y p]; [done|]. simpl in *. congruence.
    + destruct (lookup_lt_is_Some_2 (fcumsum p) i) as [s0 Hs0].
      { apply lookup_lt_Some in Hs. lia. }
      pose proof (IH _ Hs0). pose proof (Hmono _ _ _ Hs0 Hs). lra.
  - intros i x s s' Hx Hx0 Hs Hs'. rewrite (Hnext _ _ _ _ Hx Hs Hs').
    destruct (Hp _ _ Hx). apply fplus_0; [by eapply Hf|done| |done].
    rewrite <- (Hnext _ _ _ _ Hx Hs Hs'). by eapply Hf.
Qed.

Lemma monotone_le (a : list R) :
  (forall i x y, a !! i = Some x -> a !! S i = Some y -> x <= y) ->
  forall i j x y, (i <= j)%nat -> a !! i = Some x -> a !! j = Some y -> x <= y.
Proof.
  intros H i j x y Hij. revert y. induction Hij as [|j Hij IH]; intros y Hx Hy.
  - simplify_eq. lra.
  - destruct (lookup_lt_is_Some_2 a j) as [z Hz].
    { apply lookup_lt_Some in Hy. lia. }
    specialize (IH z Hx Hz). specialize (H _ _ _ Hz Hy). lra.
Qed.

Lemma fselect_lemma flog p total u1 u2 :
  Forall (fun x => finite x /\ 0 <= value x) p -> Forall finite (fcumsum p) ->
  last (fcumsum p) = Some total -> 0 < value total ->
  finite u1 -> 0 <= value u1 < 1 ->
  exists i x, fselect flog (fcumsum p) u1 u2 = Ok (i, fwaiting flog total u2) /\
    p !! i = Some x /\ 0 < value x.
Proof.
  intros Hp Hf Hlast Htot Hu Hur.
  destruct (fcumsum_facts p Hp Hf) as (Hlen & Hpos & Hmono & Hzero).
  rewrite Forall_lookup in Hp.
  assert (Hft : finite total).
  { rewrite Forall_lookup in Hf. rewrite last_lookup in Hlast. by eapply Hf. }
  assert (Hle : forall i s, fcumsum p !! i = Some s -> value s <= value total).
  { intros i s Hs. rewrite last_lookup in Hlast.
    eapply (monotone_le (map value (fcumsum p))); [| |rewrite list_lookup_fmap, Hs; done
      |rewrite list_lookup_fmap, Hlast; done].
    - intros j a b Ha Hb. rewrite list_lookup_fmap in Ha, Hb.
      apply fmap_Some in Ha as (sa & Ha & ->). apply fmap_Some in Hb as (sb & Hb & ->). eauto.
    - apply lookup_lt_Some in Hs. lia. }
  rewrite Forall_lookup in Hf.
  assert (Hdiv : forall i s, fcumsum p !! i = Some s ->
    finite (fdiv s total) /\ value (fdiv s total) = rnd (value s / value total)).
  { intros i s Hs. apply fdiv_value; [by eapply Hf|done..|]. split; [by eapply Hpos|by eapply Hle]. }
  assert (Hinv : 0 < / value total) by (by apply Rinv_0_lt_compat).
  destruct (searchsorted_monotone fleb (map (fun c => fdiv c total) (fcumsum p)) u1)
    as (c & Hc & Hcl & Hci).
  { intros i a b Ha Hb. rewrite list_lookup_fmap in Ha, Hb.
    apply fmap_Some in Ha as (sa & Ha & ->). apply fmap_Some in Hb as (sb & Hb & ->).
    destruct (Hdiv _ _ Ha) as [Hfa Hva]. destruct (Hdiv _ _ Hb) as [Hfb Hvb].
    rewrite !fleb_value by done. rewrite Hva, Hvb. intros H. eapply Rle_trans; [|exact H].
    apply round_le; [typeclasses eauto..|]. apply Rmult_le_compat_r; [lra|].
    eapply Hmono; eauto. }
  rewrite map_length, Hlen in Hcl.
  assert (Hsel : fselect flog (fcumsum p) u1 u2 = Ok (c, fwaiting flog total u2)).
  { unfold fselect, select_event. rewrite Hlast.
    destruct (is_fzero total) eqn:Ez.
    { destruct total; try discriminate. unfold value in Htot. simpl in Htot. lra. }
    rewrite Hc. done. }
  assert (Hclt : (c < length p)%nat).
  { destruct (decide (c < length p)%nat) as [|Hn]; [done|]. exfalso.
    assert (c = length p) as -> by lia.
    pose proof Hlast as Hl. rewrite last_lookup, Hlen in Hl.
    destruct (Hdiv _ _ Hl) as [Hfd Hvd].
    specialize (Hci (pred (length p)) (fdiv total total)).
    rewrite list_lookup_fmap, Hl in Hci. specialize (Hci eq_refl).
    apply lookup_lt_Some in Hl as Hl'. rewrite Hlen in Hl'.
    assert (H : fleb (fdiv total total) u1 = true) by (apply Hci; lia).
    apply fleb_value in H; [|done..]. rewrite Hvd in H.
    unfold Rdiv in H. rewrite Rinv_r in H by lra.
    rewrite round_generic in H; [lra|typeclasses eauto|apply one_format]. }
  destruct (lookup_lt_is_Some_2 p c Hclt) as [x Hx].
  exists c, x. split; [done|]. split; [done|].
  destruct (Hp _ _ Hx) as [Hxf Hx0].
  destruct (Req_dec (value x) 0) as [Hz|]; [exfalso|lra].
  destruct (lookup_lt_is_Some_2 (fcumsum p) c) as [s Hs]; [lia|].
  destruct (Hdiv _ _ Hs) as [Hfd Hvd].
  assert (Hgt : ~ value (fdiv s total) <= value u1).
  { rewrite <- fleb_value by done. specialize (Hci c (fdiv s total)).
    rewrite list_lookup_fmap, Hs in Hci. rewrite (Hci eq_refl). lia. }
  destruct c as [|c].
  - assert (Hs0 : value s = 0).
    { destruct p as [|y p]; [done|]. simpl in Hx, Hs. congruence. }
    rewrite Hvd, Hs0 in Hgt. unfold Rdiv in Hgt. rewrite Rmult_0_l in Hgt.
    rewrite round_0 in Hgt by typeclasses eauto. lra.
  - destruct (lookup_lt_is_Some_2 (fcumsum p) c) as [s0 Hs0]; [lia|].
    rewrite Hvd, (Hzero _ _ _ _ Hx Hz Hs0 Hs) in Hgt.
    destruct (Hdiv _ _ Hs0) as [Hfd0 Hvd0]. rewrite <- Hvd0 in Hgt. apply Hgt.
    apply fleb_value; [done..|]. apply (Hci c); [|lia].
    rewrite list_lookup_fmap, Hs0. done.
Qed.

(* ---------------- waiting times ---------------- *)
Lemma sign_neg (x : f64) : finite x -> value x < 0 -> Bsign x = true.
Proof.
  destruct x as [s|s| |s m e H]; try discriminate; unfold value; simpl; intros _ Hv; [lra|].
  destruct s; [done|]. exfalso. revert Hv. apply Rle_not_lt.
  apply F2R_ge_0. simpl. lia.
Qed.

Lemma sign_pos (x : f64) : finite x -> 0 < value x -> Bsign x = false.
Proof.
  destruct x as [s|s| |s m e H]; try discriminate; unfold value; simpl; intros _ Hv; [lra|].
  destruct s; [|done]. exfalso. revert Hv. apply Rle_not_lt.
  apply F2R_le_0. simpl. lia.
Qed.

Lemma minus_one_value : value fminus_one = -1 /\ finite fminus_one.
Proof.
  unfold value, fminus_one. rewrite B2R_Bopp, Bone_correct. split; [done|].
  unfold finite. rewrite is_finite_Bopp. apply is_finite_Bone.
Qed.

(** -1/total is a negative number or -infinity. *)
Lemma minus_inverse total :
  finite total -> 0 < value total ->
  (finite (fdiv fminus_one total) /\ value (fdiv fminus_one total) < 0) \/
  fdiv fminus_one total = B754_infinity true.
Proof.
  intros Hf Ht. destruct minus_one_value as [Hv1 Hf1].
  pose proof (Bdiv_correct _ _ _ _ mode_NE fminus_one total) as H.
  unfold value in *. specialize (H ltac:(lra)).
  assert (Hneg : rnd (B2R fminus_one / B2R total) <= - bpow radix2 (-1074)).
  { rewrite <- (round_generic radix2 fexp64 (round_mode mode_NE) (- bpow radix2 (-1074))).
    2:{ apply generic_format_opp, generic_format_bpow. vm_compute. discriminate. }
    apply round_le; [typeclasses eauto..|]. rewrite Hv1.
    apply Ropp_le_cancel. rewrite Ropp_involutive.
    replace (- (-1 / B2R total)) with (/ B2R total) by (field; lra).
    apply Rle_trans with (bpow radix2 (-1024)); [apply bpow_le; lia|].
    change (-1024)%Z with (- (1024))%Z. rewrite bpow_opp.
    apply Rinv_le; [done|]. left.
    pose proof (abs_B2R_lt_emax _ _ total) as Hm. rewrite Rabs_pos_eq in Hm by lra. done. }
  destruct (Rlt_bool _ _).
  - destruct H as (H1 & H2 & _). left. split.
    + unfold finite, fdiv. rewrite H2. done.
    + unfold fdiv. rewrite H1. pose proof (bpow_gt_0 radix2 (-1074)). lra.
  - right. rewrite (sign_neg fminus_one), (sign_pos total) in H by (unfold value; lra || done).
    apply B2SF_inj. unfold fdiv. rewrite H. done.
Qed.

Lemma fwaiting_lemma flog total u :
  log_ok flog -> finite total -> 0 < value total -> finite u -> 0 <= value u < 1 ->
  nonneg_or_inf (fwaiting flog total u) /\
  (value u = 0 -> fwaiting flog total u = B754_infinity false).
Proof.
  intros [Hl0 Hl] Hf Ht Hu Hur. unfold fwaiting.
  destruct (minus_inverse total Hf Ht) as [[Hdf Hdv]|Hd].
  - set (d := fdiv fminus_one total) in *.
    destruct (Req_dec (value u) 0) as [Hz|Hz].
    + assert (Huz : exists s, u = B754_zero s).
      { destruct u as [s|s| |s m e H]; try discriminate; eauto.
        exfalso. unfold value in Hz. simpl in Hz.
        apply (eq_0_F2R radix2) in Hz. destruct s; discriminate. }
      destruct Huz as (s & ->). rewrite Hl0.
      assert (Hd : exists m e H, d = B754_finite true m e H).
      { pose proof (sign_neg d Hdf Hdv) as Hs. destruct d as [sd|sd| |sd m e H]; try discriminate.
        - unfold value in Hdv. simpl in Hdv. lra.
        - simpl in Hs. subst sd. eauto. }
      destruct Hd as (m & e & H & ->). simpl. split; [right; done|done].
    + split; [|done]. destruct (Hl u Hu ltac:(lra)) as [Hlf Hlv].
      pose proof (Bmult_correct _ _ _ _ mode_NE d (flog u)) as H.
      destruct (Rlt_bool _ _).
      * destruct H as (H1 & H2 & _). left. split.
        { unfold finite, fmult. rewrite H2. unfold finite in *. rewrite Hdf, Hlf. done. }
        unfold value, fmult. rewrite H1.
        apply round_ge_generic; [typeclasses eauto..|apply generic_format_0|].
        unfold value in *. nra.
      * right. rewrite (sign_neg d), (sign_neg (flog u)) in H by done.
        apply B2SF_inj. unfold fmult. rewrite H. done.
  - rewrite Hd. destruct (Req_dec (value u) 0) as [Hz|Hz].
    + assert (Huz : exists s, u = B754_zero s).
      { destruct u as [s|s| |s m e H]; try discriminate; eauto.
        exfalso. unfold value in Hz. simpl in Hz.
        apply (eq_0_F2R radix2) in Hz. destruct s; discriminate. }
      destruct Huz as (s & ->). rewrite Hl0. split; [right; done|done].
    + split; [|done]. destruct (Hl u Hu ltac:(lra)) as [Hlf Hlv].
      pose proof (sign_neg (flog u) Hlf Hlv) as Hs.
      destruct (flog u) as [sd|sd| |sd m e H]; try discriminate.
      * unfold value in Hlv. simpl in Hlv. lra.
      * simpl in Hs. subst sd. right. done.
Qed.

(** The clock never goes back. *)
Lemma fclock_lemma t dt :
  nonneg_or_inf t -> nonneg_or_inf dt ->
  nonneg_or_inf (fplus t dt) /\ fleb t (fplus t dt) = true.
Proof.
  intros [[Ht Ht0]| -> ] [[Hd Hd0]| -> ].
  - pose proof (Bplus_correct _ _ _ _ mode_NE t dt Ht Hd) as H.
    destruct (Rlt_bool _ _).
    + destruct H as (H1 & H2 & _).
      assert (Hge : value t <= value (fplus t dt)) by (by apply fplus_ge).
      split; [left; split; [done|lra]|]. by apply fleb_value.
    + destruct H as [H Hs].
      assert (Hinf : fplus t dt = B754_infinity (Bsign t)).
      { apply B2SF_inj. unfold fplus. rewrite H. done. }
      assert (Hsgn : Bsign t = false).
      { destruct (Req_dec (value t) 0) as [Hz|Hz]; [|apply sign_pos; [done|lra]].
        exfalso. pose proof Hinf as Hi.
        assert (value (fplus t dt) = 0) by (rewrite Hi; done).
        destruct t as [st|st| |st mt et Hbt]; try discriminate.
        - destruct dt as [sd|sd| |sd md ed Hbd]; try discriminate.
          + unfold fplus in Hi. simpl in Hi. destruct (Bool.eqb st sd); discriminate.
        - unfold value in Hz. simpl in Hz. apply (eq_0_F2R radix2) in Hz.
          destruct st; discriminate. }
      rewrite Hsgn in Hinf. rewrite Hinf. split; [right; done|].
      destruct t as [st|st| |st mt et Hbt]; try discriminate; simpl in Hsgn; subst; done.
  - assert (Hinf : fplus t (B754_infinity false) = B754_infinity false).
    { destruct t; try discriminate; done. }
    rewrite Hinf. split; [right; done|].
    destruct t as [st|st| |st mt et Hbt]; try discriminate; [done|destruct st; done].
  - assert (Hinf : fplus (B754_infinity false) dt = B754_infinity false).
    { destruct dt; try discriminate; done. }
    rewrite Hinf. split; [right; done|done].
  - split; [right; done|done].
Qed.
