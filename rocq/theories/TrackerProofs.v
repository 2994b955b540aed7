(** Proofs about the tracker. *)
From Coq Require Import Reals QArith Qround Qabs Lqa.
From Verif Require Import Py PyLemmas Json ActiveSiteModel EventModel EventSpec StateModel
  StateProofs HopModel KmcModel KmcSpec KmcProofs ProposeModel LceModel CompositeModel
  CompositeSpec CompositeProofs TrackerModel TrackerSpec.
Local Open Scope nat_scope.

(** ** Rounding *)
Lemma np_round_close q : (-(1#2) <= q - inject_Z (np_round q) <= 1#2)%Q.
Proof.
  unfold np_round. pose proof (Qfloor_le q) as H1. pose proof (Qlt_floor q) as H2.
  rewrite inject_Z_plus in H2. change (inject_Z 1) with 1%Q in H2.
  assert (H3 : forall z, (inject_Z (z + 1) == inject_Z z + 1)%Q)
    by (intros z; rewrite inject_Z_plus; reflexivity).
  destruct (Qcompare_spec (q - inject_Z (Qfloor q)) (1 # 2)) as [E|E|E];
    [destruct (Z.even _)| |]; rewrite ?H3; split; lra.
Qed.

(** ** Vectors *)
Ltac vec_crush :=
  unfold veq, vadd, vsub, vscale, cartesian, vzero in *; simpl in *.

Lemma veq_refl a : veq a a. Proof. vec_crush. repeat split; reflexivity. Qed.
Lemma veq_sym a b : veq a b -> veq b a.
Proof. intros (?&?&?). split; [|split]; by symmetry. Qed.
Lemma veq_trans a b c : veq a b -> veq b c -> veq a c.
Proof. intros (?&?&?) (?&?&?). split; [|split]; etransitivity; eassumption. Qed.
Lemma vadd_veq a a' b b' : veq a a' -> veq b b' -> veq (vadd a b) (vadd a' b').
Proof. intros (A&B&C) (D&E&F). vec_crush. rewrite A, B, C, D, E, F. repeat split; reflexivity. Qed.
Lemma cartesian_veq m a a' : veq a a' -> veq (cartesian m a) (cartesian m a').
Proof.
  intros (A&B&C). destruct m as [[m1 m2] m3]. vec_crush. rewrite A, B, C.
  repeat split; reflexivity.
Qed.
Lemma cartesian_add m a b :
  veq (cartesian m (vadd a b)) (vadd (cartesian m a) (cartesian m b)).
Proof. destruct m as [[m1 m2] m3]. vec_crush. repeat split; ring. Qed.
Lemma cartesian_zero m : veq (cartesian m vzero) vzero.
Proof. destruct m as [[m1 m2] m3]. vec_crush. repeat split; ring. Qed.

Lemma integral_zero : integral vzero.
Proof. exists 0%Z, 0%Z, 0%Z. vec_crush. repeat split; reflexivity. Qed.
Lemma integral_add a b : integral a -> integral b -> integral (vadd a b).
Proof.
  intros (x & y & z & A & B & C) (x' & y' & z' & D & E & F).
  exists (x + x')%Z, (y + y')%Z, (z + z')%Z. vec_crush.
  rewrite A, B, C, D, E, F, !inject_Z_plus. repeat split; reflexivity.
Qed.

(** ** One hop displacement *)
Lemma wrapped_fraction_image str f t env direction (s d : Z) v :
  (direction = 1%Z /\ s = f /\ d = t) \/ (direction = (-1)%Z /\ s = t /\ d = f) ->
  wrapped_fraction str (Event [f; t] env) direction = Ok v -> image_of str s d v.
Proof.
  intros Hdir H. unfold wrapped_fraction in H. simpl in H.
  apply rbind_ok in H as (ct & Ht & H). apply rbind_ok in H as (cf & Hf & [= <-]).
  set (w := vscale (inject_Z direction) (vsub ct cf)).
  exists (if (direction =? 1)%Z then cf else ct), (if (direction =? 1)%Z then ct else cf),
    (vscale (-1) (vround w)).
  split; [destruct Hdir as [(-> & -> & ->)|(-> & -> & ->)]; done|].
  split; [destruct Hdir as [(-> & -> & ->)|(-> & -> & ->)]; done|].
  split; [|split].
  - exists (- np_round (vx w))%Z, (- np_round (vy w))%Z, (- np_round (vz w))%Z.
    unfold veq, vscale, vround. simpl. rewrite !inject_Z_opp. repeat split; ring.
  - unfold w at 1. destruct Hdir as [(-> & -> & ->)|(-> & -> & ->)]; simpl;
      unfold veq, vsub, vadd, vscale, vround; simpl; repeat split; ring.
  - unfold minimum_image, vsub, vround. simpl.
    pose proof (np_round_close (vx w)). pose proof (np_round_close (vy w)).
    pose proof (np_round_close (vz w)). done.
Qed.

Lemma np_round_opp q : np_round (- q) = (- np_round q)%Z.
Proof.

  unfold np_round.
  pose proof (Qfloor_le q) as A1. pose proof (Qlt_floor q) as A2.
  pose proof (Qfloor_le (- q)) as B1. pose proof (Qlt_floor (- q)) as B2.
  set (a := Qfloor q) in *. set (b := Qfloor (- q)) in *.
  rewrite inject_Z_plus in A2, B2. change (inject_Z 1) with 1%Q in A2, B2.
  assert (L : forall z z' : Z, (inject_Z z < inject_Z z')%Q -> (z < z')%Z)
    by (intros z z' Hz; by rewrite <- Zlt_Qlt in Hz).
  assert (E0 : forall z : Z, (inject_Z (z + 1) == inject_Z z + 1)%Q)
    by (intros z; rewrite inject_Z_plus; reflexivity).
  assert (E1 : (inject_Z (- a) == - inject_Z a)%Q) by (rewrite inject_Z_opp; reflexivity).
  assert (E2 : (inject_Z (- a - 2) == - inject_Z a - 2)%Q).
  { unfold Z.sub. rewrite inject_Z_plus, inject_Z_opp. reflexivity. }
  assert (Hb : (- a - 2 < b < - a + 1)%Z).
  { split; apply L; rewrite ?E0, ?E1, ?E2; lra. }
  assert (E3 : (inject_Z (- a - 1) == - inject_Z a - 1)%Q).
  { unfold Z.sub. rewrite inject_Z_plus, inject_Z_opp. reflexivity. }
  assert (Hcase : b = (- a)%Z \/ b = (- a - 1)%Z) by lia.
  destruct Hcase as [-> | ->].
  - rewrite E1 in B1. assert (Hq : (q - inject_Z a == 0)%Q) by lra.
    assert (Hq' : (- q - inject_Z (- a) == 0)%Q) by (rewrite E1; lra).
    rewrite (proj1 (Qlt_alt _ _)) by (rewrite Hq'; reflexivity).
    rewrite (proj1 (Qlt_alt _ _)) by (rewrite Hq; reflexivity). done.
  - destruct (Qcompare_spec (q - inject_Z a) (1 # 2)) as [E|E|E];
      destruct (Qcompare_spec (- q - inject_Z (- a - 1)) (1 # 2)) as [F|F|F];
      rewrite E3 in F; try (exfalso; lra); try lia.
    assert (Hev : Z.even (- a - 1) = negb (Z.even a)).
    { rewrite Z.even_sub, Z.even_opp. by destruct (Z.even a). }
    rewrite Hev. destruct (Z.even a); simpl; lia.
Qed.

Lemma reverse_hop_opposite str f t env v v' :
  wrapped_fraction str (Event [f; t] env) 1 = Ok v ->
  wrapped_fraction str (Event [f; t] env) (-1) = Ok v' ->
  veq v' (vscale (-1) v).
Proof.
  unfold wrapped_fraction. simpl. intros H H'.
  apply rbind_ok in H as (ct & Ht & H). apply rbind_ok in H as (cf & Hf & [= <-]).
  rewrite Ht in H'. simpl in H'. rewrite Hf in H'. simpl in H'. injection H' as <-.
  assert (R : forall q, (inject_Z (np_round (inject_Z (-1) * q)) == - inject_Z (np_round (inject_Z 1 * q)))%Q).
  { intros q. rewrite <- inject_Z_opp, <- np_round_opp.
    assert (Hext : forall p p', (p == p')%Q -> np_round p = np_round p').
    { intros p p' Hp. unfold np_round. rewrite (Qfloor_comp _ _ Hp).
      assert (Hs : (p - inject_Z (Qfloor p') == p' - inject_Z (Qfloor p'))%Q) by (rewrite Hp; reflexivity).
      rewrite (Qcompare_comp _ _ Hs (1#2) (1#2)); reflexivity. }
    rewrite (Hext (inject_Z (-1) * q)%Q (- (inject_Z 1 * q))%Q); [reflexivity|].
    change (inject_Z (-1)) with (- (1))%Q. change (inject_Z 1) with 1%Q. ring. }
  unfold veq, vsub, vround, vscale. simpl. rewrite !R.
  change (inject_Z (-1)) with (- (1))%Q. change (inject_Z 1) with 1%Q.
  repeat split; ring.
Qed.

(** ** The mobile ions found at creation *)
Lemma elem_of_where_true mask s :
  s ∈ where_true mask <-> (0 <= s)%Z /\ mask !! Z.to_nat s = Some true.
Proof.
  unfold where_true. rewrite elem_of_list_In, in_map_iff. split.
  - intros ([i b] & <- & Hin). apply filter_In in Hin as [Hin Hb]. simpl in *. subst b.
    apply elem_of_list_In, elem_of_enumerate in Hin. rewrite Nat2Z.id. split; [lia|done].
  - intros [Hs Hm]. exists (Z.to_nat s, true). split; [simpl; lia|].
    apply filter_In. split; [|done]. apply elem_of_list_In, elem_of_enumerate. done.
Qed.

Lemma filter_sublist {A} (f : A -> bool) l : sublist (List.filter f l) l.
Proof. induction l as [|x l IH]; simpl; [constructor|]. destruct (f x); by constructor. Qed.

Lemma NoDup_where_true mask : NoDup (where_true mask).
Proof.
  unfold where_true. rewrite <- (map_map fst Z.of_nat).
  apply NoDup_fmap_2; [intros a b; lia|].
  eapply sublist_NoDup; [apply fmap_sublist, filter_sublist|].
  unfold enumerate. change (fst <$> enum_from 0 mask) with (map fst (enum_from 0 mask)).
  rewrite enum_from_fst. apply NoDup_seq.
Qed.

Lemma fmap_sublist' {A B} (f : A -> B) l l' : sublist l l' -> sublist (map f l) (map f l').
Proof. apply fmap_sublist. Qed.

Lemma repeat_lookup {A} (x : A) n i : i < n -> repeat x n !! i = Some x.
Proof. revert i. induction n; intros [|i] H; simpl; [lia|lia|done|]. apply IHn. lia. Qed.

Lemma mobile_mask_spec lo lk n es occ mask s :
  codes_in_use lo n es lk -> mobile_mask lo n occ = Ok mask ->
  ((0 <= s)%Z /\ mask !! Z.to_nat s = Some true) <-> holds_mobile lk occ s.
Proof.
  unfold codes_in_use, mobile_mask, holds_mobile.
  destruct lo as [l|].
  2:{ intros (Hm & _ & _) [= <-]. rewrite Hm. split.
    - intros [Hs H]. split; [done|]. exists 0%Z.
      change (map ?f ?l) with (f <$> l) in H. rewrite list_lookup_fmap in H.
      destruct (take n occ !! Z.to_nat s) as [x|] eqn:E; [|discriminate]. simpl in H.
      injection H as H. apply Z.eqb_eq in H as ->. apply lookup_take_Some in E as [E Hn].
      split; [|done]. apply repeat_lookup. done.
    - intros (Hs & c & Hc & _ & Ho). split; [done|].
      change (map ?f ?l) with (f <$> l). rewrite list_lookup_fmap.
      assert (Hn : Z.to_nat s < n).
      { apply lookup_lt_Some in Hc. by rewrite repeat_length in Hc. }
      rewrite (repeat_lookup _ _ _ Hn) in Hc. injection Hc as <-.
      rewrite lookup_take, Ho by done. done. }
  intros ->. destruct (_ =? _) eqn:E; [|discriminate].
  intros [= <-]. apply Nat.eqb_eq in E. rewrite lookup_zip_with_Some.
  split.
  - intros (Hs & m & o & Hb & Hm & Ho). split; [done|]. exists m. split; [done|].
    symmetry in Hb. apply andb_true_iff in Hb as [H1 H2].
    apply negb_true_iff, Z.eqb_neq in H1. apply Z.eqb_eq in H2. subst o.
    split; [done|]. apply lookup_take_Some in Ho. tauto.
  - intros (Hs & c & Hc & Hn & Ho). split; [done|]. exists c, c.
    split; [|split; [done|]].
    + rewrite Z.eqb_refl. destruct (Z.eqb_spec c invalid_state); [done|done].
    + apply lookup_take_Some. split; [done|]. by eapply lookup_lt_Some.
Qed.

Section Track.
  Context {T S : Type}.
  Variable sample : S -> list vec -> list nat -> state T -> result S.
  Notation tracker := (tracker S).

  Lemma create_spec str mobile s0 occ lo lk es (tr : tracker) :
    codes_in_use lo (pass_length (symbols str) mobile) es lk ->
    create str mobile s0 occ lo = Ok tr ->
    exactly_mobile lk occ (t_locations tr) /\ t_lookup tr = lo /\
    t_displacement tr = map (fun _ => vzero) (t_locations tr) /\
    t_hops tr = map (fun _ => 0) (t_locations tr).
  Proof.
    unfold create. intros Huse H. apply rbind_ok in H as (mask & Hm & H).
    apply rbind_ok in H as (r0 & _ & [= <-]). simpl.
    split; [|done]. split; [apply NoDup_where_true|].
    intros s. rewrite elem_of_where_true. by eapply mobile_mask_spec.
  Qed.

  Lemma create_total str mobile s0 occ lo lk es :
    codes_in_use lo (pass_length (symbols str) mobile) es lk ->
    length (mobile_state_by_site lk) <= length occ ->
    length occ <= length (frac_coords str) ->
    exists tr : tracker, create str mobile s0 occ lo = Ok tr.
  Proof.
    intros Huse Hl Hc. unfold create.
    destruct (mobile_mask lo (pass_length (symbols str) mobile) occ) as [mask|] eqn:E.
    2:{ destruct lo as [l|]; [|done]. simpl in Huse. subst l. simpl in E. rewrite take_length, Nat.min_l, Nat.eqb_refl in E by lia. discriminate. }
    simpl.
    destruct (rmapM_ok_exists (py_get (frac_coords str)) (where_true mask)) as [r Hr].
    { intros s Hs. apply elem_of_where_true in Hs.
      apply (mobile_mask_spec _ _ _ _ _ _ _ Huse E) in Hs as (Hs & c & _ & _ & Ho).
      apply lookup_lt_Some in Ho.
      destruct (lookup_lt_is_Some_2 (frac_coords str) (Z.to_nat s)) as [x Hx]; [lia|].
      exists x. by apply py_get_nonneg. }
    rewrite Hr. simpl. eauto.
  Qed.

  (** One accepted hop. *)
  Lemma update_step str (tr : tracker) lk occ e codes occ' :
    event_codes (t_lookup tr) e = Ok codes ->
    annotate_event lk e = Ok codes -> endpoint_consistent codes -> hoppable codes occ e ->
    (forall s, s ∈ mobile_ion_indices e -> (0 <= s < Z.of_nat (length occ))%Z) ->
    (-1)%Z ∉ occ -> length occ <= length (frac_coords str) ->
    exactly_mobile lk occ (t_locations tr) ->
    swap_occupations occ e = Ok occ' ->
    exists i s d v tr',
      hop_of (t_lookup tr) occ e = Some (s, d) /\ t_locations tr !! i = Some s /\
      image_of str s d v /\ update str tr occ e = Ok tr' /\
      t_lookup tr' = t_lookup tr /\ t_locations tr' = <[i := d]> (t_locations tr) /\
      t_displacement tr' = alter (fun x => vadd x (cartesian (lattice str) v)) i (t_displacement tr) /\
      t_hops tr' = alter Datatypes.S i (t_hops tr) /\
      t_sampling tr' = t_sampling tr /\
      exactly_mobile lk occ' (t_locations tr').
  Proof.
    intros Hlk Hcodes Hcons Hhop Hrange Hinv Hfrac [Hnd Hex] Hswap.
    destruct codes as [[[mf vt] vf] mt].
    destruct Hhop as (f & t & x & y & Hft & Hx & Hy & Hor).
    destruct Hcons as (-> & -> & Hmv).
    destruct e as [mi env]. simpl in Hft. subst mi.
    assert (Hf : (0 <= f < Z.of_nat (length occ))%Z) by (apply Hrange; simpl; set_solver).
    assert (Ht : (0 <= t < Z.of_nat (length occ))%Z) by (apply Hrange; simpl; set_solver).
    apply py_get_nonneg in Hx; [|lia]. apply py_get_nonneg in Hy; [|lia].
    (* the codes of the two sites *)
    pose proof Hcodes as Hann. unfold annotate_event in Hann. simpl in Hann.
    apply rbind_ok in Hann as (a1 & Ha1 & Hann). apply rbind_ok in Hann as (a2 & Ha2 & Hann).
    apply rbind_ok in Hann as (a3 & Ha3 & Hann). apply rbind_ok in Hann as (a4 & Ha4 & Hann).
    injection Hann as -> -> -> ->.
    apply py_get_nonneg in Ha1; [|lia]. apply py_get_nonneg in Ha4; [|lia].
    (* source and destination *)
    assert (Hsd : exists s d dir o', (dir =? 0)%Z = false /\
      ((dir = 1%Z /\ s = f /\ d = t) \/ (dir = (-1)%Z /\ s = t /\ d = f)) /\
      event_direction occ (Event [f; t] env) (mt, vf, vf, mt) = Ok dir /\
      (0 <= s < Z.of_nat (length occ))%Z /\ (0 <= d < Z.of_nat (length occ))%Z /\
      occ !! Z.to_nat s = Some mt /\ occ !! Z.to_nat d = Some vf /\
      mobile_state_by_site lk !! Z.to_nat s = Some mt /\
      mobile_state_by_site lk !! Z.to_nat d = Some mt /\
      occ' !! Z.to_nat s = Some vf /\ occ' !! Z.to_nat d = Some mt /\
      (forall k, k <> Z.to_nat s -> k <> Z.to_nat d -> occ' !! k = occ !! k) /\ o' = occ').
    { pose proof Hswap as Hsw.
      apply swap_in_range_inv in Hsw as (x' & y' & Hx' & Hy' & _ & Hnf & Hnt); [|lia..].
      rewrite Hx in Hx'. injection Hx' as <-. rewrite Hy in Hy'. injection Hy' as <-.
      assert (Hoth := fun k => swap_others occ f t env occ' k ltac:(lia) ltac:(lia) Hswap).
      assert (Hdirv : event_direction occ (Event [f; t] env) (mt, vf, vf, mt) =
        Ok (endpoint_direction_from_codes x y (mt, vf, vf, mt))).
      { unfold event_direction. simpl.
        rewrite (proj2 (py_get_nonneg occ f x ltac:(lia)) Hx). simpl.
        by rewrite (proj2 (py_get_nonneg occ t y ltac:(lia)) Hy). }
      unfold endpoint_direction_from_codes in Hdirv.
      destruct Hor as [[-> ->]|[-> ->]].
      - rewrite !Z.eqb_refl in Hdirv. simpl in Hdirv.
        exists f, t, 1%Z, occ'. split; [done|]. split; [by left|].
        do 10 (split; [done|]). done.
      - destruct (Z.eqb_spec vf mt); [congruence|]. rewrite !Z.eqb_refl in Hdirv.
        simpl in Hdirv.
        exists t, f, (-1)%Z, occ'. split; [done|]. split; [by right|].
        do 9 (split; [done|]). split; [|done]. intros k Hk1 Hk2. by apply Hoth. }
    destruct Hsd as (s & d & dir & o' & Hdir0 & Hcase & Hdir & Hs & Hd & Hos & Hod & Hms & Hmd
      & Hos' & Hod' & Hoth & _). clear o'.
    assert (Hm1 : mt <> (-1)%Z).
    { intros ->. apply Hinv. by eapply elem_of_list_lookup_2. }
    assert (Hsin : s ∈ t_locations tr).
    { apply Hex. split; [lia|]. eauto. }
    assert (Hdin : d ∉ t_locations tr).
    { intros Hin. apply Hex in Hin as (_ & c & Hc & _ & Hoc). simplify_eq. }
    destruct (list_index_in (t_locations tr) s Hsin) as [i Hi].
    pose proof (proj1 (list_index_ok _ _ _) Hi) as [Hli _].
    assert (Hcoord : forall z, (0 <= z < Z.of_nat (length occ))%Z ->
              exists c, py_get (frac_coords str) z = Ok c).
    { intros z Hz. destruct (lookup_lt_is_Some_2 (frac_coords str) (Z.to_nat z)) as [c Hc]; [lia|].
      exists c. apply py_get_nonneg; [lia|done]. }
    assert (Hw : exists v, wrapped_fraction str (Event [f; t] env) dir = Ok v).
    { unfold wrapped_fraction. simpl. destruct (Hcoord t Ht) as [ct ->]. simpl.
      destruct (Hcoord f Hf) as [cf ->]. simpl. eauto. }
    destruct Hw as [v Hv].
    exists i, s, d, v. eexists.
    split.
    { unfold hop_of. rewrite Hlk. simpl mobile_ion_indices. cbn iota.
      rewrite Hdir. by destruct Hcase as [(-> & -> & ->)|(-> & -> & ->)]. }
    split; [done|]. split; [by eapply wrapped_fraction_image|].
    split.
    { unfold update. rewrite Hlk. cbn [rbind].
      rewrite Hdir. cbn [rbind]. rewrite Hdir0. cbn [mobile_ion_indices unpack2 rbind fst snd].
      unfold record_hop.
      assert (Hsrc : (if (dir =? 1)%Z then f else t) = s /\ (if (dir =? 1)%Z then t else f) = d).
      { by destruct Hcase as [(-> & -> & ->)|(-> & -> & ->)]. }
      destruct Hsrc as [-> ->]. rewrite Hi. cbn [rbind fst snd].
      unfold wrapped_displacement. rewrite Hv. cbn [rbind]. reflexivity. }
    simpl. do 5 (split; [done|]).
    split.
    - apply NoDup_alt. intros a b z Ha Hb.
      assert (Hlt : i < length (t_locations tr)) by (by eapply lookup_lt_Some).
      destruct (decide (a = i)) as [->|Hai], (decide (b = i)) as [->|Hbi]; [done| | |].
      + rewrite list_lookup_insert in Ha by done. injection Ha as <-.
        rewrite list_lookup_insert_ne in Hb by done.
        exfalso. apply Hdin. by eapply elem_of_list_lookup_2.
      + rewrite list_lookup_insert in Hb by done. injection Hb as <-.
        rewrite list_lookup_insert_ne in Ha by done.
        exfalso. apply Hdin. by eapply elem_of_list_lookup_2.
      + rewrite list_lookup_insert_ne in Ha, Hb by done.
        rewrite NoDup_alt in Hnd. eauto.
    - assert (Hlt : i < length (t_locations tr)) by (by eapply lookup_lt_Some).
      intros z. destruct (decide (z = d)) as [->|Hzd].
      { split; [|intros _]. 
        - intros _. split; [lia|]. eauto.
        - apply elem_of_list_lookup. exists i. by apply list_lookup_insert. }
      destruct (decide (z = s)) as [->|Hzs].
      { split.
        - intros Hin. apply elem_of_list_lookup in Hin as [a Ha].
          destruct (decide (a = i)) as [->|Hai].
          + rewrite list_lookup_insert in Ha by done. congruence.
          + rewrite list_lookup_insert_ne in Ha by done.
            rewrite NoDup_alt in Hnd. by rewrite (Hnd _ _ _ Ha Hli) in Hai.
        - intros (_ & c & Hc & _ & Hoc). simplify_eq. }
      assert (Hsame : z ∈ <[i:=d]> (t_locations tr) <-> z ∈ t_locations tr).
      { rewrite !elem_of_list_lookup. split; intros [a Ha].
        - destruct (decide (a = i)) as [->|Hai].
          + rewrite list_lookup_insert in Ha by done. congruence.
          + rewrite list_lookup_insert_ne in Ha by done. eauto.
        - exists a. rewrite list_lookup_insert_ne; [done|]. intros <-. congruence. }
      rewrite Hsame, Hex. unfold holds_mobile. split; intros (Hz & c & Hc & Hc1 & Hoc);
        (split; [done|]; exists c; split; [done|]; split; [done|]).
      + rewrite Hoth; [done|lia|lia].
      + rewrite Hoth in Hoc; [done|lia|lia].
  Qed.
End Track.

(** ** Journeys *)
Fixpoint chained (p : Z) (hops : list (Z * Z)) : Prop :=
  match hops with
  | [] => True
  | (s, d) :: hops' => s = p /\ chained d hops'
  end.

Lemma journey_chained lk hist p : chained p (journey lk hist p).
Proof.
  revert p. induction hist as [|[occ e] hist IH]; intros p; simpl; [done|].
  destruct (hop_of lk occ e) as [[s d]|]; [|done].
  destruct (Z.eqb_spec s p); simpl; auto.
Qed.

Lemma journey_end_cons p s d hops : journey_end p ((s, d) :: hops) = journey_end d hops.
Proof.
  unfold journey_end. destruct hops as [|h hops]; [done|].
  change (last ((s, d) :: h :: hops)) with (last (h :: hops)).
  destruct (last (h :: hops)) eqn:E; [done|]. apply last_None in E. discriminate.
Qed.

Lemma telescope str hops fs p c :
  chained p hops -> Forall2 (fun h f => image_of str (fst h) (snd h) f) hops fs ->
  py_get (frac_coords str) p = Ok c ->
  exists c' n, py_get (frac_coords str) (journey_end p hops) = Ok c' /\ integral n /\
    veq (vsum fs) (vadd (vsub c' c) n).
Proof.
  revert fs p c. induction hops as [|[s d] hops IH]; intros fs p c Hch Hf Hp.
  - inversion Hf. subst. exists c, vzero. split; [done|]. split; [apply integral_zero|].
    unfold veq, vadd, vsub, vzero. simpl. repeat split; ring.
  - inversion Hf as [|x f l fs' Him Hrest]. subst. simpl in Hch. destruct Hch as [-> Hch].
    destruct Him as (cs & cd & n & Hcs & Hcd & Hn & Hv & _). simpl in *.
    assert (cs = c) as -> by congruence.
    destruct (IH _ _ _ Hch Hrest Hcd) as (c' & n' & Hc' & Hn' & Hv').
    exists c', (vadd n n'). rewrite journey_end_cons. split; [done|].
    split; [by apply integral_add|].
    eapply veq_trans; [apply vadd_veq; [exact Hv|exact Hv']|].
    unfold veq, vadd, vsub. simpl. repeat split; ring.
Qed.

Lemma sum_alter_S l i x : l !! i = Some x -> sum_list (alter S i l) = S (sum_list l).
Proof.
  revert i. induction l as [|y l IH]; intros i H; [done|].
  destruct i as [|i]; cbn; [lia|]. specialize (IH i H). change (y + sum_list (alter S i l) = S (y + sum_list l)). rewrite IH. lia.
Qed.

Lemma lookup_map_const {A B} (x : B) (l : list A) j p :
  l !! j = Some p -> map (fun _ => x) l !! j = Some x.
Proof.
  intros H. pose proof (list_lookup_fmap (fun _ : A => x) l j) as E.
  rewrite H in E. exact E.
Qed.

(** ** Production *)
Section Produce.
  Context {T M S : Type}.
  Variable add : T -> T -> T.
  Variable model_apply : M -> event -> list Z -> result M.
  Variable compute_probability : M -> list Z -> event -> result T.
  Variable select : list T -> T -> T -> result (nat * T).
  Variable sample : S -> list vec -> list nat -> state T -> result S.
  Variable str : structure.
  Variable lo : option lookup.
  Variable lk : lookup.
  Variable draws : nat -> T * T.

  Notation kmc := (kmc T M).
  Notation tracker := (tracker S).
  Notation occ k := (occupations (k_state k)).

  (** The event about to be applied is a hop between two sites of the same kind. *)
  Definition proper_hop (k : kmc) (e : event) : Prop :=
    (exists codes, event_codes lo e = Ok codes /\
       annotate_event lk e = Ok codes /\ endpoint_consistent codes /\
       hoppable codes (occ k) e) /\
    (forall s, s ∈ mobile_ion_indices e -> (0 <= s < Z.of_nat (length (occ k)))%Z) /\
    (-1)%Z ∉ occ k /\ length (occ k) <= length (frac_coords str).

  Variable P : kmc -> Prop.
  Hypothesis P_hop : forall k i e dt, P k ->
    propose select k (fst (draws i)) (snd (draws i)) = Ok (e, dt) -> proper_hop k e.
  Hypothesis P_update : forall k e dt k', P k ->
    KmcModel.update add model_apply compute_probability k e dt = Ok k' -> P k'.

  Definition well_formed (k : kmc) (r : tracker) : Prop :=
    t_lookup r = lo /\ exactly_mobile lk (occ k) (t_locations r) /\
    length (t_displacement r) = length (t_locations r) /\
    length (t_hops r) = length (t_locations r).

  Lemma tracker_never_inconsistent k r i e dt k' :
    P k -> well_formed k r ->
    propose select k (fst (draws i)) (snd (draws i)) = Ok (e, dt) ->
    KmcModel.update add model_apply compute_probability k e dt = Ok k' ->
    exists r', update str r (occ k) e = Ok r'.
  Proof.
    intros HP (Hlk & Hex & _) Hp Hu.
    destruct (P_hop _ _ _ _ HP Hp) as ((codes & Hlo & Hc & Hcc & Hh) & Hr & Hinv & Hfr).
    apply update_inv in Hu as (_ & _ & Hsw & _).
    destruct (update_step str r lk (occ k) e codes _ ltac:(rewrite Hlk; exact Hlo) Hc Hcc Hh Hr Hinv Hfr Hex Hsw)
      as (? & ? & ? & ? & r' & _ & _ & _ & Hr' & _). eauto.
  Qed.

  Lemma produce_tracks n i k r k' r' :
    P k -> well_formed k r ->
    produce add model_apply compute_probability select
      (fun tr st e => update str tr (occupations st) e) (sample_properties sample)
      n i draws k r = Ok (k', r') ->
    exists l, walk add model_apply compute_probability select (fun dt => dt) draws i k l k' /\
      length l = n /\ P k' /\ well_formed k' r' /\
      length (t_locations r') = length (t_locations r) /\
      sum_list (t_hops r') = sum_list (t_hops r) + n /\
      forall j p, t_locations r !! j = Some p ->
        let hops := journey lo (occupation_history (occ k) (map fst l)) p in
        t_locations r' !! j = Some (journey_end p hops) /\
        (forall h, t_hops r !! j = Some h -> t_hops r' !! j = Some (h + length hops)) /\
        (forall v, t_displacement r !! j = Some v -> exists v' fs,
           t_displacement r' !! j = Some v' /\
           Forall2 (fun h f => image_of str (fst h) (snd h) f) hops fs /\
           veq v' (vadd v (cartesian (lattice str) (vsum fs)))).
  Proof.
    revert i k r. induction n as [|n IH]; intros i k r HP Hwf H; simpl in H.
    { injection H as <- <-. exists []. split; [constructor|]. split; [done|].
      split; [done|]. split; [done|]. split; [done|]. split; [lia|].
      intros j p Hj. simpl. split; [done|].
      split; [intros h Hh; rewrite Nat.add_0_r; done|].
      intros v Hv. exists v, []. split; [done|]. split; [constructor|].
      apply veq_sym. eapply veq_trans; [apply vadd_veq; [apply veq_refl|apply cartesian_zero]|].
      unfold veq, vadd, vzero. simpl. repeat split; ring. }
    apply rbind_ok in H as ([e dt] & Hp & H). apply rbind_ok in H as (r1 & Ht & H).
    apply rbind_ok in H as (k1 & Hu & H). apply rbind_ok in H as (r2 & Hs & H).
    cbn [fst snd] in *.
    destruct Hwf as (Hlk & Hex & Hld & Hlh).
    destruct (P_hop _ _ _ _ HP Hp) as ((codes & Hlo & Hc & Hcc & Hh) & Hr & Hinv & Hfr).
    pose proof Hu as Hui. apply update_inv in Hui as (_ & _ & Hsw & _).
    destruct (update_step str r lk (occ k) e codes _ ltac:(rewrite Hlk; exact Hlo) Hc Hcc Hh Hr Hinv Hfr Hex Hsw)
      as (row & s & d & v & r1' & Hhop & Hrow & Him & Ht' & Hlk' & Hloc' & Hdisp' & Hhops' & _ & Hex').
    rewrite Ht' in Ht. injection Ht as ->.
    unfold sample_properties in Hs. apply rbind_ok in Hs as (sm & _ & [= <-]).
    apply IH in H.
    2:{ eapply P_update; eauto. }
    2:{ split; [simpl; congruence|]. simpl. split; [done|].
        rewrite Hdisp', Hhops', Hloc', !alter_length, insert_length. done. }
    destruct H as (l & Hw & Hl & HP' & Hwf' & Hlen & Hsum & Hrows). simpl in *.
    exists ((e, dt) :: l). split; [econstructor; eauto|]. split; [simpl; lia|].
    split; [done|]. split; [done|].
    split; [rewrite Hlen, Hloc', insert_length; done|].
    assert (Hrowlt : row < length (t_locations r)) by (by eapply lookup_lt_Some).
    split.
    { destruct (lookup_lt_is_Some_2 (t_hops r) row) as [h0 Hh0]; [lia|].
      rewrite Hsum, Hhops', (sum_alter_S _ _ _ Hh0). lia. }
    intros j p Hj. simpl map. cbn [occupation_history]. rewrite Hsw.
    cbn [journey]. rewrite Hlk in Hhop. rewrite Hhop.
    destruct (decide (j = row)) as [->|Hne].
    - rewrite Hrow in Hj. injection Hj as <-. rewrite Z.eqb_refl.
      specialize (Hrows row d). rewrite Hloc', list_lookup_insert in Hrows by done.
      destruct (Hrows eq_refl) as (Hend & Hhc & Hdc).
      rewrite journey_end_cons. split; [done|]. split.
      + intros h Hh0. rewrite (Hhc (Datatypes.S h)); [simpl; f_equal; lia|].
        rewrite Hhops', list_lookup_alter, Hh0. done.
      + intros v0 Hv0.
        destruct (Hdc (vadd v0 (cartesian (lattice str) v))) as (v' & fs & Hv' & Hfs & Heq).
        { rewrite Hdisp', list_lookup_alter, Hv0. done. }
        exists v', (v :: fs). split; [done|]. split; [by constructor|].
        eapply veq_trans; [exact Heq|]. apply veq_sym. simpl.
        eapply veq_trans; [apply vadd_veq; [apply veq_refl|apply cartesian_add]|].
        unfold veq, vadd. simpl. repeat split; ring.
    - destruct (Z.eqb_spec s p) as [->|Hsp].
      { exfalso. destruct Hex as [Hnd _]. rewrite NoDup_alt in Hnd.
        apply Hne. by eapply Hnd. }
      specialize (Hrows j p). rewrite Hloc', list_lookup_insert_ne in Hrows by done.
      destruct (Hrows Hj) as (Hend & Hhc & Hdc). split; [done|]. split.
      + intros h Hh0. apply Hhc. rewrite Hhops', list_lookup_alter_ne by done. done.
      + intros v0 Hv0. apply Hdc. rewrite Hdisp', list_lookup_alter_ne by done. done.
  Qed.
End Produce.

(** ** The composite simulation *)
Section Simulation.
  Context {E S : Type}.
  Variable ext_initialize : list Z -> event_lib -> result E.
  Variable ext_apply : E -> event -> list Z -> result E.
  Variable ext_compute : E -> list Z -> event -> result R.
  Variable sample : S -> list vec -> list nat -> state R -> result S.
  Notation rate c lk v t := (compute_probability ext_compute c lk v t).
  Notation kconstruct c lk v t init :=
    (construct Rplus (composite_initialize ext_initialize c init) (rate c lk v t)).
  Notation kupdates c lk v t := (updates Rplus (composite_apply ext_apply c) (rate c lk v t)).
  Notation kupdate c lk v t := (KmcModel.update Rplus (composite_apply ext_apply c) (rate c lk v t)).

  Variables (c : composite) (lo : option lookup) (lk : lookup) (v t : R) (init : E) (lib : event_lib)
    (st : state R) (k0 : kmc R E) (str : structure) (mobile : string) (s0 : S).
  Hypothesis Hc : lce_only c.
  Hypothesis Hv : (0 < v)%R.
  Hypothesis Hdeps : exact_dependencies (events lib) (get_dependent_events lib).
  Hypothesis Hrange : indices_in_range (events lib) (length (occupations st)).
  Hypothesis Hcons : events_consistent lk (events lib).
  Hypothesis Hinvalid : (-1)%Z ∉ occupations st.
  Hypothesis Hfrac : length (occupations st) <= length (frac_coords str).
  Hypothesis Huse : codes_in_use lo (pass_length (symbols str) mobile) (events lib) lk.
  Hypothesis Hk0 : kconstruct c lo v t init lib lo st = Ok k0.

  Definition reachable (k : kmc R E) : Prop :=
    exists hist, kupdates c lo v t k0 hist = Ok k.

  Lemma reachable_update k e dt k' :
    reachable k -> kupdate c lo v t k e dt = Ok k' -> reachable k'.
  Proof.
    intros [hist Hh] Hu. exists (hist ++ [(e, dt)]).
    clear - Hh Hu. revert Hh. generalize k0. unfold updates.
    induction hist as [|h hist IH]; intros k1 Hh; simpl in *.
    - injection Hh as ->. rewrite Hu. done.
    - apply rbind_ok in Hh as (k2 & H1 & Hh). rewrite H1. simpl. by apply IH.
  Qed.

  Lemma reachable_basic k :
    reachable k -> k_lib k = lib /\ k_lookup k = lo /\
      occupations (k_state k) ≡ₚ occupations st.
  Proof.
    intros [hist Hh]. revert Hh.
    apply (updates_inv _ _ _ (fun k => k_lib k = lib /\ k_lookup k = lo /\
      occupations (k_state k) ≡ₚ occupations st)).
    - clear. intros k e dt k' (A & B & C) Hu.
      apply update_inv in Hu as (D & F & G & _). apply swap_permutation in G.
      split; [congruence|]. split; [congruence|]. by rewrite G.
    - apply construct_inv in Hk0 as (A & B & D & _). by rewrite A, B, D.
  Qed.

  Lemma reachable_hop k u1 u2 e dt :
    reachable k -> (0 <= u1 < 1)%R -> propose Rselect k u1 u2 = Ok (e, dt) ->
    proper_hop str lo lk k e.
  Proof.
    intros Hk Hu1 Hp. pose proof (reachable_basic _ Hk) as (Hlib & _ & Hperm).
    destruct Hk as [hist Hh].
    destruct (only_hoppable_lemma _ _ _ _ _ _ _ _ _ _ _ _ _ _ _ _ _ Hc Hv Hdeps Hrange Hk0 Hh Hu1 Hp)
      as (codes & Hcodes & Hhop).
    assert (He : e ∈ events lib).
    { unfold propose in Hp. apply rbind_ok in Hp as ([i d] & _ & Hp).
      apply rbind_ok in Hp as (e' & He' & [= -> ->]). apply py_get_lt in He' as (j & _ & Hj).
      rewrite Hlib in Hj. by eapply elem_of_list_lookup_2. }
    pose proof (Permutation_length Hperm) as Hlen.
    split; [|split; [|split]].
    - exists codes. split; [done|]. assert (Hann : annotate_event lk e = Ok codes).
      { destruct lo as [l|]; [by rewrite Huse|]. injection Hcodes as <-.
        destruct Huse as (Hm & Hvc & Hsites).
        destruct Hhop as (f & g & x & y & Hfg & _). destruct e as [mi env]. simpl in Hfg. subst mi.
        pose proof (Hsites _ f He ltac:(simpl; set_solver)) as Hf.
        pose proof (Hsites _ g He ltac:(simpl; set_solver)) as Hg.
        unfold annotate_event. simpl. rewrite Hm, Hvc.
        assert (Hget : forall x s, (0 <= s < Z.of_nat (pass_length (symbols str) mobile))%Z ->
          py_get (repeat x (pass_length (symbols str) mobile)) s = Ok (x : Z)).
        { intros x0 s Hs. apply py_get_nonneg; [lia|]. apply repeat_lookup. lia. }
        rewrite !Hget by done. done. }
      split; [done|]. split; [|done]. by eapply Hcons.
    - intros s Hs. rewrite Hlen. eapply Hrange; [exact He|by left].
    - rewrite Hperm. done.
    - lia.
  Qed.

  Lemma reachable_walk clock draws i k l k' :
    reachable k ->
    walk Rplus (composite_apply ext_apply c) (rate c lo v t) Rselect clock draws i k l k' ->
    reachable k'.
  Proof.
    intros Hk Hw. induction Hw as [|i k e dt k1 rest k2 Hp Hu Hw IH]; [done|].
    apply IH. by eapply reachable_update.
  Qed.

  (** The tracker can be created at any time. *)
  Lemma creation_lemma hist k :
    kupdates c lo v t k0 hist = Ok k ->
    length (mobile_state_by_site lk) <= length (occupations st) ->
    exists tr : tracker S,
      create str mobile s0 (occupations (k_state k)) (k_lookup k) = Ok tr.
  Proof.
    intros Hh Hl. destruct (reachable_basic k) as (_ & -> & Hperm); [by eexists|].
    apply Permutation_length in Hperm. eapply create_total; [exact Huse|lia..].
  Qed.

  Lemma simulation_lemma hist k eqp kp pl draws k' r' :
    kupdates c lo v t k0 hist = Ok k ->
    (forall i, 0 <= fst (draws i) < 1)%R ->
    simulate ext_apply ext_compute sample c lo v t str mobile s0 eqp kp pl draws k = Ok (k', r') ->
    exists k1 eq prod r,
      walk Rplus (composite_apply ext_apply c) (rate c lo v t) Rselect (fun _ => 0%R)
        draws 0 k eq k1 /\
      create str mobile s0 (occupations (k_state k1)) lo = Ok r /\
      walk Rplus (composite_apply ext_apply c) (rate c lo v t) Rselect (fun dt => dt)
        draws (length eq) k1 prod k' /\
      length eq = Z.to_nat eqp * pl /\ length prod = Z.to_nat kp * pl /\
      exactly_mobile lk (occupations (k_state k1)) (t_locations r) /\
      exactly_mobile lk (occupations (k_state k')) (t_locations r') /\
      length (t_locations r') = length (t_locations r) /\
      length (t_hops r') = length (t_locations r') /\
      length (t_displacement r') = length (t_locations r') /\
      sum_list (t_hops r') = length prod /\
      (forall j p, t_locations r !! j = Some p ->
        let hops := journey lo (occupation_history (occupations (k_state k1)) (map fst prod)) p in
        t_locations r' !! j = Some (journey_end p hops) /\
        t_hops r' !! j = Some (length hops) /\
        exists d fs, t_displacement r' !! j = Some d /\
           Forall2 (fun h f => image_of str (fst h) (snd h) f) hops fs /\
           veq d (cartesian (lattice str) (vsum fs))) /\
      (forall u1 u2 e dt k'', (0 <= u1 < 1)%R -> propose Rselect k' u1 u2 = Ok (e, dt) ->
        kupdate c lo v t k' e dt = Ok k'' ->
        exists r'', update str r' (occupations (k_state k')) e = Ok r'').
  Proof.
    intros Hh Hdraws Hsim. unfold simulate, run in Hsim.
    apply rbind_ok in Hsim as (k1 & Heq & Hsim). apply rbind_ok in Hsim as (r & Hr & Hsim).
    apply equilibrate_walk in Heq as (eq & Hw1 & Hl1).
    assert (Hk1 : reachable k1) by (eapply reachable_walk; [by exists hist|exact Hw1]).
    pose proof (reachable_basic _ Hk1) as (_ & Hlk1 & _). rewrite Hlk1 in Hr.
    pose proof (create_spec _ _ _ _ _ _ _ _ Huse Hr) as (Hex & Hlk & Hdz & Hhz).
    pose proof (produce_tracks Rplus (composite_apply ext_apply c) (rate c lo v t) Rselect
      sample str lo lk draws reachable) as HP.
    assert (HPhop : forall k i e dt, reachable k ->
      propose Rselect k (fst (draws i)) (snd (draws i)) = Ok (e, dt) -> proper_hop str lo lk k e).
    { intros k2 i e dt Hk2 Hp. by eapply reachable_hop. }
    assert (Hwf : well_formed lo lk k1 r).
    { split; [done|]. split; [done|]. rewrite Hdz, Hhz, !map_length. done. }
    destruct (HP HPhop reachable_update _ _ _ _ _ _ Hk1 Hwf Hsim) as (prod & Hw2 & Hl2 & Hk' & Hwf' & Hlen & Hsum & Hrows).
    exists k1, eq, prod, r. split; [done|]. split; [done|].
    split; [by rewrite Hl1|]. split; [done|]. split; [done|].
    split; [done|]. destruct Hwf' as (Hlk' & Hex' & Hld' & Hlh').
    split; [done|]. split; [done|]. split; [done|]. split; [done|].
    split.
    { rewrite Hsum, Hhz, Hl2.
      assert (H0 : sum_list (map (fun _ => 0) (t_locations r)) = 0); [|rewrite H0; done].
      clear. induction (t_locations r); simpl; auto. }
    split.
    { intros j p Hj. destruct (Hrows j p Hj) as (Hend & Hhc & Hdc). split; [done|].
      split.
      { apply (Hhc 0). rewrite Hhz. by eapply lookup_map_const. }
      destruct (Hdc vzero) as (d & fs & Hd & Hfs & Hv').
      { rewrite Hdz. by eapply lookup_map_const. }
      exists d, fs. split; [done|]. split; [done|].
      eapply veq_trans; [exact Hv'|]. unfold veq, vadd, vzero. simpl. repeat split; ring. }
    intros u1 u2 e dt k'' Hu Hp Hupd.
    refine (tracker_never_inconsistent Rplus (composite_apply ext_apply c) (rate c lo v t)
      Rselect str lo lk (fun _ => (u1, u2)) reachable _ k' r' 0 e dt k'' Hk' _ Hp Hupd);
      [|done].
    intros k2 i e2 dt2 Hk2 Hp2. by eapply reachable_hop.
  Qed.
End Simulation.
