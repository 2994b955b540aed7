(** Proofs about hop state codes. *)
From Verif Require Import Py PyLemmas Json ActiveSiteModel ActiveSiteSpec ActiveSiteProofs
  EventModel HopModel HopSpec.

Lemma vacancy_label_iff s : is_vacancy_label s = true <-> vacancy_name s.
Proof.
  unfold is_vacancy_label, vacancy_name, str_in. rewrite existsb_exists.
  setoid_rewrite String.eqb_eq. setoid_rewrite <- elem_of_list_In. split.
  - intros (x & Hx & ->); done.
  - intros H. eauto.
Qed.

Lemma mobile_label_iff s m : is_mobile_label s m = true <-> m = s.
Proof. unfold is_mobile_label. rewrite String.eqb_eq. split; congruence. Qed.

(** The scan with both accumulators generalised: position offsets by [n0]. *)
Definition last_from (n0 : nat) (P : string -> Prop) (labels : list string) (init c : Z) : Prop :=
  (c = init /\ forall s, s ∈ labels -> ~ P s) \/
  exists n s, c = Z.of_nat (n0 + n) /\ labels !! n = Some s /\ P s /\
    forall m s', labels !! m = Some s' -> P s' -> m <= n.

Lemma last_from_cons n0 (P : string -> Prop) l labels init c :
  (P l /\ last_from (S n0) P labels (Z.of_nat n0) c) \/
  (~ P l /\ last_from (S n0) P labels init c) ->
  last_from n0 P (l :: labels) init c.
Proof.
  intros [[HP [[-> H]|(n & s & -> & Hl & Hs & Hm)]]|[HP [[-> H]|(n & s & -> & Hl & Hs & Hm)]]].
  - right. exists 0, l. split; [lia|]. split; [done|]. split; [done|].
    intros [|m] s' Hm Hs'; [lia|]. simpl in Hm. destruct (H s'); [|done].
    by eapply elem_of_list_lookup_2.
  - right. exists (S n), s. split; [lia|]. split; [done|]. split; [done|].
    intros [|m] s' Hm' Hs'; [lia|]. specialize (Hm m s' Hm' Hs'). lia.
  - left. split; [done|]. intros s Hs. apply elem_of_cons in Hs as [->|Hs]; auto.
  - right. exists (S n), s. split; [lia|]. split; [done|]. split; [done|].
    intros [|m] s' Hm' Hs'; [lia|]. specialize (Hm m s' Hm' Hs'). lia.
Qed.

Lemma scan_codes_spec mobile labels : forall n0 m v,
  let (m', v') := scan_codes mobile n0 labels (m, v) in
  last_from n0 (eq mobile) labels m m' /\ last_from n0 vacancy_name labels v v'.
Proof.
  induction labels as [|l labels IH]; intros n0 m v; simpl.
  { split; left; (split; [done|]); intros s Hs; by apply elem_of_nil in Hs. }
  specialize (IH (S n0) (if is_mobile_label l mobile then Z.of_nat n0 else m)
                 (if is_vacancy_label l then Z.of_nat n0 else v)).
  destruct (scan_codes _ _ _ _) as [m' v']. destruct IH as [H1 H2]. split.
  - apply last_from_cons. destruct (is_mobile_label l mobile) eqn:E.
    + left. split; [by apply mobile_label_iff|done].
    + right. split; [|done]. intros H. apply mobile_label_iff in H. congruence.
  - apply last_from_cons. destruct (is_vacancy_label l) eqn:E.
    + left. split; [by apply vacancy_label_iff|done].
    + right. split; [|done]. intros H. apply vacancy_label_iff in H. congruence.
Qed.

Lemma last_from_position P labels c : last_from 0 P labels (-1)%Z c -> last_position P labels c.
Proof. done. Qed.

Lemma site_codes_spec o mobile p labels :
  (0 <= p)%Z -> o_allowed o !! Z.to_nat p = Some labels ->
  exists m v, site_codes o mobile p = Ok (m, v) /\
    last_position (eq mobile) labels m /\ last_position vacancy_name labels v.
Proof.
  intros Hp Hl. unfold site_codes.
  assert (Hg : py_get (o_allowed o) p = Ok labels).
  { apply py_get_nonneg; [|done]. apply lookup_lt_Some in Hl. lia. }
  rewrite Hg. simpl.
  pose proof (scan_codes_spec mobile labels 0 invalid_state invalid_state) as H.
  destruct (scan_codes _ _ _ _) as [m v]. exists m, v. split; [done|exact H].
Qed.

Lemma built_site_labels parse fp template mapping shape o a k :
  built parse fp template mapping shape o -> o_a2o o !! a = Some k ->
  (0 <= k)%Z /\ (0 <= k / cells (o_shape o))%Z /\ exists labels, site_labels o a labels /\
   o_allowed o !! Z.to_nat (k / cells (o_shape o)) = Some labels.
Proof.
  intros H Hk. pose proof (order_partition_lemma _ _ _ _ _ _ H) as [Ho (_ & _ & Hsp)].
  assert (Hin : k ∈ o_a2o o) by (by eapply elem_of_list_lookup_2).
  assert (Hr : (0 <= k < o_orig_count o)%Z) by (apply Hsp; auto).
  pose proof Hin as Hact. apply (order_active_iff_lemma _ _ _ _ _ _ k H Hr) in Hact.
  destruct Hact as (labels & Hl & _).
  split; [lia|]. split.
  { apply built_inv in H as (x & y & z & allowed & Hpos & Hsh & _).
    apply Z.div_pos; [lia|]. rewrite Hsh. unfold cells. simpl. nia. }
  exists labels. split; [|done]. exists k. done.
Qed.

Lemma lookup_total_lemma parse fp template mapping shape o mobile :
  built parse fp template mapping shape o ->
  exists lk, lookup_from_order o mobile = Ok lk /\
    length (mobile_state_by_site lk) = active_site_count o /\
    length (vacancy_state_by_site lk) = active_site_count o /\
    forall a labels, site_labels o a labels -> exists m v,
      mobile_state_by_site lk !! a = Some m /\ vacancy_state_by_site lk !! a = Some v /\
      last_position (eq mobile) labels m /\ last_position vacancy_name labels v.
Proof.
  intros H. pose proof (order_lengths_lemma _ _ _ _ _ _ H) as (Hlen & _).
  assert (Hsite : forall a p, o_a2p o !! a = Some p ->
    exists labels, site_labels o a labels /\ (0 <= p)%Z /\ o_allowed o !! Z.to_nat p = Some labels).
  { intros a p Hp. destruct (o_a2o o !! a) as [k|] eqn:Hk.
    2:{ apply lookup_ge_None in Hk. apply lookup_lt_Some in Hp.
        unfold active_site_count in Hlen. lia. }
    pose proof (order_primitive_lemma _ _ _ _ _ _ _ _ H Hk) as Hp'.
    rewrite Hp in Hp'. injection Hp' as ->.
    destruct (built_site_labels _ _ _ _ _ _ _ _ H Hk) as (H1 & H2 & labels & H3 & H4).
    exists labels. done. }
  destruct (rmapM_ok_exists (site_codes o mobile) (o_a2p o)) as (cs & Hcs).
  { intros p Hp. apply elem_of_list_lookup in Hp as (a & Ha).
    destruct (Hsite a p Ha) as (labels & _ & Hp0 & Hl).
    destruct (site_codes_spec o mobile p labels Hp0 Hl) as (m & v & Hmv & _). eauto. }
  eexists. unfold lookup_from_order. rewrite Hcs. split; [reflexivity|].
  pose proof (rmapM_length _ _ _ Hcs) as Hl. simpl.
  split; [rewrite map_length; lia|]. split; [rewrite map_length; lia|].
  intros a labels (k & Hk & Hlab).
  pose proof (order_primitive_lemma _ _ _ _ _ _ _ _ H Hk) as Hp.
  destruct (Hsite _ _ Hp) as (labels' & _ & Hp0 & Hl'). rewrite Hlab in Hl'.
  injection Hl' as <-.
  destruct (rmapM_lookup_l _ _ _ _ _ Hcs Hp) as (y & Hy & Hc).
  destruct (site_codes_spec o mobile _ labels Hp0 Hlab) as (m & v & Hmv & Hm & Hv).
  rewrite Hmv in Hc. injection Hc as <-.
  exists m, v. rewrite !list_lookup_fmap, Hy. done.
Qed.

Lemma last_position_holds P labels c x :
  at_most_one P labels -> last_position P labels c ->
  (0 <= x < Z.of_nat (length labels))%Z ->
  (x = c <-> exists s, labels !! Z.to_nat x = Some s /\ P s).
Proof.
  intros Hu Hc Hx. destruct (lookup_lt_is_Some_2 labels (Z.to_nat x)) as [sx Hsx]; [lia|].
  destruct Hc as [[-> Hno]|(n & s & -> & Hl & Hs & _)].
  - split; [lia|]. intros (s & Hl & Hs). destruct (Hno s); [|done].
    by eapply elem_of_list_lookup_2.
  - split.
    + intros ->. rewrite Nat2Z.id. eauto.
    + intros (s' & Hl' & Hs'). specialize (Hu _ _ _ _ Hl Hl' Hs Hs'). lia.
Qed.

Lemma holds_iff o occ a P labels x :
  site_labels o a labels -> occ !! a = Some x -> (0 <= x)%Z ->
  (holds o occ a P <-> exists s, labels !! Z.to_nat x = Some s /\ P s).
Proof.
  intros Hl Hx Hpos. split.
  - intros (labels' & c & s & (k' & Hk' & Hl') & Hc & _ & Hs & HP).
    destruct Hl as (k & Hk & Hl). simplify_eq. eauto.
  - intros (s & Hs & HP). exists labels, x, s. done.
Qed.

Lemma direction_lemma parse fp template mapping shape o mobile lk occ f t env :
  built parse fp template mapping shape o ->
  lookup_from_order o mobile = Ok lk ->
  unambiguous o mobile -> ~ vacancy_name mobile -> codes_in_range o occ ->
  f < active_site_count o -> t < active_site_count o ->
  let e := Event [Z.of_nat f; Z.of_nat t] env in
  exists codes d, annotate_event lk e = Ok codes /\ event_direction occ e codes = Ok d /\
    (d = 1%Z <-> holds o occ f (eq mobile) /\ holds o occ t vacancy_name) /\
    (d = (-1)%Z <-> holds o occ f vacancy_name /\ holds o occ t (eq mobile)) /\
    (d = 1 \/ d = -1 \/ d = 0)%Z.
Proof.
  intros H Hlk Hun Hmob Hocc Hf Ht e.
  destruct (lookup_total_lemma _ _ _ _ _ _ mobile H) as (lk' & Hlk' & Hlm & Hlv & Hsite).
  rewrite Hlk in Hlk'. injection Hlk' as <-.
  assert (Hlab : forall a, a < active_site_count o -> exists labels m v x,
    site_labels o a labels /\ at_most_one (eq mobile) labels /\
    at_most_one vacancy_name labels /\
    mobile_state_by_site lk !! a = Some m /\ vacancy_state_by_site lk !! a = Some v /\
    last_position (eq mobile) labels m /\ last_position vacancy_name labels v /\
    occ !! a = Some x /\ (0 <= x < Z.of_nat (length labels))%Z).
  { intros a Ha. destruct (lookup_lt_is_Some_2 (o_a2o o) a) as [k Hk]; [done|].
    destruct (built_site_labels _ _ _ _ _ _ _ _ H Hk) as (_ & _ & labels & Hl & _).
    destruct (Hsite a labels Hl) as (m & v & H1 & H2 & H3 & H4).
    destruct (Hun a labels Hl). destruct (Hocc a labels Hl) as (x & Hx & Hxr).
    exists labels, m, v, x. tauto. }
  destruct (Hlab f Hf) as (lf & mf & vf & xf & Hlf & Hu1 & Hu2 & Hmf & Hvf & Hpm & Hpv & Hxf & Hrf).
  destruct (Hlab t Ht) as (lt & mt & vt & xt & Hlt & Hu3 & Hu4 & Hmt & Hvt & Hqm & Hqv & Hxt & Hrt).
  assert (Hget : forall (l : list Z) a x, l !! a = Some x -> py_get l (Z.of_nat a) = Ok x).
  { intros l a x Hx. apply py_get_nonneg; [lia|]. by rewrite Nat2Z.id. }
  exists (mf, vt, vf, mt). unfold annotate_event, event_direction. simpl.
  rewrite (Hget _ _ _ Hmf), (Hget _ _ _ Hvt), (Hget _ _ _ Hvf), (Hget _ _ _ Hmt). simpl.
  rewrite (Hget _ _ _ Hxf), (Hget _ _ _ Hxt). simpl.
  eexists. split; [reflexivity|]. split; [reflexivity|].
  rewrite (holds_iff _ _ _ (eq mobile) _ _ Hlf Hxf), (holds_iff _ _ _ vacancy_name _ _ Hlt Hxt) by lia.
  rewrite (holds_iff _ _ _ (eq mobile) _ _ Hlt Hxt), (holds_iff _ _ _ vacancy_name _ _ Hlf Hxf) by lia.
  rewrite <- (last_position_holds _ _ _ _ Hu1 Hpm Hrf), <- (last_position_holds _ _ _ _ Hu2 Hpv Hrf).
  rewrite <- (last_position_holds _ _ _ _ Hu3 Hqm Hrt), <- (last_position_holds _ _ _ _ Hu4 Hqv Hrt).
  assert (Hex : xf = mf -> xf = vf -> False).
  { rewrite (last_position_holds _ _ _ _ Hu1 Hpm Hrf), (last_position_holds _ _ _ _ Hu2 Hpv Hrf).
    intros (s & Hs & <-) (s' & Hs' & Hv). simplify_eq. done. }
  destruct (Z.eqb_spec xf mf), (Z.eqb_spec xt vt), (Z.eqb_spec xf vf), (Z.eqb_spec xt mt);
    simpl; repeat split; try lia; try tauto; intros; intuition; try lia.
Qed.
