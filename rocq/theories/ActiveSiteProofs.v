From Coq Require Import Lia Sorted QArith.
From stdpp Require Import sorting.
From Verif Require Import Py Json PyLemmas ActiveSiteModel ActiveSiteSpec.
Local Open Scope nat_scope.
Local Arguments make_kmc_supercell : simpl never.
Local Arguments lattice_points : simpl never.

(* ------------------------------------------------------------------ *)
(** ** Uniform blocks *)

Lemma bind_lookup_uniform {A B} (f : A -> list B) (l : list A) m k :
  (forall x, length (f x) = m) -> 0 < m ->
  (l ≫= f) !! k = (l !! (k / m)) ≫= (fun x => f x !! (k mod m)).
Proof.
  intros Hf Hm. revert k; induction l as [|x l IH]; intros k; simpl; [done|].
  destruct (decide (k < m)) as [Hlt|Hge].
  - rewrite lookup_app_l by (rewrite Hf; done).
    rewrite Nat.div_small, Nat.mod_small by done. done.
  - rewrite lookup_app_r by (rewrite Hf; lia). rewrite Hf, IH.
    replace (k / m) with (S ((k - m) / m)).
    2:{ replace k with ((k - m) + 1 * m) at 2 by lia. rewrite Nat.div_add by lia. lia. }
    replace (k mod m) with ((k - m) mod m).
    2:{ replace k with ((k - m) + 1 * m) at 2 by lia. rewrite Nat.mod_add by lia. done. }
    done.
Qed.

Lemma bind_length_uniform {A B} (f : A -> list B) (l : list A) m :
  (forall x, length (f x) = m) -> length (l ≫= f) = length l * m.
Proof.
  intros Hf. induction l as [|x l IH]; [done|].
  rewrite bind_cons, app_length, Hf, IH. simpl. lia.
Qed.

Lemma seq_bind_single {A} (f : nat -> A) n i :
  (seq 0 n ≫= fun c => [f c]) !! i = if decide (i < n) then Some (f i) else None.
Proof.
  rewrite (bind_lookup_uniform _ _ 1) by (simpl; lia || done).
  rewrite Nat.div_1_r, Nat.mod_1_r. destruct (decide (i < n)).
  - rewrite lookup_seq_lt by done. done.
  - rewrite lookup_seq_ge by lia. done.
Qed.

Lemma lattice_points_length n1 n2 n3 : length (lattice_points n1 n2 n3) = n1 * n2 * n3.
Proof.
  unfold lattice_points.
  rewrite (bind_length_uniform _ _ (n2 * n3)).
  2:{ intros a. rewrite (bind_length_uniform _ _ n3), seq_length; [lia|].
      intros b. rewrite (bind_length_uniform _ _ 1), seq_length; [lia|done]. }
  rewrite seq_length. lia.
Qed.

Lemma lattice_points_lookup n1 n2 n3 i a b c :
  lattice_points n1 n2 n3 !! i = Some (a, b, c) <->
  a < n1 /\ b < n2 /\ c < n3 /\ i = (a * n2 + b) * n3 + c.
Proof.
  destruct (decide (0 < n2 * n3)) as [Hpos|Hz].
  2:{ assert (lattice_points n1 n2 n3 = []) as ->.
      { apply length_zero_iff_nil. rewrite lattice_points_length. nia. }
      split; [done|]. intros (?&?&?&?). nia. }
  unfold lattice_points. rewrite (bind_lookup_uniform _ _ (n2 * n3)); [|intros|done].
  2:{ rewrite (bind_length_uniform _ _ n3), seq_length; [lia|].
      intros b'. rewrite (bind_length_uniform _ _ 1), seq_length; [lia|done]. }
  assert (Hn3 : 0 < n3) by nia. assert (Hn2 : 0 < n2) by nia.
  split.
  - intros H. apply bind_Some in H as (a' & Ha & H).
    apply lookup_seq in Ha as [-> Ha].
    rewrite (bind_lookup_uniform _ _ n3) in H; [|intros|done].
    2:{ rewrite (bind_length_uniform _ _ 1), seq_length; [lia|done]. }
    apply bind_Some in H as (b' & Hb & H). apply lookup_seq in Hb as [-> Hb].
    rewrite seq_bind_single in H. destruct (decide _) as [Hc|]; [|done].
    simplify_eq. simpl. split; [lia|]. split; [lia|]. split; [done|].
    pose proof (Nat.div_mod i (n2 * n3) ltac:(lia)) as H1.
    pose proof (Nat.div_mod (i mod (n2 * n3)) n3 ltac:(lia)) as H2. nia.
  - intros (Ha & Hb & Hc & ->).
    assert (Hd : ((a * n2 + b) * n3 + c) / (n2 * n3) = a).
    { symmetry. apply (Nat.div_unique _ _ _ (b * n3 + c)); nia. }
    assert (Hm : ((a * n2 + b) * n3 + c) mod (n2 * n3) = b * n3 + c).
    { symmetry. apply (Nat.mod_unique _ _ a); nia. }
    rewrite Hd, Hm. rewrite lookup_seq_lt by done. simpl.
    rewrite (bind_lookup_uniform _ _ n3); [|intros|done].
    2:{ rewrite (bind_length_uniform _ _ 1), seq_length; [lia|done]. }
    assert (Hd2 : (b * n3 + c) / n3 = b) by (symmetry; apply (Nat.div_unique _ _ _ c); nia).
    assert (Hm2 : (b * n3 + c) mod n3 = c) by (symmetry; apply (Nat.mod_unique _ _ b); nia).
    rewrite Hd2, Hm2. rewrite lookup_seq_lt by done. simpl.
    rewrite seq_bind_single. rewrite decide_True by done. done.
Qed.

Lemma supercell_length n n1 n2 n3 :
  length (make_kmc_supercell n (n1, n2, n3)) = n * (n1 * n2 * n3).
Proof.
  unfold make_kmc_supercell.
  rewrite (bind_length_uniform _ _ (n1 * n2 * n3)), seq_length; [done|].
  intros p. rewrite (bind_length_uniform _ _ 1), lattice_points_length; [lia|done].
Qed.

Lemma supercell_lookup_lemma n n1 n2 n3 k p a b c :
  make_kmc_supercell n (n1, n2, n3) !! k = Some (SSite p (a, b, c)) <->
  p < n /\ a < n1 /\ b < n2 /\ c < n3 /\ k = ((p * n1 + a) * n2 + b) * n3 + c.
Proof.
  destruct (decide (0 < n1 * n2 * n3)) as [Hpos|Hz].
  2:{ assert (make_kmc_supercell n (n1, n2, n3) = []) as ->.
      { apply length_zero_iff_nil. rewrite supercell_length. nia. }
      split; [done|]. intros (?&?&?&?&?). exfalso. apply Hz.
      destruct n1, n2, n3; simpl in *; lia. }
  unfold make_kmc_supercell.
  assert (Hlen : forall q, length (lattice_points n1 n2 n3 ≫= fun t => [SSite q t]) = n1 * n2 * n3).
  { intros q. rewrite (bind_length_uniform _ _ 1), lattice_points_length; [lia|done]. }
  rewrite (bind_lookup_uniform _ _ (n1 * n2 * n3)); [|done|done].
  assert (Hin : forall q i, (lattice_points n1 n2 n3 ≫= fun t => [SSite q t]) !! i =
                  SSite q <$> lattice_points n1 n2 n3 !! i).
  { intros q i. rewrite (bind_lookup_uniform _ _ 1) by (simpl; lia || done).
    rewrite Nat.div_1_r, Nat.mod_1_r. destruct (_ !! i); done. }
  split.
  - intros H. apply bind_Some in H as (q & Hq & H). apply lookup_seq in Hq as [-> Hq].
    rewrite Hin in H. apply fmap_Some in H as (t & Ht & [= -> <-]).
    apply lattice_points_lookup in Ht as (Ha & Hb & Hc & Ht).
    split; [lia|]. split; [done|]. split; [done|]. split; [done|].
    pose proof (Nat.div_mod k (n1 * n2 * n3) ltac:(lia)) as H1. nia.
  - intros (Hp & Ha & Hb & Hc & ->).
    assert (Hlin : (a * n2 + b) * n3 + c < n1 * n2 * n3).
    { assert ((a * n2 + b) < n1 * n2) by nia. nia. }
    assert (Hd : (((p * n1 + a) * n2 + b) * n3 + c) / (n1 * n2 * n3) = p).
    { symmetry. apply (Nat.div_unique _ _ _ ((a * n2 + b) * n3 + c)); nia. }
    assert (Hm : (((p * n1 + a) * n2 + b) * n3 + c) mod (n1 * n2 * n3) = (a * n2 + b) * n3 + c).
    { symmetry. apply (Nat.mod_unique _ _ p); nia. }
    rewrite Hd, Hm. rewrite lookup_seq_lt by done. simpl. rewrite Hin.
    rewrite (proj2 (lattice_points_lookup n1 n2 n3 _ a b c)); [done|]. auto.
Qed.

Lemma supercell_prim n n1 n2 n3 k s :
  make_kmc_supercell n (n1, n2, n3) !! k = Some s ->
  ss_prim s = k / (n1 * n2 * n3).
Proof.
  destruct s as [p [[a b] c]]. intros H. simpl.
  apply supercell_lookup_lemma in H as (Hp & Ha & Hb & Hc & ->).
  apply (Nat.div_unique _ _ _ ((a * n2 + b) * n3 + c)).
  - assert ((a * n2 + b) < n1 * n2) by nia. nia.
  - nia.
Qed.

(* ------------------------------------------------------------------ *)
(** ** Classification *)

Lemma classify_fold lookup l a2o a2p fixed :
  fold_left (classify_site lookup) l (a2o, a2p, fixed) =
  (a2o ++ map fst (List.filter (fun e => din lookup (ss_prim (snd e))) l),
   a2p ++ map (fun e => ss_prim (snd e)) (List.filter (fun e => din lookup (ss_prim (snd e))) l),
   fixed ++ map fst (List.filter (fun e => negb (din lookup (ss_prim (snd e)))) l)).
Proof.
  revert a2o a2p fixed; induction l as [|[i s] l IH]; intros a2o a2p fixed; simpl.
  - rewrite !app_nil_r. done.
  - destruct (din lookup (ss_prim s)); simpl; rewrite IH; rewrite <- ?app_assoc; done.
Qed.

Lemma elem_of_filter_enum {A} (P : nat * A -> bool) (l : list A) i :
  i ∈ map fst (List.filter P (enumerate l)) <-> exists x, l !! i = Some x /\ P (i, x) = true.
Proof.
  rewrite elem_of_list_fmap. split.
  - intros ([j x] & -> & Hin). apply elem_of_list_In, filter_In in Hin as [Hin HP].
    apply elem_of_list_In, elem_of_enumerate in Hin. eauto.
  - intros (x & Hx & HP). exists (i, x). split; [done|].
    apply elem_of_list_In, filter_In. split; [|done].
    by apply elem_of_list_In, elem_of_enumerate.
Qed.

Lemma filter_enum_sorted {A} (P : nat * A -> bool) n (l : list A) :
  StronglySorted lt (map fst (List.filter P (enum_from n l))) /\
  Forall (fun i => n <= i) (map fst (List.filter P (enum_from n l))).
Proof.
  revert n; induction l as [|x l IH]; intros n; simpl; [split; constructor|].
  destruct (IH (S n)) as [Hs Hf].
  destruct (P (n, x)); simpl.
  - split.
    + constructor; [done|]. eapply Forall_impl; [exact Hf|]. simpl; lia.
    + constructor; [lia|]. eapply Forall_impl; [exact Hf|]. simpl; lia.
  - split; [done|]. eapply Forall_impl; [exact Hf|]. simpl; lia.
Qed.

Lemma increasing_of_nat l : StronglySorted lt l -> increasing (map Z.of_nat l).
Proof.
  induction 1 as [|x l Hs IH Hf]; simpl; constructor; [done|].
  rewrite Forall_forall in Hf. apply Forall_forall. intros y Hy.
  apply elem_of_list_fmap in Hy as (z & -> & Hz). specialize (Hf z Hz). lia.
Qed.

Lemma elem_of_map_of_nat k l : k ∈ map Z.of_nat l <-> exists n, k = Z.of_nat n /\ n ∈ l.
Proof. apply elem_of_list_fmap. Qed.

Lemma din_active_lookup pa k : NoDup pa -> din (active_lookup pa) k = bool_decide (k ∈ pa).
Proof.
  intros Hnd. unfold din, active_lookup.
  assert (Hk : dkeys (map (fun e => (snd e, fst e)) (enumerate pa)) = pa).
  { unfold dkeys. rewrite map_map. simpl. rewrite <- (enum_from_snd 0 pa) at 2. done. }
  rewrite dof_pairs_NoDup by (unfold dkeys in Hk; rewrite Hk; done).
  destruct (dget _ k) as [v|] eqn:E.
  - symmetry. apply bool_decide_eq_true. rewrite <- Hk.
    apply dget_in_keys. eauto.
  - symmetry. apply bool_decide_eq_false. rewrite <- Hk. by apply dget_None.
Qed.

Lemma StronglySorted_lt_NoDup l : StronglySorted lt l -> NoDup l.
Proof.
  induction 1 as [|x l Hs IH Hf]; constructor; [|done].
  intros Hin. rewrite Forall_forall in Hf. specialize (Hf x Hin). lia.
Qed.

Lemma elem_of_primitive_active allowed p :
  p ∈ primitive_active allowed <-> exists l, allowed !! p = Some l /\ 1 < length l.
Proof.
  unfold primitive_active. rewrite elem_of_filter_enum. simpl.
  setoid_rewrite Nat.ltb_lt. done.
Qed.

Lemma primitive_active_sorted allowed : StronglySorted lt (primitive_active allowed).
Proof. apply (filter_enum_sorted _ 0 allowed). Qed.

Local Opaque primitive_active.

Lemma shape_normalized shape l :
  normalize_supercell_shape shape = Ok l ->
  exists a b c, (0 < a /\ 0 < b /\ 0 < c)%Z /\ l = [a; b; c].
Proof.
  unfold normalize_supercell_shape. destruct shape as [l'|].
  2:{ intros [= <-]. exists 1%Z, 1%Z, 1%Z. split; [lia|done]. }
  destruct (Nat.eqb_spec (length l') 3) as [Hl|]; simpl; [|discriminate].
  destruct l' as [|a [|b [|c [|? ?]]]]; simpl in Hl; try discriminate.
  simpl. destruct (Z.leb_spec a 0), (Z.leb_spec b 0), (Z.leb_spec c 0);
    simpl; try discriminate. intros [= <-]. exists a, b, c. split; [lia|done].
Qed.

(** Everything the build produces, in one place. *)
Lemma built_inv parse fp template mapping shape o :
  built parse fp template mapping shape o ->
  exists a b c allowed,
    (0 < a /\ 0 < b /\ 0 < c)%Z /\ o_shape o = [a; b; c] /\
    allowed_species_by_site parse template mapping = Ok allowed /\
    length allowed = length template /\
    primitive_active allowed <> [] /\
    let n1 := Z.to_nat a in let n2 := Z.to_nat b in let n3 := Z.to_nat c in
    let full := make_kmc_supercell (length template) (n1, n2, n3) in
    let isact := fun e : nat * ssite => bool_decide (ss_prim (snd e) ∈ primitive_active allowed) in
    let act := List.filter isact (enumerate full) in
    let inact := List.filter (fun e => negb (isact e)) (enumerate full) in
    o_prim_count o = Z.of_nat (length template) /\
    o_orig_count o = Z.of_nat (length full) /\
    o_prim_active o = map Z.of_nat (primitive_active allowed) /\
    o_a2o o = map Z.of_nat (map fst act) /\
    o_a2p o = map Z.of_nat (map (fun e => ss_prim (snd e)) act) /\
    o_fixed o = map Z.of_nat (map fst inact) /\
    o_species o = map (fun s => species_label (SObj s)) template /\
    o_allowed o = map (map (fun s => species_label (SObj s))) allowed /\
    o_template o = Some template /\
    o_fp o = fp {| f_prim_count := o_prim_count o; f_orig_count := o_orig_count o;
                   f_prim_active := o_prim_active o; f_a2o := o_a2o o; f_a2p := o_a2p o;
                   f_shape := o_shape o; f_species := o_species o; f_allowed := o_allowed o |}.
Proof.
  unfold built, from_structure_and_mapping. intros H.
  apply rbind_ok in H as (sh & Hsh & H).
  apply rbind_ok in H as (allowed & Hal & H).
  apply shape_normalized in Hsh as (a & b & c & Hpos & ->).
  assert (Hlen : length allowed = length template).
  { unfold allowed_species_by_site in Hal. apply rbind_ok in Hal as (es & _ & Hal).
    apply rmapM_length in Hal. done. }
  assert (Hnd : NoDup (primitive_active allowed)).
  { apply StronglySorted_lt_NoDup.
    apply primitive_active_sorted. }
  destruct (primitive_active allowed) as [|p0 pa] eqn:Epa; [discriminate|].
  rewrite <- Epa in *.
  cbn zeta in H. rewrite classify_fold in H. cbn [app] in H.
  assert (Hext : forall l : list (nat * ssite),
    List.filter (fun e => din (active_lookup (primitive_active allowed)) (ss_prim (snd e))) l =
    List.filter (fun e => bool_decide (ss_prim (snd e) ∈ primitive_active allowed)) l).
  { intros l. apply filter_ext. intros e. by apply din_active_lookup. }
  assert (Hext' : forall l : list (nat * ssite),
    List.filter (fun e => negb (din (active_lookup (primitive_active allowed)) (ss_prim (snd e)))) l =
    List.filter (fun e => negb (bool_decide (ss_prim (snd e) ∈ primitive_active allowed))) l).
  { intros l. apply filter_ext. intros e. by rewrite din_active_lookup. }
  rewrite Hext, Hext' in H. injection H as <-.
  exists a, b, c, allowed. simpl. split; [done|]. split; [done|]. split; [done|].
  split; [done|]. split; [rewrite Epa; discriminate|].
  repeat split; done.
Qed.

Lemma order_partition_lemma parse fp template mapping shape o :
  built parse fp template mapping shape o ->
  o_orig_count o = (o_prim_count o * cells (o_shape o))%Z /\
  splits (o_orig_count o) (o_a2o o) (o_fixed o).
Proof.
  intros H. apply built_inv in H
    as (a & b & c & allowed & Hpos & Hsh & _ & _ & _ & H).
  cbn zeta in H.
  destruct H as (Hpc & Hoc & _ & Ha2o & _ & Hfx & _).
  rewrite Hpc, Hoc, Hsh, Ha2o, Hfx. unfold cells. simpl.
  set (full := make_kmc_supercell _ _) in *.
  split.
  { unfold full. rewrite supercell_length. nia. }
  unfold splits. split; [|split].
  - apply increasing_of_nat, (filter_enum_sorted _ 0).
  - apply increasing_of_nat, (filter_enum_sorted _ 0).
  - intros k. rewrite !elem_of_map_of_nat. setoid_rewrite elem_of_filter_enum. simpl.
    split; [split|].
    + intros Hk. destruct (lookup_lt_is_Some_2 full (Z.to_nat k)) as [s Hs]; [lia|].
      destruct (bool_decide (ss_prim s ∈ primitive_active allowed)) eqn:E.
      * left. exists (Z.to_nat k). split; [lia|]. exists s. done.
      * right. exists (Z.to_nat k). split; [lia|]. exists s. rewrite E. done.
    + intros [(n & -> & s & Hs & _)|(n & -> & s & Hs & _)];
        apply lookup_lt_Some in Hs; lia.
    + intros [(n & -> & s & Hs & HP) (m & Hm & s' & Hs' & HP')].
      apply Nat2Z.inj in Hm. subst m. rewrite Hs in Hs'. injection Hs' as <-.
      rewrite HP in HP'. done.
Qed.

Lemma allowed_lookup_labels (allowed : list (list species)) (p : nat) (P : nat -> Prop) :
  (exists l, allowed !! p = Some l /\ P (length l)) <->
  (exists l, map (map (fun s => species_label (SObj s))) allowed !! p = Some l /\ P (length l)).
Proof.
  split.
  - intros (l & Hl & HP). eexists. rewrite list_lookup_fmap, Hl. simpl.
    split; [done|]. by rewrite map_length.
  - intros (l & Hl & HP). rewrite list_lookup_fmap in Hl.
    apply fmap_Some in Hl as (l' & Hl' & ->). rewrite map_length in HP. eauto.
Qed.

Lemma order_active_iff_lemma parse fp template mapping shape o k :
  built parse fp template mapping shape o ->
  (0 <= k < o_orig_count o)%Z ->
  (k ∈ o_a2o o <->
   exists labels, o_allowed o !! Z.to_nat (k / cells (o_shape o)) = Some labels /\
                  1 < length labels).
Proof.
  intros H Hk. apply built_inv in H
    as (a & b & c & allowed & Hpos & Hsh & _ & _ & _ & H).
  cbn zeta in H.
  destruct H as (Hpc & Hoc & _ & Ha2o & _ & _ & _ & Hal & _).
  rewrite Ha2o, Hal, Hsh. unfold cells. simpl.
  set (full := make_kmc_supercell _ _) in *.
  rewrite <- allowed_lookup_labels.
  destruct (lookup_lt_is_Some_2 full (Z.to_nat k)) as [s Hs]; [lia|].
  assert (Hp : ss_prim s = Z.to_nat (k / (a * (b * (c * 1))))).
  { apply supercell_prim in Hs. rewrite Hs.
    rewrite <- (Z2Nat.id k) at 2 by lia.
    replace (a * (b * (c * 1)))%Z with (Z.of_nat (Z.to_nat a * Z.to_nat b * Z.to_nat c)) by nia.
    rewrite <- Nat2Z.inj_div, Nat2Z.id. done. }
  rewrite <- Hp. rewrite <- elem_of_primitive_active.
  rewrite elem_of_map_of_nat. setoid_rewrite elem_of_filter_enum. simpl. split.
  - intros (n & -> & s' & Hs' & HP). rewrite Nat2Z.id in Hs. rewrite Hs in Hs'.
    injection Hs' as <-. by apply bool_decide_eq_true in HP.
  - intros Hin. exists (Z.to_nat k). split; [lia|]. exists s. split; [done|].
    by apply bool_decide_eq_true.
Qed.

Lemma order_primitive_lemma parse fp template mapping shape o active k :
  built parse fp template mapping shape o ->
  o_a2o o !! active = Some k ->
  o_a2p o !! active = Some (k / cells (o_shape o))%Z.
Proof.
  intros H Hk. apply built_inv in H
    as (a & b & c & allowed & Hpos & Hsh & _ & _ & _ & H).
  cbn zeta in H.
  destruct H as (Hpc & Hoc & _ & Ha2o & Ha2p & _).
  rewrite Ha2o in Hk. rewrite Ha2p, Hsh. unfold cells. simpl.
  rewrite map_map, list_lookup_fmap in Hk.
  apply fmap_Some in Hk as ([i s] & He & ->). simpl.
  rewrite map_map, list_lookup_fmap, He. simpl. f_equal.
  assert (Hin : (i, s) ∈ enumerate (make_kmc_supercell (length template)
             (Z.to_nat a, Z.to_nat b, Z.to_nat c))).
  { apply elem_of_list_lookup_2 in He. apply elem_of_list_In, filter_In in He as [He _].
    by apply elem_of_list_In. }
  apply elem_of_enumerate in Hin. apply supercell_prim in Hin. rewrite Hin.
  replace (a * (b * (c * 1)))%Z with (Z.of_nat (Z.to_nat a * Z.to_nat b * Z.to_nat c)) by nia.
  rewrite Nat2Z.inj_div. done.
Qed.

Lemma order_lengths_lemma parse fp template mapping shape o :
  built parse fp template mapping shape o ->
  length (o_a2p o) = active_site_count o /\
  Z.of_nat (length (o_species o)) = o_prim_count o /\
  Z.of_nat (length (o_allowed o)) = o_prim_count o /\
  0 < active_site_count o.
Proof.
  intros H. pose proof (order_partition_lemma _ _ _ _ _ _ H) as [_ Hsp].
  pose proof (fun k => order_active_iff_lemma _ _ _ _ _ _ k H) as Hact.
  apply built_inv in H
    as (a & b & c & allowed & Hpos & Hsh & _ & Hlen & Hne & H).
  cbn zeta in H.
  destruct H as (Hpc & Hoc & Hpa & Ha2o & Ha2p & _ & Hspc & Hal & _).
  unfold active_site_count. rewrite Ha2p, Hspc, Hal. rewrite !map_length.
  rewrite Hpc, Hlen. split; [rewrite Ha2o; rewrite !map_length; done|].
  split; [done|]. split; [done|].
  destruct (primitive_active allowed) as [|p pa] eqn:Epa; [done|].
  assert (Hp : p ∈ primitive_active allowed) by (rewrite Epa; left).
  pose proof Hp as Hp'.
  apply elem_of_primitive_active in Hp' as (l & Hl & Hl1).
  apply lookup_lt_Some in Hl as Hlt. rewrite Hlen in Hlt.
  destruct (o_a2o o) eqn:E; [|simpl; lia]. exfalso.
  assert (Hin : Z.of_nat (p * (Z.to_nat a * Z.to_nat b * Z.to_nat c)) ∈ @nil Z); [|set_solver].
  apply Hact.
  - rewrite Hoc, supercell_length.
    assert (Hvol : 0 < Z.to_nat a * Z.to_nat b * Z.to_nat c).
    { assert (0 < Z.to_nat a) by lia. assert (0 < Z.to_nat b) by lia.
      assert (0 < Z.to_nat c) by lia. nia. }
    split; [lia|]. apply Nat2Z.inj_lt. apply Nat.mul_lt_mono_pos_r; done.
  - rewrite Hal, Hsh. unfold cells. simpl.
    replace (a * (b * (c * 1)))%Z with (Z.of_nat (Z.to_nat a * Z.to_nat b * Z.to_nat c)) by nia.
    rewrite <- Nat2Z.inj_div, Nat.div_mul, Nat2Z.id by nia.
    apply allowed_lookup_labels. eauto.
Qed.

Lemma increasing_NoDup l : increasing l -> NoDup l.
Proof.
  induction 1 as [|x l Hs IH Hf]; constructor; [|done].
  intros Hin. rewrite Forall_forall in Hf. specialize (Hf x Hin). lia.
Qed.

Lemma original_to_active_NoDup o k a :
  NoDup (o_a2o o) ->
  (dget (original_to_active o) k = Some a <-> o_a2o o !! a = Some k).
Proof.
  intros Hnd. unfold original_to_active.
  assert (Hk : dkeys (map (fun e : nat * Z => (snd e, fst e)) (enumerate (o_a2o o))) = o_a2o o).
  { unfold dkeys. rewrite map_map. simpl. rewrite <- (enum_from_snd 0 (o_a2o o)) at 2. done. }
  rewrite dof_pairs_NoDup by (unfold dkeys in Hk; rewrite Hk; done).
  split.
  - intros H. apply dget_Some_in in H. apply elem_of_list_fmap in H as ([i x] & [= -> ->] & Hin).
    by apply elem_of_enumerate in Hin.
  - intros H. apply dget_in; [rewrite Hk; done|].
    apply elem_of_list_fmap. exists (a, k). split; [done|]. by apply elem_of_enumerate.
Qed.

Lemma order_inverse_lemma parse fp template mapping shape o k a :
  built parse fp template mapping shape o ->
  (dget (original_to_active o) k = Some a <-> o_a2o o !! a = Some k).
Proof.
  intros H. apply original_to_active_NoDup.
  apply order_partition_lemma in H as [_ (Hinc & _)]. by apply increasing_NoDup.
Qed.

(** The allowed labels come from the first matching mapping entry. *)
Lemma order_allowed_lemma parse fp template mapping shape o p sp :
  built parse fp template mapping shape o ->
  template !! p = Some sp ->
  exists before key value after key' allowed,
    mapping = before ++ (key, value) :: after /\
    normalize_species parse key = Ok key' /\
    normalize_allowed_species parse value = Ok allowed /\
    species_equivalent (SObj sp) (SObj key') = true /\
    (forall kv k', kv ∈ before -> normalize_species parse (fst kv) = Ok k' ->
       species_equivalent (SObj sp) (SObj k') = false) /\
    o_allowed o !! p = Some (map (fun s => species_label (SObj s)) allowed).
Proof.
  intros H Hp. apply built_inv in H
    as (a & b & c & allowed & Hpos & Hsh & Hallow & Hlen & Hne & H).
  cbn zeta in H. destruct H as (_ & _ & _ & _ & _ & _ & _ & Hal & _).
  unfold allowed_species_by_site in Hallow.
  apply rbind_ok in Hallow as (entries & Hent & Hallow).
  destruct (rmapM_lookup_l _ _ _ _ _ Hallow Hp) as (al & Hal' & Hsite).
  rewrite Hal. rewrite list_lookup_fmap, Hal'. simpl.
  clear -Hent Hsite. unfold site_allowed in Hsite.
  revert entries Hent Hsite.
  induction mapping as [|[key value] mapping IH]; intros entries Hent Hsite; simpl in Hent.
  { injection Hent as <-. simpl in Hsite. discriminate. }
  apply rbind_ok in Hent as ([k' al'] & Hkv & Hent).
  apply rbind_ok in Hent as (entries' & Hent & [= <-]).
  unfold mapping_entry in Hkv. simpl in Hkv.
  apply rbind_ok in Hkv as (k0 & Hk & Hkv). apply rbind_ok in Hkv as (a0 & Ha & [= <- <-]).
  simpl in Hsite.
  destruct (species_equivalent (SObj sp) (SObj k0)) eqn:E.
  - injection Hsite as <-. exists [], key, value, mapping, k0, a0.
    split; [done|]. split; [done|]. split; [done|]. split; [done|].
    split; [set_solver|done].
  - destruct (IH entries' Hent Hsite) as
      (before & key1 & value1 & after & key' & al2 & -> & H1 & H2 & H3 & H4 & H5).
    exists ((key, value) :: before), key1, value1, after, key', al2.
    split; [done|]. split; [done|]. split; [done|]. split; [done|]. split; [|done].
    intros kv k1 Hin Hk1. apply elem_of_cons in Hin as [->|Hin]; [|eauto].
    simpl in Hk1. rewrite Hk in Hk1. injection Hk1 as <-. done.
Qed.

(** Two increasing lists with the same members are equal. *)
Lemma increasing_ext l1 l2 :
  increasing l1 -> increasing l2 -> (forall k, k ∈ l1 <-> k ∈ l2) -> l1 = l2.
Proof.
  intros H1. revert l2. induction H1 as [|x l1 Hs1 IH Hf1]; intros l2 H2 Hext.
  - destruct l2 as [|y l2]; [done|]. exfalso.
    assert (y ∈ @nil Z) by (apply Hext; left). set_solver.
  - destruct H2 as [|y l2 Hs2 Hf2].
    { exfalso. assert (x ∈ @nil Z) by (apply Hext; left). set_solver. }
    rewrite Forall_forall in Hf1, Hf2.
    assert (x = y) as ->.
    { assert (x ∈ y :: l2) as Hx by (apply Hext; left).
      assert (y ∈ x :: l1) as Hy by (apply Hext; left).
      apply elem_of_cons in Hx as [->|Hx]; [done|].
      apply elem_of_cons in Hy as [->|Hy]; [done|].
      specialize (Hf1 y Hy). specialize (Hf2 x Hx). lia. }
    f_equal. apply IH; [done|]. intros k. split; intros Hk.
    + assert (k ∈ y :: l2) as Hk' by (apply Hext; right; done).
      apply elem_of_cons in Hk' as [->|]; [|done]. specialize (Hf1 y Hk). lia.
    + assert (k ∈ y :: l1) as Hk' by (apply Hext; right; done).
      apply elem_of_cons in Hk' as [->|]; [|done]. specialize (Hf2 y Hk). lia.
Qed.

Lemma fixed_determined n active f1 f2 :
  splits n active f1 -> splits n active f2 -> f1 = f2.
Proof.
  intros (_ & H1 & Hs1) (_ & H2 & Hs2). apply increasing_ext; [done..|].
  intros k. specialize (Hs1 k) as [He1 Hd1]. specialize (Hs2 k) as [He2 Hd2]. tauto.
Qed.

Lemma fingerprint_identifies_lemma parse fp t1 m1 s1 o1 t2 m2 s2 o2 :
  (fp (payload_of o1) = fp (payload_of o2) -> payload_of o1 = payload_of o2) ->
  built parse fp t1 m1 s1 o1 -> built parse fp t2 m2 s2 o2 ->
  (assert_same_order o1 o2 = Ok tt <-> same_order o1 o2).
Proof.
  intros Hinj H1 H2.
  pose proof (order_partition_lemma _ _ _ _ _ _ H1) as [_ Hs1].
  pose proof (order_partition_lemma _ _ _ _ _ _ H2) as [_ Hs2].
  apply built_inv in H1 as (? & ? & ? & ? & _ & _ & _ & _ & _ & H1). cbn zeta in H1.
  apply built_inv in H2 as (? & ? & ? & ? & _ & _ & _ & _ & _ & H2). cbn zeta in H2.
  destruct H1 as (_ & _ & _ & _ & _ & _ & _ & _ & _ & Hf1).
  destruct H2 as (_ & _ & _ & _ & _ & _ & _ & _ & _ & Hf2).
  unfold assert_same_order, same_order.
  destruct (String.eqb_spec (o_fp o1) (o_fp o2)) as [Heq|Hne].
  - split; [intros _|done].
    pose proof Heq as Heq'. rewrite Hf1, Hf2 in Heq'. apply Hinj in Heq'.
    unfold payload_of in Heq'. injection Heq' as
      E1 E2 E3 E4 E5 E6 E7 E8.
    repeat (split; [done|]).
    split; [|repeat (split; [done|]); done].
    rewrite <- E2, <- E4 in Hs2. eapply fixed_determined; eauto.
  - split; [discriminate|]. intros (_ & _ & _ & _ & _ & _ & _ & _ & _ & E). done.
Qed.

(* ------------------------------------------------------------------ *)
(** ** Selecting values *)

Lemma increasing_bounded_full l n :
  increasing l -> (forall k, k ∈ l -> (0 <= k < Z.of_nat n)%Z) -> length l = n ->
  l = map Z.of_nat (seq 0 n).
Proof.
  intros Hinc Hb Hlen.
  assert (Hperm : l ≡ₚ map Z.of_nat (seq 0 n)).
  { apply submseteq_Permutation_length_eq; [rewrite map_length, seq_length; lia|].
    apply NoDup_submseteq; [by apply increasing_NoDup|].
    intros k Hk. specialize (Hb k Hk). apply elem_of_map_of_nat.
    exists (Z.to_nat k). split; [lia|]. apply elem_of_seq. lia. }
  apply increasing_ext; [done| |].
  - apply increasing_of_nat. clear. generalize 0. induction n as [|n IH]; intros m; simpl; constructor.
    + apply IH.
    + apply Forall_forall. intros k Hk. apply elem_of_seq in Hk. lia.
  - intros k. rewrite Hperm. done.
Qed.

Lemma select_active_values_lemma {A} parse fp template mapping shape o (values : list A) :
  built parse fp template mapping shape o ->
  (length values = active_site_count o -> select_active_values o values = Ok values) /\
  (Z.of_nat (length values) = o_orig_count o ->
     exists out, select_active_values o values = Ok out /\ length out = active_site_count o /\
       forall a k, o_a2o o !! a = Some k -> out !! a = values !! Z.to_nat k) /\
  (length values <> active_site_count o -> Z.of_nat (length values) <> o_orig_count o ->
     select_active_values o values = Err ValueError).
Proof.
  intros H. apply order_partition_lemma in H as [_ (Hinc & _ & Hsp)].
  unfold select_active_values.
  destruct (Nat.eqb_spec (length values) (active_site_count o)) as [Heq|Hne].
  - split; [done|]. split; [|done]. intros Horig. exists values. split; [done|]. split; [done|].
    assert (Hfull : o_a2o o = map Z.of_nat (seq 0 (length values))).
    { apply increasing_bounded_full; [done| |done]. intros k Hk.
      rewrite Horig. apply Hsp. auto. }
    intros a k Hk. rewrite Hfull, list_lookup_fmap in Hk.
    apply fmap_Some in Hk as (n & Hn & ->). apply lookup_seq in Hn as [-> _].
    rewrite Nat2Z.id. done.
  - split; [done|]. split.
    + intros Horig. rewrite (proj2 (Z.eqb_eq _ _) Horig).
      destruct (rmapM_ok_exists (py_get values) (o_a2o o)) as (out & Hout).
      { intros k Hk. destruct (py_get_ok values k) as (x & Hx & _); [|eauto].
        rewrite Horig. apply Hsp. auto. }
      exists out. split; [done|]. split; [apply rmapM_length in Hout; done|].
      intros a k Hk. destruct (rmapM_lookup_l _ _ _ _ _ Hout Hk) as (y & Hy & Hg).
      rewrite Hy. symmetry. apply py_get_nonneg in Hg; [done|].
      assert (Hin : k ∈ o_a2o o) by (eapply elem_of_list_lookup_2; eauto).
      assert ((0 <= k < o_orig_count o)%Z) by (apply Hsp; auto). lia.
    + intros _ Horig. rewrite (proj2 (Z.eqb_neq _ _) Horig). done.
Qed.

(* ------------------------------------------------------------------ *)
(** ** Filtering a structure by position *)

Lemma argmin_from_spec l i b x :
  let '(r, v) := argmin_from b x i l in
  (v <= x)%Q /\ (forall j y, l !! j = Some y -> (v <= y)%Q) /\
  ((r = b /\ v = x) \/
   (i <= r /\ l !! (r - i) = Some v /\ (v < x)%Q /\
    forall j y, j < r - i -> l !! j = Some y -> (v < y)%Q)).
Proof.
  revert i b x; induction l as [|y l IH]; intros i b x; simpl.
  - split; [apply Qle_refl|]. split; [done|]. auto.
  - destruct (Qle_bool x y) eqn:E.
    + apply Qle_bool_iff in E. specialize (IH (S i) b x).
      destruct (argmin_from b x (S i) l) as [r v]. destruct IH as (H1 & H2 & H3).
      split; [done|]. split.
      { intros [|j] z Hz; simpl in Hz; [injection Hz as <-; by eapply Qle_trans|eauto]. }
      destruct H3 as [[-> ->]|(Hle & Hr & Hlt & Hj)]; [auto|]. right.
      split; [lia|]. replace (r - i) with (S (r - S i)) by lia. simpl.
      split; [done|]. split; [done|].
      intros [|j] z Hjr Hz; simpl in Hz; [injection Hz as <-; eapply Qlt_le_trans; eauto|].
      eapply Hj; eauto. lia.
    + assert (Hlt : (y < x)%Q).
      { apply Qnot_le_lt. intros Hle. apply Qle_bool_iff in Hle. congruence. }
      specialize (IH (S i) i y).
      destruct (argmin_from i y (S i) l) as [r v]. destruct IH as (H1 & H2 & H3).
      split; [apply Qlt_le_weak in Hlt; by eapply Qle_trans|]. split.
      { intros [|j] z Hz; simpl in Hz; [injection Hz as <-; done|eauto]. }
      right. destruct H3 as [[-> ->]|(Hle & Hr & Hlt' & Hj)].
      * split; [lia|]. rewrite Nat.sub_diag. simpl. split; [done|]. split; [done|].
        intros j z Hj. lia.
      * split; [lia|]. replace (r - i) with (S (r - S i)) by lia. simpl.
        split; [done|]. split; [by eapply Qlt_trans|].
        intros [|j] z Hjr Hz; simpl in Hz; [injection Hz as <-; done|].
        eapply Hj; eauto. lia.
Qed.

Lemma argmin_spec l i x : argmin l = Ok (i, x) -> first_minimum l i x.
Proof.
  destruct l as [|y l]; simpl; [discriminate|]. intros [= H].
  pose proof (argmin_from_spec l 1 0 y) as Hs. rewrite H in Hs.
  destruct Hs as (H1 & H2 & H3). unfold first_minimum. split; [|split].
  - destruct H3 as [[-> ->]|(Hle & Hr & _)]; [done|].
    replace i with (S (i - 1)) by lia. done.
  - intros [|j] z Hz; simpl in Hz; [injection Hz as <-; done|eauto].
  - destruct H3 as [[-> ->]|(Hle & Hr & Hlt & Hj)]; [lia|].
    intros [|j] z Hji Hz; simpl in Hz; [injection Hz as <-; done|].
    eapply Hj; eauto. lia.
Qed.

Section FilterProofs.
  Context {S : Type}.
  Variable distances : S -> list Q.
  Variable tol : Q.

  Notation placed := (placed distances tol).

  Lemma filter_step_inv o l kept :
    NoDup (o_a2o o) ->
    rfold (filter_step distances tol o) [] l = Ok kept ->
    NoDup (dkeys kept) /\
    (forall a s, dget kept a = Some s ->
       s ∈ l /\ exists k, o_a2o o !! a = Some k /\ placed s k) /\
    (forall s, s ∈ l -> exists k, placed s k /\
       match dget (original_to_active o) k with
       | Some a => dget kept a = Some s
       | None => True
       end).
  Proof.
    intros Hnd.
    assert (Hgen : forall l kept0 kept l0,
      rfold (filter_step distances tol o) kept0 l = Ok kept ->
      NoDup (dkeys kept0) ->
      (forall a s, dget kept0 a = Some s ->
         s ∈ l0 /\ exists k, o_a2o o !! a = Some k /\ placed s k) ->
      (forall s, s ∈ l0 -> exists k, placed s k /\
         match dget (original_to_active o) k with
         | Some a => dget kept0 a = Some s | None => True end) ->
      NoDup (dkeys kept) /\
      (forall a s, dget kept a = Some s ->
         s ∈ l0 ++ l /\ exists k, o_a2o o !! a = Some k /\ placed s k) /\
      (forall s, s ∈ l0 ++ l -> exists k, placed s k /\
         match dget (original_to_active o) k with
         | Some a => dget kept a = Some s | None => True end)).
    { clear l kept. induction l as [|x l IH]; intros kept0 kept l0 H H1 H2 H3; simpl in H.
      - injection H as <-. rewrite app_nil_r. auto.
      - apply rbind_ok in H as (kept1 & Hstep & H).
        unfold filter_step in Hstep.
        apply rbind_ok in Hstep as ([i d] & Hmin & Hstep).
        apply argmin_spec in Hmin.
        destruct (Qle_bool d tol) eqn:Etol; simpl in Hstep; [|discriminate].
        apply Qle_bool_iff in Etol.
        assert (Hpl : placed x (Z.of_nat i)).
        { exists d. rewrite Nat2Z.id. split; [done|]. split; [lia|done]. }
        replace (l0 ++ x :: l) with ((l0 ++ [x]) ++ l) by (rewrite <- app_assoc; done).
        destruct (dget (original_to_active o) (Z.of_nat i)) as [a|] eqn:Ea.
        + destruct (din kept0 a) eqn:Edin; [discriminate|]. injection Hstep as <-.
          assert (Hnone : dget kept0 a = None).
          { unfold din in Edin. destruct (dget kept0 a); done. }
          apply (IH _ _ _ H).
          * by apply NoDup_dkeys_dset.
          * intros a' s Hs. rewrite dget_dset in Hs. destruct (decide (a' = a)) as [->|].
            -- injection Hs as <-. split; [set_solver|]. exists (Z.of_nat i).
               split; [|done]. by apply original_to_active_NoDup.
            -- destruct (H2 a' s Hs) as [Hin Hk]. split; [set_solver|done].
          * intros s Hs. apply elem_of_app in Hs as [Hs|Hs].
            -- destruct (H3 s Hs) as (k & Hk & Hm). exists k. split; [done|].
               destruct (dget (original_to_active o) k) as [a'|]; [|done].
               rewrite dget_dset. destruct (decide (a' = a)) as [->|]; [congruence|done].
            -- apply elem_of_list_singleton in Hs as ->. exists (Z.of_nat i).
               split; [done|]. rewrite Ea. rewrite dget_dset_eq. done.
        + injection Hstep as <-. apply (IH _ _ _ H); [done| |].
          * intros a' s Hs. destruct (H2 a' s Hs) as [Hin Hk]. split; [set_solver|done].
          * intros s Hs. apply elem_of_app in Hs as [Hs|Hs]; [eauto|].
            apply elem_of_list_singleton in Hs as ->. exists (Z.of_nat i).
            split; [done|]. rewrite Ea. done. }
    intros H. specialize (Hgen l [] kept [] H). simpl in Hgen. apply Hgen; try done.
    - constructor.
    - intros s Hs. set_solver.
  Qed.

  Lemma merge_sort_nat_sorted (l : list nat) :
    NoDup l -> StronglySorted lt (merge_sort Nat.le l) /\
    forall x, x ∈ merge_sort Nat.le l <-> x ∈ l.
  Proof.
    intros Hnd.
    assert (Hp : merge_sort Nat.le l ≡ₚ l) by apply merge_sort_Permutation.
    split; [|intros x; rewrite Hp; done].
    assert (Hs : StronglySorted Nat.le (merge_sort Nat.le l)).
    { apply (StronglySorted_merge_sort Nat.le). }
    assert (Hnd' : NoDup (merge_sort Nat.le l)) by (rewrite Hp; done).
    induction Hs as [|x k Hs IH Hf]; [constructor|].
    apply NoDup_cons in Hnd' as [Hx Hnd'].
    constructor; [|].
    - clear -Hs Hnd'. induction Hs as [|x k Hs IH Hf]; [constructor|].
      apply NoDup_cons in Hnd' as [Hx Hnd']. constructor; [auto|].
      rewrite Forall_forall in *. intros y Hy. specialize (Hf y Hy).
      assert (x <> y) by (intros ->; done). lia.
    - rewrite Forall_forall in *. intros y Hy. specialize (Hf y Hy).
      assert (x <> y) by (intros ->; done). lia.
  Qed.

  Lemma filter_by_position_lemma o structure out :
    NoDup (o_a2o o) ->
    Z.of_nat (length structure) <> o_orig_count o ->
    filter_active_structure distances tol o false structure = Ok out ->
    StronglySorted lt (map snd out) /\
    (forall s a, (s, a) ∈ out ->
       s ∈ structure /\ exists k, o_a2o o !! a = Some k /\ placed s k) /\
    (forall s, s ∈ structure -> exists k, placed s k /\
       match dget (original_to_active o) k with
       | Some a => (s, a) ∈ out
       | None => True
       end).
  Proof.
    intros Hnd Hlen H. unfold filter_active_structure in H.
    rewrite andb_false_r in H. rewrite (proj2 (Z.eqb_neq _ _) Hlen) in H.
    apply rbind_ok in H as (kept & Hkept & H).
    apply rbind_ok in H as (sites & Hsites & [= <-]).
    apply rbind_ok in Hsites as (l & Hl & Hsites).
    assert (sites = l) as ->.
    { destruct l; simpl in Hsites; [discriminate|]. injection Hsites as <-. done. }
    clear Hsites.
    apply filter_step_inv in Hkept as (Hndk & Hk1 & Hk2); [|done].
    destruct (merge_sort_nat_sorted (dkeys kept) Hndk) as [Hsort Hmem].
    set (keys := merge_sort Nat.le (dkeys kept)) in *.
    pose proof (rmapM_length _ _ _ Hl) as Hlen'.
    assert (Hcomb : forall s a, (s, a) ∈ combine l keys <-> a ∈ keys /\ dget kept a = Some s).
    { intros s a. split.
      - intros Hin. apply elem_of_list_lookup in Hin as (i & Hi).
        change (combine l keys) with (zip l keys) in Hi.
        apply lookup_zip_with_Some in Hi as (s' & a' & [= -> ->] & Hs & Ha).
        destruct (rmapM_lookup _ _ _ _ _ Hl Hs) as (a'' & Ha'' & Hg).
        rewrite Ha in Ha''. injection Ha'' as <-.
        split; [by eapply elem_of_list_lookup_2|].
        unfold dgetitem in Hg. destruct (dget kept a'); [|discriminate].
        injection Hg as ->. done.
      - intros [Ha Hs]. apply elem_of_list_lookup in Ha as (i & Hi).
        destruct (rmapM_lookup_l _ _ _ _ _ Hl Hi) as (s' & Hs' & Hg).
        unfold dgetitem in Hg. rewrite Hs in Hg. injection Hg as <-.
        apply elem_of_list_lookup. exists i.
        change (combine l keys) with (zip l keys).
        apply lookup_zip_with_Some. eauto. }
    split; [|split].
    - change (map snd (combine l keys)) with (snd <$> zip l keys).
      rewrite snd_zip by lia. done.
    - intros s a Hin. apply Hcomb in Hin as [_ Hs]. auto.
    - intros s Hs. destruct (Hk2 s Hs) as (k & Hpl & Hm). exists k. split; [done|].
      destruct (dget (original_to_active o) k) as [a|]; [|done].
      apply Hcomb. split; [|done]. apply Hmem. apply dget_in_keys. eauto.
  Qed.
End FilterProofs.
