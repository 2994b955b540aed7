(** Proofs about neighbour lists. *)
From Coq Require Import QArith Qabs Qround Qminmax Lqa.
From Verif Require Import Py PyLemmas Json NeighborsModel NeighborsSpec.
Local Open Scope Q_scope.

Lemma tget_tset {V} (d : table V) a b v a' b' :
  tget (tset d a b v) a' b' = if decide ((a', b') = (a, b)) then Some v else tget d a' b'.
Proof.
  unfold tget, tset. rewrite dget_dset. destruct (decide (a' = a)) as [->|Ha].
  - rewrite dget_dset. destruct (decide (b' = b)) as [->|Hb].
    + by rewrite decide_True.
    + rewrite decide_False by congruence. by destruct (dget d a).
  - by rewrite decide_False by congruence.
Qed.
Lemma tget_pair {V} (d : table V) a b v a' b' :
  tget (tset (tset d a b v) b a v) a' b' = if is_pair a' b' ((a, b), v) then Some v else tget d a' b'.
Proof.
  rewrite !tget_tset. unfold is_pair. cbn [fst]. destruct (decide ((a', b') = (b, a))) as [E|N1].
  - rewrite (bool_decide_eq_true_2 ((a, b) = (b', a'))) by (injection E as -> ->; done). by rewrite orb_true_r.
  - rewrite (bool_decide_eq_false_2 ((a, b) = (b', a'))) by congruence. rewrite orb_false_r.
    destruct (decide ((a', b') = (a, b))) as [->|N2]; [by rewrite bool_decide_eq_true_2|]. by rewrite bool_decide_eq_false_2 by congruence.
Qed.
Lemma last_for_snoc {V} (c : list ((string * string) * V)) e a b :
  last_for (c ++ [e]) a b = if is_pair a b e then Some (snd e) else last_for c a b.
Proof. unfold last_for. rewrite rev_app_distr. cbn [rev app List.filter]. by destruct (is_pair a b e). Qed.
Lemma is_pair_sym {V} a b (e : (string * string) * V) : is_pair a b e = is_pair b a e.
Proof. unfold is_pair. apply orb_comm. Qed.
Lemma last_for_sym {V} (c : list ((string * string) * V)) a b : last_for c a b = last_for c b a.
Proof. induction c as [|e c IH] using rev_ind; [done|]. by rewrite !last_for_snoc, is_pair_sym, IH. Qed.
Lemma last_for_in {V} (c : list ((string * string) * V)) a b v : last_for c a b = Some v -> exists e, e ∈ c /\ snd e = v.
Proof.
  induction c as [|e c IH] using rev_ind; [done|]. rewrite last_for_snoc. destruct (is_pair a b e).
  - intros [= <-]. exists e. split; [apply elem_of_app; right; by apply elem_of_list_singleton|done].
  - intros H. destruct (IH H) as (e' & He & <-). exists e'. split; [apply elem_of_app; by left|done].
Qed.

(** ** The tables *)
Lemma lookup_spec c : (forall a b, tget (lookup_dict (prepare_cutoff_neighbor_lookup (Some c))) a b = last_for c a b)
  /\ 0 <= max_dist (prepare_cutoff_neighbor_lookup (Some c))
  /\ (forall e, e ∈ c -> snd e <= max_dist (prepare_cutoff_neighbor_lookup (Some c))).
Proof.
  unfold prepare_cutoff_neighbor_lookup. induction c as [|[[a0 b0] v] c (IH1 & IH2 & IH3)] using rev_ind.
  - split; [done|]. split; [apply Qle_refl|]. intros e H. by apply elem_of_nil in H.
  - rewrite fold_left_app. cbn [fold_left]. set (l := fold_left _ c _) in *. cbn [lookup_dict max_dist fst snd]. split; [|split].
    + intros a b. rewrite tget_pair, last_for_snoc. cbn [snd]. by rewrite IH1.
    + eapply Qle_trans; [exact IH2|]. apply Q.le_max_r.
    + intros e H. apply elem_of_app in H as [H|H].
      * eapply Qle_trans; [apply IH3, H|]. apply Q.le_max_r.
      * apply elem_of_list_singleton in H as ->. apply Q.le_max_l.
Qed.
Lemma range_spec c : (forall a b, tget (lookup_max (prepare_range_cutoff_neighbor_lookup (Some c))) a b = option_map snd (last_for c a b))
  /\ (forall a b, tget (lookup_min (prepare_range_cutoff_neighbor_lookup (Some c))) a b = option_map fst (last_for c a b))
  /\ 0 <= range_max (prepare_range_cutoff_neighbor_lookup (Some c))
  /\ (forall e, e ∈ c -> snd (snd e) <= range_max (prepare_range_cutoff_neighbor_lookup (Some c))).
Proof.
  unfold prepare_range_cutoff_neighbor_lookup. induction c as [|[[a0 b0] [low high]] c (IH1 & IH0 & IH2 & IH3)] using rev_ind.
  - split; [done|]. split; [done|]. split; [apply Qle_refl|]. intros e H. by apply elem_of_nil in H.
  - rewrite fold_left_app. cbn [fold_left]. set (l := fold_left _ c _) in *. cbn [lookup_max lookup_min range_max fst snd]. split; [|split; [|split]].
    + intros a b. rewrite tget_pair, last_for_snoc, IH1. cbn [snd]. change (is_pair a b (a0, b0, high)) with (is_pair a b (a0, b0, (low, high))). by destruct (is_pair _ _ _).
    + intros a b. rewrite tget_pair, last_for_snoc, IH0. cbn [snd]. change (is_pair a b (a0, b0, low)) with (is_pair a b (a0, b0, (low, high))). by destruct (is_pair _ _ _).
    + eapply Qle_trans; [exact IH2|]. apply Q.le_max_r.
    + intros e H. apply elem_of_app in H as [H|H].
      * eapply Qle_trans; [apply IH3, H|]. apply Q.le_max_r.
      * apply elem_of_list_singleton in H as ->. apply Q.le_max_l.
Qed.
Lemma less_spec a b : less a b = true <-> a < b.
Proof. unfold less. rewrite negb_true_iff. rewrite <-not_true_iff_false, Qle_bool_iff. split; [apply Qnot_le_lt|apply Qlt_not_le]. Qed.
Lemma less_comp a b a' b' : a == a' -> b == b' -> less a b = less a' b'.
Proof. intros Ea Eb. unfold less. f_equal. by apply Qleb_comp. Qed.

(** ** The loop *)
Section Loop.
  Variable structure : list site.
  Variable test : string -> Q -> bool.
  (** The neighbours that pass the test. *)
  Definition passes (x : found) : Prop := exists s, structure !! f_site x = Some s /\ test (n_species s) (f_distance x) = true.
  Lemma collect_ok l out : collect structure test l = Ok out ->
    (forall m z, (m, z) ∈ copies out <-> exists x, x ∈ l /\ f_site x = m /\ f_image x = z /\ passes x)
    /\ (forall i, i ∈ out -> exists x, x ∈ l /\ i_index i = f_site x /\ i_image i = f_image x /\ i_weight i = f_distance x
         /\ exists s, structure !! f_site x = Some s /\ copy_kmc_site_metadata structure s = Ok (i_metadata i))
    /\ (NoDup (map (fun x => (f_site x, f_image x)) l) -> NoDup (copies out)).
  Proof.
    revert out. induction l as [|x l IH]; intros out; cbn [collect].
    - intros [= <-]. split; [|split]; cbn.
      + intros m z. split; [intros H; by apply elem_of_nil in H|]. intros (x & H & _). by apply elem_of_nil in H.
      + intros i H. by apply elem_of_nil in H.
      + done.
    - unfold site_at. destruct (structure !! f_site x) as [s|] eqn:Es; cbn [rbind]; [|done]. destruct (test _ _) eqn:Et.
      + unfold neighbor_info. destruct (copy_kmc_site_metadata structure s) as [md|] eqn:Em; cbn [rbind]; [|done]. destruct (collect structure test l) as [rest|]; cbn [rbind]; [|done].
        destruct (IH _ eq_refl) as (H1 & H2 & H3). intros [= <-]. split; [|split].
        * intros m z. cbn [copies map i_index i_image]. rewrite elem_of_cons. fold (copies rest). rewrite H1. split.
          -- intros [[= -> ->]|(y & Hy & ?)]; [exists x; split; [by left|]; repeat split; by exists s|exists y; split; [by right|done]].
          -- intros (y & Hy & E1 & E2 & Hp). apply elem_of_cons in Hy as [->|Hy]; [left; congruence|right; by exists y].
        * intros i Hi. apply elem_of_cons in Hi as [->|Hi]; [exists x; split; [by left|]; repeat split; by exists s|]. destruct (H2 i Hi) as (y & Hy & ?). exists y. split; [by right|done].
        * cbn [map]. intros Hnd. apply NoDup_cons in Hnd as [Hn Hnd]. cbn [copies map i_index i_image]. apply NoDup_cons. split; [|by apply H3].
          fold (copies rest). rewrite H1. intros (y & Hy & E1 & E2 & _). apply Hn. apply elem_of_list_In, in_map_iff. exists y. split; [congruence|by apply elem_of_list_In].
      + intros H. destruct (IH _ H) as (H1 & H2 & H3). split; [|split].
        * intros m z. rewrite H1. split.
          -- intros (y & Hy & ?). exists y. split; [by right|done].
          -- intros (y & Hy & E1 & E2 & Hp). apply elem_of_cons in Hy as [->|Hy]; [|by exists y]. destruct Hp as (s' & Hs' & Ht'). congruence.
        * intros i Hi. destruct (H2 i Hi) as (y & Hy & ?). exists y. split; [by right|done].
        * cbn [map]. intros Hnd. apply NoDup_cons in Hnd as [_ Hnd]. by apply H3.
  Qed.
  Lemma collect_total l : full_metadata structure -> (forall x, x ∈ l -> exists s, structure !! f_site x = Some s) -> exists out, collect structure test l = Ok out.
  Proof.
    intros Hf. induction l as [|x l IH]; intros Hl; cbn [collect]; [by eexists|]. destruct (Hl x) as (s & Es); [by left|]. unfold site_at. rewrite Es. cbn [rbind].
    destruct IH as (rest & Er); [intros y Hy; apply Hl; by right|]. destruct (test _ _); [|rewrite Er; by eexists].
    assert (exists md, copy_kmc_site_metadata structure s = Ok md) as (md & Em).
    { unfold copy_kmc_site_metadata. destruct (has_column structure "wyckoff_sequence") eqn:Ew; cbn [negb]; [|by eexists]. specialize (Hf Ew). apply elem_of_list_lookup_2 in Es.
      unfold property. destruct (Hf s "wyckoff_sequence"%string Es) as (v1 & E1); [left; by left|]. rewrite E1. cbn [rbind].
      destruct (Hf s "local_index"%string Es) as (v2 & E2); [left; right; by left|]. rewrite E2. cbn [rbind].
      destruct (Hf s "label"%string Es) as (v3 & E3); [left; right; right; by left|]. rewrite E3. cbn [rbind].
      destruct (has_column structure "supercell") eqn:Ec; [|by eexists]. destruct (Hf s "supercell"%string Es) as (v4 & E4); [by right|]. rewrite E4. cbn [rbind]. by eexists. }
    unfold neighbor_info. rewrite Em, Er. cbn [rbind]. by eexists.
  Qed.
End Loop.
Lemma metadata_ok structure m s md : structure !! m = Some s -> copy_kmc_site_metadata structure s = Ok md -> metadata_of structure m md.
Proof.
  intros Es H. exists s. split; [done|]. unfold copy_kmc_site_metadata in H. destruct (has_column structure "wyckoff_sequence"); cbn [negb] in H; [|by injection H as <-].
  unfold property in H. destruct (dget (n_properties s) "wyckoff_sequence") as [w|] eqn:E1; cbn [rbind] in H; [|done].
  destruct (dget (n_properties s) "local_index") as [i|] eqn:E2; cbn [rbind] in H; [|done]. destruct (dget (n_properties s) "label") as [l|] eqn:E3; cbn [rbind] in H; [|done].
  destruct (has_column structure "supercell") eqn:Ec.
  - destruct (dget (n_properties s) "supercell") as [c|] eqn:E4; cbn [rbind] in H; [|done]. injection H as <-. split.
    + intros k Hk. apply elem_of_cons in Hk as [->|Hk]; [by exists w|]. apply elem_of_cons in Hk as [->|Hk]; [by exists i|]. apply elem_of_list_singleton in Hk as ->. by exists l.
    + intros _. by exists c.
  - injection H as <-. split; [|done]. intros k Hk. apply elem_of_cons in Hk as [->|Hk]; [by exists w|]. apply elem_of_cons in Hk as [->|Hk]; [by exists i|]. apply elem_of_list_singleton in Hk as ->. by exists l.
Qed.

Section Search.
  Variable get_neighbors : list site -> nat -> Q -> list found.
  Variable structure : list site.
  Variable d : nat -> nat -> Z * Z * Z -> Q.
  Hypothesis Hgeo : geometry (length structure) d.
  Hypothesis Hget : complete_search structure d get_neighbors.

  Lemma search_total n r test : full_metadata structure -> (n < length structure)%nat -> exists out, collect structure test (get_neighbors structure n r) = Ok out.
  Proof.
    intros Hf Hn. apply collect_total; [done|]. intros x Hx. destruct (Hget n r Hn) as (_ & _ & Hm). apply lookup_lt_is_Some. apply (Hm (f_site x) (f_image x)).
    apply elem_of_list_In, in_map_iff. exists x. split; [done|by apply elem_of_list_In].
  Qed.
  Lemma search_spec n r test out : (n < length structure)%nat -> (forall s q q', q == q' -> test s q = test s q') ->
    (forall s q, test s q = true -> q <= r) ->
    collect structure test (get_neighbors structure n r) = Ok out ->
    NoDup (copies out)
    /\ (forall m z, (m, z) ∈ copies out <-> (m, z) <> (n, (0, 0, 0)%Z) /\ exists s, species_of structure m s /\ test s (d n m z) = true)
    /\ (forall i, i ∈ out -> i_weight i == d n (i_index i) (i_image i) /\ metadata_of structure (i_index i) (i_metadata i)).
  Proof.
    intros Hn Hcomp Hr H. destruct (Hget n r Hn) as (Hnd & Hd & Hm). destruct (collect_ok _ _ _ _ H) as (H1 & H2 & H3). split; [by apply H3|]. split.
    - intros m z. rewrite H1. split.
      + intros (x & Hx & <- & <- & (s & Es & Et)). destruct (proj1 (Hm (f_site x) (f_image x))) as (_ & Hne & _).
        { apply elem_of_list_In, in_map_iff. exists x. split; [done|by apply elem_of_list_In]. }
        split; [done|]. exists (n_species s). split; [by exists s|]. rewrite <-Et. apply Hcomp. symmetry. by apply Hd.
      + intros (Hne & s & (x & Ex & <-) & Et).
        assert ((m, z) ∈ map (fun x => (f_site x, f_image x)) (get_neighbors structure n r)) as Hin.
        { apply Hm. split; [by eapply lookup_lt_Some|]. split; [done|]. by eapply Hr. }
        apply elem_of_list_In, in_map_iff in Hin as (y & E & Hy). injection E as E1 E2. apply elem_of_list_In in Hy. exists y. split; [done|]. split; [done|]. split; [done|].
        exists x. split; [by rewrite E1|]. rewrite <-Et. apply Hcomp. rewrite <-E1, <-E2. by apply Hd.
    - intros i Hi. destruct (H2 i Hi) as (x & Hx & E1 & E2 & E3 & s & Es & Em). rewrite E1, E2, E3. split; [by apply Hd|]. by eapply metadata_ok.
  Qed.

  Lemma cutoff_spec c n out s : get_cutoff_neighbor_info get_neighbors structure n (prepare_cutoff_neighbor_lookup (Some c)) = Ok out -> species_of structure n s ->
    NoDup (copies out)
    /\ (forall m z, (m, z) ∈ copies out <-> (m, z) <> (n, (0, 0, 0)%Z) /\ exists t q, species_of structure m t /\ last_for c s t = Some q /\ d n m z < q)
    /\ (forall i, i ∈ out -> i_weight i == d n (i_index i) (i_image i) /\ metadata_of structure (i_index i) (i_metadata i)).
  Proof.
    destruct (lookup_spec c) as (T1 & T2 & T3). unfold get_cutoff_neighbor_info. intros H (x & Ex & <-). unfold site_at in H. rewrite Ex in H. cbn [rbind] in H.
    apply search_spec in H.
    - destruct H as (H1 & H2 & H3). split; [done|]. split; [|done]. intros m z. rewrite H2. split.
      + intros (Hne & t & Ht & Et). split; [done|]. rewrite T1 in Et. apply less_spec in Et. destruct (last_for c (n_species x) t) as [q|] eqn:E; cbn [or_zero] in Et; [by exists t, q|].
        apply Qlt_not_le in Et. destruct Et. apply (not_negative _ _ Hgeo).
      + intros (Hne & t & q & Ht & E & Hq). split; [done|]. exists t. split; [done|]. rewrite T1, E. by apply less_spec.
    - by eapply lookup_lt_Some.
    - intros t q q' E. by apply less_comp.
    - intros t q E. apply less_spec in E. rewrite T1 in E. apply Qlt_le_weak. eapply Qlt_le_trans; [exact E|]. destruct (last_for c _ t) as [v|] eqn:El; cbn [or_zero]; [|done].
      destruct (last_for_in _ _ _ _ El) as (e & He & <-). by apply T3.
  Qed.
  Lemma range_spec' c n out s : get_range_cutoff_neighbor_info get_neighbors structure n (prepare_range_cutoff_neighbor_lookup (Some c)) = Ok out -> species_of structure n s ->
    NoDup (copies out)
    /\ (forall m z, (m, z) ∈ copies out <-> (m, z) <> (n, (0, 0, 0)%Z) /\ exists t low high, species_of structure m t /\ last_for c s t = Some (low, high) /\ low < d n m z < high)
    /\ (forall i, i ∈ out -> i_weight i == d n (i_index i) (i_image i) /\ metadata_of structure (i_index i) (i_metadata i)).
  Proof.
    destruct (range_spec c) as (T1 & T0 & T2 & T3). unfold get_range_cutoff_neighbor_info. intros H (x & Ex & <-). unfold site_at in H. rewrite Ex in H. cbn [rbind] in H.
    apply search_spec in H.
    - destruct H as (H1 & H2 & H3). split; [done|]. split; [|done]. intros m z. rewrite H2. split.
      + intros (Hne & t & Ht & Et). split; [done|]. rewrite T1, T0 in Et. apply andb_true_iff in Et as [Ea Eb]. apply less_spec in Ea, Eb.
        destruct (last_for c (n_species x) t) as [[low high]|] eqn:E; cbn [or_zero option_map fst snd] in *; [by exists t, low, high|].
        apply Qlt_not_le in Eb. destruct Eb. apply (not_negative _ _ Hgeo).
      + intros (Hne & t & low & high & Ht & E & Hl & Hq). split; [done|]. exists t. split; [done|]. rewrite T1, T0, E. cbn [or_zero option_map fst snd]. apply andb_true_iff. by rewrite !less_spec.
    - by eapply lookup_lt_Some.
    - intros t q q' E. f_equal; by apply less_comp.
    - intros t q E. apply andb_true_iff in E as [_ E]. apply less_spec in E. rewrite T1 in E. apply Qlt_le_weak. eapply Qlt_le_trans; [exact E|]. destruct (last_for c _ t) as [v|] eqn:El; cbn [or_zero option_map]; [|done].
      destruct (last_for_in _ _ _ _ El) as (e & He & <-). by apply T3.
  Qed.
  Lemma opposite_zero z : opposite z = (0, 0, 0)%Z <-> z = (0, 0, 0)%Z.
  Proof. destruct z as [[i j] k]. cbn. split; intros H; injection H; intros; repeat f_equal; lia. Qed.
  Lemma pair_zero (n m : nat) z : (m, z) <> (n, (0, 0, 0)%Z) <-> (n, opposite z) <> (m, (0, 0, 0)%Z).
  Proof.
    split; intros H E; apply H; injection E as -> E; f_equal; [by apply opposite_zero|subst z; done].
  Qed.
  Lemma cutoff_sym c n m out out' z :
    get_cutoff_neighbor_info get_neighbors structure n (prepare_cutoff_neighbor_lookup (Some c)) = Ok out ->
    get_cutoff_neighbor_info get_neighbors structure m (prepare_cutoff_neighbor_lookup (Some c)) = Ok out' ->
    (m, z) ∈ copies out <-> (n, opposite z) ∈ copies out'.
  Proof.
    intros H H'. assert (exists s, species_of structure n s) as (s & Hs).
    { unfold get_cutoff_neighbor_info, site_at in H. destruct (structure !! n) as [x|] eqn:E; [|done]. by exists (n_species x), x. }
    assert (exists t, species_of structure m t) as (t & Ht).
    { unfold get_cutoff_neighbor_info, site_at in H'. destruct (structure !! m) as [x|] eqn:E; [|done]. by exists (n_species x), x. }
    destruct (cutoff_spec _ _ _ _ H Hs) as (_ & H1 & _). destruct (cutoff_spec _ _ _ _ H' Ht) as (_ & H2 & _). rewrite H1, H2, pair_zero.
    assert (Huniq : forall k a b, species_of structure k a -> species_of structure k b -> a = b) by (intros k a b (x & Ex & <-) (y & Ey & <-); congruence).
    split; intros (Hne & t' & q & Ht' & El & Hq); (split; [done|]).
    - rewrite (Huniq _ _ _ Ht' Ht) in El. exists s, q. split; [done|]. split; [by rewrite last_for_sym|]. by rewrite <-(both_ways _ _ Hgeo).
    - rewrite (Huniq _ _ _ Ht' Hs) in El. exists t, q. split; [done|]. split; [by rewrite last_for_sym|]. by rewrite (both_ways _ _ Hgeo).
  Qed.
  Lemma range_sym c n m out out' z :
    get_range_cutoff_neighbor_info get_neighbors structure n (prepare_range_cutoff_neighbor_lookup (Some c)) = Ok out ->
    get_range_cutoff_neighbor_info get_neighbors structure m (prepare_range_cutoff_neighbor_lookup (Some c)) = Ok out' ->
    (m, z) ∈ copies out <-> (n, opposite z) ∈ copies out'.
  Proof.
    intros H H'. assert (exists s, species_of structure n s) as (s & Hs).
    { unfold get_range_cutoff_neighbor_info, site_at in H. destruct (structure !! n) as [x|] eqn:E; [|done]. by exists (n_species x), x. }
    assert (exists t, species_of structure m t) as (t & Ht).
    { unfold get_range_cutoff_neighbor_info, site_at in H'. destruct (structure !! m) as [x|] eqn:E; [|done]. by exists (n_species x), x. }
    destruct (range_spec' _ _ _ _ H Hs) as (_ & H1 & _). destruct (range_spec' _ _ _ _ H' Ht) as (_ & H2 & _). rewrite H1, H2, pair_zero.
    assert (Huniq : forall k a b, species_of structure k a -> species_of structure k b -> a = b) by (intros k a b (x & Ex & <-) (y & Ey & <-); congruence).
    split; intros (Hne & t' & low & high & Ht' & El & Hq); (split; [done|]).
    - rewrite (Huniq _ _ _ Ht' Ht) in El. exists s, low, high. split; [done|]. split; [by rewrite last_for_sym|]. by rewrite <-(both_ways _ _ Hgeo).
    - rewrite (Huniq _ _ _ Ht' Hs) in El. exists t, low, high. split; [done|]. split; [by rewrite last_for_sym|]. by rewrite (both_ways _ _ Hgeo).
  Qed.
  Lemma search_runs n : full_metadata structure -> (n < length structure)%nat -> forall l r,
    (exists out, get_cutoff_neighbor_info get_neighbors structure n l = Ok out) /\ exists out, get_range_cutoff_neighbor_info get_neighbors structure n r = Ok out.
  Proof.
    intros Hf Hn l r. destruct (lookup_lt_is_Some_2 structure n Hn) as (x & Ex). unfold get_cutoff_neighbor_info, get_range_cutoff_neighbor_info, site_at. rewrite Ex. cbn [rbind].
    split; by apply search_total.
  Qed.
End Search.

(** ** An example: two sites in a cubic cell of length 4, distances along the axes *)
Definition ex_x (n : nat) : Q := if Nat.eqb n 1 then 2 else 0.
Definition ex_d (n m : nat) (z : Z * Z * Z) : Q :=
  let '(i, j, k) := z in Qabs.Qabs (ex_x m + 4 * inject_Z i - ex_x n) + Qabs.Qabs (4 * inject_Z j) + Qabs.Qabs (4 * inject_Z k).
Definition ex_zs (r : Q) : list Z := let k := Z.to_nat (Qround.Qceiling (Qabs.Qabs r) + 2) in map (fun n => (Z.of_nat n - Z.of_nat k)%Z) (seq 0 (2 * k + 1)).
Definition ex_all (size : nat) (r : Q) : list (nat * (Z * Z * Z)) :=
  remove_dups (m ← seq 0 size; i ← ex_zs r; j ← ex_zs r; k ← ex_zs r; [(m, (i, j, k))]).
Definition ex_get (structure : list site) (n : nat) (r : Q) : list found :=
  map (fun e => Found (fst e) (snd e) (ex_d n (fst e) (snd e)))
    (List.filter (fun e => negb (bool_decide (e = (n, (0, 0, 0)%Z))) && Qle_bool (ex_d n (fst e) (snd e)) r) (ex_all (length structure) r)).
Lemma ex_geometry size : geometry size ex_d.
Proof.
  constructor; intros n m [[i j] k]; unfold ex_d, opposite.
  - assert (H := Qabs.Qabs_nonneg (ex_x m + 4 * inject_Z i - ex_x n)). assert (H1 := Qabs.Qabs_nonneg (4 * inject_Z j)). assert (H2 := Qabs.Qabs_nonneg (4 * inject_Z k)). lra.
  - rewrite !inject_Z_opp. rewrite <-(Qabs.Qabs_opp (ex_x m + 4 * inject_Z i - ex_x n)), <-(Qabs.Qabs_opp (4 * inject_Z j)), <-(Qabs.Qabs_opp (4 * inject_Z k)).
    assert (E1 : - (ex_x m + 4 * inject_Z i - ex_x n) == ex_x n + 4 * - inject_Z i - ex_x m) by ring. rewrite E1.
    assert (E2 : - (4 * inject_Z j) == 4 * - inject_Z j) by ring. rewrite E2. assert (E3 : - (4 * inject_Z k) == 4 * - inject_Z k) by ring. by rewrite E3.
Qed.
Lemma in_ex_zs r z : Qabs.Qabs (inject_Z z) <= Qabs.Qabs r + 2 -> z ∈ ex_zs r.
Proof.
  intros H. unfold ex_zs. set (c := Qround.Qceiling (Qabs.Qabs r)). assert (Hc : Qabs.Qabs r <= inject_Z c) by apply Qround.Qle_ceiling.
  assert (Hc0 : (0 <= c)%Z). { rewrite Zle_Qle. eapply Qle_trans; [apply Qabs.Qabs_nonneg|exact Hc]. }
  assert (Hz : (Z.abs z <= c + 2)%Z). { rewrite Zle_Qle, inject_Z_plus. change (inject_Z (Z.abs z)) with (Qabs.Qabs (inject_Z z)). change (inject_Z 2) with 2. lra. }
  apply elem_of_list_In, in_map_iff. exists (Z.to_nat (z + (c + 2))). split; [lia|]. apply in_seq. lia.
Qed.
Lemma ex_search structure : complete_search structure ex_d ex_get.
Proof.
  intros n r Hn. unfold ex_get. rewrite map_map. cbn [f_site f_image].
  assert (Hid : forall l : list (nat * (Z * Z * Z)), map (fun x => (fst x, snd x)) l = l) by (intros l; induction l as [|[a b] l IH]; cbn; [done|by rewrite IH]).
  rewrite Hid. split; [|split].
  - apply NoDup_ListNoDup, List.NoDup_filter, NoDup_ListNoDup, NoDup_remove_dups.
  - intros x Hx. apply elem_of_list_In, in_map_iff in Hx as (e & <- & _). reflexivity.
  - intros m z. rewrite elem_of_list_In, filter_In, <-elem_of_list_In. cbn [fst snd]. rewrite andb_true_iff, negb_true_iff, bool_decide_eq_false, Qle_bool_iff.
    unfold ex_all. rewrite elem_of_remove_dups. split.
    + intros (Hin & Hne & Hd). apply elem_of_list_bind in Hin as (m' & Hin & Hm). apply elem_of_list_bind in Hin as (i & Hin & _). apply elem_of_list_bind in Hin as (j & Hin & _). apply elem_of_list_bind in Hin as (k & Hin & _).
      apply elem_of_list_singleton in Hin as [= -> ->]. apply elem_of_seq in Hm. split; [lia|done].
    + intros (Hm & Hne & Hd). split; [|done]. destruct z as [[i j] k]. unfold ex_d in Hd.
      assert (H0 := Qabs.Qabs_nonneg (ex_x m + 4 * inject_Z i - ex_x n)). assert (H1 := Qabs.Qabs_nonneg (4 * inject_Z j)). assert (H2 := Qabs.Qabs_nonneg (4 * inject_Z k)).
      assert (Hr := Qabs.Qle_Qabs r). rewrite Qabs.Qabs_Qmult in H1, Hd. rewrite (Qabs.Qabs_Qmult 4 (inject_Z k)) in H2, Hd. change (Qabs.Qabs 4) with 4 in *.
      assert (Hi : Qabs.Qabs (4 * inject_Z i) <= Qabs.Qabs r + 2).
      { assert (E : 4 * inject_Z i == (ex_x m + 4 * inject_Z i - ex_x n) + (ex_x n - ex_x m)) by ring. rewrite E. eapply Qle_trans; [apply Qabs.Qabs_triangle|].
        assert (Hx : Qabs.Qabs (ex_x n - ex_x m) <= 2) by (unfold ex_x; destruct (Nat.eqb n 1), (Nat.eqb m 1); by vm_compute). lra. }
      rewrite Qabs.Qabs_Qmult in Hi. change (Qabs.Qabs 4) with 4 in Hi. assert (Ni := Qabs.Qabs_nonneg (inject_Z i)). assert (Nr := Qabs.Qabs_nonneg r).
      apply elem_of_list_bind. exists m. split; [|apply elem_of_seq; lia]. apply elem_of_list_bind. exists i. split; [|apply in_ex_zs; lra].
      apply elem_of_list_bind. exists j. split; [|apply in_ex_zs; assert (Nj := Qabs.Qabs_nonneg (inject_Z j)); lra].
      apply elem_of_list_bind. exists k. split; [|apply in_ex_zs; assert (Nk := Qabs.Qabs_nonneg (inject_Z k)); lra]. by apply elem_of_list_singleton.
Qed.
Lemma preset_fails data_file preset : data_file "vesta_cutoffs.yaml"%string = None ->
  prepare_range_cutoff_neighbor_lookup_from_preset data_file preset
  = if String.eqb preset "vesta_2019" then Err FileNotFoundError else Err ValueError.
Proof. unfold prepare_range_cutoff_neighbor_lookup_from_preset. intros ->. done. Qed.
