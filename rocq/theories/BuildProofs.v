(** Proofs about building a cluster expansion. *)
From Coq Require Import QArith Qabs Reals Sorted Lqa.
From stdpp Require Import sorting.
From Verif Require Import Py PyLemmas Json ActiveSiteModel EventModel BasisModel KmcProofs LceModel LceSpec LceProofs
  MatcherModel MatcherSpec MatcherProofs BuildModel BuildSpec.
Local Open Scope nat_scope.

(* ------------------------------------------------------------------ *)
(** ** Combinations *)

Lemma elem_of_combinations {A} k (l s : list A) : s ∈ combinations k l <-> sublist s l /\ length s = k.
Proof.
  revert k s. induction l as [|x l IH]; intros k s.
  - destruct k; simpl.
    + rewrite elem_of_list_singleton. split; [intros ->; split; [constructor|done]|]. intros [_ H]. by apply nil_length_inv.
    + split; [intros H; by apply elem_of_nil in H|]. intros [H1 H2]. apply sublist_length in H1. simpl in H1. lia.
  - destruct k; simpl.
    + rewrite elem_of_list_singleton. split; [intros ->; split; [apply sublist_nil_l|done]|]. intros [_ H]. by apply nil_length_inv.
    + rewrite elem_of_app, elem_of_list_In, in_map_iff. setoid_rewrite <- elem_of_list_In. split.
      * intros [(t & <- & H)|H]; apply IH in H as [H1 H2].
        -- split; [by apply sublist_skip|]. simpl. by rewrite H2.
        -- split; [by apply sublist_cons|done].
      * intros [H1 H2]. apply sublist_cons_r in H1 as [H1|(t & -> & H1)].
        -- right. by apply IH.
        -- left. exists t. split; [done|]. apply IH. split; [done|]. simpl in H2. lia.
Qed.
Lemma sublist_in {A} (s l : list A) x : sublist s l -> x ∈ s -> x ∈ l.
Proof. intros H Hx. eapply elem_of_submseteq; [exact Hx|by apply sublist_submseteq]. Qed.
Lemma NoDup_combinations {A} k (l : list A) : NoDup l -> NoDup (combinations k l).
Proof.
  revert k. induction l as [|x l IH]; intros k H; destruct k; simpl; try apply NoDup_singleton; [apply NoDup_nil; done|].
  apply NoDup_cons in H as [Hx H]. apply NoDup_app. split; [|split].
  - apply NoDup_fmap_2; [intros a b [= ->]; done|by apply IH].
  - intros s Hs Hs'. apply elem_of_list_In, in_map_iff in Hs as (t & <- & _). apply elem_of_combinations in Hs' as [Hs' _].
    apply Hx. eapply sublist_in; [exact Hs'|left].
  - by apply IH.
Qed.

Lemma sublist_seq s a n : sublist s (seq a n) <-> StronglySorted lt s /\ forall i, i ∈ s -> a <= i < a + n.
Proof.
  revert s a. induction n as [|n IH]; intros s a; simpl.
  - rewrite sublist_nil_r. split; [intros ->; split; [constructor|intros i Hi; by apply elem_of_nil in Hi]|].
    intros [_ H]. destruct s as [|x s]; [done|]. specialize (H x ltac:(left)). lia.
  - rewrite sublist_cons_r. split.
    + intros [H|(t & -> & H)]; apply IH in H as [H1 H2].
      * split; [done|]. intros i Hi. specialize (H2 i Hi). lia.
      * split.
        -- constructor; [done|]. apply Forall_forall. intros i Hi. first [apply elem_of_list_In, H2 in Hi | apply H2 in Hi]; lia.
        -- intros i Hi. apply elem_of_cons in Hi as [->|Hi]; [lia|]. specialize (H2 i Hi). lia.
    + intros [H1 H2]. destruct s as [|x s]; [left; apply sublist_nil_l|].
      inversion H1 as [|? ? H3 H4]; subst. rewrite Forall_forall in H4.
      destruct (decide (x = a)) as [->|Hx].
      * right. exists s. split; [done|]. apply IH. split; [done|]. intros i Hi. pose proof (H2 i ltac:(by right)).
        assert (a < i) by (apply H4; first [exact Hi | by apply elem_of_list_In]). lia.
      * left. apply IH. split; [done|]. intros i Hi. pose proof (H2 i Hi). pose proof (H2 x ltac:(left)).
        apply elem_of_cons in Hi as [->|Hi]; [lia|]. assert (x < i) by (apply H4; first [exact Hi | by apply elem_of_list_In]). lia.
Qed.

(* ------------------------------------------------------------------ *)
(** ** Orbits of images *)

Lemma add_to_orbit_map {A B} (f : A -> B) (eqb : B -> B -> bool) i (orbits : list (A * list A)) :
  add_to_orbit eqb (f i) (map (fun o => (f (fst o), map f (snd o))) orbits) =
  map (fun o => (f (fst o), map f (snd o))) (add_to_orbit (fun a b => eqb (f a) (f b)) i orbits).
Proof.
  induction orbits as [|[r l] orbits IH]; simpl; [done|]. destruct (eqb (f r) (f i)); simpl.
  - by rewrite map_app.
  - by rewrite IH.
Qed.
Lemma build_orbits_map {A B} (f : A -> B) (eqb : B -> B -> bool) l :
  build_orbits eqb (map f l) = map (map f) (build_orbits (fun a b => eqb (f a) (f b)) l).
Proof.
  unfold build_orbits.
  assert (H : forall acc, fold_left (fun o i => add_to_orbit eqb i o) (map f l) (map (fun o => (f (fst o), map f (snd o))) acc) =
    map (fun o => (f (fst o), map f (snd o))) (fold_left (fun o i => add_to_orbit (fun a b => eqb (f a) (f b)) i o) l acc)).
  { induction l as [|x l IH]; intros acc; simpl; [done|]. rewrite add_to_orbit_map. apply IH. }
  specialize (H []). simpl in H. rewrite H, !map_map. done.
Qed.
Lemma add_to_orbit_ext {A} (eqb eqb' : A -> A -> bool) (p : A -> Prop) i orbits :
  (forall a b, p a -> p b -> eqb a b = eqb' a b) -> p i -> Forall (fun o => p (fst o)) orbits ->
  add_to_orbit eqb i orbits = add_to_orbit eqb' i orbits /\ Forall (fun o => p (fst o)) (add_to_orbit eqb i orbits).
Proof.
  intros H Hi. induction orbits as [|[r l] orbits IH]; intros Ho; simpl.
  - split; [done|]. by repeat constructor.
  - apply Forall_cons in Ho as [Hr Ho]. simpl in Hr. destruct (IH Ho) as [IH1 IH2]. rewrite <- (H r i) by done.
    destruct (eqb r i).
    + split; [done|]. by constructor.
    + rewrite <- IH1. split; [done|]. by constructor.
Qed.
Lemma build_orbits_ext {A} (eqb eqb' : A -> A -> bool) l :
  (forall a b, a ∈ l -> b ∈ l -> eqb a b = eqb' a b) -> build_orbits eqb l = build_orbits eqb' l.
Proof.
  intros H. unfold build_orbits. f_equal.
  assert (G : forall k acc, (forall x, x ∈ k -> x ∈ l) -> Forall (fun o => fst o ∈ l) acc ->
    fold_left (fun o i => add_to_orbit eqb i o) k acc = fold_left (fun o i => add_to_orbit eqb' i o) k acc).
  { induction k as [|x k IH]; intros acc Hk Ha; simpl; [done|].
    destruct (add_to_orbit_ext eqb eqb' (fun a => a ∈ l) x acc H (Hk x ltac:(left)) Ha) as [E1 E2].
    rewrite <- E1. apply IH; [|done]. intros y Hy. apply Hk. by right. }
  apply G; [done|constructor].
Qed.

(* ------------------------------------------------------------------ *)
(** ** Distances *)

Lemma matrix_entry {P} (distance : P -> P -> Q) xs i j x y : xs !! i = Some x -> xs !! j = Some y ->
  entry (build_distance_matrix distance xs) i j = Ok (distance x y).
Proof.
  intros Hx Hy. unfold entry, build_distance_matrix, at_nat.
  rewrite (list_lookup_fmap (fun x => map (fun y => distance x y) xs)), Hx. simpl.
  by rewrite (list_lookup_fmap (fun y => distance x y)), Hy.
Qed.
Lemma max_fold_le cut l x : Qle_bool cut (fold_left (fun m y => if Qle_bool y m then m else y) l x) = true <->
  exists y, y ∈ x :: l /\ (cut <= y)%Q.
Proof.
  rewrite Qle_bool_iff. revert x. induction l as [|z l IH]; intros x; simpl.
  - split; [intros H; exists x; split; [left|done]|]. intros (y & Hy & H). apply elem_of_list_singleton in Hy as ->. done.
  - rewrite IH. split.
    + intros (y & Hy & H). apply elem_of_cons in Hy as [->|Hy].
      * destruct (Qle_bool z x); eexists; (split; [|exact H]); [left|right; left].
      * exists y. split; [by do 2 right|done].
    + intros (y & Hy & H). rewrite !elem_of_cons in Hy. destruct (Qle_bool z x) eqn:E.
      * apply Qle_bool_iff in E. destruct Hy as [->|[->|Hy]].
        -- exists x. split; [left|done].
        -- exists x. split; [left|]. by eapply Qle_trans.
        -- exists y. split; [by right|done].
      * assert (x < z)%Q by (apply Qnot_le_lt; intros G; apply Qle_bool_iff in G; congruence).
        destruct Hy as [->|[->|Hy]].
        -- exists z. split; [left|]. eapply Qle_trans; [exact H|by apply Qlt_le_weak].
        -- exists z. split; [left|done].
        -- exists y. split; [by right|done].
Qed.
Lemma pairs_of_seq n i j : [i; j] ∈ combinations 2 (seq 0 n) <-> i < j < n.
Proof.
  rewrite elem_of_combinations, sublist_seq. split.
  - intros [[H1 H2] _]. inversion H1 as [|? ? H3 H4]; subst. apply Forall_cons_1 in H4 as [H4 _].
    specialize (H2 j ltac:(right; left)). lia.
  - intros H. split; [|done]. split; [constructor; [repeat constructor|repeat constructor; lia]|]. intros k Hk. rewrite !elem_of_cons, elem_of_nil in Hk. lia.
Qed.
Lemma pairs_shape {A} (l : list A) s : s ∈ combinations 2 l -> exists i j, s = [i; j].
Proof. intros H. apply elem_of_combinations in H as [_ H]. destruct s as [|i [|j [|]]]; try done. eauto. Qed.

Lemma max_length_ok {P} (distance : P -> P -> Q) ix sp ro xs : 2 <= length xs ->
  exists m, max_length (Cluster ix sp ro (build_distance_matrix distance xs)) = Ok m /\
    forall cut, Qle_bool cut m = true <->
      exists i j x y, i < j /\ xs !! i = Some x /\ xs !! j = Some y /\ (cut <= distance x y)%Q.
Proof.
  intros Hn. unfold max_length. cbn [cl_dist]. assert (El : length (build_distance_matrix distance xs) = length xs) by (unfold build_distance_matrix; apply map_length).
  rewrite El. destruct (Nat.leb_spec (length xs) 1); [lia|]. unfold pair_distances. rewrite El.
  assert (exists l, rmapM (fun ij : list nat => match ij with [i; j] => entry (build_distance_matrix distance xs) i j | _ => Err ValueError end)
            (combinations 2 (seq 0 (length xs))) = Ok l) as [l Hl].
  { apply rmapM_ok_exists. intros s Hs. destruct (pairs_shape _ _ Hs) as (i & j & ->). apply pairs_of_seq in Hs.
    destruct (lookup_lt_is_Some_2 xs i ltac:(lia)) as [x Hx]. destruct (lookup_lt_is_Some_2 xs j ltac:(lia)) as [y Hy].
    exists (distance x y). by apply matrix_entry. }
  rewrite Hl. cbn [rbind].
  assert (Hin : forall d, d ∈ l <-> exists i j x y, i < j /\ xs !! i = Some x /\ xs !! j = Some y /\ d = distance x y).
  { intros d. apply rmapM_ok in Hl. split.
    - intros Hd. apply elem_of_list_lookup in Hd as (k & Hk). destruct (Forall2_lookup_r _ _ _ _ _ Hl Hk) as (s & Hs & E).
      apply elem_of_list_lookup_2 in Hs. destruct (pairs_shape _ _ Hs) as (i & j & ->). apply pairs_of_seq in Hs.
      destruct (lookup_lt_is_Some_2 xs i ltac:(lia)) as [x Hx]. destruct (lookup_lt_is_Some_2 xs j ltac:(lia)) as [y Hy].
      rewrite (matrix_entry _ _ _ _ x y Hx Hy) in E. injection E as <-. exists i, j, x, y. split_and!; [lia|done..].
    - intros (i & j & x & y & Hij & Hx & Hy & ->). assert (Hs : [i; j] ∈ combinations 2 (seq 0 (length xs))).
      { apply pairs_of_seq. apply lookup_lt_Some in Hy. lia. }
      apply elem_of_list_lookup in Hs as (k & Hk). destruct (Forall2_lookup_l _ _ _ _ _ Hl Hk) as (d & Hd & E).
      rewrite (matrix_entry _ _ _ _ x y Hx Hy) in E. injection E as <-. by apply elem_of_list_lookup_2 in Hd. }
  destruct l as [|d l].
  - exfalso. destruct (lookup_lt_is_Some_2 xs 0 ltac:(lia)) as [x Hx]. destruct (lookup_lt_is_Some_2 xs 1 ltac:(lia)) as [y Hy].
    assert (H1 : distance x y ∈ @nil Q) by (apply Hin; exists 0, 1, x, y; split_and!; [lia|done..]). by apply elem_of_nil in H1.
  - eexists. split; [reflexivity|]. intros cut. rewrite max_fold_le. split.
    + intros (y & Hy & Hc). apply Hin in Hy as (i & j & x & z & H1 & H2 & H3 & ->). eauto 10.
    + intros (i & j & x & y & H1 & H2 & H3 & H4). exists (distance x y). split; [|done]. apply Hin. eauto 10.
Qed.

(* ------------------------------------------------------------------ *)
(** ** The clusters of the environment *)

Definition sel {A} (l : list A) (s : list nat) : list A := omap (fun i => l !! i) s.
Lemma sel_ok {A} (l : list A) s : (forall i, i ∈ s -> i < length l) ->
  rmapM (at_nat l) s = Ok (sel l s) /\ length (sel l s) = length s /\
  forall i k, s !! i = Some k -> sel l s !! i = l !! k.
Proof.
  induction s as [|x s IH]; intros H; [done|].
  destruct IH as (H1 & H2 & H3); [intros i Hi; apply H; by right|].
  destruct (lookup_lt_is_Some_2 l x) as [y Hy]; [apply H; left|].
  assert (E : sel l (x :: s) = y :: sel l s) by (unfold sel; simpl; by rewrite Hy).
  rewrite E. simpl. unfold at_nat at 1. rewrite Hy. simpl. rewrite H1. simpl. split; [done|]. split; [by rewrite H2|].
  intros [|i] k; simpl; [by intros [= ->]|]. apply H3.
Qed.

Section Proofs.
  Variable round8 : Q -> Q.
  Context {P : Type}.
  Variable distance : P -> P -> Q.
  Variable orbit_fingerprint : list cluster -> string.
  Variable feature_fingerprint : string -> list nat -> list nat -> string.
  Variable env : local_env P.
  Hypothesis WF : well_formed distance env.
  Local Notation n := (length (e_species env)).

  Definition inr (s : list nat) : Prop := forall i, i ∈ s -> i < n.
  Definition cl (s : list nat) : cluster :=
    Cluster (map Z.of_nat s) (sel (e_species env) s) (replicate (length s) ""%string)
      (build_distance_matrix distance (sel (e_coords env) s)).

  Lemma inr_species s : inr s -> rmapM (at_nat (e_species env)) s = Ok (sel (e_species env) s) /\
    length (sel (e_species env) s) = length s /\ forall i k, s !! i = Some k -> sel (e_species env) s !! i = e_species env !! k.
  Proof. intros H. by apply sel_ok. Qed.
  Lemma inr_coords s : inr s -> rmapM (at_nat (e_coords env)) s = Ok (sel (e_coords env) s) /\
    length (sel (e_coords env) s) = length s /\ forall i k, s !! i = Some k -> sel (e_coords env) s !! i = e_coords env !! k.
  Proof. intros H. apply sel_ok. destruct WF as (-> & _). done. Qed.

  Lemma cl_size s : inr s -> size (cl s) = length s.
  Proof. intros H. unfold size. simpl. by apply inr_species. Qed.
  Lemma cl_new s : inr s ->
    cluster_new distance (Some (map Z.of_nat s)) (sel (e_species env) s) (sel (e_coords env) s) None None = Ok (cl s).
  Proof.
    intros H. destruct (inr_species s H) as (_ & H1 & _), (inr_coords s H) as (_ & H2 & _).
    unfold cluster_new. rewrite H1, H2, map_length, replicate_length, !Nat.eqb_refl. done.
  Qed.
  Lemma cl_proper s : inr s -> proper (cl s).
  Proof. intros H. eapply cluster_new_proper. by apply cl_new. Qed.
  Lemma cl_symmetric s : inr s -> symmetric (cl s).
  Proof. intros H. eapply cluster_new_symmetric; [|by apply cl_new]. apply WF. Qed.

  Lemma cl_dist_at s i j a b : inr s -> s !! i = Some a -> s !! j = Some b ->
    exists d, dist_at (cl s) i j = Some d /\ dist_is distance env a b d.
  Proof.
    intros H Ha Hb. destruct (inr_coords s H) as (_ & H2 & H3).
    assert (L : forall k c, s !! k = Some c -> exists x, e_coords env !! c = Some x).
    { intros k c Hk. apply lookup_lt_is_Some_2. destruct WF as (-> & _). apply H. by eapply elem_of_list_lookup_2. }
    destruct (L i a Ha) as [x Hx], (L j b Hb) as [y Hy]. exists (distance x y). split.
    - unfold dist_at. simpl. unfold build_distance_matrix. rewrite (list_lookup_fmap (fun x => map (fun y => distance x y) _)), (H3 i a Ha), Hx.
      simpl. by rewrite (list_lookup_fmap (fun y => distance x y)), (H3 j b Hb), Hy.
    - exists x, y. done.
  Qed.
  Lemma dist_unique a b d d' : dist_is distance env a b d -> dist_is distance env a b d' -> d = d'.
  Proof. intros (x & y & H1 & H2 & ->) (x' & y' & H3 & H4 & ->). congruence. Qed.
  Lemma dist_sym a b d : dist_is distance env a b d -> exists d', dist_is distance env b a d' /\ (d == d')%Q.
  Proof. intros (x & y & H1 & H2 & ->). exists (distance y x). split; [by exists y, x|]. apply WF. Qed.
  Lemma dist_total a b : a < n -> b < n -> exists d, dist_is distance env a b d.
  Proof.
    intros Ha Hb. destruct WF as (W & _). rewrite <- W in Ha, Hb.
    destruct (lookup_lt_is_Some_2 _ _ Ha) as [x Hx], (lookup_lt_is_Some_2 _ _ Hb) as [y Hy].
    exists (distance x y), x, y. done.
  Qed.

  Lemma cl_labels_at s i a : inr s -> s !! i = Some a ->
    exists x, e_species env !! a = Some x /\ cl_labels (cl s) !! i = Some (x, ""%string).
  Proof.
    intros H Ha. destruct (inr_species s H) as (_ & H2 & H3).
    destruct (lookup_lt_is_Some_2 (e_species env) a) as [x Hx]; [apply H; by eapply elem_of_list_lookup_2|].
    exists x. split; [done|]. unfold cl_labels. apply zip_lookup. simpl. rewrite (H3 i a Ha). split; [done|].
    apply lookup_replicate. split; [done|]. by eapply lookup_lt_Some.
  Qed.

  (* ---------------- equality of clusters ---------------- *)
  Definition ceq (s t : list nat) : bool := bool_decide (s = t) || cluster_eq round8 (cl s) (cl t).
  Lemma ceq_refl s : ceq s s = true.
  Proof. unfold ceq. by rewrite bool_decide_eq_true_2. Qed.
  Lemma cluster_eq_refl s : inr s -> cluster_eq round8 (cl s) (cl s) = true.
  Proof.
    intros H. apply eq_iff_fits; try apply cl_proper; try apply cl_symmetric; try done.
    exists (seq 0 (size (cl s))). apply self_fits; [done..|]. by apply cl_proper.
  Qed.
  Lemma ceq_cluster_eq s t : inr s -> ceq s t = cluster_eq round8 (cl s) (cl t).
  Proof.
    intros H. unfold ceq. destruct (bool_decide_reflect (s = t)) as [<-|]; [|done]. simpl. by rewrite cluster_eq_refl.
  Qed.
  Lemma ceq_fits s t : inr s -> inr t -> ceq s t = true <-> exists p, fits (1 # 1000) (1 # 1000) (cl s) (cl t) p.
  Proof.
    intros Hs Ht. rewrite ceq_cluster_eq by done.
    apply eq_iff_fits; try apply cl_proper; try apply cl_symmetric; done.
  Qed.

  Lemma congruent_inr s t : congruent distance env s t -> length s = length t.
  Proof. intros (u & H1 & H2 & _). rewrite <- H2. by apply Permutation_length. Qed.
  Lemma congruent_refl s : congruent distance env s s.
  Proof.
    exists s. split_and!; [done|done| |].
    - intros i x y H1 H2. congruence.
    - intros i j x y x' y' d d' Hij H1 H2 H3 H4 D1 D2. assert (x' = x) as -> by congruence. assert (y' = y) as -> by congruence.
      by rewrite (dist_unique _ _ _ _ D1 D2).
  Qed.
  Lemma congruent_sym s t : congruent distance env s t -> congruent distance env t s.
  Proof.
    intros (u & H1 & H2 & H3 & H4). symmetry in H1. pose proof (Permutation_length H1) as Hl.
    apply Permutation_inj in H1 as (_ & g & Hg & E).
    destruct (sel_ok s (map g (seq 0 (length t)))) as (_ & A1 & A2).
    { intros k Hk. apply elem_of_list_fmap in Hk as (j & -> & Hj). apply elem_of_seq in Hj.
      destruct (lookup_lt_is_Some_2 t j) as [y Hy]; [lia|]. rewrite E in Hy. apply lookup_lt_Some in Hy. lia. }
    rewrite map_length, seq_length in A1. set (v := sel s _) in *. exists v.
    assert (A3 : forall j, j < length t -> v !! j = s !! g j).
    { intros j Hj. apply A2. change (map g ?l) with (g <$> l). rewrite list_lookup_fmap, lookup_seq_lt by lia. done. }
    assert (V : forall j a b, t !! j = Some a -> v !! j = Some b -> s !! g j = Some b /\ u !! g j = Some a).
    { intros j a b Ha Hb. rewrite A3 in Hb by (by eapply lookup_lt_Some). split; [done|]. by rewrite <- E. }
    split_and!.
    - apply Permutation_inj. split; [lia|]. exists g. split; [done|]. intros j. destruct (decide (j < length t)) as [Hj|Hj].
      + by apply A3.
      + rewrite lookup_ge_None_2 by lia. symmetry. apply lookup_ge_None_2.
        destruct (decide (length s <= g j)); [done|]. exfalso.
        assert (is_Some (t !! j)) as []; [|].
        { rewrite E. apply lookup_lt_is_Some_2. lia. }
        apply lookup_lt_Some in H. lia.
    - lia.
    - intros j a b Ha Hb. destruct (V j a b Ha Hb) as [V1 V2]. symmetry. by apply (H3 (g j)).
    - intros i j a b a' b' d d' Hij Ha Hb Ha' Hb' D1 D2. destruct (V i a a' Ha Ha') as [V1 V2], (V j b b' Hb Hb') as [V3 V4].
      symmetry. apply (H4 (g i) (g j) a' b' a b d' d); try done. by intros ?%(inj g).
  Qed.

  Lemma ceq_congruent r s t : inr r -> inr s -> inr t -> ceq r s = true -> congruent distance env s t -> ceq r t = true.
  Proof.
    intros Hr Hs Ht H (u & H1 & H2 & H3 & H4). apply ceq_fits in H as (p & (F1 & F2 & F3 & F4) & F5); [|done..].
    apply ceq_fits; [done..|]. pose proof (Permutation_length H1) as Hl.
    apply Permutation_inj in H1 as (_ & f & Hf & E).
    rewrite !cl_size in F2 by done. rewrite cl_size in F1 by done.
    assert (K : forall i c, p !! i = Some c -> exists a b, s !! c = Some a /\ u !! c = Some b /\ t !! f c = Some b).
    { intros i c Hi. assert (Hc : c < length s).
      { destruct (F4 i c Hi) as (l & _ & Hlab). apply lookup_lt_Some in Hlab. rewrite labels_length in Hlab by (by apply cl_proper).
        by rewrite cl_size in Hlab. }
      destruct (lookup_lt_is_Some_2 s c Hc) as [a Ha]. destruct (lookup_lt_is_Some_2 u c ltac:(lia)) as [b Hb].
      exists a, b. split; [done|]. split; [done|]. by rewrite <- E. }
    assert (M : forall i y, map f p !! i = Some y -> exists c, p !! i = Some c /\ y = f c).
    { intros i y Hy. change (map f p) with (f <$> p) in Hy. rewrite list_lookup_fmap in Hy. destruct (p !! i) as [c|]; [|done].
      injection Hy as <-. eauto. }
    exists (map f p). split.
    - split; [rewrite map_length, cl_size by done; lia|]. split; [rewrite !cl_size by done; lia|].
      split; [by apply NoDup_fmap_2|]. intros i y Hy. destruct (M i y Hy) as (c & Hc & ->).
      destruct (K i c Hc) as (a & b & Ha & Hb & Hb'). destruct (F4 i c Hc) as (l & Hl1 & Hl2). exists l. split; [done|].
      destruct (cl_labels_at s c a Hs Ha) as (x & X1 & X2). destruct (cl_labels_at t (f c) b Ht Hb') as (x' & X3 & X4).
      rewrite (H3 c a b Ha Hb) in X1. congruence.
    - intros i j y z a b Hij Hy Hz Da Db. destruct (M i y Hy) as (c & Hc & ->), (M j z Hz) as (d & Hd & ->).
      destruct (K i c Hc) as (k1 & b1 & K1 & K2 & K3), (K j d Hd) as (k2 & b2 & K4 & K5 & K6).
      destruct (cl_dist_at s c d k1 k2 Hs K1 K4) as (w & W1 & W2). destruct (cl_dist_at t (f c) (f d) b1 b2 Ht K3 K6) as (w' & W3 & W4).
      rewrite W3 in Db. injection Db as <-.
      assert (Hcd : c <> d). { intros ->. apply Hij. eapply NoDup_lookup; [exact F3|done|done]. }
      assert (Ew : (w == w')%Q) by (by apply (H4 c d k1 k2 b1 b2)).
      rewrite <- Ew. by apply (F5 i j c d).
  Qed.
  Lemma ceq_of_congruent s t : inr s -> inr t -> congruent distance env s t -> ceq s t = true.
  Proof. intros Hs Ht H. apply (ceq_congruent s s t); [done..|apply ceq_refl|done]. Qed.
  Lemma ceq_congruent_iff r s t : inr r -> inr s -> inr t -> congruent distance env s t -> ceq r s = ceq r t.
  Proof.
    intros Hr Hs Ht H. destruct (ceq r s) eqn:E1, (ceq r t) eqn:E2; try done.
    - by rewrite (ceq_congruent r s t) in E2.
    - rewrite (ceq_congruent r t s) in E1; try done. by apply congruent_sym.
  Qed.
  Lemma congruent_of_ceq s t : inr s -> inr t -> separated distance env -> NoDup s -> NoDup t ->
    ceq s t = true -> congruent distance env s t.
  Proof.
    intros Hs Ht Sep Ns Nt H. apply ceq_fits in H as (p & Hlp & F5); [|done..].
    pose proof (label_preserving_perm _ _ _ (cl_proper t Ht) Hlp) as Hp. destruct Hlp as (F1 & F2 & F3 & F4).
    rewrite !cl_size in F2 by done. rewrite cl_size in F1 by done. rewrite cl_size in Hp by done.
    assert (B : forall i, i ∈ p -> i < length t) by (intros i Hi; rewrite Hp, elem_of_seq in Hi; lia).
    destruct (sel_ok t p B) as (_ & S2 & S3).
    exists (sel t p). split_and!.
    - unfold sel. rewrite Hp. clear. assert (G : omap (fun i => t !! i) (seq 0 (length t)) = t); [|by rewrite G].
      apply list_eq. intros i. destruct (sel_ok t (seq 0 (length t))) as (_ & E1 & E2).
      { intros j Hj. apply elem_of_seq in Hj. lia. }
      unfold sel in *. rewrite seq_length in E1. destruct (decide (i < length t)).
      + apply E2. by apply lookup_seq_lt.
      + rewrite !lookup_ge_None_2; [done|lia|lia].
    - lia.
    - intros i x y Hx Hy. destruct (lookup_lt_is_Some_2 p i) as [c Hc]; [apply lookup_lt_Some in Hx; lia|].
      rewrite (S3 i c Hc) in Hy. destruct (F4 i c Hc) as (l & L1 & L2).
      destruct (cl_labels_at s i x Hs Hx) as (z & Z1 & Z2), (cl_labels_at t c y Ht Hy) as (z' & Z3 & Z4). congruence.
    - intros i j x y x' y' d d' Hij Hx Hy Hx' Hy' D1 D2.
      destruct (lookup_lt_is_Some_2 p i) as [c Hc]; [apply lookup_lt_Some in Hx; lia|].
      destruct (lookup_lt_is_Some_2 p j) as [e He]; [apply lookup_lt_Some in Hy; lia|].
      rewrite (S3 i c Hc) in Hx'. rewrite (S3 j e He) in Hy'.
      assert (x <> y). { intros Q0. subst. apply Hij. by eapply (NoDup_lookup s). }
      assert (c <> e). { intros Q0. subst. apply Hij. by eapply (NoDup_lookup p). }
      assert (x' <> y'). { intros Q0. subst. apply H0. by eapply (NoDup_lookup t). }
      destruct (cl_dist_at s i j x y Hs Hx Hy) as (w & W1 & W2). destruct (cl_dist_at t c e x' y' Ht Hx' Hy') as (w' & W3 & W4).
      rewrite (dist_unique _ _ _ _ D1 W2), (dist_unique _ _ _ _ D2 W4).
      apply (Sep x y x' y'); try done. by apply (F5 i j c e).
  Qed.

  (* ---------------- the list of clusters ---------------- *)
  Definition all_sets : list (list nat) :=
    let sites := seq 0 n in
    combinations 1 sites ++ combinations 2 sites ++ combinations 3 sites ++ combinations 4 sites.
  Lemma elem_of_all s : s ∈ all_sets <-> 1 <= length s <= 4 /\ StronglySorted lt s /\ inr s.
  Proof.
    unfold all_sets. rewrite !elem_of_app, !elem_of_combinations, !sublist_seq. unfold inr. split.
    - intros H. assert (G : 1 <= length s <= 4 /\ StronglySorted lt s /\ forall i, i ∈ s -> 0 <= i < 0 + n) by (destruct H as [H|[H|[H|H]]]; intuition lia).
      destruct G as (G1 & G2 & G3). split_and!; try done; [lia|lia|]. intros i Hi. specialize (G3 i Hi). lia.
    - intros (H1 & H2 & H3). assert (forall i, i ∈ s -> 0 <= i < 0 + n) by (intros i Hi; specialize (H3 i Hi); lia).
      assert (length s = 1 \/ length s = 2 \/ length s = 3 \/ length s = 4) as [E|[E|[E|E]]] by lia; tauto.
  Qed.
  Lemma NoDup_all : NoDup all_sets.
  Proof.
    assert (Hn : NoDup (seq 0 n)) by (apply NoDup_ListNoDup, seq_NoDup).
    unfold all_sets. rewrite !NoDup_app. split_and!; try (by apply NoDup_combinations);
      intros s Hs; rewrite ?elem_of_app, ?elem_of_combinations in *; lia.
  Qed.
  Lemma sorted_NoDup (s : list nat) : StronglySorted lt s -> NoDup s.
  Proof using.
    induction 1 as [|x s H IH Hx]; constructor; [|done]. intros Hin. rewrite Forall_forall in Hx. specialize (Hx x Hin). lia.
  Qed.
  Lemma sorted_lookup_lt (s : list nat) i j a b : StronglySorted lt s -> s !! i = Some a -> s !! j = Some b -> i < j -> a < b.
  Proof using.
    intros H. revert i j. induction H as [|x s H IH Hx]; intros i j Ha Hb Hij; [done|].
    destruct j as [|j]; [lia|]. simpl in Hb. destruct i as [|i].
    - simpl in Ha. injection Ha as ->. rewrite Forall_forall in Hx. apply Hx. by eapply elem_of_list_lookup_2.
    - simpl in Ha. apply (IH i j); [done|done|lia].
  Qed.

  Section Cut.
    Variable cutoffs : list Q.
    Definition admb (s : list nat) : bool :=
      match max_length (cl s), at_nat (10%Q :: cutoffs) (length s - 1) with
      | Ok m, Ok c => negb (Qle_bool c m)
      | _, _ => false
      end.
    Definition adm : list (list nat) := List.filter admb all_sets.

    Hypothesis Hcut : 3 <= length cutoffs.
    Lemma max_ok s : inr s -> s <> [] -> exists m, max_length (cl s) = Ok m.
    Proof.
      intros H Hne. destruct (inr_coords s H) as (_ & Hl & _). destruct (decide (2 <= length s)).
      - destruct (max_length_ok distance (map Z.of_nat s) (sel (e_species env) s) (replicate (length s) ""%string) (sel (e_coords env) s)) as (m & Hm & _); [lia|].
        exists m. exact Hm.
      - exists 0%Q. unfold max_length. simpl. unfold build_distance_matrix. rewrite map_length, Hl.
        destruct (Nat.leb_spec (length s) 1); [done|lia].
    Qed.
    Lemma cut_ok (s : list nat) : 1 <= length s <= 4 -> exists c, at_nat (10%Q :: cutoffs) (length s - 1) = Ok c.
    Proof. intros H. unfold at_nat. destruct (lookup_lt_is_Some_2 (10%Q :: cutoffs) (length s - 1)) as [c ->]; [simpl; lia|eauto]. Qed.

    Lemma admb_iff s : s ∈ all_sets -> admb s = true <-> admissible distance env cutoffs s.
    Proof.
      intros Hs. apply elem_of_all in Hs as (H1 & H2 & H3). unfold admb.
      destruct (cut_ok s H1) as [c Hc]. rewrite Hc. destruct (inr_coords s H3) as (_ & Hl & Hco).
      destruct (decide (2 <= length s)) as [H4|H4].
      - destruct (max_length_ok distance (map Z.of_nat s) (sel (e_species env) s) (replicate (length s) ""%string) (sel (e_coords env) s)) as (m & Hm & Hm2); [lia|].
        unfold cl. rewrite Hm. specialize (Hm2 c). rewrite negb_true_iff. split.
        + intros E. split_and!; try done; [lia|lia|]. intros i j d c' Hi Hj Hij Hd (k & Ek & Hk & Hc').
          assert (c' = c) as ->.
          { unfold at_nat in Hc. replace (length s - 1) with (S k) in Hc by lia. simpl in Hc. rewrite Hc' in Hc. congruence. }
          apply Qnot_le_lt. intros Hle. rewrite (proj2 Hm2) in E; [done|].
          apply elem_of_list_lookup in Hi as [a Ha]. apply elem_of_list_lookup in Hj as [b Hb].
          destruct Hd as (x & y & Hx & Hy & ->). exists a, b, x, y. split_and!; try done.
          * destruct (decide (a < b)); [done|]. exfalso. destruct (decide (a = b)) as [->|]; [assert (i = j) by congruence; lia|].
            assert (j < i); [|lia]. apply (sorted_lookup_lt s b a); try done. lia.
          * by rewrite (Hco a i Ha).
          * by rewrite (Hco b j Hb).
        + intros (_ & _ & _ & A). destruct (Qle_bool c m); [|done]. exfalso. destruct (proj1 Hm2 eq_refl) as (i & j & x & y & Hij & Hx & Hy & Hle).
          assert (Li : i < length s) by (apply lookup_lt_Some in Hx; lia). assert (Lj : j < length s) by (apply lookup_lt_Some in Hy; lia).
          destruct (lookup_lt_is_Some_2 s i Li) as [a Ha], (lookup_lt_is_Some_2 s j Lj) as [b Hb].
          rewrite (Hco i a Ha) in Hx. rewrite (Hco j b Hb) in Hy.
          assert (distance x y < c)%Q; [|by apply (Qlt_not_le _ _ H)].
          apply (A a b); [by eapply elem_of_list_lookup_2|by eapply elem_of_list_lookup_2|by apply (sorted_lookup_lt s i j)|by exists x, y|].
          exists (length s - 2). split; [lia|]. split; [lia|].
          unfold at_nat in Hc. replace (length s - 1) with (S (length s - 2)) in Hc by lia. simpl in Hc.
          destruct (cutoffs !! (length s - 2)); congruence.
      - assert (max_length (cl s) = Ok 0%Q) as ->.
        { unfold max_length. simpl. unfold build_distance_matrix. rewrite map_length, Hl. destruct (Nat.leb_spec (length s) 1); [done|lia]. }
        replace (length s - 1) with 0 in Hc by lia. injection Hc as <-. split; [|done]. intros _.
        split_and!; try done; [lia|lia|]. intros i j d c' _ _ _ _ (k & Ek & _). lia.
    Qed.
    Lemma elem_of_adm s : s ∈ adm <-> admissible distance env cutoffs s.
    Proof.
      unfold adm. rewrite elem_of_list_In, filter_In, <- elem_of_list_In. split.
      - intros [H1 H2]. by apply admb_iff.
      - intros H. assert (G : s ∈ all_sets) by (apply elem_of_all; destruct H as (? & ? & ? & _); done). split; [done|]. by apply admb_iff.
    Qed.
    Lemma NoDup_adm : NoDup adm.
    Proof. unfold adm. apply NoDup_ListNoDup, List.NoDup_filter, NoDup_ListNoDup, NoDup_all. Qed.
    Lemma adm_inr s : s ∈ adm -> inr s.
    Proof. rewrite elem_of_adm. by intros (_ & _ & H & _). Qed.

    Lemma build_clusters_ok : build_clusters distance env all_sets (10%Q :: cutoffs) = Ok (map cl adm).
    Proof.
      unfold build_clusters.
      destruct cutoffs as [|c1 [|c2 [|c3 cs]]] eqn:Ec; try (simpl in Hcut; lia). rewrite <- Ec in *. clear Ec.
      assert (A : forall k, k < 4 -> exists c, at_nat (10%Q :: cutoffs) k = Ok c).
      { intros k Hk. unfold at_nat. destruct (lookup_lt_is_Some_2 (10%Q :: cutoffs) k) as [c ->]; [simpl; lia|eauto]. }
      destruct (A 1 ltac:(lia)) as [? ->]. destruct (A 2 ltac:(lia)) as [? ->]. destruct (A 3 ltac:(lia)) as [? ->]. cbn [rbind].
      unfold adm. assert (G : forall k acc, (forall s, s ∈ k -> s ∈ all_sets) ->
        rfold (fun clusters site_indices =>
             let* species := rmapM (at_nat (e_species env)) site_indices in
             let* coords := rmapM (at_nat (e_coords env)) site_indices in
             let* c := cluster_new distance (Some (map Z.of_nat site_indices)) species coords None None in
             let* m := max_length c in
             let* cut := at_nat (10%Q :: cutoffs) (length (cl_indices c) - 1) in
             Ok (if Qle_bool cut m then clusters else clusters ++ [c])) acc k = Ok (acc ++ map cl (List.filter admb k))).
      { induction k as [|s k IH]; intros acc Hk; cbn [rfold List.filter map]; [by rewrite app_nil_r|].
        assert (Hs : s ∈ all_sets) by (apply Hk; left). apply elem_of_all in Hs as (S1 & S2 & S3).
        destruct (inr_species s S3) as (-> & _), (inr_coords s S3) as (-> & _). cbn [rbind]. rewrite cl_new by done. cbn [rbind].
        unfold admb. destruct (max_ok s S3) as [m Hm]; [by intros ->; simpl in S1; lia|]. rewrite Hm. cbn [rbind].
        assert (E : length (cl_indices (cl s)) = length s) by (simpl; by rewrite map_length). rewrite E.
        destruct (cut_ok s S1) as [c Hc]. rewrite Hc. cbn [rbind]. rewrite IH by (intros t Ht; apply Hk; by right).
        destruct (Qle_bool c m); cbn [negb map]; [done|]. by rewrite <- app_assoc. }
      by rewrite G.
    Qed.
    Definition orbs : list (list (list nat)) := build_orbits ceq adm.
    Lemma build_orbits_ok : build_orbits_of round8 distance env cutoffs = Ok (map (map cl) orbs).
    Proof.
      unfold build_orbits_of. fold all_sets. rewrite build_clusters_ok. cbn [rbind]. f_equal.
      rewrite build_orbits_map. f_equal. unfold orbs. apply build_orbits_ext. intros a b Ha Hb. symmetry.
      apply ceq_cluster_eq. by apply adm_inr.
    Qed.
    Lemma orbs_perm : concat orbs ≡ₚ adm.
    Proof. apply build_orbits_permutation. Qed.
    Lemma orbs_in o s : o ∈ orbs -> s ∈ o -> s ∈ adm.
    Proof. intros Ho Hs. rewrite <- orbs_perm. apply elem_of_list_In, in_concat. exists o. by rewrite <- !elem_of_list_In. Qed.
  End Cut.

  Lemma build_cut cutoffs o : build_orbits_of round8 distance env cutoffs = Ok o -> 3 <= length cutoffs.
  Proof.
    unfold build_orbits_of, build_clusters. intros H. apply rbind_ok in H as (cs & H & _).
    do 3 (apply rbind_ok in H as (? & ? & H)). unfold at_nat in *. destruct cutoffs as [|? [|? [|? ?]]]; simpl in *; try done. lia.
  Qed.

  (* ---------------- symmetries ---------------- *)
  Lemma lt_unique (s t : list nat) : StronglySorted lt s -> StronglySorted lt t -> s ≡ₚ t -> s = t.
  Proof using. intros Hs Ht. assert (AntiSymm (=) lt) by (intros x y H1 H2; lia). by apply (StronglySorted_unique lt). Qed.
  Lemma sorted_lt (l : list nat) : NoDup l -> StronglySorted lt (sorted Nat.leb l).
  Proof using.
    intros Hn. assert (H : StronglySorted (fun a b => Nat.leb a b = true) (sorted Nat.leb l)).
    { apply Sorted_StronglySorted; [intros a b c; rewrite !Nat.leb_le; lia|].
      apply (sorted_sorted Nat.leb). intros a b. rewrite !Nat.leb_le. lia. }
    rewrite <- (sorted_perm Nat.leb l) in Hn. revert H Hn. generalize (sorted Nat.leb l). clear. intros l H.
    induction H as [|x l H IH Hx]; intros Hn; constructor; apply NoDup_cons in Hn as [H1 H2]; [by apply IH|].
    rewrite Forall_forall in *. intros y Hy. specialize (Hx y Hy). apply Nat.leb_le in Hx. assert (x <> y) by (by intros ->). lia.
  Qed.

  Section Sym.
    Variable p : list nat.
    Hypothesis Hsym : symmetry distance env p.
    Definition img (s : list nat) : list nat := map (fun i => p !!! i) s.
    Definition F (s : list nat) : list nat := sorted Nat.leb (img s).
    Lemma F_perm s : F s ≡ₚ img s.
    Proof. apply sorted_perm. Qed.
    Lemma p_length : length p = n.
    Proof. destruct Hsym as (H & _). rewrite H. apply seq_length. Qed.
    Lemma p_lookup i : i < n -> p !! i = Some (p !!! i).
    Proof. intros H. apply list_lookup_lookup_total_lt. by rewrite p_length. Qed.
    Lemma p_bound i : i < n -> p !!! i < n.
    Proof.
      intros H. apply p_lookup, elem_of_list_lookup_2 in H. destruct Hsym as (Hp & _).
      revert H. generalize (p !!! i). intros a H. rewrite Hp, elem_of_seq in H. lia.
    Qed.
    Lemma p_inj i j : i < n -> j < n -> p !!! i = p !!! j -> i = j.
    Proof.
      intros Hi Hj E. apply p_lookup in Hi, Hj. rewrite E in Hi. destruct Hsym as (Hp & _).
      eapply (NoDup_lookup p); [|exact Hi|exact Hj]. rewrite Hp. apply NoDup_ListNoDup, seq_NoDup.
    Qed.
    Lemma img_lookup s i : img s !! i = (fun a => p !!! a) <$> s !! i.
    Proof. unfold img. apply list_lookup_fmap. Qed.
    Lemma img_inr s : inr s -> inr (img s).
    Proof. intros H i Hi. apply elem_of_list_fmap in Hi as (j & -> & Hj). apply p_bound. by apply H. Qed.
    Lemma F_inr s : inr s -> inr (F s).
    Proof. intros H i Hi. rewrite F_perm in Hi. by apply (img_inr s). Qed.
    Lemma img_NoDup s : inr s -> NoDup s -> NoDup (img s).
    Proof.
      intros H Hn. unfold img. change (map ?f s) with (f <$> s). apply NoDup_fmap_2_strong; [|done].
      intros x y Hx Hy. apply p_inj; by apply H.
    Qed.
    Lemma F_sorted s : inr s -> NoDup s -> StronglySorted lt (F s).
    Proof. intros H Hn. apply sorted_lt. by apply img_NoDup. Qed.
    Lemma F_length s : length (F s) = length s.
    Proof. rewrite F_perm. apply map_length. Qed.

    Lemma F_congruent s : inr s -> NoDup s -> congruent distance env s (F s).
    Proof.
      intros Hr Hn. assert (L : forall i x, s !! i = Some x -> x < n) by (intros i x Hx; apply Hr; by eapply elem_of_list_lookup_2).
      exists (img s). split_and!; [by rewrite F_perm|apply map_length| |].
      - intros i x y Hx Hy. rewrite img_lookup, Hx in Hy. injection Hy as <-. symmetry.
        destruct Hsym as (_ & H2 & _). apply H2. apply p_lookup. by apply (L i).
      - intros i j x y x' y' d d' Hij Hx Hy Hx' Hy' D1 D2. rewrite img_lookup, Hx in Hx'. rewrite img_lookup, Hy in Hy'.
        injection Hx' as <-. injection Hy' as <-. destruct Hsym as (_ & _ & _ & H4).
        apply (H4 x y (p !!! x) (p !!! y)); try done; try (apply p_lookup; by eapply L).
        intros ->. apply Hij. by eapply (NoDup_lookup s).
    Qed.
    Lemma F_inj s t : inr s -> inr t -> StronglySorted lt s -> StronglySorted lt t -> F s = F t -> s = t.
    Proof.
      intros Hs Ht Ss St E. apply lt_unique; [done..|].
      assert (G : forall a b, inr a -> inr b -> F a = F b -> forall x, x ∈ a -> x ∈ b).
      { clear - Hsym. intros a b Ha Hb E x Hx. assert (K : p !!! x ∈ F b).
        { rewrite <- E, F_perm. unfold img. by apply (elem_of_list_fmap_1 (fun i => p !!! i)). }
        rewrite F_perm in K. apply elem_of_list_fmap in K as (y & E2 & Hy).
        rewrite (p_inj x y); [done|by apply Ha|by apply Hb|done]. }
      apply NoDup_Permutation; [by apply sorted_NoDup..|]. intros x. split; [by apply (G s t)|by apply (G t s)].
    Qed.

    Lemma F_admissible cutoffs s : admissible distance env cutoffs s -> admissible distance env cutoffs (F s).
    Proof.
      intros (H1 & H2 & H3 & H4). pose proof (sorted_NoDup s H2) as Hn. split_and!; rewrite ?F_length; try lia.
      - by apply F_sorted.
      - by apply F_inr.
      - intros i j d c Hi Hj Hij Hd Hc. rewrite F_perm in Hi, Hj.
        apply elem_of_list_fmap in Hi as (a & -> & Ha). apply elem_of_list_fmap in Hj as (b & -> & Hb).
        assert (Hab : a <> b) by (intros ->; lia).
        destruct (dist_total a b) as [d0 D0]; [by apply H3..|].
        assert (E : (d0 == d)%Q).
        { destruct Hsym as (_ & _ & _ & H5). apply (H5 a b (p !!! a) (p !!! b)); try done; apply p_lookup; by apply H3. }
        rewrite <- E. destruct (decide (a < b)) as [Hlt|Hlt].
        + by apply (H4 a b).
        + destruct (dist_sym a b d0 D0) as (d1 & D1 & E1). rewrite E1. apply (H4 b a); try done. lia.
    Qed.

    Lemma orbit_invariant cutoffs o : 3 <= length cutoffs -> o ∈ orbs cutoffs -> map F o ≡ₚ o.
    Proof.
      intros Hcut Ho. unfold orbs in Ho. apply elem_of_list_lookup in Ho as (i & Ho).
      destruct (build_orbits_grouped ceq (adm cutoffs) ceq_refl) as (reps & _ & Hsub & Hgrp & _ & _).
      assert (Hrep : forall r, r ∈ reps -> inr r).
      { intros r Hr. apply (adm_inr cutoffs Hcut). apply elem_of_submseteq with reps; [done|]. by apply sublist_submseteq. }
      rewrite (Hgrp i o Ho). set (sel_i := fun c => bool_decide (first_match ceq reps c = Some i)).
      assert (Hin : forall s, s ∈ adm cutoffs -> F s ∈ adm cutoffs /\ sel_i (F s) = sel_i s).
      { intros s Hs. pose proof (adm_inr cutoffs Hcut s Hs) as Hr. apply elem_of_adm in Hs; [|done].
        assert (Hn : NoDup s) by (apply sorted_NoDup, Hs). split; [apply elem_of_adm; [done|]; by apply F_admissible|].
        assert (E : first_match ceq reps (F s) = first_match ceq reps s); [|unfold sel_i; by rewrite E].
        clear - Hrep Hr Hn WF Hsym. induction reps as [|r reps IH]; simpl; [done|].
        rewrite <- (ceq_congruent_iff r s (F s)).
        - rewrite IH; [done|]. intros r' Hr'. apply Hrep. by right.
        - apply Hrep. left.
        - done.
        - by apply F_inr.
        - by apply F_congruent. }
      assert (Hmem : forall s, s ∈ List.filter sel_i (adm cutoffs) <-> s ∈ adm cutoffs /\ sel_i s = true).
      { intros s. by rewrite elem_of_list_In, filter_In, <- elem_of_list_In. }
      assert (Nd : NoDup (List.filter sel_i (adm cutoffs))) by (apply NoDup_ListNoDup, List.NoDup_filter, NoDup_ListNoDup, NoDup_adm).
      apply NoDup_Permutation_bis.
      - apply NoDup_ListNoDup. change (map F ?l) with (F <$> l). apply NoDup_fmap_2_strong; [|done]. intros s t Hs Ht.
        apply Hmem in Hs as [Hs _], Ht as [Ht _]. pose proof (adm_inr cutoffs Hcut s Hs). pose proof (adm_inr cutoffs Hcut t Ht).
        apply elem_of_adm in Hs, Ht; [|done..]. apply F_inj; try done; [apply Hs|apply Ht].
      - by rewrite map_length.
      - intros t Ht. apply in_map_iff in Ht as (s & <- & Hs). apply elem_of_list_In in Hs. apply elem_of_list_In.
        apply Hmem in Hs as [H1 H2]. destruct (Hin s H1) as [H3 H4]. apply Hmem. by rewrite H4.
    Qed.
  End Sym.

  (* ---------------- shape of the orbits ---------------- *)
  Lemma ceq_length s t : inr s -> inr t -> ceq s t = true -> length s = length t.
  Proof. intros Hs Ht H. apply ceq_fits in H as (p & (_ & H & _) & _); [|done..]. by rewrite !cl_size in H. Qed.

  Section Orb.
    Variable cutoffs : list Q.
    Hypothesis Hcut : 3 <= length cutoffs.
    Lemma orbs_facts : exists reps, length reps = length (orbs cutoffs) /\
      forall i o, orbs cutoffs !! i = Some o -> exists r, reps !! i = Some r /\ r ∈ o /\ r ∈ adm cutoffs /\ NoDup o /\
        forall s, s ∈ o <-> s ∈ adm cutoffs /\ first_match ceq reps s = Some i.
    Proof.
      destruct (build_orbits_grouped ceq (adm cutoffs) ceq_refl) as (reps & Hl & Hsub & Hgrp & Hself & _).
      exists reps. split; [done|]. intros i o Ho. destruct (lookup_lt_is_Some_2 reps i) as [r Hr]; [rewrite Hl; by eapply lookup_lt_Some|].
      assert (Hmem : forall s, s ∈ o <-> s ∈ adm cutoffs /\ first_match ceq reps s = Some i).
      { intros s. rewrite (Hgrp i o Ho), elem_of_list_In, filter_In, <- elem_of_list_In, bool_decide_eq_true. done. }
      assert (Hra : r ∈ adm cutoffs).
      { apply elem_of_submseteq with reps; [by eapply elem_of_list_lookup_2|]. by apply sublist_submseteq. }
      exists r. split_and!; [done| |done| |done].
      - apply Hmem. split; [done|]. by apply Hself.
      - rewrite (Hgrp i o Ho). apply NoDup_ListNoDup, List.NoDup_filter, NoDup_ListNoDup, NoDup_adm.
    Qed.
    Lemma orbit_nonempty o : o ∈ orbs cutoffs -> exists s o', o = s :: o'.
    Proof.
      destruct orbs_facts as (reps & _ & H). intros Ho. apply elem_of_list_lookup in Ho as [i Ho].
      destruct (H i o Ho) as (r & _ & Hr & _). destruct o as [|s o']; [by apply elem_of_nil in Hr|eauto].
    Qed.
    Lemma orbit_ceq o s : o ∈ orbs cutoffs -> s ∈ o -> exists r, r ∈ o /\ forall t, t ∈ o -> ceq r t = true.
    Proof.
      destruct orbs_facts as (reps & _ & H). intros Ho Hs. apply elem_of_list_lookup in Ho as [i Ho].
      destruct (H i o Ho) as (r & Hri & Hr & _ & _ & Hmem). exists r. split; [done|]. intros t Ht.
      apply Hmem in Ht as [_ Ht]. apply first_match_eqb in Ht as [(r' & Hr' & E) _]. congruence.
    Qed.
    Lemma orbit_length o s t : o ∈ orbs cutoffs -> s ∈ o -> t ∈ o -> length s = length t.
    Proof.
      intros Ho Hs Ht. destruct (orbit_ceq o s Ho Hs) as (r & Hr & H).
      assert (I : forall u, u ∈ o -> inr u) by (intros u Hu; by apply (adm_inr cutoffs Hcut), (orbs_in cutoffs o)).
      rewrite <- (ceq_length r s), <- (ceq_length r t); auto.
    Qed.
    Lemma orbit_disjoint i j o o' s : orbs cutoffs !! i = Some o -> orbs cutoffs !! j = Some o' -> s ∈ o -> s ∈ o' -> i = j.
    Proof.
      destruct orbs_facts as (reps & _ & H). intros Ho Ho' Hs Hs'. destruct (H i o Ho) as (_ & _ & _ & _ & _ & H1), (H j o' Ho') as (_ & _ & _ & _ & _ & H2).
      apply H1 in Hs as [_ Hs]. apply H2 in Hs' as [_ Hs']. congruence.
    Qed.
    Lemma orbit_NoDup o : o ∈ orbs cutoffs -> NoDup o.
    Proof.
      destruct orbs_facts as (reps & _ & H). intros Ho. apply elem_of_list_lookup in Ho as [i Ho]. by destruct (H i o Ho) as (_ & _ & _ & _ & Hn & _).
    Qed.
    Lemma adm_in_orbit s : s ∈ adm cutoffs -> exists o, o ∈ orbs cutoffs /\ s ∈ o.
    Proof. intros H. rewrite <- orbs_perm in H. apply elem_of_list_In, in_concat in H as (o & H1 & H2). exists o. by rewrite !elem_of_list_In. Qed.

    Lemma orbit_classes i j o o' s t : separated distance env ->
      orbs cutoffs !! i = Some o -> orbs cutoffs !! j = Some o' -> s ∈ o -> t ∈ o' ->
      congruent distance env s t <-> i = j.
    Proof.
      intros Sep Ho Ho' Hs Ht. pose proof (elem_of_list_lookup_2 _ _ _ Ho) as Ino. pose proof (elem_of_list_lookup_2 _ _ _ Ho') as Ino'.
      pose proof (orbs_in cutoffs _ _ Ino Hs) as As. pose proof (orbs_in cutoffs _ _ Ino' Ht) as At.
      pose proof (adm_inr cutoffs Hcut _ As) as Is. pose proof (adm_inr cutoffs Hcut _ At) as It.
      assert (N : forall u, u ∈ adm cutoffs -> NoDup u) by (intros u Hu; apply elem_of_adm in Hu; [|done]; apply sorted_NoDup, Hu).
      split.
      - intros C. destruct orbs_facts as (reps & Hl & H).
        destruct (H i o Ho) as (_ & _ & _ & _ & _ & H1), (H j o' Ho') as (_ & _ & _ & _ & _ & H2).
        apply H1 in Hs as [_ Hs]. apply H2 in Ht as [_ Ht].
        assert (E : first_match ceq reps s = first_match ceq reps t); [|congruence].
        assert (Hrep : forall r, r ∈ reps -> inr r).
        { intros r Hr. apply elem_of_list_lookup in Hr as [k Hk].
          destruct (lookup_lt_is_Some_2 (orbs cutoffs) k) as [ok Hok]; [rewrite <- Hl; by eapply lookup_lt_Some|].
          destruct (H k ok Hok) as (r' & Hr' & _ & Ha & _). rewrite Hk in Hr'. injection Hr' as <-. by apply (adm_inr cutoffs Hcut). }
        clear - Hrep Is It C WF. induction reps as [|r reps IH]; simpl; [done|].
        rewrite (ceq_congruent_iff r s t); try done; [|apply Hrep; left]. rewrite IH; [done|]. intros r' Hr'. apply Hrep. by right.
      - intros <-. rewrite Ho in Ho'. injection Ho' as <-.
        destruct (orbit_ceq o s Ino Hs) as (r & Hr & Hc). pose proof (orbs_in cutoffs _ _ Ino Hr) as Ar. pose proof (adm_inr cutoffs Hcut _ Ar) as Ir.
        assert (C1 : congruent distance env s r). { apply congruent_sym, congruent_of_ceq; auto. }
        assert (E : ceq s t = true).
        { rewrite <- (ceq_congruent_iff s r t); auto; [apply ceq_of_congruent; auto|]. apply congruent_of_ceq; auto. }
        apply congruent_of_ceq; auto.
    Qed.
  End Orb.

  (* ---------------- values of the features ---------------- *)
  Local Open Scope R_scope.
  Definition fval (w : nat -> nat -> R) (f : list (list nat) * list nat) : R :=
    Rsum (map (fun s => Rprod (zip_with w s (snd f))) (fst f)).

  Lemma map_inv {A B} (f : A -> B) l i y : map f l !! i = Some y -> exists x, l !! i = Some x /\ y = f x.
  Proof using. change (map f l) with (f <$> l). rewrite list_lookup_fmap. destruct (l !! i); [|done]. intros [= <-]. eauto. Qed.
  Lemma corr_plain occ (os : list (list (list nat))) :
    (forall o s i, o ∈ os -> s ∈ o -> i ∈ s -> (i < length occ)%nat) ->
    Rcalc_corr occ (map (map (map Z.of_nat)) os) =
    Ok (map (fun o => Rsum (map (fun s => Rprod (map (fun i => IZR (occ !!! i)) s)) o)) os).
  Proof using.
    intros H. unfold calc_corr. rewrite rmapM_map. apply rmapM_id. intros o Ho. apply orbit_sum_spec.
    exists (map (map (fun i => IZR (occ !!! i))) o). split; [|by rewrite map_map]. split; [by rewrite !map_length|].
    intros c cs xs Hc Hx. apply map_inv in Hc as (s & Es & ->). apply map_inv in Hx as (s' & Es' & ->).
    rewrite Es in Es'. injection Es' as <-. split; [by rewrite !map_length|].
    intros pos site y Hs Hy. apply map_inv in Hs as (i & Ei & ->). apply map_inv in Hy as (i' & Ei' & ->).
    rewrite Ei in Ei'. injection Ei' as <-. exists (occ !!! i). split; [|done].
    apply py_get_nat. apply list_lookup_lookup_total_lt.
    apply (H o s i); [done|by eapply elem_of_list_lookup_2|by eapply elem_of_list_lookup_2].
  Qed.
  Lemma corr_decorated values occ (w : nat -> nat -> R) (feats : list (list (list nat) * list nat)) :
    (forall f s, f ∈ feats -> s ∈ fst f -> length (snd f) = length s) ->
    (forall f s pos i b, f ∈ feats -> s ∈ fst f -> s !! pos = Some i -> snd f !! pos = Some b ->
       site_value values occ (Z.of_nat i) (Z.of_nat b) = Ok (w i b)) ->
    Rcalc_corr_decorated values occ (map (fun f => map (fun _ => map Z.of_nat (snd f)) (fst f)) feats)
      (map (fun f => map (map Z.of_nat) (fst f)) feats) = Ok (map (fval w) feats).
  Proof using.
    intros Hl Hv. unfold calc_corr_decorated. apply rmapM_enumerate. split; [by rewrite !map_length|].
    intros k x y Hx Hy. apply map_inv in Hx as (f & Ef & ->). apply map_inv in Hy as (f' & Ef' & ->).
    rewrite Ef in Ef'. injection Ef' as <-.
    pose proof (elem_of_list_lookup_2 _ _ _ Ef) as Inf. simpl.
    assert (E : py_get (map (fun f => map (fun _ => map Z.of_nat (snd f)) (fst f)) feats) (Z.of_nat k) =
      Ok (map (fun _ => map Z.of_nat (snd f)) (fst f))).
    { apply py_get_nat. rewrite (list_lookup_fmap (fun f => map (fun _ => map Z.of_nat (snd f)) (fst f))), Ef. done. }
    rewrite E. simpl. apply decorated_sum_spec.
    exists (map (fun s => zip_with w s (snd f)) (fst f)). split; [|unfold fval; by rewrite map_map].
    split; [by rewrite !map_length|]. intros c cs xs Hc Hx.
    apply map_inv in Hc as (s & Es & ->). apply map_inv in Hx as (s' & Es' & ->). rewrite Es in Es'. injection Es' as <-.
    pose proof (elem_of_list_lookup_2 _ _ _ Es) as Ins.
    exists (map Z.of_nat (snd f)). split; [by rewrite (list_lookup_fmap (fun _ => map Z.of_nat (snd f))), Es|].
    split; [rewrite zip_with_length, map_length, (Hl f s) by done; lia|].
    intros pos site y Hs Hy. apply map_inv in Hs as (i & Ei & ->). apply lookup_zip_with_Some in Hy as (i' & b & -> & Hi' & Hb).
    rewrite Ei in Hi'. injection Hi' as <-. exists (Z.of_nat b). split; [change (map Z.of_nat ?l) with (Z.of_nat <$> l); by rewrite list_lookup_fmap, Hb|].
    by apply (Hv f s pos).
  Qed.

  Lemma pad_lookup {T} (zero : T) k l i x : l !! i = Some x -> pad zero k l !! i = Some x.
  Proof using. intros H. unfold pad. by apply lookup_app_l_Some. Qed.
  Lemma pad_block_lookup rows columns block i row j x : block !! i = Some row -> row !! j = Some x ->
    exists row', pad_block rows columns block !! i = Some row' /\ row' !! j = Some x.
  Proof using.
    intros Hi Hj. exists (pad 0 columns row). split; [|by apply pad_lookup]. unfold pad_block. apply pad_lookup.
    change (map ?f block) with (f <$> block). by rewrite list_lookup_fmap, Hi.
  Qed.

  Lemma site_basis_shape b k i j : (i < k)%nat -> (j < num_site_basis_functions b k)%nat ->
    exists row x, site_basis_values b k !! i = Some row /\ row !! j = Some x.
  Proof using.
    intros Hi Hj. destruct b as [|ms]; simpl in *.
    - exists [IZR (state_value OccupationBasis (Z.of_nat i))]. destruct j; [|lia]. eexists. split; [|done].
      change (map ?f ?l) with (f <$> l). rewrite list_lookup_fmap, lookup_seq_lt by lia. done.
    - destruct (Nat.ltb_spec k 2).
      + exists [1], 1. destruct j; [|lia]. split; [|done]. change (repeat [1] k !! i = Some [1]). rewrite <- (lookup_replicate_2 k [1] i Hi).
        f_equal. clear. induction k; simpl; congruence.
      + eexists. eexists. split.
        * rewrite (list_lookup_fmap (fun i => map (fun q => chebT q (encoded k i)) (seq 1 (k - 1)))), lookup_seq_lt by lia. done.
        * rewrite (list_lookup_fmap (fun q => chebT q (encoded k (0 + i)))), lookup_seq_lt by lia. done.
  Qed.

  Local Open Scope nat_scope.
  Lemma counts_ok counts : site_state_counts env = Ok counts ->
    length counts = n /\ forall i k, counts !! i = Some k <-> states_is env i k.
  Proof.
    intros H. unfold site_state_counts in H. pose proof (rmapM_length _ _ _ H) as Hl.
    split; [destruct WF as (_ & W & _); congruence|]. intros i k. split.
    - intros Hk. destruct (rmapM_lookup _ _ _ _ _ H Hk) as (a & Ha & E). apply rbind_ok in E as (al & E1 & E2).
      destruct al as [l|]; [|done]. injection E2 as <-. exists a, l. done.
    - intros (a & l & Ha & Hg & ->). destruct (rmapM_lookup_l _ _ _ _ _ H Ha) as (y & Hy & E). rewrite Hg in E. simpl in E. congruence.
  Qed.

  (* ---------------- the built model ---------------- *)
  Local Notation nb := (num_site_basis_functions (e_basis env)).
  Lemma py_min_ok x l : exists m, py_min (x :: l) = Ok m /\ m ∈ x :: l /\ forall y, y ∈ x :: l -> m <= y.
  Proof using.
    simpl. eexists. split; [done|]. revert x. induction l as [|z l IH]; intros x; simpl.
    - split; [left|]. intros y Hy. apply elem_of_list_singleton in Hy as ->. done.
    - destruct (IH (Nat.min x z)) as [H1 H2]. split.
      + apply elem_of_cons in H1 as [->|H1]; [|by do 2 right].
        destruct (Nat.min_dec x z) as [->| ->]; [left|right; left].
      + intros y Hy. rewrite !elem_of_cons in Hy. pose proof (H2 (Nat.min x z) ltac:(left)).
        destruct Hy as [->|[->|Hy]]; [lia|lia|]. apply H2. by right.
  Qed.

  Definition counts_for (counts : list nat) (o : list (list nat)) (bc : list nat) : Prop :=
    (forall s, s ∈ o -> length bc = length s) /\
    forall pos m, bc !! pos = Some m ->
      (forall s i c, s ∈ o -> s !! pos = Some i -> counts !! i = Some c -> m <= nb c) /\
      (exists s i c, s ∈ o /\ s !! pos = Some i /\ counts !! i = Some c /\ m = nb c).

  Lemma positions_ok counts o k : length counts = n -> o <> [] ->
    (forall s, s ∈ o -> length s = k /\ inr s) ->
    exists bc, positions_counts (e_basis env) counts (map cl o) k = Ok bc /\ counts_for counts o bc.
  Proof.
    intros Hc Hne Ho.
    assert (G : forall pos, pos < k -> exists m, (let* l := rmapM (fun c => let* i := at_nat (cl_indices c) pos in
                                       let* k := py_get counts i in Ok (nb k)) (map cl o) in py_min l) = Ok m /\
      (forall s i c, s ∈ o -> s !! pos = Some i -> counts !! i = Some c -> m <= nb c) /\
      (exists s i c, s ∈ o /\ s !! pos = Some i /\ counts !! i = Some c /\ m = nb c)).
    { intros pos Hpos. rewrite rmapM_map.
      assert (V : forall s, s ∈ o -> exists i c, s !! pos = Some i /\ counts !! i = Some c /\
        (let* i := at_nat (cl_indices (cl s)) pos in let* k := py_get counts i in Ok (nb k)) = Ok (nb c)).
      { intros s Hs. destruct (Ho s Hs) as [L I]. destruct (lookup_lt_is_Some_2 s pos) as [i Hi]; [lia|].
        destruct (lookup_lt_is_Some_2 counts i) as [c Hcc]; [rewrite Hc; apply I; by eapply elem_of_list_lookup_2|].
        exists i, c. split_and!; try done. simpl. unfold at_nat. change (map Z.of_nat s) with (Z.of_nat <$> s).
        rewrite list_lookup_fmap, Hi. simpl. rewrite (proj2 (py_get_nat counts i c) Hcc). done. }
      destruct (rmapM_ok_exists (fun s => let* i := at_nat (cl_indices (cl s)) pos in let* k := py_get counts i in Ok (nb k)) o) as [l Hl].
      { intros s Hs. destruct (V s Hs) as (i & c & _ & _ & E). eauto. }
      rewrite Hl. cbn [rbind].
      destruct l as [|x l]. { apply rmapM_length in Hl. simpl in Hl. by destruct o. }
      destruct (py_min_ok x l) as (m & E & M1 & M2). exists m. split; [done|]. split.
      - intros s i c Hs Hi Hcc. apply M2. apply elem_of_list_lookup in Hs as [q Hq].
        destruct (rmapM_lookup_l _ _ _ _ _ Hl Hq) as (y & Hy & Ey). apply elem_of_list_lookup_2 in Hq.
        destruct (V s Hq) as (i' & c' & V1 & V2 & V3). rewrite V3 in Ey. injection Ey as <-.
        assert (i' = i) as -> by congruence. assert (c' = c) as -> by congruence. by eapply elem_of_list_lookup_2.
      - apply elem_of_list_lookup in M1 as [q Hq]. destruct (rmapM_lookup _ _ _ _ _ Hl Hq) as (s & Hs & Es). apply elem_of_list_lookup_2 in Hs.
        destruct (V s Hs) as (i & c & V1 & V2 & V3). exists s, i, c. split_and!; try done. congruence. }
    unfold positions_counts.
    destruct (rmapM_ok_exists (fun position => let* l := rmapM (fun c => let* i := at_nat (cl_indices c) position in
                                       let* k := py_get counts i in Ok (nb k)) (map cl o) in py_min l) (seq 0 k)) as [bc Hbc].
    { intros pos Hpos. apply elem_of_seq in Hpos. destruct (G pos ltac:(lia)) as (m & E & _). eauto. }
    exists bc. split; [done|]. split.
    - intros s Hs. apply rmapM_length in Hbc. rewrite seq_length in Hbc. destruct (Ho s Hs) as [-> _]. done.
    - intros pos m Hm. destruct (rmapM_lookup _ _ _ _ _ Hbc Hm) as (pos' & Hp & E). apply lookup_seq in Hp as [-> Hp].
      simpl in E. destruct (G pos Hp) as (m' & E' & M). rewrite E' in E. injection E as <-. exact M.
  Qed.

  Definition feats_of (os : list (list (list nat))) (bcs : list (list nat)) : list (list (list nat) * list nat) :=
    concat (zip_with (fun o bc => map (pair o) (product (map (seq 0) bc))) os bcs).

  Lemma map_cl_indices o : map cl_indices (map cl o) = map (map Z.of_nat) o.
  Proof. by rewrite map_map. Qed.

  Lemma orbit_features_ok counts o : length counts = n -> o <> [] ->
    (forall s, s ∈ o -> inr s) -> (forall s t, s ∈ o -> t ∈ o -> length s = length t) ->
    exists bc, counts_for counts o bc /\ exists l,
      orbit_features orbit_fingerprint feature_fingerprint (e_basis env) counts (map cl o) = Ok l /\
      map fst l = map (fun d => (map (map Z.of_nat) o, map (fun _ => map Z.of_nat d) o)) (product (map (seq 0) bc)).
  Proof.
    intros Hc Hne Hi Hl. destruct o as [|r o]; [done|]. set (oo := r :: o) in *.
    destruct (positions_ok counts oo (length r) Hc Hne) as (bc' & E & B).
    { intros s Hs. split; [|by apply Hi]. apply Hl; [done|left]. }
    exists bc'. split; [done|]. unfold orbit_features.
    assert (A0 : at_nat (map cl oo) 0 = Ok (cl r)) by done. rewrite A0. cbn [rbind].
    assert (L : length (cl_indices (cl r)) = length r) by (simpl; apply map_length).
    rewrite L, E. cbn [rbind].
    destruct (rmapM_ok_exists (py_get counts) (cl_indices (cl r))) as [states Hst].
    { intros i Hin. simpl in Hin. apply elem_of_list_fmap in Hin as (j & -> & Hj).
      destruct (lookup_lt_is_Some_2 counts j) as [c Hcc]; [rewrite Hc; apply (Hi r); [left|done]|].
      exists c. by apply py_get_nat. }
    rewrite Hst. cbn [rbind].
    eexists. split; [apply rmapM_id; intros d _; reflexivity|]. rewrite map_map. cbn [fst].
    rewrite map_cl_indices. apply map_ext. intros d. f_equal. by rewrite map_map.
  Qed.

  Local Notation build_env := (build round8 distance orbit_fingerprint feature_fingerprint env).
  Definition sites_table (feats : list (list (list nat) * list nat)) := map (fun f => map (map Z.of_nat) (fst f)) feats.
  Definition deco_table (feats : list (list (list nat) * list nat)) := map (fun f => map (fun _ : list nat => map Z.of_nat (snd f)) (fst f)) feats.

  Lemma features_ok counts (os : list (list (list nat))) : length counts = n ->
    (forall o, o ∈ os -> o <> [] /\ (forall s, s ∈ o -> inr s) /\ forall s t, s ∈ o -> t ∈ o -> length s = length t) ->
    exists bcs, Forall2 (counts_for counts) os bcs /\ exists l,
      rmapM (orbit_features orbit_fingerprint feature_fingerprint (e_basis env) counts) (map (map cl) os) = Ok l /\
      map (fun f => fst (fst f)) (concat l) = sites_table (feats_of os bcs) /\
      map (fun f => snd (fst f)) (concat l) = deco_table (feats_of os bcs).
  Proof.
    intros Hc. induction os as [|o os IH]; intros Ho.
    - exists []. split; [constructor|]. exists []. done.
    - destruct IH as (bcs & Hb & l & Hl & E1 & E2); [intros o' Ho'; apply Ho; by right|].
      destruct (Ho o ltac:(left)) as (O1 & O2 & O3).
      destruct (orbit_features_ok counts o Hc O1 O2 O3) as (bc & B1 & lo & B2 & B3).
      exists (bc :: bcs). split; [by constructor|]. exists (lo :: l). cbn [map rmapM]. rewrite B2. cbn [rbind]. rewrite Hl. split; [done|].
      unfold feats_of, sites_table, deco_table in *. cbn [zip_with concat]. rewrite !map_app, E1, E2, !map_map. cbn [fst snd].
      split; f_equal.
      + rewrite <- (map_map fst fst), B3, map_map. done.
      + rewrite <- (map_map fst snd), B3, map_map. done.
  Qed.

  Lemma orbs_good cutoffs : 3 <= length cutoffs -> forall o, o ∈ orbs cutoffs ->
    o <> [] /\ (forall s, s ∈ o -> inr s) /\ forall s t, s ∈ o -> t ∈ o -> length s = length t.
  Proof.
    intros Hcut o Ho. split_and!.
    - destruct (orbit_nonempty cutoffs o Ho) as (s & o' & ->). done.
    - intros s Hs. by apply (adm_inr cutoffs Hcut), (orbs_in cutoffs o).
    - intros s t. by apply (orbit_length cutoffs Hcut).
  Qed.

  Lemma build_structure cutoffs m : build_env cutoffs = Ok m ->
    3 <= length cutoffs /\ exists counts, site_state_counts env = Ok counts /\
    ((uses_state_indices (e_basis env) = false /\ l_decorations m = None /\ l_sites m = map (map (map Z.of_nat)) (orbs cutoffs)) \/
     (uses_state_indices (e_basis env) = true /\ exists bcs values,
        Forall2 (counts_for counts) (orbs cutoffs) bcs /\
        build_site_basis_values (e_basis env) counts = Ok values /\
        l_sites m = sites_table (feats_of (orbs cutoffs) bcs) /\
        l_decorations m = Some (deco_table (feats_of (orbs cutoffs) bcs), values))).
  Proof.
    unfold build. intros H. apply rbind_ok in H as (os & Hos & H). pose proof (build_cut _ _ Hos) as Hcut. split; [done|].
    rewrite build_orbits_ok in Hos by done. injection Hos as <-.
    unfold configure_correlation_terms in H. apply rbind_ok in H as (counts & Hc & H). exists counts. split; [done|].
    destruct (uses_state_indices (e_basis env)) eqn:U; cbn [negb] in H.
    - right. split; [done|]. apply rbind_ok in H as (values & Hv & H). apply rbind_ok in H as (l & Hl & H). injection H as <-.
      destruct (features_ok counts (orbs cutoffs)) as (bcs & B & l' & Hl' & E1 & E2); [by apply counts_ok|by apply orbs_good|].
      rewrite Hl' in Hl. injection Hl as <-. exists bcs, values. cbn [l_sites l_decorations]. rewrite E1, E2. done.
    - left. injection H as <-. cbn [l_sites l_decorations]. split_and!; [done|done|]. rewrite map_map. apply map_ext. intros o. apply map_cl_indices.
  Qed.

  Lemma build_succeeds_lemma cutoffs : 3 <= length cutoffs ->
    (forall i, i < n -> exists k, states_is env i k) ->
    (uses_state_indices (e_basis env) = true -> 0 < n) ->
    exists m, build_env cutoffs = Ok m.
  Proof.
    intros Hcut Hst Hn. unfold build. rewrite build_orbits_ok by done. cbn [rbind]. unfold configure_correlation_terms.
    destruct (rmapM_ok_exists (fun i => let* a := py_get (e_allowed env) i in
                    match a with Some l => Ok (length l) | None => Err TypeError end) (e_site_indices env)) as [counts Hc].
    { intros a Ha. apply elem_of_list_lookup in Ha as [i Hi]. destruct (Hst i) as (k & a' & l & Ha' & Hg & _).
      { destruct WF as (_ & <- & _). by eapply lookup_lt_Some. }
      rewrite Hi in Ha'. injection Ha' as <-. exists (length l). by rewrite Hg. }
    fold (site_state_counts env) in Hc. rewrite Hc. cbn [rbind]. destruct (counts_ok counts Hc) as [Hl _].
    destruct (uses_state_indices (e_basis env)) eqn:U; cbn [negb]; [|eauto].
    destruct counts as [|c counts]; [simpl in Hl; specialize (Hn eq_refl); lia|].
    unfold build_site_basis_values. cbn [py_max map rbind].
    destruct (features_ok (c :: counts) (orbs cutoffs) Hl (orbs_good cutoffs Hcut)) as (bcs & B & l' & Hl' & _).
    rewrite Hl'. cbn [rbind]. eauto.
  Qed.

  (* ---------------- features as orbits with decorations ---------------- *)
  Lemma elem_of_product (ls : list (list nat)) d : d ∈ product ls <->
    length d = length ls /\ forall i l x, ls !! i = Some l -> d !! i = Some x -> x ∈ l.
  Proof using.
    revert d. induction ls as [|l ls IH]; intros d; simpl.
    - rewrite elem_of_list_singleton. split; [intros ->; done|]. intros [H _]. by destruct d.
    - rewrite elem_of_list_bind. split.
      + intros (x & Hd & Hx). apply elem_of_list_fmap in Hd as (d' & -> & Hd'). apply IH in Hd' as [H1 H2].
        split; [simpl; lia|]. intros [|i] l' y; simpl; [congruence|]. apply H2.
      + intros [H1 H2]. destruct d as [|x d]; [done|]. exists x. split; [|by apply (H2 0 l x)].
        apply elem_of_list_fmap. exists d. split; [done|]. apply IH. split; [simpl in H1; lia|]. intros i. apply (H2 (S i)).
  Qed.
  Lemma NoDup_product (ls : list (list nat)) : (forall l, l ∈ ls -> NoDup l) -> NoDup (product ls).
  Proof using.
    induction ls as [|l ls IH]; intros H; simpl; [apply NoDup_singleton|]. apply NoDup_bind_disjoint.
    - apply H. left.
    - intros x Hx. change (map ?f ?l) with (f <$> l). apply NoDup_fmap_2; [intros a b; congruence|]. apply IH. intros l' Hl'. apply H. by right.
    - intros x y z _ _ Hx Hy. apply elem_of_list_fmap in Hx as (a & -> & _). apply elem_of_list_fmap in Hy as (b & E & _). congruence.
  Qed.

  Lemma elem_of_feats os bcs f : f ∈ feats_of os bcs <-> exists i o bc, os !! i = Some o /\ bcs !! i = Some bc /\ fst f = o /\
    length (snd f) = length bc /\ forall pos m b, bc !! pos = Some m -> snd f !! pos = Some b -> b < m.
  Proof using.
    unfold feats_of. rewrite elem_of_list_In, in_concat. split.
    - intros (l & Hl & Hf). apply elem_of_list_In in Hl, Hf. apply elem_of_list_lookup in Hl as [i Hi].
      apply lookup_zip_with_Some in Hi as (o & bc & -> & Ho & Hb). apply elem_of_list_fmap in Hf as (d & -> & Hd).
      apply elem_of_product in Hd as [D1 D2]. exists i, o, bc. cbn [fst snd]. split_and!; [done..| |].
      + by rewrite map_length in D1.
      + intros pos k b Hk Hb'. specialize (D2 pos (seq 0 k) b). change (map (seq 0) bc) with (seq 0 <$> bc) in D2.
        rewrite list_lookup_fmap, Hk in D2. specialize (D2 eq_refl Hb'). apply elem_of_seq in D2. lia.
    - intros (i & o & bc & Ho & Hb & Ef & L & D). exists (map (pair o) (product (map (seq 0) bc))). rewrite <- !elem_of_list_In. split.
      + apply elem_of_list_lookup. exists i. apply lookup_zip_with_Some. eauto.
      + apply elem_of_list_fmap. exists (snd f). split; [destruct f; simpl in *; congruence|]. apply elem_of_product.
        split; [by rewrite map_length|]. intros pos l x Hl Hx. apply map_inv in Hl as (k & Hk & ->). apply elem_of_seq.
        specialize (D pos k x Hk Hx). lia.
  Qed.

  Lemma nb_pos k : 1 <= nb k.
  Proof using. destruct (e_basis env); simpl; [lia|]. destruct (Nat.ltb_spec k 2); lia. Qed.
  Lemma map_of_nat_inj (l l' : list nat) : map Z.of_nat l = map Z.of_nat l' -> l = l'.
  Proof using. apply (inj (fmap (M:=list) Z.of_nat)). Qed.
  Lemma map_map_of_nat_inj (l l' : list (list nat)) : map (map Z.of_nat) l = map (map Z.of_nat) l' -> l = l'.
  Proof using.
    revert l'. induction l as [|x l IH]; intros [|y l'] H; try done. injection H as H1 H2.
    apply map_of_nat_inj in H1 as ->. by rewrite (IH l').
  Qed.

  (* one description for both kinds of model *)
  Record described (cutoffs : list Q) (m : lce R) (feats : list (list (list nat) * list nat)) (counts : list nat) : Prop := {
    d_cut : 3 <= length cutoffs;
    d_counts : site_state_counts env = Ok counts;
    d_sites : l_sites m = sites_table feats;
    d_orbits : forall f, f ∈ feats -> fst f ∈ orbs cutoffs;
    d_lengths : forall f s, f ∈ feats -> s ∈ fst f -> length (snd f) = length s;
    d_all : forall o, o ∈ orbs cutoffs -> exists d, (o, d) ∈ feats;
    d_nodup : NoDup feats;
    d_deco : match l_decorations m with
             | None => uses_state_indices (e_basis env) = false /\
                       forall f g, f ∈ feats -> g ∈ feats -> fst f = fst g -> f = g
             | Some (deco, values) =>
                 uses_state_indices (e_basis env) = true /\ deco = deco_table feats /\
                 build_site_basis_values (e_basis env) counts = Ok values /\
                 forall o d, o ∈ orbs cutoffs -> ((o, d) ∈ feats <->
                   (forall s, s ∈ o -> length d = length s) /\
                   forall pos b s i c, d !! pos = Some b -> s ∈ o -> s !! pos = Some i -> counts !! i = Some c -> b < nb c)
             end
  }.
  Lemma NoDup_orbs cutoffs : NoDup (orbs cutoffs).
  Proof.
    apply NoDup_alt. intros i j o Hi Hj. pose proof (elem_of_list_lookup_2 _ _ _ Hi) as Ho.
    destruct (orbit_nonempty cutoffs o Ho) as (s & o' & ->). eapply (orbit_disjoint cutoffs i j _ _ s Hi Hj); left.
  Qed.
  Lemma NoDup_feats os bcs : NoDup os -> NoDup (feats_of os bcs).
  Proof using.
    unfold feats_of. revert bcs. induction os as [|o os IH]; intros [|bc bcs] H; try constructor. simpl.
    apply NoDup_cons in H as [H1 H2]. apply NoDup_app. split_and!.
    - change (map ?f ?l) with (f <$> l). apply NoDup_fmap_2; [intros a b; congruence|]. apply NoDup_product. intros l Hl.
      apply elem_of_list_fmap in Hl as (k & -> & _). apply NoDup_ListNoDup, seq_NoDup.
    - intros f Hf Hin. apply elem_of_list_fmap in Hf as (d & -> & _).
      assert (G : (o, d) ∈ feats_of os bcs) by exact Hin. apply elem_of_feats in G as (i & o' & bc' & Ho & _ & E & _). simpl in E. subst.
      apply H1. by eapply elem_of_list_lookup_2.
    - by apply IH.
  Qed.

  Lemma build_described cutoffs m : build_env cutoffs = Ok m -> exists feats counts, described cutoffs m feats counts.
  Proof.
    intros H. apply build_structure in H as (Hcut & counts & Hc & [(U & D & S)|(U & bcs & values & B & V & S & D)]).
    - exists (map (fun o => (o, replicate (length (hd [] o)) 0)) (orbs cutoffs)), counts. split; try done.
      + rewrite S. unfold sites_table. rewrite map_map. done.
      + intros f Hf. apply elem_of_list_fmap in Hf as (o & -> & Ho). done.
      + intros f s Hf Hs. apply elem_of_list_fmap in Hf as (o & -> & Ho). cbn [fst snd] in *. rewrite replicate_length.
        destruct (orbit_nonempty cutoffs o Ho) as (r & o' & ->). simpl. apply (orbit_length cutoffs Hcut (r :: o')); [done|left|done].
      + intros o Ho. eexists. apply elem_of_list_fmap. eexists. split; [reflexivity|done].
      + change (map ?f ?l) with (f <$> l). apply NoDup_fmap_2; [intros a b; congruence|]. apply NoDup_orbs.
      + rewrite D. split; [done|]. intros f g Hf Hg E. apply elem_of_list_fmap in Hf as (o & -> & _). apply elem_of_list_fmap in Hg as (o' & -> & _).
        simpl in E. by subst.
    - assert (K : forall i o, orbs cutoffs !! i = Some o -> exists bc, bcs !! i = Some bc /\ counts_for counts o bc).
      { intros i o Ho. destruct (Forall2_lookup_l _ _ _ _ _ B Ho) as (bc & Hb & Hf). eauto. }
      destruct (counts_ok counts Hc) as [Lc _].
      assert (I : forall o d, o ∈ orbs cutoffs -> (o, d) ∈ feats_of (orbs cutoffs) bcs <->
                   (forall s, s ∈ o -> length d = length s) /\
                   forall pos b s i c, d !! pos = Some b -> s ∈ o -> s !! pos = Some i -> counts !! i = Some c -> b < nb c).
      { intros o d Ho. rewrite elem_of_feats. cbn [fst snd]. split.
        - intros (i & o' & bc & Ho' & Hb & E & L & Hd). subst o'. destruct (K i o Ho') as (bc' & Hb' & C1 & C2).
          rewrite Hb in Hb'. injection Hb' as <-. split; [intros s Hs; rewrite L; by apply C1|].
          intros pos b s j c Hpos Hs Hj Hcc. destruct (lookup_lt_is_Some_2 bc pos) as [q Hq]; [rewrite <- L; by eapply lookup_lt_Some|].
          specialize (Hd pos q b Hq Hpos). destruct (C2 pos q Hq) as [C3 _]. specialize (C3 s j c Hs Hj Hcc). lia.
        - intros [H1 H2]. pose proof Ho as Ho'. apply elem_of_list_lookup in Ho' as [i Hi]. destruct (K i o Hi) as (bc & Hb & C1 & C2).
          exists i, o, bc. split_and!; try done.
          + destruct (orbit_nonempty cutoffs o Ho) as (r & o' & ->). rewrite (H1 r), (C1 r); [done|left..].
          + intros pos q b Hq Hb'. destruct (C2 pos q Hq) as [_ (s & j & c & Hs & Hj & Hcc & ->)]. by apply (H2 pos b s j c). }
      exists (feats_of (orbs cutoffs) bcs), counts. split; try done.
      + intros f Hf. apply elem_of_feats in Hf as (i & o & bc & Ho & _ & -> & _). by eapply elem_of_list_lookup_2.
      + intros f s Hf Hs. assert (Ho : fst f ∈ orbs cutoffs).
        { apply elem_of_feats in Hf as (i & o & bc & Ho & _ & -> & _). by eapply elem_of_list_lookup_2. }
        destruct f as [o d]. cbn [fst snd] in *. apply I in Hf as [H _]; [|done]. by apply H.
      + intros o Ho. destruct (orbit_nonempty cutoffs o Ho) as (r & o' & E). exists (replicate (length r) 0). apply I; [done|]. subst. split.
        * intros s Hs. rewrite replicate_length. apply (orbit_length cutoffs Hcut (r :: o')); [done|left|done].
        * intros pos b s i c Hb _ _ _. apply lookup_replicate in Hb as [-> _]. pose proof (nb_pos c). lia.
      + apply NoDup_feats, NoDup_orbs.
      + rewrite D. done.
  Qed.

  Section Described.
    Variable cutoffs : list Q.
    Variable m : lce R.
    Variable feats : list (list (list nat) * list nat).
    Variable counts : list nat.
    Hypothesis De : described cutoffs m feats counts.

    Lemma clusters_iff f c : clusters_of m f c <-> exists d, feats !! f = Some (c, d).
    Proof.
      unfold clusters_of. rewrite (d_sites _ _ _ _ De). unfold sites_table. split.
      - intros (l & Hl & ->). apply map_inv in Hl as ([c' d] & Hf & E). simpl in E. apply map_map_of_nat_inj in E as ->. eauto.
      - intros (d & Hf). eexists. split; [|reflexivity]. change (map ?g feats) with (g <$> feats). by rewrite list_lookup_fmap, Hf.
    Qed.
    Lemma decoration_iff f d : uses_state_indices (e_basis env) = true ->
      decoration_of m f d <-> exists c, feats !! f = Some (c, d).
    Proof.
      intros U. pose proof (d_deco _ _ _ _ De) as D. unfold decoration_of.
      destruct (l_decorations m) as [[deco values]|]; [|destruct D as [D _]; congruence]. destruct D as (_ & -> & _ & _). split.
      - intros (b & v & l & [= <- <-] & Hl & Hx). unfold deco_table in Hl. apply map_inv in Hl as ([c d'] & Hf & ->). cbn [fst snd] in *.
        exists c. pose proof (elem_of_list_lookup_2 _ _ _ Hf) as Hin. apply (d_orbits _ _ _ _ De) in Hin. cbn [fst] in Hin.
        destruct (orbit_nonempty cutoffs c Hin) as (r & c' & ->). specialize (Hx (map Z.of_nat d') ltac:(left)).
        apply map_of_nat_inj in Hx as ->. done.
      - intros (c & Hf). eexists _, _, _. split; [reflexivity|]. split.
        + unfold deco_table. change (map ?g feats) with (g <$> feats). rewrite list_lookup_fmap, Hf. reflexivity.
        + intros x Hx. cbn [fst snd] in Hx. by apply elem_of_list_fmap in Hx as (? & -> & _).
    Qed.

    Definition w (occ : list Z) (i b : nat) : R :=
      if uses_state_indices (e_basis env)
      then nth b (nth (Z.to_nat (occ !!! i)) (site_basis_values (e_basis env) (counts !!! i)) []) 0%R
      else IZR (occ !!! i).

    Lemma feat_in f s i : f ∈ feats -> s ∈ fst f -> i ∈ s -> i < n.
    Proof. intros Hf Hs Hi. apply (d_orbits _ _ _ _ De) in Hf. by apply (orbs_good cutoffs (d_cut _ _ _ _ De) (fst f) Hf) with s. Qed.

    Lemma nth_lookup_Some {A} (l : list A) i x d : l !! i = Some x -> nth i l d = x.
    Proof using. intros H. by rewrite nth_lookup, H. Qed.

    (* the entries read of the tables *)
    Lemma table_entry occ f s pos i b : uses_state_indices (e_basis env) = true -> legal_codes env occ ->
      f ∈ feats -> s ∈ fst f -> s !! pos = Some i -> snd f !! pos = Some b ->
      exists v k row, occ !! i = Some v /\ counts !! i = Some k /\ (0 <= v < Z.of_nat k)%Z /\
        site_basis_values (e_basis env) k !! Z.to_nat v = Some row /\ row !! b = Some (w occ i b).
    Proof.
      intros U [L1 L2] Hf Hs Hi Hb. assert (Hin : i < n) by (apply (feat_in f s i Hf Hs); by eapply elem_of_list_lookup_2).
      destruct (counts_ok counts (d_counts _ _ _ _ De)) as [C1 C2].
      destruct (lookup_lt_is_Some_2 occ i) as [v Hv]; [lia|]. destruct (lookup_lt_is_Some_2 counts i) as [k Hk]; [lia|].
      specialize (L2 U i v k Hv (proj1 (C2 i k) Hk)).
      assert (Hlt : b < nb k).
      { pose proof (d_deco _ _ _ _ De) as D. destruct (l_decorations m) as [[deco values]|]; [|destruct D as [D _]; congruence].
        destruct D as (_ & _ & _ & I). destruct f as [o d]. cbn [fst snd] in *.
        pose proof (d_orbits _ _ _ _ De _ Hf) as Ho. cbn [fst] in Ho. apply I in Hf as [_ H]; [|done]. by apply (H pos b s i k). }
      destruct (site_basis_shape (e_basis env) k (Z.to_nat v) b) as (row & x & R1 & R2); [lia|done|].
      exists v, k, row. split_and!; try done; try lia. rewrite R2. f_equal. unfold w. rewrite U.
      rewrite (list_lookup_total_correct occ i v Hv), (list_lookup_total_correct counts i k Hk).
      rewrite (nth_lookup_Some _ _ _ _ R1). symmetry. by apply nth_lookup_Some.
    Qed.

    Lemma correlation_value occ : legal_codes env occ ->
      calculate_correlation 0%R 1%R Rplus Rmult IZR m occ = Ok (map (fval (w occ)) feats).
    Proof.
      intros Leg. pose proof (d_deco _ _ _ _ De) as D. unfold calculate_correlation. rewrite (d_sites _ _ _ _ De).
      destruct (l_decorations m) as [[deco values]|].
      - destruct D as (U & -> & V & _). unfold deco_table, sites_table. apply corr_decorated; [apply (d_lengths _ _ _ _ De)|].
        intros f s pos i b Hf Hs Hi Hb.
        destruct (table_entry occ f s pos i b U Leg Hf Hs Hi Hb) as (v & k & row & Hv & Hk & Hb1 & R1 & R2).
        unfold build_site_basis_values in V. apply rbind_ok in V as (ms & _ & V). apply rbind_ok in V as (mb & _ & V). injection V as <-.
        destruct (pad_block_lookup ms mb _ _ _ _ _ R1 R2) as (row' & P1 & P2).
        apply site_value_spec. exists v, (pad_block ms mb (site_basis_values (e_basis env) k)), row'. split_and!.
        + by apply py_get_nat.
        + apply py_get_nat. change (map ?g counts) with (g <$> counts). by rewrite list_lookup_fmap, Hk.
        + apply py_get_nonneg; [lia|done].
        + by apply py_get_nat.
      - destruct D as (U & _).
        assert (E : sites_table feats = map (map (map Z.of_nat)) (map fst feats)) by (unfold sites_table; by rewrite map_map).
        rewrite E. rewrite corr_plain.
        + f_equal. rewrite map_map. apply map_ext_in. intros f Hf. apply elem_of_list_In in Hf. unfold fval. f_equal. apply map_ext_in. intros s Hs.
          apply elem_of_list_In in Hs. f_equal. pose proof (d_lengths _ _ _ _ De f s Hf Hs) as Hl. unfold w. rewrite U.
          revert Hl. generalize (snd f). clear. induction s as [|i s IH]; intros [|b d] Hl; simpl in *; try done. by rewrite <- (IH d) by lia.
        + intros o s i Ho Hs Hi. apply elem_of_list_fmap in Ho as (f & -> & Hf). destruct Leg as [-> _]. by apply (feat_in f s).
    Qed.

    Lemma feature_value_lemma occ f x : legal_codes env occ -> map (fval (w occ)) feats !! f = Some x -> feature_value env m occ f x.
    Proof.
      intros Leg Hx. apply map_inv in Hx as ([c d] & Hf & ->). pose proof (elem_of_list_lookup_2 _ _ _ Hf) as Hin.
      exists c, (map (fun s => zip_with (w occ) s d) c). split_and!.
      - apply clusters_iff. eauto.
      - apply map_length.
      - unfold fval. by rewrite map_map.
      - intros q s row Hs Hrow. apply map_inv in Hrow as (s' & Hs' & ->). rewrite Hs in Hs'. injection Hs' as <-.
        apply elem_of_list_lookup_2 in Hs. pose proof (d_lengths _ _ _ _ De (c, d) s Hin Hs) as Hl. cbn [snd] in Hl.
        split; [rewrite zip_with_length; lia|]. intros pos i y Hi Hy. apply lookup_zip_with_Some in Hy as (i' & b & -> & Hi' & Hb).
        rewrite Hi in Hi'. injection Hi' as <-. unfold site_factor.
        destruct (uses_state_indices (e_basis env)) eqn:U.
        + destruct (table_entry occ (c, d) s pos i b U Leg Hin Hs Hi Hb) as (v & k & row & Hv & Hk & Hb1 & R1 & R2).
          exists v. split; [done|]. exists d, b, k, row. split_and!; try done.
          * apply decoration_iff; [done|]. eauto.
          * by apply (counts_ok counts (d_counts _ _ _ _ De)).
        + destruct Leg as [Ll _]. destruct (lookup_lt_is_Some_2 occ i) as [v Hv].
          { rewrite Ll. apply (feat_in (c, d) s i Hin Hs). by eapply elem_of_list_lookup_2. }
          exists v. split; [done|]. unfold w. by rewrite U, (list_lookup_total_correct occ i v Hv).
    Qed.

    Lemma uniform_value (W : nat -> nat -> R) (c : list (list nat)) d b : (forall s, s ∈ c -> length d = length s) ->
      (forall x i, x ∈ d -> W i x = W i b) -> fval W (c, d) = Rsum (map (fun s => Rprod (map (fun i => W i b) s)) c).
    Proof using.
      intros Hl Hd. unfold fval. cbn [fst snd]. f_equal. apply map_ext_in. intros s Hs. apply elem_of_list_In in Hs. f_equal. specialize (Hl s Hs).
      clear Hs. revert d Hl Hd. induction s as [|i s IH]; intros [|x d] Hl Hd; simpl in *; try done.
      rewrite (Hd x) by left. f_equal. apply IH; [lia|]. intros y j Hy. apply Hd. by right.
    Qed.
    Lemma uniform_iff f c d : uniform m f -> feats !! f = Some (c, d) ->
      exists b, uses_state_indices (e_basis env) = true -> forall x, x ∈ d -> x = b.
    Proof.
      intros Hu E. pose proof (d_deco _ _ _ _ De) as D. destruct Hu as [N|(d' & b & H1 & H2)].
      - exists 0. intros U. rewrite N in D. destruct D as [D _]. congruence.
      - exists b. intros U. apply decoration_iff in H1 as (c' & E'); [|done]. rewrite E in E'. injection E' as <- <-. done.
    Qed.

    Lemma Rsum_perm l l' : l ≡ₚ l' -> Rsum l = Rsum l'.
    Proof using. unfold Rsum. induction 1 as [|x l l' H IH|x y l|l1 l2 l3 H1 IH1 H2 IH2]; simpl; [done|by rewrite IH|ring|by rewrite IH1]. Qed.
    Lemma Rprod_perm l l' : l ≡ₚ l' -> Rprod l = Rprod l'.
    Proof using. unfold Rprod. induction 1 as [|x l l' H IH|x y l|l1 l2 l3 H1 IH1 H2 IH2]; simpl; [done|by rewrite IH|ring|by rewrite IH1]. Qed.

    Lemma moved_legal p occ occ' : symmetry distance env p -> moved env p occ occ' -> legal_codes env occ -> legal_codes env occ'.
    Proof.
      intros Hs (M1 & M2 & M3) [L1 L2]. split; [done|]. intros U i v k Hv Hk.
      assert (Hi : i < n) by (rewrite <- M2; by eapply lookup_lt_Some).
      pose proof (p_lookup p Hs i Hi) as Hp. rewrite (M3 i _ Hp) in Hv. apply (L2 U (p !!! i) v k Hv).
      destruct Hs as (_ & _ & H3 & _). by apply (H3 i _ k Hp).
    Qed.
    Lemma moved_w p occ occ' i b : symmetry distance env p -> moved env p occ occ' -> i < n -> w occ' i b = w occ (p !!! i) b.
    Proof.
      intros Hs (M1 & M2 & M3) Hi. pose proof (p_lookup p Hs i Hi) as Hp. pose proof (p_bound p Hs i Hi) as Hb.
      assert (E : occ' !!! i = occ !!! (p !!! i)).
      { specialize (M3 i _ Hp). destruct (lookup_lt_is_Some_2 occ (p !!! i)) as [v Hv]; [lia|]. rewrite Hv in M3.
        by rewrite (list_lookup_total_correct _ _ _ M3), (list_lookup_total_correct _ _ _ Hv). }
      unfold w. rewrite E. destruct (uses_state_indices (e_basis env)); [|done].
      destruct (counts_ok counts (d_counts _ _ _ _ De)) as [C1 C2].
      assert (E2 : counts !!! i = counts !!! (p !!! i)); [|by rewrite E2].
      destruct (lookup_lt_is_Some_2 counts i) as [k Hk]; [lia|]. destruct Hs as (_ & _ & H3 & _).
      assert (Hk' : counts !! (p !!! i) = Some k) by (apply C2, (H3 i _ k Hp), C2; done).
      by rewrite (list_lookup_total_correct _ _ _ Hk), (list_lookup_total_correct _ _ _ Hk').
    Qed.
    Lemma uniform_invariant p occ occ' f : symmetry distance env p -> moved env p occ occ' -> uniform m f ->
      map (fval (w occ')) feats !! f = map (fval (w occ)) feats !! f.
    Proof.
      intros Hs Hm Hu. change (map ?g feats) with (g <$> feats). rewrite !list_lookup_fmap.
      destruct (feats !! f) as [[c d]|] eqn:E; [|done]. simpl. f_equal.
      pose proof (elem_of_list_lookup_2 _ _ _ E) as Hin.
      destruct (uniform_iff f c d Hu E) as [b Hb].
      assert (Hl : forall s, s ∈ c -> length d = length s) by (intros s; apply (d_lengths _ _ _ _ De (c, d) s Hin)).
      assert (Hw : forall o x i, x ∈ d -> w o i x = w o i b).
      { intros o x i Hx. unfold w. destruct (uses_state_indices (e_basis env)); [|done]. by rewrite (Hb eq_refl x Hx). }
      rewrite (uniform_value (w occ') c d b Hl (Hw occ')), (uniform_value (w occ) c d b Hl (Hw occ)).
      pose proof (d_orbits _ _ _ _ De _ Hin) as Ho. cbn [fst] in Ho.
      rewrite <- (Rsum_perm _ _ (Permutation_map (fun s => Rprod (map (fun i => w occ i b) s))
        (orbit_invariant p Hs cutoffs c (d_cut _ _ _ _ De) Ho))).
      rewrite map_map. f_equal. apply map_ext_in. intros s Hss. apply elem_of_list_In in Hss.
      rewrite (Rprod_perm _ _ (Permutation_map (fun i => w occ i b) (F_perm p s))). unfold img. rewrite map_map. f_equal.
      apply map_ext_in. intros i Hi. apply elem_of_list_In in Hi. apply moved_w; [done..|]. by apply (feat_in (c, d) s).
    Qed.
    Lemma binary_uniform f : binary env -> f < length feats -> uniform m f.
    Proof.
      intros Hb Hf. destruct (lookup_lt_is_Some_2 feats f Hf) as [[c d] E]. pose proof (elem_of_list_lookup_2 _ _ _ E) as Hin.
      pose proof (d_deco _ _ _ _ De) as D. destruct (l_decorations m) as [[deco values]|] eqn:Ed; [|by left].
      destruct D as (U & _ & _ & I). right. exists d, 0. split; [apply decoration_iff; eauto|]. intros x Hx.
      destruct Hb as [Hb|Hb]; [congruence|]. pose proof (d_orbits _ _ _ _ De _ Hin) as Ho. cbn [fst] in Ho.
      apply I in Hin as [H1 H2]; [|done]. apply elem_of_list_lookup in Hx as [pos Hx].
      destruct (orbit_nonempty cutoffs c Ho) as (s & c' & ->). specialize (H1 s ltac:(left)).
      destruct (lookup_lt_is_Some_2 s pos) as [i Hi]; [rewrite <- H1; by eapply lookup_lt_Some|].
      assert (Hin : i < n).
      { apply (orbs_good cutoffs (d_cut _ _ _ _ De) _ Ho) with s; [left|]. by eapply elem_of_list_lookup_2. }
      destruct (counts_ok counts (d_counts _ _ _ _ De)) as [C1 C2]. destruct (lookup_lt_is_Some_2 counts i) as [k Hk]; [lia|].
      specialize (H2 pos x s i k Hx ltac:(left) Hi Hk). specialize (Hb i k (proj1 (C2 i k) Hk)).
      destruct (e_basis env); simpl in H2; [lia|]. destruct (Nat.ltb_spec k 2); lia.
    Qed.
  End Described.
End Proofs.

(* ------------------------------------------------------------------ *)
(** ** Statements *)

Section Statements.
  Variable round8 : Q -> Q.
  Context {P : Type}.
  Variable distance : P -> P -> Q.
  Variable orbit_fingerprint : list cluster -> string.
  Variable feature_fingerprint : string -> list nat -> list nat -> string.
  Variable env : local_env P.
  Hypothesis WF : well_formed distance env.
  Variable cutoffs : list Q.
  Variable m : lce R.
  Hypothesis Hb : build round8 distance orbit_fingerprint feature_fingerprint env cutoffs = Ok m.

  Lemma clusters_lemma :
    (forall f c, clusters_of m f c -> c <> [] /\ NoDup c /\ forall s, s ∈ c -> admissible distance env cutoffs s) /\
    (forall s, admissible distance env cutoffs s -> exists f c, clusters_of m f c /\ s ∈ c) /\
    (forall f g c c' s, clusters_of m f c -> clusters_of m g c' -> s ∈ c -> s ∈ c' ->
       c = c' /\ (f = g \/ exists d d', decoration_of m f d /\ decoration_of m g d' /\ d <> d')).
  Proof.
    destruct (build_described _ _ _ _ _ WF _ _ Hb) as (feats & counts & De). pose proof (d_cut _ _ _ _ _ _ _ De) as Hcut.
    split_and!.
    - intros f c Hc. apply (clusters_iff _ _ _ _ _ _ _ De) in Hc as (d & Hf). apply elem_of_list_lookup_2 in Hf.
      apply (d_orbits _ _ _ _ _ _ _ De) in Hf. cbn [fst] in Hf. split_and!.
      + destruct (orbit_nonempty _ _ _ _ c Hf) as (s & c' & ->). done.
      + by eapply orbit_NoDup.
      + intros s Hs. eapply elem_of_adm; [done..|]. by eapply orbs_in.
    - intros s Hs. apply (elem_of_adm distance env WF cutoffs Hcut) in Hs. destruct (adm_in_orbit round8 distance env cutoffs s Hs) as (o & Ho & Hso).
      destruct (d_all _ _ _ _ _ _ _ De o Ho) as (d & Hd). apply elem_of_list_lookup in Hd as [f Hf]. exists f, o. split; [|done].
      apply (clusters_iff _ _ _ _ _ _ _ De). eauto.
    - intros f g c c' s Hf Hg Hs Hs'. apply (clusters_iff _ _ _ _ _ _ _ De) in Hf as (d & Hf), Hg as (d' & Hg).
      pose proof (elem_of_list_lookup_2 _ _ _ Hf) as If. pose proof (elem_of_list_lookup_2 _ _ _ Hg) as Ig.
      pose proof (d_orbits _ _ _ _ _ _ _ De _ If) as Of. pose proof (d_orbits _ _ _ _ _ _ _ De _ Ig) as Og. cbn [fst] in Of, Og.
      assert (E : c = c').
      { apply elem_of_list_lookup in Of as [i Hi], Og as [j Hj].
        pose proof (orbit_disjoint _ _ _ cutoffs i j c c' s Hi Hj Hs Hs') as ->. congruence. }
      subst c'. split; [done|]. destruct (decide (f = g)) as [->|Hne]; [by left|]. right.
      assert (Hd : d <> d'). { intros ->. apply Hne. eapply (NoDup_lookup feats); [apply (d_nodup _ _ _ _ _ _ _ De)|done|done]. }
      pose proof (d_deco _ _ _ _ _ _ _ De) as D. destruct (l_decorations m) as [[deco values]|] eqn:Ed.
      + destruct D as (U & _). exists d, d'. split_and!; [| |done]; apply (decoration_iff _ _ _ _ _ _ _ De); eauto.
      + destruct D as (_ & D). specialize (D _ _ If Ig eq_refl). congruence.
  Qed.

  Lemma decorations_lemma f c : uses_state_indices (e_basis env) = true -> clusters_of m f c -> forall d,
    (exists g, clusters_of m g c /\ decoration_of m g d) <->
    (forall s, s ∈ c -> length d = length s) /\
    forall pos b s i k, d !! pos = Some b -> s ∈ c -> s !! pos = Some i -> states_is env i k -> b < Nat.max 1 (k - 1).
  Proof.
    intros U Hc d. destruct (build_described _ _ _ _ _ WF _ _ Hb) as (feats & counts & De).
    apply (clusters_iff _ _ _ _ _ _ _ De) in Hc as (d0 & Hf). apply elem_of_list_lookup_2 in Hf.
    pose proof (d_orbits _ _ _ _ _ _ _ De _ Hf) as Ho. cbn [fst] in Ho.
    pose proof (d_deco _ _ _ _ _ _ _ De) as D. destruct (l_decorations m) as [[deco values]|] eqn:Ed; [|destruct D as [D _]; congruence].
    destruct D as (_ & _ & _ & I). specialize (I c d Ho).
    assert (E : (exists g, clusters_of m g c /\ decoration_of m g d) <-> (c, d) ∈ feats).
    { split.
      - intros (g & H1 & H2). apply (clusters_iff _ _ _ _ _ _ _ De) in H1 as (d1 & H1). apply (decoration_iff _ _ _ _ _ _ _ De) in H2 as (c2 & H2); [|done].
        rewrite H1 in H2. injection H2 as <- <-. by eapply elem_of_list_lookup_2.
      - intros Hin. apply elem_of_list_lookup in Hin as [g Hg]. exists g. split; [apply (clusters_iff _ _ _ _ _ _ _ De)|apply (decoration_iff _ _ _ _ _ _ _ De)]; eauto. }
    rewrite E, I. destruct (counts_ok distance env WF counts (d_counts _ _ _ _ _ _ _ De)) as [C1 C2].
    assert (N : forall k, num_site_basis_functions (e_basis env) k = Nat.max 1 (k - 1)).
    { intros k. destruct (e_basis env); [done|]. simpl. destruct (Nat.ltb_spec k 2); lia. }
    split; intros [H1 H2]; (split; [done|]); intros pos b s i k Hd Hs Hi Hk; specialize (H2 pos b s i k Hd Hs Hi); rewrite ?N in *; apply H2; by apply C2.
  Qed.

  Lemma classes_lemma f g c c' s t : separated distance env -> clusters_of m f c -> clusters_of m g c' -> s ∈ c -> t ∈ c' ->
    congruent distance env s t <-> c = c'.
  Proof.
    intros Sep Hf Hg Hs Ht. destruct (build_described _ _ _ _ _ WF _ _ Hb) as (feats & counts & De).
    apply (clusters_iff _ _ _ _ _ _ _ De) in Hf as (d & Hf), Hg as (d' & Hg).
    apply elem_of_list_lookup_2, (d_orbits _ _ _ _ _ _ _ De) in Hf, Hg. cbn [fst] in Hf, Hg.
    apply elem_of_list_lookup in Hf as [i Hi], Hg as [j Hj].
    rewrite (orbit_classes round8 distance env WF cutoffs (d_cut _ _ _ _ _ _ _ De) i j c c' s t Sep Hi Hj Hs Ht). split.
    - intros <-. congruence.
    - intros <-. by eapply (orbit_disjoint round8 distance env cutoffs i j c c s).
  Qed.

  Lemma values_lemma occ : legal_codes env occ -> exists corr,
    calculate_correlation 0%R 1%R Rplus Rmult IZR m occ = Ok corr /\ length corr = length (l_sites m) /\
    forall f x, corr !! f = Some x -> feature_value env m occ f x.
  Proof.
    intros Leg. destruct (build_described _ _ _ _ _ WF _ _ Hb) as (feats & counts & De).
    exists (map (fval (w env counts occ)) feats). split_and!.
    - by apply (correlation_value _ _ _ WF _ _ _ _ De).
    - rewrite (d_sites _ _ _ _ _ _ _ De). unfold sites_table. by rewrite !map_length.
    - intros f x. by apply (feature_value_lemma _ _ _ WF _ _ _ _ De).
  Qed.

  Lemma symmetry_lemma p occ occ' corr corr' : symmetry distance env p -> moved env p occ occ' -> legal_codes env occ ->
    calculate_correlation 0%R 1%R Rplus Rmult IZR m occ = Ok corr ->
    calculate_correlation 0%R 1%R Rplus Rmult IZR m occ' = Ok corr' ->
    length corr' = length corr /\ forall f, uniform m f -> corr' !! f = corr !! f.
  Proof.
    intros Hs Hm Leg H1 H2. destruct (build_described _ _ _ _ _ WF _ _ Hb) as (feats & counts & De).
    rewrite (correlation_value _ _ _ WF _ _ _ _ De) in H1 by done.
    rewrite (correlation_value _ _ _ WF _ _ _ _ De) in H2 by (by eapply moved_legal).
    injection H1 as <-. injection H2 as <-. split; [by rewrite !map_length|]. intros f Hu.
    by apply (uniform_invariant _ _ _ WF _ _ _ _ De p).
  Qed.

  Lemma binary_lemma p occ occ' : symmetry distance env p -> moved env p occ occ' -> legal_codes env occ -> binary env ->
    calculate_correlation 0%R 1%R Rplus Rmult IZR m occ' = calculate_correlation 0%R 1%R Rplus Rmult IZR m occ.
  Proof.
    intros Hs Hm Leg Hbin. destruct (build_described _ _ _ _ _ WF _ _ Hb) as (feats & counts & De).
    rewrite (correlation_value _ _ _ WF _ _ _ _ De occ) by done.
    rewrite (correlation_value _ _ _ WF _ _ _ _ De occ') by (by eapply moved_legal). f_equal.
    apply list_eq. intros f. destruct (decide (f < length feats)) as [Hf|Hf].
    - apply (uniform_invariant _ _ _ WF _ _ _ _ De p); try done. by apply (binary_uniform _ _ _ WF _ _ _ _ De).
    - rewrite !lookup_ge_None_2; [done|rewrite map_length; lia..].
  Qed.

  Lemma sees_rmapM occ indices codes : sees occ indices codes <-> rmapM (py_get occ) indices = Ok codes.
  Proof using. symmetry. apply rmapM_ok. Qed.
  Lemma set_parameters_fields (ps : parameters R) m' : set_parameters m ps = (m', Ok tt) ->
    l_sites m' = l_sites m /\ l_decorations m' = l_decorations m.
  Proof using.
    unfold set_parameters. destruct (read_parameters ps) as [[[[k e] fp] h]|]; [|congruence].
    destruct (validate_parameter_orbits m k fp h); [|congruence]. intros [= <-]. done.
  Qed.
  Lemma corr_fields m1 m2 (occ : list Z) : l_sites m1 = l_sites m2 -> l_decorations m1 = l_decorations m2 ->
    calculate_correlation 0%R 1%R Rplus Rmult IZR m1 occ = calculate_correlation 0%R 1%R Rplus Rmult IZR m2 occ.
  Proof using. intros H1 H2. unfold calculate_correlation. by rewrite H1, H2. Qed.

  Lemma compute_symmetry_lemma ps m' p occ occ' e e' codes codes' : set_parameters m ps = (m', Ok tt) ->
    binary env -> symmetry distance env p -> sees occ (local_env_indices e) codes -> sees occ' (local_env_indices e') codes' ->
    moved env p codes codes' -> legal_codes env codes ->
    lce_compute 0%R 1%R Rplus Rmult IZR m' occ' e' = lce_compute 0%R 1%R Rplus Rmult IZR m' occ e.
  Proof.
    intros Hset Hbin Hs S1 S2 Hm Leg. apply sees_rmapM in S1, S2. destruct (set_parameters_fields ps m' Hset) as [F1 F2].
    unfold lce_compute. destruct (l_keci m'), (l_empty m'); try done. rewrite S1, S2. cbn [rbind].
    rewrite !(corr_fields m' m) by done. by rewrite (binary_lemma p codes codes').
  Qed.

  (* the features of a structure *)
  Lemma sites_in_range i : i ∈ concat (concat (l_sites m)) -> (0 <= i < Z.of_nat (length (e_species env)))%Z.
  Proof.
    intros H. destruct (build_described _ _ _ _ _ WF _ _ Hb) as (feats & counts & De).
    apply elem_of_list_In, in_concat in H as (c & Hc & Hi). apply in_concat in Hc as (l & Hl & Hc).
    rewrite (d_sites _ _ _ _ _ _ _ De) in Hl. unfold sites_table in Hl. apply in_map_iff in Hl as (f & <- & Hf).
    apply in_map_iff in Hc as (s & <- & Hs). apply in_map_iff in Hi as (j & <- & Hj). apply elem_of_list_In in Hf. apply elem_of_list_In in Hs. apply elem_of_list_In in Hj.
    pose proof (feat_in _ _ _ WF _ _ _ _ De f s j Hf Hs Hj). lia.
  Qed.
  Lemma built_hash : l_env_hash m = Some (e_hash env).
  Proof using Hb.
    unfold build in Hb. apply rbind_ok in Hb as (os & _ & H). unfold configure_correlation_terms in H. apply rbind_ok in H as (counts & _ & H).
    destruct (negb _); [by injection H as <-|]. apply rbind_ok in H as (values & _ & H). apply rbind_ok in H as (fs & _ & H). by injection H as <-.
  Qed.
  Lemma validate_own : validate_reference m env = Ok tt.
  Proof.
    unfold validate_reference. rewrite built_hash. rewrite bool_decide_eq_true_2 by done. cbn [negb]. rewrite andb_false_r.
    rewrite (proj2 (forallb_forall _ _)); [done|]. intros i Hi. apply elem_of_list_In, sites_in_range in Hi.
    destruct WF as (_ & -> & _). apply andb_true_iff. rewrite Z.leb_le, Z.ltb_lt. lia.
  Qed.

  Lemma structure_features_lemma occ codes : sees occ (e_site_indices env) codes ->
    corr_from_occupation m env occ = calculate_correlation 0%R 1%R Rplus Rmult IZR m codes.
  Proof. intros S. apply sees_rmapM in S. unfold corr_from_occupation. rewrite validate_own. cbn [rbind]. rewrite S. done. Qed.

  Lemma fitted_features_lemma ps keci empty fps hash m' occ e corr : provides ps keci empty fps hash ->
    set_parameters m ps = (m', Ok tt) -> local_env_indices e = e_site_indices env ->
    corr_from_occupation m env occ = Ok corr -> length keci = length corr ->
    lce_compute 0%R 1%R Rplus Rmult IZR m' occ e = Ok (Rsum (zip_with Rmult keci corr) + empty)%R.
  Proof.
    intros Hp Hset He Hc Hl. unfold corr_from_occupation in Hc. rewrite validate_own in Hc. cbn [rbind] in Hc.
    apply rbind_ok in Hc as (local & Hloc & Hc). destruct (set_parameters_fields ps m' Hset) as [F1 F2].
    assert (V : l_keci m' = Some keci /\ l_empty m' = Some empty /\
      validate_parameter_orbits m' keci (l_param_fingerprints m') (l_param_hash m') = Ok keci).
    { assert (Hr : read_parameters ps = Ok (keci, empty, fps, hash)) by (destruct Hp as [->| ->]; done).
      unfold set_parameters in Hset. rewrite Hr in Hset. destruct (validate_parameter_orbits m keci fps hash) as [k|] eqn:Ev; [|congruence].
      pose proof Ev as Ev2. apply validate_spec in Ev2 as [-> (V1 & V2 & V3)]. injection Hset as <-. split_and!; try done.
      apply validate_spec. split; [done|]. unfold fitting. simpl. split_and!; try done.
      - intros l Hl2. destruct fps; injection Hl2 as <-; [by apply V2|done].
      - intros h h' Hh Hh' Hne. destruct hash; [by eapply V3|]. congruence. }
    destruct V as (K1 & K2 & K3). unfold lce_compute. rewrite K1, K2, K3. cbn [rbind]. rewrite He, Hloc. cbn [rbind].
    rewrite (corr_fields m' m), Hc by done. cbn [rbind]. unfold inner. rewrite <- Hl, Nat.eqb_refl. cbn [rbind]. f_equal. f_equal.
    assert (G : forall (a b : list R) z, fold_left (fun acc ab => (acc + fst ab * snd ab)%R) (zip a b) z = (z + Rsum (zip_with Rmult b a))%R).
    { clear. unfold Rsum. induction a as [|x a IH]; intros [|y b] z; simpl; try ring. rewrite IH. simpl. ring. }
    rewrite G. ring.
  Qed.
End Statements.

Section Refusals.
  Variable round8 : Q -> Q.
  Context {P : Type}.
  Variable distance : P -> P -> Q.
  Variable orbit_fingerprint : list cluster -> string.
  Variable feature_fingerprint : string -> list nat -> list nat -> string.
  Lemma refusal_lemma (env reference : local_env P) cutoffs m occ : well_formed distance env ->
    build round8 distance orbit_fingerprint feature_fingerprint env cutoffs = Ok m ->
    (e_hash env <> "" /\ e_hash reference <> e_hash env) \/
      length (e_site_indices reference) < length (e_species env) ->
    corr_from_occupation m reference occ = Err ValueError.
  Proof.
    intros WF Hb H. assert (E : validate_reference m reference = Err ValueError); [|unfold corr_from_occupation; by rewrite E].
    unfold validate_reference. rewrite (built_hash _ _ _ _ env cutoffs m Hb). cbn [truthy].
    destruct (negb (String.eqb (e_hash env) "") && negb (bool_decide (Some (e_hash reference) = Some (e_hash env)))) eqn:E1; [done|].
    destruct H as [[H1 H2]|H].
    - exfalso. destruct (String.eqb_spec (e_hash env) ""); [done|]. cbn [negb andb] in E1. apply negb_false_iff, bool_decide_eq_true in E1. congruence.
    - rewrite (not_true_is_false (forallb _ _)); [done|]. intros F. rewrite forallb_forall in F.
      set (i := length (e_species env) - 1).
      assert (Ha : admissible distance env cutoffs [i]).
      { split; [simpl; lia|]. split; [repeat constructor|]. split.
        - intros j Hj. apply elem_of_list_singleton in Hj as ->. unfold i. lia.
        - intros j k d c Hj Hk. apply elem_of_list_singleton in Hj as ->. apply elem_of_list_singleton in Hk as ->. lia. }
      destruct (clusters_lemma _ _ _ _ _ WF _ _ Hb) as (_ & A & _). destruct (A _ Ha) as (f & c & (l & Hl & ->) & Hc).
      assert (Hin : Z.of_nat i ∈ concat (concat (l_sites m))).
      { apply elem_of_list_In, in_concat. exists [Z.of_nat i]. split; [|by left]. apply in_concat. exists (map (map Z.of_nat) c).
        split; [apply elem_of_list_In; by eapply elem_of_list_lookup_2|]. apply in_map_iff. exists [i]. split; [done|]. by apply elem_of_list_In. }
      apply elem_of_list_In in Hin. specialize (F _ Hin). apply andb_true_iff in F as [_ F]. apply Z.ltb_lt in F. unfold i in F. lia.
  Qed.

  Lemma clusters_functional (m : lce R) f c c' : clusters_of m f c -> clusters_of m f c' -> c = c'.
  Proof. intros (l & H1 & ->) (l' & H2 & E). rewrite H1 in H2. injection H2 as <-. by apply map_map_of_nat_inj. Qed.
End Refusals.
