(** Lemmas about local environments and hop endpoints. *)
From Coq Require Import QArith Sorted Lqa.
From Verif Require Import Py PyLemmas Json ActiveSiteModel ActiveSiteSpec ActiveSiteProofs
  BasisModel BasisSpec BasisProofs LatticeModel LatticeSpec LatticeProofs MatcherModel MatcherProofs
  SiteEnergyProofs EnumModel EnumSpec.
Local Open Scope nat_scope.

(* ---------------- the active lattice of the unit cell ---------------- *)
Record context (la act : lattice) (o : order) : Prop := Context {
  cx_wf : wf la;
  cx_awf : wf act;
  cx_inv : forall k a, dget (original_to_active o) k = Some a <-> o_a2o o !! a = Some k;
  cx_shape : shape3 (o_shape o) = (1, 1, 1);
  cx_basis : la_basis act = la_basis la;
  cx_len : length (la_template act) = active_site_count o;
  cx_alen : length (la_allowed act) = active_site_count o;
  cx_count : o_orig_count o = Z.of_nat (length (la_template la));
  cx_site : forall a z, o_a2o o !! a = Some z -> exists k l, z = Z.of_nat k /\ k < length (la_template la) /\
    la_template act !! a = cell_site (la_template la) (1, 1, 1) k /\
    la_allowed act !! a = Some (Some l) /\ la_allowed la !! k = Some (Some l) /\ 1 < length l;
  cx_fixed : forall k, k < length (la_template la) -> Z.of_nat k ∉ o_a2o o ->
    exists l, la_allowed la !! k = Some (Some l) /\ length l <= 1;
  cx_select : forall A (values : list A), length values = length (la_template la) ->
    exists out, select_active_values o values = Ok out /\ length out = active_site_count o /\
       forall a k, o_a2o o !! a = Some k -> out !! a = values !! Z.to_nat k;
  cx_select_len : forall A (values out : list A), select_active_values o values = Ok out ->
    length out = active_site_count o;
}.

Lemma shape3_None parse fp la o : get_active_site_order parse fp la None = Ok o -> o_shape o = [1; 1; 1]%Z.
Proof.
  unfold get_active_site_order, from_structure_and_mapping. intros H.
  apply rbind_ok in H as (sh & [= <-] & H). apply rbind_ok in H as (allowed & _ & H).
  destruct (primitive_active allowed); [done|]. cbn zeta in H.
  destruct (fold_left _ _ _) as [[? ?] ?]. injection H as <-. done.
Qed.

Lemma make_111 n k s : make_kmc_supercell n (1, 1, 1) !! k = Some s -> ss_prim s = k /\ k < n.
Proof.
  destruct s as [p [[a b] c]]. intros H. apply supercell_lookup_lemma in H as (H1 & H2 & H3 & H4 & ->). simpl. lia.
Qed.
Lemma make_111_lookup n k : k < n -> make_kmc_supercell n (1, 1, 1) !! k = Some (SSite k (0, 0, 0)).
Proof. intros H. apply supercell_lookup_lemma. lia. Qed.

Lemma context_of parse fp template mapping bt la act o :
  made parse template mapping bt la -> active_context parse fp la = Ok (act, o) ->
  context la act o /\ la_template la = template.
Proof.
  intros M H. destruct (made_wf _ _ _ _ _ M) as [Hw Ht]. split; [|done].
  destruct M as [Hpar _].
  unfold active_context in H. apply rbind_ok in H as (o' & Ho & H). apply rbind_ok in H as (act' & Hact & [= <- <-]).
  pose proof (shape3_None _ _ _ _ Ho) as Hsh.
  destruct (active_lattice_lemma parse fp la None o' Hw Ho) as (la' & E & Hb & Hl & Hs).
  rewrite Hact in E. injection E as <-.
  assert (Hw' : wf act').
  { unfold get_active_lattice_structure in Hact. apply rbind_ok in Hact as (? & _ & Hact). apply rbind_ok in Hact as (t & _ & Hact).
    by destruct (new_wf parse Hpar _ _ _ _ Hact). }
  assert (Hal : length (la_allowed act') = length (la_template act')).
  { rewrite (wf_allowed _ Hw'). apply map_length. }
  destruct (order_allowed_eq parse fp la None o' Hw Ho) as (a1 & b1 & c1 & allowed & Hpos & Hsh' & Hall & Hlen & Htm & Hin & Hin').
  rewrite Hsh in Hin, Hin'. change (shape3 [1; 1; 1]%Z) with (1, 1, 1) in Hin, Hin'.
  assert (Hcount : o_orig_count o' = Z.of_nat (length (la_template la))).
  { pose proof Ho as Hb'. apply built_inv in Hb' as (a & b & c & al & _ & Hs1 & _ & _ & _ & Hb'). cbn zeta in Hb'.
    destruct Hb' as (_ & Hoc & _). rewrite Hsh in Hs1. injection Hs1 as <- <- <-. rewrite Hoc, map_length.
    rewrite supercell_length. simpl. lia. }
  constructor; try done.
  - intros k a. by eapply order_inverse_lemma.
  - by rewrite Hsh.
  - by rewrite Hal.
  - intros a z Ha. destruct (Hs a z Ha) as (Hst & l & Hla & Hat).
    rewrite Hsh in Hst, Hat. change (shape3 [1; 1; 1]%Z) with (1, 1, 1) in Hst, Hat.
    destruct (Hin z) as (k & s & l' & -> & Hk & Hl' & Hl1); [by eapply elem_of_list_lookup_2|].
    rewrite Nat2Z.id in *. apply make_111 in Hk as [Hk Hlt]. exists k, l. do 4 (split; [done|]).
    assert (la_allowed la !! k = Some (Some l')) as E.
    { rewrite Hall. change (map ?f ?l) with (f <$> l). by rewrite list_lookup_fmap, <- Hk, Hl'. }
    unfold allowed_at in Hat. change (images (1, 1, 1)) with 1 in Hat. rewrite Nat.div_1_r, E in Hat.
    injection Hat as ->. done.
  - intros k Hk Hnot. destruct (lookup_lt_is_Some_2 allowed k) as [l El]; [lia|]. exists l.
    split; [rewrite Hall; change (map ?f ?l) with (f <$> l); by rewrite list_lookup_fmap, El|].
    destruct (decide (1 < length l)); [|lia]. destruct Hnot.
    apply (Hin' k (SSite k (0, 0, 0)) l); [by apply make_111_lookup|done|done].
  - intros A values Hv. eapply select_active_values_lemma in Ho as (_ & H2 & _). apply H2. lia.
  - intros A values out Hv. pose proof (select_active_values_lemma _ _ _ _ _ _ values Ho) as (H1 & H2 & H3).
    destruct (decide (length values = active_site_count o')) as [E|E].
    { rewrite H1 in Hv by done. congruence. }
    destruct (decide (Z.of_nat (length values) = o_orig_count o')) as [E'|E'].
    { destruct (H2 E') as (out' & Ho' & Hl' & _). congruence. }
    rewrite H3 in Hv by done. done.
Qed.

(* ---------------- codes ---------------- *)
Lemma wf_legal la : wf la -> forall l k, Some l ∈ la_allowed la -> k < length l ->
  valid_value (la_basis la) (code (la_basis la) k) = true.
Proof.
  intros Hw l k Hl Hk. pose proof (wf_basis _ Hw) as Hb.
  destruct (la_basis la) as [|n] eqn:Eb; simpl.
  - by destruct k.
  - destruct (String.eqb_spec (la_basis_type la) "chebyshev") as [E|E].
    + rewrite E in Hb. unfold get_basis in Hb. simpl in Hb. unfold cheb_new in Hb.
      destruct (Z.ltb_spec (Z.max 2 (Z.of_nat (fold_right Nat.max 0 (map allowed_length (List.filter is_nonempty (la_allowed la)))))) 2); [done|].
      injection Hb as <-. pose proof (fold_max_ge (map allowed_length (List.filter is_nonempty (la_allowed la))) (length l)) as G.
      assert (length l ∈ map allowed_length (List.filter is_nonempty (la_allowed la))) as Hin.
      { apply elem_of_list_fmap. exists (Some l). split; [done|]. apply elem_of_list_In, filter_In.
        split; [by apply elem_of_list_In|]. destruct l; [simpl in Hk; lia|done]. }
      specialize (G Hin). apply andb_true_iff. split; [apply Z.leb_le|apply Z.ltb_lt]; lia.
    + unfold get_basis in Hb. destruct (String.eqb (la_basis_type la) "occupation"); [done|].
      destruct (String.eqb_spec (la_basis_type la) "chebyshev"); done.
Qed.

(* ---------------- choices ---------------- *)
Definition pick (vs : option (list spval)) (l : list species) : list species :=
  match vs with
  | None => l
  | Some tokens => List.filter (fun s => existsb (matches_token s) tokens) l
  end.
Lemma str_in_elem s l : str_in s l = true <-> s ∈ l.
Proof.
  unfold str_in. rewrite existsb_exists. split.
  - intros (x & Hx & E). apply String.eqb_eq in E as ->. by apply elem_of_list_In.
  - intros H. exists s. split; [by apply elem_of_list_In|by apply String.eqb_eq].
Qed.
Lemma permitted_bool tokens s : existsb (matches_token s) tokens = true <->
  exists t, t ∈ tokens /\ species_label t ∈ species_tokens (SObj s).
Proof.
  rewrite existsb_exists. unfold matches_token. split; intros (t & Ht & E); exists t.
  - split; [by apply elem_of_list_In|by apply str_in_elem].
  - split; [by apply elem_of_list_In|by apply str_in_elem].
Qed.
Lemma elem_of_pick vs l s : s ∈ pick vs l <-> permitted vs l s.
Proof.
  unfold pick, permitted. destruct vs as [tokens|]; [|tauto].
  rewrite elem_of_list_In, filter_In, <- elem_of_list_In, permitted_bool. done.
Qed.
Lemma several_filter {A} (P : A -> bool) (l : list A) :
  1 < length (List.filter P l) <->
  exists j k s t, j <> k /\ l !! j = Some s /\ l !! k = Some t /\ P s = true /\ P t = true.
Proof.
  assert (One : forall l : list A, 0 < length (List.filter P l) <-> exists j s, l !! j = Some s /\ P s = true).
  { clear l. induction l as [|x l IH]; simpl.
    - split; [lia|]. by intros (? & ? & ? & _).
    - destruct (P x) eqn:E; simpl.
      + split; [|lia]. intros _. by exists 0, x.
      + rewrite IH. split.
        * intros (j & s & Hj & Hs). by exists (S j), s.
        * intros ([|j] & s & Hj & Hs); simpl in Hj; [congruence|eauto]. }
  induction l as [|x l IH]; simpl.
  - split; [lia|]. by intros (? & ? & ? & ? & _ & ? & _).
  - destruct (P x) eqn:E; simpl.
    + split.
      * intros H. assert (0 < length (List.filter P l)) as H' by lia. apply One in H' as (j & s & Hj & Hs).
        exists 0, (S j), x, s. done.
      * intros (j & k & s & t & Hne & Hj & Hk & Hs & Ht).
        assert (0 < length (List.filter P l)); [|lia]. apply One.
        destruct j as [|j]; [destruct k as [|k]; [done|]|]; simpl in *; eauto.
    + rewrite IH. split.
      * intros (j & k & s & t & Hne & Hj & Hk & Hs & Ht). exists (S j), (S k), s, t. split; [lia|done].
      * intros ([|j] & [|k] & s & t & Hne & Hj & Hk & Hs & Ht); simpl in *; try congruence.
        exists j, k, s, t. split; [lia|done].
Qed.
Lemma several_pick vs l : 1 < length (pick vs l) <->
  exists j k s t, j <> k /\ l !! j = Some s /\ l !! k = Some t /\ permitted vs l s /\ permitted vs l t.
Proof.
  unfold pick. destruct vs as [tokens|].
  - rewrite several_filter. split; intros (j & k & s & t & Hne & Hj & Hk & Hs & Ht); exists j, k, s, t.
    + do 3 (split; [done|]). split; (split; [by eapply elem_of_list_lookup_2|by apply permitted_bool]).
    + do 3 (split; [done|]). rewrite !permitted_bool. destruct Hs, Ht. done.
  - split.
    + intros H. destruct l as [|s [|t l]]; simpl in H; try lia. exists 0, 1, s, t. unfold permitted.
      do 3 (split; [done|]). split; (split; [|done]); set_solver.
    + intros (j & k & s & t & Hne & Hj & Hk & _). apply lookup_lt_Some in Hj, Hk. lia.
Qed.

Section Context.
  Context {la act : lattice} {o : order} (C : context la act o).

  Lemma act_allows (i : Z) : (0 <= i < Z.of_nat (active_site_count o))%Z ->
    exists l, allows act i l /\ 1 < length l.
  Proof.
    intros Hi. destruct (lookup_lt_is_Some_2 (o_a2o o) (Z.to_nat i)) as [z Hz].
    { unfold active_site_count in Hi. lia. }
    destruct (cx_site _ _ _ C _ _ Hz) as (k & l & _ & _ & _ & Hl & _ & Hl1). exists l. split; [split; [lia|done]|done].
  Qed.
  Lemma allows_range i l : allows act i l -> (0 <= i < Z.of_nat (active_site_count o))%Z.
  Proof. intros [H1 H2]. apply lookup_lt_Some in H2. rewrite (cx_alen _ _ _ C) in H2. lia. Qed.
  Lemma allows_many i l : allows act i l -> 1 < length l.
  Proof.
    intros H. destruct (act_allows i (allows_range _ _ H)) as (l' & [_ E] & Hl). destruct H as [_ H].
    congruence.
  Qed.
  Lemma allows_in_la i l : allows act i l -> Some l ∈ la_allowed la.
  Proof.
    intros H. pose proof (allows_range _ _ H). destruct (lookup_lt_is_Some_2 (o_a2o o) (Z.to_nat i)) as [z Hz].
    { unfold active_site_count in *. lia. }
    destruct (cx_site _ _ _ C _ _ Hz) as (k & l' & _ & _ & _ & Hl & Hla & _). destruct H as [_ H].
    assert (l' = l) as -> by congruence. by eapply elem_of_list_lookup_2.
  Qed.
  Lemma allows_fun i l l' : allows act i l -> allows act i l' -> l = l'.
  Proof. intros [_ H] [_ H']. congruence. Qed.

  Lemma allowed_choices_inv i vs c : allowed_choices act i vs = Ok c ->
    exists l, allows act i l /\ c = pick vs l /\ c <> [].
  Proof.
    unfold allowed_choices. destruct (Z.ltb_spec i 0); [done|]. destruct (Z.leb_spec (Z.of_nat (length (la_template act))) i); [done|].
    simpl. intros H'. apply rbind_ok in H' as (a & Ha & H'). apply py_get_nonneg in Ha; [|lia].
    destruct a as [[|s l]|]; [done| |done]. exists (s :: l). split; [done|].
    change (match vs with Some tokens => List.filter (fun s => existsb (matches_token s) tokens) (s :: l) | None => s :: l end)
      with (pick vs (s :: l)) in H'. destruct (pick vs (s :: l)) eqn:E; [done|]. injection H' as <-. done.
  Qed.
  Lemma allowed_choices_ok i vs l : allows act i l -> pick vs l <> [] -> allowed_choices act i vs = Ok (pick vs l).
  Proof.
    intros Ha Hp. pose proof (allows_range _ _ Ha) as Hr. pose proof (allows_many _ _ Ha). destruct Ha as [H0 Ha].
    unfold allowed_choices. destruct (Z.ltb_spec i 0); [lia|].
    destruct (Z.leb_spec (Z.of_nat (length (la_template act))) i).
    { rewrite (cx_len _ _ _ C) in *. lia. }
    simpl. assert (py_get (la_allowed act) i = Ok (Some l)) as -> by (by apply py_get_nonneg).
    simpl. destruct l as [|s l]; [simpl in *; lia|].
    change (match vs with Some tokens => List.filter (fun s => existsb (matches_token s) tokens) (s :: l) | None => s :: l end)
      with (pick vs (s :: l)). destruct (pick vs (s :: l)); done.
  Qed.
  Lemma allowed_choices_none i vs l : allows act i l -> pick vs l = [] -> allowed_choices act i vs = Err ValueError /\ vs <> None.
  Proof.
    intros Ha Hp. pose proof (allows_range _ _ Ha) as Hr. pose proof (allows_many _ _ Ha). destruct Ha as [H0 Ha].
    split.
    - unfold allowed_choices. destruct (Z.ltb_spec i 0); [lia|].
      destruct (Z.leb_spec (Z.of_nat (length (la_template act))) i).
      { rewrite (cx_len _ _ _ C) in *. lia. }
      simpl. assert (py_get (la_allowed act) i = Ok (Some l)) as -> by (by apply py_get_nonneg).
      simpl. destruct l as [|s l]; [done|].
      change (match vs with Some tokens => List.filter (fun s => existsb (matches_token s) tokens) (s :: l) | None => s :: l end)
        with (pick vs (s :: l)). by rewrite Hp.
    - intros ->. simpl in Hp. subst. simpl in *. lia.
  Qed.

  Definition varies (vs : option (list spval)) (i : Z) : bool :=
    match la_allowed act !! Z.to_nat i with Some (Some l) => Nat.ltb 1 (length (pick vs l)) | _ => false end.
  Lemma variable_default_ok vs local : (forall i, i ∈ local -> (0 <= i < Z.of_nat (active_site_count o))%Z) ->
    variable_default act vs local = Ok (List.filter (varies vs) local).
  Proof.
    induction local as [|i local IH]; intros Hr; [done|]. simpl.
    destruct (act_allows i) as (l & Hal & Hl); [apply Hr; by left|].
    assert (py_get (la_allowed act) i = Ok (Some l)) as -> by (apply py_get_nonneg; apply Hal). simpl.
    rewrite IH by (intros; apply Hr; by right).
    destruct (Nat.leb_spec (length l) 1); [lia|].
    assert (varies vs i = Nat.ltb 1 (length (pick vs l))) as E.
    { unfold varies. destruct Hal as [_ ->]. done. }
    rewrite E. destruct (decide (pick vs l = [])) as [Hp|Hp].
    - destruct (allowed_choices_none i vs l Hal Hp) as [-> Hv]. destruct vs; [|done]. rewrite Hp. done.
    - rewrite (allowed_choices_ok i vs l Hal Hp). simpl. destruct (Nat.ltb 1 (length (pick vs l))); done.
  Qed.
  Lemma variable_default_inv vs local vars : variable_default act vs local = Ok vars ->
    forall i, i ∈ local -> (0 <= i < Z.of_nat (active_site_count o))%Z.
  Proof.
    revert vars. induction local as [|j local IH]; intros vars H i Hi; [by apply elem_of_nil in Hi|].
    cbn [variable_default] in H. apply rbind_ok in H as (a & Ha & H). apply rbind_ok in H as (keep & Hk & H). apply rbind_ok in H as (r & Hr & _).
    apply elem_of_cons in Hi as [->|Hi]; [|by eapply IH].
    unfold py_get, py_norm in Ha. rewrite (cx_alen _ _ _ C) in Ha.
    destruct (Z.leb_spec 0 j).
    - destruct (Z.ltb_spec j (Z.of_nat (active_site_count o))); [lia|done].
    - destruct (Z.leb_spec (- Z.of_nat (active_site_count o)) j); [|done].
      destruct (act_allows (j + Z.of_nat (active_site_count o))) as (l & [_ Hl] & Hl1); [lia|].
      rewrite Hl in Ha. injection Ha as <-. simpl in Hk. destruct (Nat.leb_spec (length l) 1); [lia|].
      unfold allowed_choices in Hk. destruct (Z.ltb_spec j 0); [|lia]. done.
  Qed.

  Lemma variables_inv vs local given vars : resolve_variable_sites act local given vs = Ok vars ->
    variable_sites_are act vs local given vars /\
    (forall i, i ∈ vars -> i ∈ local /\ exists l, allows act i l /\ pick vs l <> []).
  Proof.
    unfold resolve_variable_sites. destruct given as [l|].
    - destruct (negb _) eqn:E; [done|]. apply negb_false_iff in E. rewrite forallb_forall in E.
      intros H. apply rbind_ok in H as (cs & Hc & [= <-]). split; [done|]. intros i Hi.
      split; [eapply bool_decide_eq_true; apply E; by apply elem_of_list_In|].
      apply elem_of_list_lookup in Hi as (k & Hk). destruct (rmapM_lookup_l _ _ _ _ _ Hc Hk) as (c & _ & Hcc).
      apply allowed_choices_inv in Hcc as (l' & Ha & -> & Hne). eauto.
    - intros H. pose proof (variable_default_inv _ _ _ H) as Hr. rewrite variable_default_ok in H by done. injection H as <-.
      assert (Hm : forall i, i ∈ List.filter (varies vs) local <-> i ∈ local /\ exists l, allows act i l /\ 1 < length (pick vs l)).
      { intros i. rewrite elem_of_list_In, filter_In, <- elem_of_list_In. split; intros [Hi Hv]; (split; [done|]).
        - destruct (act_allows i (Hr i Hi)) as (l & Hal & _). exists l. split; [done|]. unfold varies in Hv. destruct Hal as [_ E]. rewrite E in Hv.
          by apply Nat.ltb_lt.
        - destruct Hv as (l & [_ E] & Hl). unfold varies. rewrite E. by apply Nat.ltb_lt. }
      split.
      + split.
        { clear. induction local as [|i local IH]; simpl; [done|]. destruct (varies vs i); [by constructor|by constructor]. }
        intros i. rewrite Hm. split; intros [Hi Hv]; (split; [done|]).
        * destruct Hv as (l & Hal & Hl). apply several_pick in Hl as (j & k & s & t & ? & ? & ? & ? & ?). by exists l, j, k, s, t.
        * destruct Hv as (l & j & k & s & t & Hal & ? & ? & ? & ? & ?). exists l. split; [done|]. apply several_pick. by exists j, k, s, t.
      + intros i Hi. apply Hm in Hi as [Hi (l & Hal & Hl)]. split; [done|]. exists l. split; [done|]. intros E. rewrite E in Hl. simpl in Hl. lia.
  Qed.
End Context.

(* ---------------- collecting ---------------- *)
Lemma keep_some_lookup {A} (l : list (option A)) : forall i x, keep_some l !! i = Some x ->
  exists j, l !! j = Some (Some x) /\ i = length (keep_some (take j l)).
Proof.
  induction l as [|y l IH]; intros i x H; [done|]. unfold keep_some in H. cbn in H. fold (keep_some l) in H.
  destruct y as [y|]; simpl in H.
  - destruct i as [|i]; simpl in H.
    + injection H as ->. by exists 0.
    + destruct (IH i x H) as (j & Hj & ->). by exists (S j).
  - destruct (IH i x H) as (j & Hj & ->). by exists (S j).
Qed.
Lemma elem_of_keep_some {A} (l : list (option A)) x : x ∈ keep_some l <-> Some x ∈ l.
Proof.
  unfold keep_some. rewrite elem_of_list_bind. split.
  - intros (y & Hx & Hy). destruct y; [|by apply elem_of_nil in Hx]. apply elem_of_list_singleton in Hx as ->. done.
  - intros H. exists (Some x). split; [by apply elem_of_list_singleton|done].
Qed.
Lemma keep_some_cons {A} (x : option A) l : keep_some (x :: l) = (match x with Some a => [a] | None => [] end) ++ keep_some l.
Proof. done. Qed.
Lemma keep_some_map {A B} (f : A -> B) l : map f (keep_some l) = keep_some (map (option_map f) l).
Proof. induction l as [|[x|] l IH]; [done| |]; rewrite !keep_some_cons; simpl; by rewrite <- IH. Qed.

Lemma collect_spec {A B} (f : A -> result (option B)) : forall l max bs, 1 <= max -> collect f max l = Ok bs ->
  exists pre rest os, l = pre ++ rest /\ rmapM f pre = Ok os /\ bs = keep_some os /\ length bs <= max /\
    (length bs < max -> rest = []).
Proof.
  induction l as [|x l IH]; intros max bs Hm H; simpl in H.
  - injection H as <-. exists [], [], []. simpl. split; [done|]. split; [done|]. split; [done|]. split; [lia|done].
  - apply rbind_ok in H as (r & Hr & H). destruct r as [b|].
    + destruct (Nat.leb_spec max 1).
      * injection H as <-. exists [x], l, [Some b]. simpl. rewrite Hr. split; [done|]. split; [done|]. split; [done|]. split; [lia|].
        intros. lia.
      * apply rbind_ok in H as (bs' & Hb & [= <-]). destruct (IH (max - 1) bs') as (pre & rest & os & -> & Hos & -> & Hl & Hrest); [lia|done|].
        exists (x :: pre), rest, (Some b :: os). simpl. rewrite Hr, Hos. split; [done|]. split; [done|]. split; [done|].
        simpl. split; [lia|]. intros. apply Hrest. lia.
    + destruct (IH max bs Hm H) as (pre & rest & os & -> & Hos & -> & Hl & Hrest).
      exists (x :: pre), rest, (None :: os). simpl. rewrite Hr, Hos. done.
Qed.
Lemma collect_prefix {A B} (f : A -> result (option B)) : forall l m m' a b, 1 <= m <= m' ->
  collect f m l = Ok a -> collect f m' l = Ok b -> a = take m b.
Proof.
  induction l as [|x l IH]; intros m m' a b Hm Ha Hb; simpl in *.
  - injection Ha as <-. injection Hb as <-. by destruct m.
  - destruct (f x) as [[y|]|]; simpl in *; [| |done].
    + destruct (Nat.leb_spec m 1).
      * injection Ha as <-. assert (m = 1) as -> by lia. destruct (Nat.leb_spec m' 1); [injection Hb as <-; done|].
        apply rbind_ok in Hb as (b' & _ & [= <-]). done.
      * destruct (Nat.leb_spec m' 1); [lia|]. apply rbind_ok in Ha as (a' & Ha & [= <-]). apply rbind_ok in Hb as (b' & Hb & [= <-]).
        destruct m as [|m]; [lia|]. simpl. f_equal. assert (S m - 1 = m) as E by lia. rewrite E in Ha.
        eapply (IH m (m' - 1)); [lia|done|done].
    + by eapply IH.
Qed.
Lemma collect_total {A B} (f : A -> result (option B)) l : (forall x, x ∈ l -> exists r, f x = Ok r) ->
  forall max, exists bs, collect f max l = Ok bs.
Proof.
  induction l as [|x l IH]; intros Hf max; simpl; [by eexists|].
  destruct (Hf x) as [r Hr]; [by left|]. rewrite Hr. simpl.
  assert (IH' : forall max, exists bs, collect f max l = Ok bs) by (apply IH; intros; apply Hf; by right).
  destruct r as [b|]; [|done]. destruct (Nat.leb max 1); [by eexists|]. destruct (IH' (max - 1)) as [bs Hbs]. rewrite Hbs. by eexists.
Qed.

(* ---------------- counting ---------------- *)
Lemma counter_acc l : forall d, NoDup (dkeys d) ->
  let d' := fold_left (fun d x => dset d x (match dget d x with Some n => n + 1 | None => 1 end)%Z) l d in
  NoDup (dkeys d') /\
  forall x, dget d' x = if decide (x ∈ l) then Some (match dget d x with Some n => n | None => 0 end + how_many x l)%Z else dget d x.
Proof.
  induction l as [|y l IH]; intros d Hd; cbn [fold_left]; cbn zeta.
  - split; [done|]. intros x. by rewrite decide_False by (by intros ?%elem_of_nil).
  - destruct (IH (dset d y (match dget d y with Some n => n + 1 | None => 1 end)%Z)) as [H1 H2]; [by apply NoDup_dkeys_dset|].
    split; [done|]. intros x. rewrite H2, dget_dset. unfold how_many. cbn [List.filter].
    destruct (decide (x = y)) as [->|Hne].
    + rewrite String.eqb_refl. cbn [length]. rewrite (decide_True (P := y ∈ y :: l)) by (by left).
      destruct (decide (y ∈ l)) as [Hin|Hin].
      * f_equal. simpl. destruct (dget d y); lia.
      * assert (List.filter (String.eqb y) l = []) as ->.
        { destruct (List.filter (String.eqb y) l) as [|z r] eqn:E; [done|]. destruct Hin.
          assert (In z (List.filter (String.eqb y) l)) as Hz by (rewrite E; by left).
          apply filter_In in Hz as [Hz E']. apply String.eqb_eq in E' as ->. by apply elem_of_list_In. }
        simpl. f_equal. destruct (dget d y); lia.
    + destruct (String.eqb_spec x y); [done|].
      destruct (decide (x ∈ l)) as [Hin|Hin].
      * rewrite decide_True by (by right). done.
      * rewrite decide_False; [done|]. by intros [->|?]%elem_of_cons.
Qed.
Lemma counter_spec l : NoDup (dkeys (counter l)) /\
  forall x, dget (counter l) x = if decide (x ∈ l) then Some (how_many x l) else None.
Proof. apply (counter_acc l []). constructor. Qed.

Lemma dict_eqb_spec (a b : dict string Z) : NoDup (dkeys a) -> NoDup (dkeys b) ->
  (dict_eqb a b = true <-> forall x, dget a x = dget b x).
Proof.
  intros Ha Hb. unfold dict_eqb. rewrite andb_true_iff, Nat.eqb_eq, forallb_forall. split.
  - intros [Hl Hsub].
    assert (Hs : forall k v, dget a k = Some v -> dget b k = Some v).
    { intros k v Hk. apply dget_Some_in, elem_of_list_In in Hk. specialize (Hsub _ Hk). simpl in Hsub.
      destruct (dget b k); [|done]. apply Z.eqb_eq in Hsub as ->. done. }
    intros x. destruct (dget a x) as [v|] eqn:E; [symmetry; by apply Hs|].
    destruct (dget b x) as [w|] eqn:Eb; [exfalso|done].
    assert (Hk : dkeys a ⊆+ dkeys b).
    { apply NoDup_submseteq; [done|]. intros k Hk. apply dget_in_keys in Hk as [v Hv]. apply dget_in_keys. eauto. }
    assert (Hp : dkeys a ≡ₚ dkeys b).
    { apply submseteq_Permutation_length_le; [|done]. unfold dkeys. rewrite !map_length. lia. }
    assert (x ∈ dkeys b) as Hx by (apply dget_in_keys; eauto). rewrite <- Hp in Hx. apply dget_in_keys in Hx as [v Hv]. congruence.
  - intros H.
    assert (Hp : dkeys a ≡ₚ dkeys b).
    { apply NoDup_Permutation; [done..|]. intros x. rewrite <- !dget_in_keys. by setoid_rewrite H. }
    split.
    + apply Permutation_length in Hp. unfold dkeys in Hp. by rewrite !map_length in Hp.
    + intros [k v] Hk. simpl. rewrite <- H. rewrite (dget_in a k v); [|done|by apply elem_of_list_In]. apply Z.eqb_refl.
Qed.

Lemma combine_values {X Y} (l : list X) (m : list Y) : length l = length m -> map snd (combine l m) = m.
Proof. revert m. induction l as [|x l IH]; intros [|y m] H; simpl in *; try done. f_equal. apply IH. lia. Qed.

Lemma counts_spec (vars : list Z) cs counts : NoDup vars -> length vars = length cs -> proper_counts counts ->
  (matches_counts (dof_pairs (combine vars (map (fun s => species_label (SObj s)) cs))) (canonical_counts counts) = true
   <-> meets counts cs).
Proof.
  intros Hnd Hlen Hp.
  assert (E : dof_pairs (combine vars (map (fun s => species_label (SObj s)) cs)) = combine vars (map label cs)).
  { apply dof_pairs_NoDup. rewrite combine_fst; [done|]. by rewrite map_length. }
  rewrite E. destruct counts as [req|]; simpl; [|done]. destruct Hp as [Hn Hz].
  unfold dvalues. rewrite combine_values by (by rewrite map_length).
  set (pairs := map (fun kv : spval * Z => (species_label kv.1, kv.2)) req).
  assert (Hk : map fst pairs = map (fun kv => species_label (fst kv)) req) by (unfold pairs; by rewrite map_map).
  rewrite (dof_pairs_NoDup pairs) by (by rewrite Hk).
  destruct (counter_spec (map label cs)) as [Hc1 Hc2].
  rewrite dict_eqb_spec; [|done|unfold dkeys; by rewrite Hk].
  assert (Hpair : forall k n, (k, n) ∈ req -> dget pairs (species_label k) = Some n).
  { intros k n Hin. apply dget_in; [unfold dkeys; by rewrite Hk|]. apply elem_of_list_fmap. by exists (k, n). }
  split.
  - intros H. split.
    + intros k n Hin. pose proof (H (species_label k)) as Hx. rewrite Hc2, (Hpair k n Hin) in Hx.
      destruct (decide _); [congruence|done].
    + intros s Hs. pose proof (H (label s)) as Hx. rewrite Hc2, decide_True in Hx by (apply elem_of_list_fmap; by exists s).
      symmetry in Hx. apply dget_Some_in in Hx. apply elem_of_list_fmap in Hx as ([k n] & [= E1 E2] & Hin). by exists k, n.
  - intros [H1 H2] x. rewrite Hc2. destruct (decide (x ∈ map label cs)) as [Hin|Hin].
    + apply elem_of_list_fmap in Hin as (s & -> & Hs). destruct (H2 s Hs) as (k & n & Hin & <-).
      by rewrite (Hpair k n Hin), (H1 k n Hin).
    + symmetry. apply dget_None. intros Hx. apply dget_in_keys in Hx as [n Hx]. apply dget_Some_in in Hx.
      apply elem_of_list_fmap in Hx as ([k n'] & [= -> ->] & Hkn). pose proof (H1 k n' Hkn) as Hc.
      apply (Hz k n' Hkn). rewrite <- Hc. unfold how_many.
      destruct (List.filter (String.eqb (species_label k)) (map label cs)) as [|z r] eqn:Ef; [done|].
      destruct Hin. assert (In z (List.filter (String.eqb (species_label k)) (map label cs))) as Hz' by (rewrite Ef; by left).
      apply filter_In in Hz' as [Hz' E']. apply String.eqb_eq in E' as ->. by apply elem_of_list_In.
Qed.

(* ---------------- assigning ---------------- *)
Section Assign.
  Context {la act : lattice} {o : order} (C : context la act o).
  Context (Hdist : tells_apart la).

  Lemma act_distinguishable i l : allows act i l -> distinguishable (la_basis act) l.
  Proof. intros H. rewrite (cx_basis _ _ _ C). apply Hdist. by eapply allows_in_la. Qed.
  Lemma first_named_self i l k s : allows act i l -> l !! k = Some s -> first_named l s k.
  Proof.
    intros Ha Hk. destruct (act_distinguishable i l Ha) as (_ & _ & Hu). split.
    - exists s. split; [done|apply equivalent_refl].
    - intros j t Hj He. rewrite (Hu k j s t Hk Hj He). done.
  Qed.
  Lemma holds_fun data i s s' : holds act data i s -> holds act data i s' -> s = s'.
  Proof.
    intros (l & k & Ha & Hk & Hd) (l' & k' & Ha' & Hk' & Hd').
    pose proof (allows_fun i l l' Ha Ha') as <-. rewrite Hd in Hd'. injection Hd' as Hd'.
    assert (k = k') as <-.
    { eapply code_inj; [by eapply act_distinguishable| | |exact Hd']; by eapply lookup_lt_Some. }
    congruence.
  Qed.
  Lemma choices_NoDup i l vs : allows act i l -> NoDup (pick vs l).
  Proof.
    intros Ha. assert (NoDup l) as Hl.
    { apply NoDup_alt. intros j k s Hj Hk. destruct (act_distinguishable i l Ha) as (_ & _ & Hu).
      eapply Hu; [exact Hj|exact Hk|apply equivalent_refl]. }
    destruct vs as [t|]; [|done]. unfold pick. apply NoDup_ListNoDup, List.NoDup_filter, NoDup_ListNoDup, Hl.
  Qed.

  Lemma value_at i l k s : allows act i l -> l !! k = Some s ->
    occupation_value_for_species act i s = Ok (code (la_basis act) k).
  Proof.
    intros Ha Hk. unfold occupation_value_for_species.
    assert (py_get (la_allowed act) i = Ok (Some l)) as -> by (apply py_get_nonneg; apply Ha).
    simpl. apply value_for_species_ok. by eapply first_named_self.
  Qed.
  Lemma species_at data i s v : holds act data i s -> data !! Z.to_nat i = Some v ->
    species_for_occupation_value act i v = Ok s.
  Proof.
    intros (l & k & Ha & Hk & Hd) Hv. rewrite Hd in Hv. injection Hv as <-. unfold species_for_occupation_value.
    assert (py_get (la_allowed act) i = Ok (Some l)) as -> by (apply py_get_nonneg; apply Ha).
    cbn [rbind]. destruct (species_for_value_ok (la_basis act) l k s Hk) as [s' Hs']. rewrite Hs'. f_equal.
    apply species_for_value_inv in Hs' as (l' & k' & [= <-] & Hk' & Hc & _).
    eapply code_inj in Hc; [|by eapply act_distinguishable|by eapply lookup_lt_Some..]. congruence.
  Qed.

  Lemma all_codes_valid data : length data = active_site_count o -> all_codes act data ->
    validate (Occupation (la_basis act) data) = Ok tt.
  Proof.
    intros Hl Hc. apply validate_legal. intros v Hv. simpl in Hv. apply elem_of_list_lookup in Hv as (j & Hj).
    destruct (Hc j v Hj) as (s & l & k & Ha & Hk & Hd). rewrite Nat2Z.id, Hj in Hd. injection Hd as ->. apply valid_legal. simpl.
    rewrite (cx_basis _ _ _ C). eapply wf_legal; [apply C|by eapply allows_in_la|by eapply lookup_lt_Some].
  Qed.

  Lemma all_codes_insert data i l k s : length data = active_site_count o -> all_codes act data -> allows act i l -> l !! k = Some s ->
    all_codes act (<[Z.to_nat i := code (la_basis act) k]> data).
  Proof.
    intros Hl Hc Ha Hk j v Hj. pose proof (allows_range C _ _ Ha) as Hr.
    destruct (decide (j = Z.to_nat i)) as [->|Hne].
    - exists s, l, k. rewrite Z2Nat.id by lia. split; [done|]. split; [done|]. apply list_lookup_insert. lia.
    - rewrite list_lookup_insert_ne in Hj by done. destruct (Hc j v Hj) as (s' & l' & k' & Ha' & Hk' & Hd).
      exists s', l', k'. split; [done|]. split; [done|]. rewrite Nat2Z.id in *. by rewrite list_lookup_insert_ne.
  Qed.

  Lemma assign_ok data i l s : length data = active_site_count o -> all_codes act data -> allows act i l -> s ∈ l ->
    exists data', assign act (Occupation (la_basis act) data) (i, s) = Ok (Occupation (la_basis act) data') /\
      length data' = length data /\ all_codes act data' /\ holds act data' i s /\
      forall j, j <> Z.to_nat i -> data' !! j = data !! j.
  Proof.
    intros Hl Hc Ha Hs. apply elem_of_list_lookup in Hs as (k & Hk). pose proof (allows_range C _ _ Ha) as Hr.
    pose proof (all_codes_insert _ _ _ _ _ Hl Hc Ha Hk) as Hc'.
    exists (<[Z.to_nat i := code (la_basis act) k]> data). unfold assign. simpl fst. simpl snd. rewrite (value_at i l k s Ha Hk). cbn [rbind].
    unfold setitem. simpl oc_data. simpl oc_basis. rewrite py_set_ok by lia. cbn zeta. rewrite all_codes_valid; [|by rewrite insert_length|done].
    split; [done|]. rewrite insert_length. split; [done|]. split; [done|]. split.
    - exists l, k. split; [done|]. split; [done|]. apply list_lookup_insert. lia.
    - intros j Hj. by apply list_lookup_insert_ne.
  Qed.

  Lemma assign_all vars : forall cs data, NoDup vars -> length data = active_site_count o -> all_codes act data ->
    Forall2 (fun i s => exists l, allows act i l /\ s ∈ l) vars cs ->
    exists data', rfold (assign act) (Occupation (la_basis act) data) (combine vars cs) = Ok (Occupation (la_basis act) data') /\
      length data' = length data /\ all_codes act data' /\
      (forall k i s, vars !! k = Some i -> cs !! k = Some s -> holds act data' i s) /\
      forall j, Z.of_nat j ∉ vars -> data' !! j = data !! j.
  Proof.
    induction vars as [|i vars IH]; intros cs data Hnd Hl Hc H.
    - apply Forall2_nil_inv_l in H as ->. exists data. simpl. done.
    - apply Forall2_cons_inv_l in H as (s & cs' & (l & Ha & Hs) & H & ->). apply NoDup_cons in Hnd as [Hi Hnd].
      destruct (assign_ok data i l s Hl Hc Ha Hs) as (d1 & H1 & L1 & C1 & K1 & O1).
      destruct (IH cs' d1 Hnd) as (d2 & H2 & L2 & C2 & K2 & O2); [lia|done|done|].
      exists d2. cbn [combine rfold]. rewrite H1. cbn [rbind]. rewrite H2. split; [done|]. split; [lia|]. split; [done|]. split.
      + intros [|k] i' s' Hk Hs'; simpl in *; [|by eapply K2]. injection Hk as <-. injection Hs' as <-.
        destruct K1 as (l1 & k1 & A1 & B1 & D1). exists l1, k1. split; [done|]. split; [done|]. rewrite O2; [done|].
        destruct A1 as [A1 _]. rewrite Z2Nat.id; done.
      + intros j Hj. rewrite O2, O1; [done| |].
        * intros ->. apply Hj. rewrite Z2Nat.id; [by left|]. by destruct Ha.
        * intros Hj'. apply Hj. by right.
  Qed.

  Lemma holds_total data a : length data = active_site_count o -> all_codes act data -> a < active_site_count o ->
    exists s v, data !! a = Some v /\ holds act data (Z.of_nat a) s.
  Proof.
    intros Hl Hc Ha. destruct (lookup_lt_is_Some_2 data a) as [v Hv]; [lia|]. destruct (Hc a v Hv) as [s Hs]. by exists s, v.
  Qed.

  Lemma original_active k a : dget (original_to_active o) (Z.of_nat k) = Some a -> a < active_site_count o.
  Proof. intros H. apply (cx_inv _ _ _ C) in H. by eapply lookup_lt_Some. Qed.
  Lemma original_fixed k : dget (original_to_active o) (Z.of_nat k) = None <-> Z.of_nat k ∉ o_a2o o.
  Proof.
    split.
    - intros H Hin. apply elem_of_list_lookup in Hin as (a & Ha). apply (cx_inv _ _ _ C) in Ha. congruence.
    - intros H. destruct (dget _ _) as [a|] eqn:E; [|done]. destruct H. apply (cx_inv _ _ _ C) in E. by eapply elem_of_list_lookup_2.
  Qed.

  Lemma getitem_at (data : list Z) a v : data !! a = Some v -> getitem (Occupation (la_basis act) data) (Z.of_nat a) = Ok v.
  Proof. intros H. unfold getitem. simpl. apply py_get_nonneg; [lia|]. by rewrite Nat2Z.id. Qed.

  Lemma site_of_original_fixed occ k s : Z.of_nat k ∉ o_a2o o -> site_of_original act o occ (k, s) = Ok (Some s).
  Proof. intros H%original_fixed. unfold site_of_original. simpl. by rewrite H. Qed.
  Lemma site_of_original_active data k a s sp : o_a2o o !! a = Some (Z.of_nat k) -> holds act data (Z.of_nat a) sp ->
    site_of_original act o (Occupation (la_basis act) data) (k, s) = Ok (if is_vacancy_species (SObj sp) then None else Some (sp, snd s)).
  Proof.
    intros Ha Hs. apply (cx_inv _ _ _ C) in Ha. unfold site_of_original. simpl fst. rewrite Ha.
    pose proof Hs as (l & i & _ & _ & Hd). rewrite Nat2Z.id in Hd. rewrite (getitem_at _ _ _ Hd). cbn [rbind].
    erewrite species_at; [|exact Hs|rewrite Nat2Z.id; exact Hd]. done.
  Qed.
  Lemma active_or_fixed k : Z.of_nat k ∉ o_a2o o \/ exists a, o_a2o o !! a = Some (Z.of_nat k).
  Proof.
    destruct (decide (Z.of_nat k ∈ o_a2o o)) as [H|H]; [right|by left]. by apply elem_of_list_lookup in H.
  Qed.

  Definition full_sites : list site := supercell_sites (shape3 (o_shape o)) (la_template la).
  Lemma full_lookup k : full_sites !! k = cell_site (la_template la) (1, 1, 1) k.
  Proof. unfold full_sites. rewrite (cx_shape _ _ _ C). apply supercell_lookup. simpl. lia. Qed.

  Lemma structure_ok data : length data = active_site_count o -> all_codes act data ->
    exists L, rmapM (site_of_original act o (Occupation (la_basis act) data)) (enumerate full_sites) = Ok L.
  Proof.
    intros Hl Hc. apply rmapM_ok_exists. intros [k s] _. destruct (active_or_fixed k) as [Hf|[a Ha]].
    - eexists. by apply site_of_original_fixed.
    - destruct (holds_total data a Hl Hc) as (sp & v & _ & Hs); [by eapply lookup_lt_Some|].
      eexists. by eapply site_of_original_active.
  Qed.

  Lemma structure_atoms data S : length data = active_site_count o -> all_codes act data ->
    structure_from_active la act o (Occupation (la_basis act) data) = Ok S ->
    forall s p, (s, p) ∈ S <-> atom la act o data s p.
  Proof.
    intros Hl Hc H s p. unfold structure_from_active in H. apply rbind_ok in H as (L & HL & [= <-]). fold full_sites in HL.
    rewrite elem_of_keep_some. unfold atom. split.
    - intros Hin. apply elem_of_list_lookup in Hin as (k & Hk). destruct (rmapM_lookup _ _ _ _ _ HL Hk) as ([k' t] & Hkt & Hf).
      rewrite enumerate_lookup, full_lookup in Hkt. destruct (cell_site _ _ k) as [t'|] eqn:Et; [|done]. injection Hkt as <- ->.
      exists k, t. split; [done|].
      destruct (active_or_fixed k) as [Hfix|[a Ha]].
      + rewrite site_of_original_fixed in Hf by done. injection Hf as ->. split; [done|]. by left.
      + destruct (holds_total data a Hl Hc) as (sp & v & _ & Hs); [by eapply lookup_lt_Some|].
        erewrite site_of_original_active in Hf by done. destruct (is_vacancy_species (SObj sp)) eqn:Ev; [done|]. injection Hf as -> ->.
        split; [done|]. right. exists a. split; [done|]. split; [done|]. unfold is_vacancy. congruence.
    - intros (k & t & Ht & -> & Hcase). rewrite <- full_lookup in Ht.
      destruct (rmapM_lookup_l _ _ _ k (k, t) HL) as (y & Hy & Hf); [by rewrite enumerate_lookup, Ht|].
      destruct Hcase as [[Hfix ->]|(a & Ha & Hs & Hv)].
      + rewrite site_of_original_fixed in Hf by done. injection Hf as <-. destruct t. by eapply elem_of_list_lookup_2.
      + erewrite site_of_original_active in Hf by done. unfold is_vacancy in Hv. apply not_true_is_false in Hv. rewrite Hv in Hf. injection Hf as <-.
        by eapply elem_of_list_lookup_2.
  Qed.

  Lemma one_shape : positive_shape (1, 1, 1).
  Proof. simpl. lia. Qed.
  Lemma atom_site data s p : atom la act o data s p -> exists k t, cell_site (la_template la) (1, 1, 1) k = Some t /\ p = snd t.
  Proof. intros (k & t & H & E & _). by exists k, t. Qed.

  (** Atoms with the coordinates and species of the values read back as the values. *)
  Lemma reads_back data S tol : length data = active_site_count o -> all_codes act data ->
    distinct_sites (la_template la) -> fixed_sites_occupied la (la_template la) o -> (0 <= tol)%Q ->
    NoDup S -> (forall s p, (s, p) ∈ S <-> atom la act o data s p) ->
    exists full, get_occ_from_structure la S tol (1, 1, 1) None = Ok full /\ oc_basis full = la_basis la /\
      select_active_values o (oc_data full) = Ok data.
  Proof.
    intros Hl Hc Hd Hfix Ht Hnd Hin.
    assert (Ha1 : forall k, allowed_at la (1, 1, 1) k = match la_allowed la !! k with Some (Some l) => Some l | _ => None end).
    { intros k. unfold allowed_at. change (images (1, 1, 1)) with 1. by rewrite Nat.div_1_r. }
    assert (Hcs : forall k t, cell_site (la_template la) (1, 1, 1) k = Some t -> exists u, la_template la !! k = Some u /\ fst t = fst u).
    { intros k t. unfold cell_site. change (images (1, 1, 1)) with 1. rewrite Nat.div_1_r.
      destruct (la_template la !! k) as [u|]; [|done]. intros [= <-]. by exists u. }
    assert (Hname : forall s p k t, (s, p) ∈ S -> cell_site (la_template la) (1, 1, 1) k = Some t -> p = snd t ->
      exists l i, la_allowed la !! k = Some (Some l) /\ first_named l s i /\
        forall a, o_a2o o !! a = Some (Z.of_nat k) -> data !! a = Some (code (la_basis la) i)).
    { intros s p k t Hs Hk ->. apply Hin in Hs as (k' & t' & Hk' & Ep & Hcase).
      assert (k' = k) as ->.
      { eapply supercell_distinct; [apply one_shape|exact Hd|exact Hk'|exact Hk|]. rewrite Ep. apply congruent_refl. }
      assert (t' = t) as -> by congruence. destruct Hcase as [[Hf ->]|(a & Ha & Hh & Hv)].
      - destruct (Hcs k t Hk) as (u & Hu & Eu). destruct (Hfix k u Hu Hf) as (_ & l & x & Hla & Hx & He).
        apply elem_of_list_lookup in Hx as (i & Hi). exists l, i. split; [done|]. rewrite Eu. split.
        + split; [by exists x|]. intros j y Hj Hjy.
          destruct (cx_fixed _ _ _ C k) as (l' & Hl' & Hlen); [by eapply lookup_lt_Some|done|].
          assert (l' = l) as -> by congruence. apply lookup_lt_Some in Hi. lia.
        + intros a Ha. destruct Hf. by eapply elem_of_list_lookup_2.
      - destruct Hh as (l & i & Hal & Hi & Hda). rewrite Nat2Z.id in Hda.
        destruct (cx_site _ _ _ C a _ Ha) as (k' & l' & E & _ & _ & Hl' & Hla & _). apply Nat2Z.inj in E as <-.
        assert (l' = l) as ->. { destruct Hal as [_ Hal]. rewrite Nat2Z.id in Hal. congruence. }
        exists l, i. split; [done|]. split; [by eapply first_named_self|].
        intros a' Ha'. assert (a' = a) as ->; [|by rewrite <- (cx_basis _ _ _ C)].
        apply (cx_inv _ _ _ C) in Ha, Ha'. congruence. }
    assert (Hr : readable la S tol (1, 1, 1)).
    { split.
      - intros j s p Hj. apply elem_of_list_lookup_2 in Hj. pose proof Hj as Hj'. apply Hin, atom_site in Hj' as (k & t & Hk & ->).
        destruct (Hname s (snd t) k t Hj Hk eq_refl) as (l & i & Hla & Hf & _). exists k, l, i.
        split; [by apply at_site_belongs; [apply one_shape|..]|]. split; [by rewrite Ha1, Hla|done].
      - intros i j s t p q k Hi Hj Hb Hb'.
        pose proof (elem_of_list_lookup_2 _ _ _ Hi) as Ei. pose proof (elem_of_list_lookup_2 _ _ _ Hj) as Ej.
        apply Hin in Ei as (k1 & t1 & Hc1 & -> & Case1). apply Hin in Ej as (k2 & t2 & Hc2 & -> & Case2).
        pose proof (belongs_unique _ _ _ _ _ _ one_shape Hb (at_site_belongs _ _ tol _ _ one_shape Hd Ht Hc1)) as <-.
        pose proof (belongs_unique _ _ _ _ _ _ one_shape Hb' (at_site_belongs _ _ tol _ _ one_shape Hd Ht Hc2)) as <-.
        assert (t2 = t1) as -> by congruence.
        assert (s = t) as ->; [|by eapply NoDup_lookup].
        destruct Case1 as [[F1 ->]|(a1 & A1 & H1 & _)], Case2 as [[F2 ->]|(a2 & A2 & H2 & _)]; try done.
        + destruct F1. by eapply elem_of_list_lookup_2.
        + destruct F2. by eapply elem_of_list_lookup_2.
        + assert (a2 = a1) as -> by (apply (cx_inv _ _ _ C) in A1, A2; congruence). by eapply holds_fun. }
    destruct (readable_ok la S tol (1, 1, 1) (cx_wf _ _ _ C) one_shape Hr) as [full Ho]. exists full. split; [done|].
    destruct (reads_full _ _ _ _ _ (cx_wf _ _ _ C) one_shape Ho) as (_ & Hb & Hol & Hread & Hmiss). split; [done|].
    change (images (1, 1, 1)) with 1 in *. rewrite Nat.mul_1_r in Hol, Hmiss.
    destruct (cx_select _ _ _ C Z (oc_data full) Hol) as (out & Hout & Hol' & Hoa). rewrite Hout. f_equal.
    apply list_eq. intros a. destruct (decide (a < active_site_count o)) as [Hlt|Hge].
    2:{ rewrite !lookup_ge_None_2 by lia. done. }
    destruct (lookup_lt_is_Some_2 (o_a2o o) a Hlt) as [z Hz]. rewrite (Hoa a z Hz).
    destruct (cx_site _ _ _ C a z Hz) as (k & l & -> & Hk & _ & Hla & Hll & Hl1). rewrite Nat2Z.id.
    destruct (cell_site_total (la_template la) (1, 1, 1) k one_shape) as [t Hcell]; [simpl; lia|].
    destruct (holds_total data a Hl Hc Hlt) as (sp & v & Hv & Hs).
    destruct (is_vacancy_species (SObj sp)) eqn:Ev.
    - rewrite Hmiss; [|done|].
      + rewrite Ha1, Hll. destruct (missing_lemma (la_basis la) l) as (i' & He & Hi' & ->); [destruct l; simpl in *; [lia|done]|].
        destruct Hs as (l' & i & Hal & Hi & Hda). rewrite Nat2Z.id in Hda.
        assert (l' = l) as ->. { destruct Hal as [_ Hal]. rewrite Nat2Z.id in Hal. congruence. }
        rewrite Hda, (cx_basis _ _ _ C). do 2 f_equal. destruct He as [[(w & Hw & Hvac) _]|[Hn _]].
        * destruct (act_distinguishable _ _ Hal) as (_ & _ & Hu). eapply Hu; [exact Hw|exact Hi|]. by apply vacancies_equivalent.
        * destruct (Hn sp); [by eapply elem_of_list_lookup_2|done].
      + intros s p Hsp Hbel. apply Hin in Hsp as (k1 & t1 & Hc1 & -> & Case1).
        pose proof (belongs_unique _ _ _ _ _ _ one_shape Hbel (at_site_belongs _ _ tol _ _ one_shape Hd Ht Hc1)) as <-.
        destruct Case1 as [[F1 _]|(a1 & A1 & H1 & N1)]; [destruct F1; by eapply elem_of_list_lookup_2|].
        assert (a1 = a) as -> by (apply (cx_inv _ _ _ C) in A1, Hz; congruence).
        pose proof (holds_fun _ _ _ _ H1 Hs) as ->. done.
    - assert (Hsp : (sp, snd t) ∈ S).
      { apply Hin. exists k, t. split; [done|]. split; [done|]. right. exists a. split; [done|]. split; [done|].
        unfold is_vacancy. congruence. }
      destruct (Hname sp (snd t) k t Hsp Hcell eq_refl) as (l' & i & Hl' & Hf & Hcode). rewrite (Hcode a Hz).
      apply elem_of_list_lookup in Hsp as (j & Hj).
      destruct (Hread j sp (snd t) k Hj) as (l2 & i2 & Hl2 & Hf2 & Hd2).
      { apply at_site_belongs; [apply one_shape|done..]. }
      rewrite Ha1, Hl' in Hl2. injection Hl2 as <-. rewrite (first_named_unique _ _ _ _ Hf Hf2). done.
  Qed.

  Lemma structure_NoDup data S : distinct_sites (la_template la) -> length data = active_site_count o -> all_codes act data ->
    structure_from_active la act o (Occupation (la_basis act) data) = Ok S -> NoDup S.
  Proof.
    intros Hd Hl Hc H. unfold structure_from_active in H. apply rbind_ok in H as (L & HL & [= <-]). fold full_sites in HL.
    assert (HP : forall k s p, L !! k = Some (Some (s, p)) -> exists t, cell_site (la_template la) (1, 1, 1) k = Some t /\ p = snd t).
    { intros k s p Hk. destruct (rmapM_lookup _ _ _ _ _ HL Hk) as ([k' t] & Hkt & Hf).
      rewrite enumerate_lookup, full_lookup in Hkt. destruct (cell_site _ _ k) as [t'|] eqn:Et; [|done]. injection Hkt as <- ->.
      exists t. split; [done|]. destruct (active_or_fixed k) as [Hfix|[a Ha]].
      - rewrite site_of_original_fixed in Hf by done. by injection Hf as ->.
      - destruct (holds_total data a Hl Hc) as (sp & v & _ & Hs); [by eapply lookup_lt_Some|].
        erewrite site_of_original_active in Hf by done. destruct (is_vacancy_species _); [done|]. by injection Hf as -> ->. }
    assert (HU : forall i j x, L !! i = Some (Some x) -> L !! j = Some (Some x) -> i = j).
    { intros i j [s p] Hi Hj. destruct (HP _ _ _ Hi) as (t & Ht & ->). destruct (HP _ _ _ Hj) as (t' & Ht' & E).
      eapply supercell_distinct; [apply one_shape|exact Hd|exact Ht|exact Ht'|]. rewrite E. apply congruent_refl. }
    clear HP HL. induction L as [|x L IH]; [constructor|]. rewrite keep_some_cons.
    assert (NoDup (keep_some L)) as HN.
    { apply IH. intros i j y Hi Hj. specialize (HU (Datatypes.S i) (Datatypes.S j) y Hi Hj). lia. }
    destruct x as [x|]; [|done]. simpl. apply NoDup_cons. split; [|done]. intros Hx. apply elem_of_keep_some, elem_of_list_lookup in Hx as (j & Hj).
    specialize (HU 0 (Datatypes.S j) x eq_refl Hj). lia.
  Qed.

  Lemma base_codes base tol b : base_occupation act base tol = Ok b ->
    b = Occupation (la_basis act) (oc_data b) /\ length (oc_data b) = active_site_count o /\ all_codes act (oc_data b) /\
    base_values act base tol (oc_data b).
  Proof.
    unfold base_occupation. destruct base as [S|].
    - intros H. pose proof (reads_full _ _ _ _ _ (cx_awf _ _ _ C) one_shape H) as (Hr & Hb & Hl & Hread & Hmiss).
      change (images (1, 1, 1)) with 1 in *. rewrite Nat.mul_1_r in Hl, Hmiss.
      assert (E : b = Occupation (la_basis act) (oc_data b)) by (rewrite <- Hb; by destruct b).
      split; [done|]. split; [by rewrite Hl, (cx_len _ _ _ C)|]. split; [|unfold base_values; by rewrite <- E].
      assert (Ha1 : forall k, allowed_at act (1, 1, 1) k = match la_allowed act !! k with Some (Some l) => Some l | _ => None end).
      { intros k. unfold allowed_at. change (images (1, 1, 1)) with 1. by rewrite Nat.div_1_r. }
      intros j v Hj. pose proof (lookup_lt_Some _ _ _ Hj) as Hlt.
      destruct (act_allows C (Z.of_nat j)) as (l & [_ Hal] & Hlen); [rewrite <- (cx_len _ _ _ C), <- Hl; lia|]. rewrite Nat2Z.id in Hal.
      assert (G : exists k, k < length l /\ v = code (la_basis act) k).
      { destruct (belongs_decided act S tol (1, 1, 1) j one_shape) as [(s & p & Hin & Hbel)|Hn].
        { intros s p Hin. apply elem_of_list_lookup in Hin as (i & Hi). destruct Hr as [Hr _]. destruct (Hr i s p Hi) as (k & _ & _ & Hk & _). by exists k. }
        - apply elem_of_list_lookup in Hin as (i & Hi). destruct (Hread i s p j Hi Hbel) as (l' & m & Hl' & Hf & Hd).
          rewrite Ha1, Hal in Hl'. injection Hl' as <-. exists m. split; [|congruence].
          destruct Hf as [(t & Ht & _) _]. by eapply lookup_lt_Some.
        - rewrite Hmiss in Hj by (done || lia). rewrite Ha1, Hal in Hj.
          destruct (missing_lemma (la_basis act) l) as (i' & _ & Hi' & Em); [by intros ->; simpl in *; lia|]. exists i'. split; [done|congruence]. }
      destruct G as (k & Hk & ->). destruct (lookup_lt_is_Some_2 l k Hk) as [s Hs]. exists s, l, k. split; [split; [lia|by rewrite Nat2Z.id]|].
      split; [done|]. by rewrite Nat2Z.id.
    - intros [= <-]. simpl. split; [done|]. rewrite repeat_length. split; [apply C|].
      assert (E : match_value (la_basis act) = code (la_basis act) 0) by (by destruct (la_basis act)).
      split.
      + intros j v Hj. pose proof (lookup_lt_Some _ _ _ Hj) as Hlt. rewrite repeat_length in Hlt.
        destruct (act_allows C (Z.of_nat j)) as (l & Hal & Hlen); [rewrite <- (cx_len _ _ _ C); lia|].
        destruct (lookup_lt_is_Some_2 l 0) as [s Hs]; [lia|]. exists s, l, 0. split; [done|]. split; [done|].
        rewrite Nat2Z.id. rewrite <- E. by apply repeat_at.
      + split; [done|]. intros j Hj. rewrite <- E. by apply repeat_at.
  Qed.

  Definition result_ok (local vars : list Z) (cs : list species) (b : list Z) (r : enumeration) : Prop :=
    shows act vars cs b r /\ all_codes act (oc_data (en_full r)) /\
    length (oc_data (en_full r)) = active_site_count o /\
    en_local_sites r = local /\ en_variable_sites r = vars /\
    Forall2 (fun i v => (0 <= i)%Z /\ oc_data (en_full r) !! Z.to_nat i = Some v) local (en_local r) /\
    structure_from_active la act o (en_full r) = Ok (en_structure r).

  Lemma one_choice_ok b local vars counts cs : NoDup vars -> proper_counts counts ->
    (forall i, i ∈ local -> (0 <= i < Z.of_nat (active_site_count o))%Z) ->
    length b = active_site_count o -> all_codes act b ->
    Forall2 (fun i s => exists l, allows act i l /\ s ∈ l) vars cs ->
    exists x, one_choice la act o (Occupation (la_basis act) b) local vars (canonical_counts counts) cs = Ok x /\
      match x with
      | Some r => meets counts cs /\ result_ok local vars cs b r
      | None => ~ meets counts cs
      end.
  Proof.
    intros Hnd Hp Hloc Hl Hc HF. pose proof (Forall2_length _ _ _ HF) as Hlen.
    pose proof (counts_spec vars cs counts Hnd Hlen Hp) as Hcs.
    unfold one_choice. cbn zeta. destruct (matches_counts _ _) eqn:Em; simpl negb; cbn iota.
    2:{ exists None. split; [done|]. intros Hm. apply Hcs in Hm. congruence. }
    destruct (assign_all vars cs b Hnd Hl Hc HF) as (d & Hd & Hdl & Hdc & Hdh & Hdo). rewrite Hd. cbn [rbind].
    destruct (rmapM_ok_exists (getitem (Occupation (la_basis act) d)) local) as [loc El].
    { intros i Hi. specialize (Hloc i Hi). destruct (lookup_lt_is_Some_2 d (Z.to_nat i)) as [v Hv]; [lia|].
      exists v. unfold getitem. simpl. apply py_get_nonneg; [lia|done]. }
    rewrite El. cbn [rbind]. destruct (structure_ok d) as [L HL]; [lia|done|].
    unfold structure_from_active. fold full_sites. rewrite HL. cbn [rbind]. eexists. split; [done|]. cbn iota.
    split; [by apply Hcs|]. split; [|split; [done|split; [simpl; lia|split; [done|split; [done|split]]]]].
    - split; [done|]. split; [done|]. simpl. split; [|done]. intros k i s Hk Hs. split; [by eapply Hdh|].
      rewrite dof_pairs_NoDup by (by rewrite combine_fst; [|rewrite map_length]).
      apply dget_in; [unfold dkeys; by rewrite combine_fst; [|rewrite map_length]|].
      change (label s) with (species_label (SObj s)).
      apply elem_of_list_lookup. exists k. apply combine_lookup. split; [done|]. change (map ?f ?l) with (f <$> l). by rewrite list_lookup_fmap, Hs.
    - simpl. apply Forall2_same_length_lookup_2; [symmetry; by eapply rmapM_length|]. intros k i v Hi Hv.
      destruct (rmapM_lookup _ _ _ _ _ El Hv) as (i' & Hi' & Hg). assert (i' = i) as -> by congruence. unfold getitem in Hg. simpl in Hg.
      specialize (Hloc i (elem_of_list_lookup_2 _ _ _ Hi)). split; [lia|]. apply py_get_nonneg in Hg; [done|lia].
    - simpl. unfold structure_from_active. fold full_sites. by rewrite HL.
  Qed.

  Lemma product_NoDup {A} (ls : list (list A)) : (forall l, l ∈ ls -> NoDup l) -> NoDup (product ls).
  Proof.
    induction ls as [|l ls IH]; intros H; simpl; [apply NoDup_singleton|].
    assert (NoDup (product ls)) as HN by (apply IH; intros; apply H; by right).
    apply NoDup_bind_disjoint.
    - apply H. by left.
    - intros x _. apply NoDup_fmap_2; [|done]. intros ? ? [= ->]. done.
    - intros x y z _ _ Hx Hy. apply elem_of_list_fmap in Hx as (? & -> & _). by apply elem_of_list_fmap in Hy as (? & [= ->] & _).
  Qed.

  Lemma shows_fun vars cs cs' b r r' : length vars = length cs -> length vars = length cs' ->
    shows act vars cs b r -> shows act vars cs' b r' -> en_full r = en_full r' -> cs = cs'.
  Proof.
    intros L1 L2 (_ & _ & H1 & _) (_ & _ & H2 & _) E. apply list_eq. intros k.
    destruct (decide (k < length vars)) as [Hlt|Hge].
    - destruct (lookup_lt_is_Some_2 vars k Hlt) as [i Hi]. destruct (lookup_lt_is_Some_2 cs k) as [s Hs]; [lia|].
      destruct (lookup_lt_is_Some_2 cs' k) as [s' Hs']; [lia|]. rewrite Hs, Hs'. f_equal.
      destruct (H1 k i s Hi Hs) as [A _]. destruct (H2 k i s' Hi Hs') as [B _]. rewrite <- E in B. by eapply holds_fun.
    - rewrite !lookup_ge_None_2 by lia. done.
  Qed.

  Lemma in_choices vs vars choices : rmapM (fun i => allowed_choices act i vs) vars = Ok choices ->
    (forall cs, cs ∈ product choices <-> assignment act vs vars cs) /\ NoDup (product choices).
  Proof.
    intros H. split.
    - intros cs. rewrite elem_of_product. unfold assignment. revert choices H cs. induction vars as [|i vars IH]; intros choices H cs; simpl in H.
      + injection H as <-. split; intros G; inversion G; constructor.
      + apply rbind_ok in H as (c & Hc & H). apply rbind_ok in H as (choices' & Hcs & [= <-]).
        apply (allowed_choices_inv) in Hc as (l & Ha & -> & Hne). split; intros G.
        * inversion G as [|x l0 cs' ls Hx Hr]; subst. constructor; [|by apply (IH choices')]. exists l. split; [done|]. by apply elem_of_pick.
        * inversion G as [|x l0 ls cs' (l' & Ha' & Hx) Hr]; subst. pose proof (allows_fun _ _ _ Ha Ha') as <-.
          constructor; [by apply elem_of_pick|by apply (IH choices')].
    - apply product_NoDup. intros l Hl. apply elem_of_list_lookup in Hl as (k & Hk).
      destruct (rmapM_lookup _ _ _ _ _ H Hk) as (i & _ & Hc). apply allowed_choices_inv in Hc as (l' & Ha & -> & _). by eapply choices_NoDup.
  Qed.
  Lemma assignment_weak vs vars cs : assignment act vs vars cs -> Forall2 (fun i s => exists l, allows act i l /\ s ∈ l) vars cs.
  Proof. intros H. eapply Forall2_impl; [exact H|]. intros i s (l & Ha & Hs & _). by exists l. Qed.

  Lemma vars_NoDup vs local given vars : no_repeats local given -> variable_sites_are act vs local given vars -> NoDup vars.
  Proof.
    destruct given as [l|]; simpl; [by intros ? ->|]. intros Hn [Hs _]. by eapply sublist_NoDup.
  Qed.
  Lemma vars_length vs local given vars vars' : no_repeats local given -> variable_sites_are act vs local given vars ->
    variable_sites_are act vs local given vars' -> length vars = length vars'.
  Proof.
    intros Hn H H'. pose proof (vars_NoDup _ _ _ _ Hn H) as N. pose proof (vars_NoDup _ _ _ _ Hn H') as N'.
    destruct given as [l|]; simpl in H, H'; [congruence|]. destruct H as [_ H], H' as [_ H'].
    apply Permutation_length, NoDup_Permutation; [done..|]. intros i. by rewrite H, H'.
  Qed.

  Lemma zsum_acc l : forall n, fold_left Z.add l n = (n + fold_right Z.add 0 l)%Z.
  Proof. induction l as [|x l IH]; intros n; simpl; [lia|]. rewrite IH. lia. Qed.
  Lemma zsum_total req : proper_counts (Some req) ->
    zsum (dvalues (dof_pairs (map (fun kv : spval * Z => (species_label kv.1, kv.2)) req))) = total req.
  Proof.
    intros [Hn _]. rewrite dof_pairs_NoDup by (by rewrite map_map).
    unfold zsum, dvalues, total. rewrite zsum_acc, map_map. simpl. clear. induction req as [|[k n] req IH]; simpl; [done|]. lia.
  Qed.
End Assign.

(* ---------------- hop endpoints ---------------- *)
Lemma keep_some_position {A} (l : list (option A)) k x : l !! k = Some (Some x) ->
  keep_some l !! length (keep_some (take k l)) = Some x.
Proof.
  revert k. induction l as [|y l IH]; intros [|k] H; simpl in H; try done.
  - injection H as ->. done.
  - cbn [take]. rewrite !keep_some_cons. destruct y; simpl; by apply IH.
Qed.
Lemma keep_some_inj {A} (l : list (option A)) j k x y : l !! j = Some (Some x) -> l !! k = Some (Some y) ->
  length (keep_some (take j l)) = length (keep_some (take k l)) -> j = k.
Proof.
  revert j k. induction l as [|z l IH]; intros [|j] [|k] Hj Hk E; simpl in Hj, Hk; try done.
  - injection Hj as ->. cbn [take] in E. rewrite keep_some_cons in E. simpl in E. lia.
  - injection Hk as ->. cbn [take] in E. rewrite keep_some_cons in E. simpl in E. lia.
  - cbn [take] in E. rewrite !keep_some_cons, !app_length in E. f_equal. apply IH; [done..|lia].
Qed.

Lemma first_allowed_spec act i s : (0 <= i)%Z -> first_allowed act i = Ok s <-> first_species act i s.
Proof.
  intros Hi. unfold first_allowed, first_species, allows. split.
  - intros H. apply rbind_ok in H as (a & Ha & H). apply py_get_nonneg in Ha; [|done].
    destruct a as [[|x l]|]; try done. injection H as ->. by exists (s :: l).
  - intros (l & [_ Hl] & H0). assert (py_get (la_allowed act) i = Ok (Some l)) as -> by (by apply py_get_nonneg).
    destruct l; [done|]. simpl in *. congruence.
Qed.
Lemma species_same_spec a b : species_same a b = true <-> same_name a b.
Proof.
  unfold species_same, same_name, matches_token. rewrite existsb_exists. split; intros (t & Ht & E); exists t.
  - split; [by apply elem_of_list_In|by apply str_in_elem].
  - split; [by apply elem_of_list_In|by apply str_in_elem].
Qed.
Lemma match_code b : match_value b = code b 0.
Proof. by destruct b. Qed.
Lemma mismatch_code b : mismatch_value b = code b 1.
Proof. by destruct b. Qed.
Lemma flip_code_0 b : flip_value b (code b 0) = code b 1.
Proof. destruct b; done. Qed.
Lemma flip_code_1 b : flip_value b (code b 1) = code b 0.
Proof. destruct b; done. Qed.

Section Neb.
  Context {la act : lattice} {o : order} (C : context la act o) (Hdist : tells_apart la).
  Context (d : list Z) (from to : Z).
  Context (Hd : length d = active_site_count o) (Hc : all_codes act d).
  Context (Hf : (0 <= from < Z.of_nat (active_site_count o))%Z) (Ht : (0 <= to < Z.of_nat (active_site_count o))%Z) (Hne : from <> to).

  Definition initial_data : list Z := <[Z.to_nat to := code (la_basis act) 1]> (<[Z.to_nat from := code (la_basis act) 0]> d).
  Definition final_data : list Z := <[Z.to_nat to := code (la_basis act) 0]> (<[Z.to_nat from := code (la_basis act) 1]> d).

  Lemma set_code (e : list Z) i k : (0 <= i < Z.of_nat (active_site_count o))%Z -> k <= 1 -> length e = active_site_count o -> all_codes act e ->
    setitem (Occupation (la_basis act) e) i (code (la_basis act) k) = (Ok tt, Occupation (la_basis act) (<[Z.to_nat i := code (la_basis act) k]> e)) /\
    all_codes act (<[Z.to_nat i := code (la_basis act) k]> e).
  Proof.
    clear -C. intros Hi Hk Hl He. destruct (act_allows C i Hi) as (l & Hal & Hlen). destruct (lookup_lt_is_Some_2 l k) as [s Hs]; [lia|].
    assert (all_codes act (<[Z.to_nat i := code (la_basis act) k]> e)) as HA by (by eapply (all_codes_insert C)).
    split; [|done]. unfold setitem. simpl. rewrite py_set_ok by lia. cbn zeta.
    rewrite (all_codes_valid C); [done|by rewrite insert_length|done].
  Qed.
  Lemma initial_length : length initial_data = active_site_count o.
  Proof. unfold initial_data. by rewrite !insert_length. Qed.
  Lemma final_length : length final_data = active_site_count o.
  Proof. unfold final_data. by rewrite !insert_length. Qed.
  Lemma initial_codes : all_codes act initial_data.
  Proof.
    apply set_code; [done|lia|by rewrite insert_length|]. apply set_code; [done|lia|done|done].
  Qed.
  Lemma final_codes : all_codes act final_data.
  Proof.
    apply set_code; [done|lia|by rewrite insert_length|]. apply set_code; [done|lia|done|done].
  Qed.
  Local Lemma ne_nat : Z.to_nat from <> Z.to_nat to.
  Proof. clear -Hf Ht Hne. lia. Qed.
  Lemma initial_at (j : nat) : initial_data !! j =
    if decide (j = Z.to_nat from) then Some (code (la_basis act) 0)
    else if decide (j = Z.to_nat to) then Some (code (la_basis act) 1) else d !! j.
  Proof.
    pose proof ne_nat. unfold initial_data. destruct (decide (j = Z.to_nat from)) as [->|].
    - rewrite list_lookup_insert_ne by done. apply list_lookup_insert. lia.
    - destruct (decide (j = Z.to_nat to)) as [->|].
      + apply list_lookup_insert. rewrite insert_length. lia.
      + by rewrite !list_lookup_insert_ne.
  Qed.
  Lemma final_at (j : nat) : final_data !! j =
    if decide (j = Z.to_nat from) then Some (code (la_basis act) 1)
    else if decide (j = Z.to_nat to) then Some (code (la_basis act) 0) else d !! j.
  Proof.
    pose proof ne_nat. unfold final_data. destruct (decide (j = Z.to_nat from)) as [->|].
    - rewrite list_lookup_insert_ne by done. apply list_lookup_insert. lia.
    - destruct (decide (j = Z.to_nat to)) as [->|].
      + apply list_lookup_insert. rewrite insert_length. lia.
      + by rewrite !list_lookup_insert_ne.
  Qed.
  Lemma flip_initial : flip (Occupation (la_basis act) initial_data) [from; to] = Ok (Occupation (la_basis act) final_data).
  Proof.
    pose proof ne_nat as Hn. unfold flip. simpl. unfold flip_one at 1.
    assert (py_get initial_data from = Ok (code (la_basis act) 0)) as ->.
    { apply py_get_nonneg; [lia|]. rewrite initial_at. by rewrite decide_True. }
    cbn [rbind]. rewrite flip_code_0, py_set_ok by (rewrite initial_length; lia). cbn [rbind]. unfold flip_one.
    assert (py_get (<[Z.to_nat from:=code (la_basis act) 1]> initial_data) to = Ok (code (la_basis act) 1)) as ->.
    { apply py_get_nonneg; [lia|]. rewrite list_lookup_insert_ne by done. rewrite initial_at, decide_False, decide_True by lia. done. }
    cbn [rbind]. rewrite flip_code_1, py_set_ok by (rewrite insert_length, initial_length; lia). cbn [rbind]. do 2 f_equal.
    unfold initial_data, final_data. rewrite (list_insert_commute _ (Z.to_nat from) (Z.to_nat to)) by done. rewrite list_insert_insert, list_insert_insert. done.
  Qed.

  Context (fs ts : species).
  Context (Hfs : first_species act from fs) (Hts : first_species act to ts) (Hvf : ~ is_vacancy fs) (Hvt : ~ is_vacancy ts).
  Context (kf kt : nat) (tf tt' : site).
  Context (Akf : o_a2o o !! Z.to_nat from = Some (Z.of_nat kf)) (Akt : o_a2o o !! Z.to_nat to = Some (Z.of_nat kt)).
  Context (Tf : cell_site (la_template la) (1, 1, 1) kf = Some tf) (Tt : cell_site (la_template la) (1, 1, 1) kt = Some tt').

  Let ini := Occupation (la_basis act) initial_data.
  Let fin := Occupation (la_basis act) final_data.
  Let full := full_sites (la := la) (o := o).

  Lemma kf_ne_kt : kf <> kt.
  Proof.
    intros E. subst kt. apply ne_nat. apply (cx_inv _ _ _ C) in Akf, Akt. congruence.
  Qed.

  Lemma holds_first i s e : first_species act i s -> e !! Z.to_nat i = Some (code (la_basis act) 0) -> holds act e i s.
  Proof. intros (l & Ha & Hl) He. by exists l, 0. Qed.
  Lemma initial_from : holds act initial_data from fs.
  Proof. apply holds_first; [done|]. rewrite initial_at by done. by rewrite decide_True. Qed.
  Lemma final_to : holds act final_data to ts.
  Proof. apply holds_first; [done|]. rewrite final_at by done. rewrite decide_False, decide_True; [done|done|]. pose proof ne_nat as H. congruence. Qed.
  Lemma same_elsewhere j s : j <> Z.to_nat from -> j <> Z.to_nat to -> holds act initial_data (Z.of_nat j) s <-> holds act final_data (Z.of_nat j) s.
  Proof.
    intros H1 H2. unfold holds. rewrite Nat2Z.id, initial_at, final_at by done. by rewrite !(decide_False (P := j = Z.to_nat from)), !(decide_False (P := j = Z.to_nat to)) by done.
  Qed.

  Lemma endpoint_fixed k t : Z.of_nat k ∉ o_a2o o -> endpoint_site act o full ini fin from to (k, t) = Ok (Some (t, t)).
  Proof. intros H%(original_fixed C). unfold endpoint_site. simpl. by rewrite H. Qed.
  Lemma endpoint_vacant k t a s : o_a2o o !! a = Some (Z.of_nat k) -> holds act initial_data (Z.of_nat a) s -> is_vacancy s ->
    endpoint_site act o full ini fin from to (k, t) = Ok None.
  Proof.
    intros Ha Hs Hv. apply (cx_inv _ _ _ C) in Ha. unfold endpoint_site. cbn [fst]. rewrite Ha.
    pose proof Hs as (l & i & _ & _ & Hdd). rewrite Nat2Z.id in Hdd. unfold ini. rewrite (getitem_at _ _ _ Hdd). cbn [rbind].
    erewrite (species_at C Hdist); [|exact Hs|rewrite Nat2Z.id; exact Hdd]. cbn [rbind]. unfold is_vacancy in Hv. by rewrite Hv.
  Qed.
  Lemma endpoint_from t : endpoint_site act o full ini fin from to (kf, t) = Ok (Some ((fs, snd t), (ts, snd tt'))).
  Proof.
    pose proof Akf as Ha. apply (cx_inv _ _ _ C) in Ha. unfold endpoint_site. cbn [fst]. rewrite Ha.
    pose proof initial_from as Hs. pose proof Hs as (l & i & _ & _ & Hdd). unfold ini. rewrite (getitem_at _ _ _ Hdd). cbn [rbind].
    erewrite (species_at C Hdist); [|rewrite Z2Nat.id by lia; exact Hs|rewrite Nat2Z.id; exact Hdd]. cbn [rbind].
    unfold is_vacancy in Hvf, Hvt. apply not_true_is_false in Hvf, Hvt. rewrite Hvf. rewrite Z2Nat.id, Z.eqb_refl by lia.
    assert (py_get (o_a2o o) to = Ok (Z.of_nat kt)) as -> by (by apply py_get_nonneg; [lia|]). cbn [rbind].
    assert (py_get full (Z.of_nat kt) = Ok tt') as ->.
    { apply py_get_nonneg; [lia|]. rewrite Nat2Z.id. unfold full. by rewrite (full_lookup C). }
    cbn [rbind]. pose proof final_to as Hs'. pose proof Hs' as (l' & i' & _ & _ & Hdd').
    assert (getitem fin to = Ok (code (la_basis act) i')) as ->.
    { rewrite <- (Z2Nat.id to) by lia. by apply getitem_at. }
    cbn [rbind]. erewrite (species_at C Hdist); [|exact Hs'|exact Hdd']. cbn [rbind fst snd]. by rewrite Hvt.
  Qed.
  Lemma endpoint_other k t a s : o_a2o o !! a = Some (Z.of_nat k) -> a <> Z.to_nat from -> a <> Z.to_nat to ->
    holds act initial_data (Z.of_nat a) s -> ~ is_vacancy s ->
    endpoint_site act o full ini fin from to (k, t) = Ok (Some ((s, snd t), (s, snd t))).
  Proof.
    intros Ha H1 H2 Hs Hv. apply (cx_inv _ _ _ C) in Ha. unfold endpoint_site. cbn [fst]. rewrite Ha.
    pose proof Hs as (l & i & _ & _ & Hdd). rewrite Nat2Z.id in Hdd. unfold ini. rewrite (getitem_at _ _ _ Hdd). cbn [rbind].
    erewrite (species_at C Hdist); [|exact Hs|rewrite Nat2Z.id; exact Hdd]. cbn [rbind]. unfold is_vacancy in Hv. apply not_true_is_false in Hv. rewrite Hv.
    destruct (Z.eqb_spec (Z.of_nat a) from); [lia|].
    pose proof Hs as Hs'. apply same_elsewhere in Hs'; [|done..]. pose proof Hs' as (l' & i' & _ & _ & Hdd'). rewrite Nat2Z.id in Hdd'.
    unfold fin. rewrite (getitem_at _ _ _ Hdd'). cbn [rbind]. erewrite (species_at C Hdist); [|exact Hs'|rewrite Nat2Z.id; exact Hdd']. cbn [rbind fst snd].
    by rewrite Hv.
  Qed.
  Lemma endpoint_to t s : holds act initial_data to s -> ~ is_vacancy s ->
    endpoint_site act o full ini fin from to (kt, t) = Ok (Some ((s, snd t), (ts, snd t))).
  Proof.
    intros Hs Hv. pose proof Akt as Ha. apply (cx_inv _ _ _ C) in Ha. unfold endpoint_site. cbn [fst]. rewrite Ha.
    pose proof Hs as (l & i & _ & _ & Hdd). unfold ini. rewrite (getitem_at _ _ _ Hdd). cbn [rbind].
    erewrite (species_at C Hdist); [|rewrite Z2Nat.id by lia; exact Hs|rewrite Nat2Z.id; exact Hdd]. cbn [rbind].
    unfold is_vacancy in Hv, Hvt. apply not_true_is_false in Hv, Hvt. rewrite Hv.
    rewrite Z2Nat.id by lia. destruct (Z.eqb_spec to from); [lia|].
    pose proof final_to as Hs'. pose proof Hs' as (l' & i' & _ & _ & Hdd').
    assert (getitem fin to = Ok (code (la_basis act) i')) as ->.
    { rewrite <- (Z2Nat.id to) by lia. by apply getitem_at. }
    cbn [rbind]. erewrite (species_at C Hdist); [|exact Hs'|exact Hdd']. cbn [rbind fst snd]. by rewrite Hvt.
  Qed.

  Lemma pairs_ok : exists L, rmapM (endpoint_site act o full ini fin from to) (enumerate full) = Ok L.
  Proof.
    apply rmapM_ok_exists. intros [k t] _. destruct (active_or_fixed (o := o) k) as [Hfix|[a Ha]]; [eexists; by apply endpoint_fixed|].
    destruct (holds_total (o := o) (act := act) initial_data a) as (s & v & _ & Hs).
    { by apply initial_length. } { by apply initial_codes. } { by eapply lookup_lt_Some. }
    destruct (decide (is_vacancy_species (SObj s) = true)) as [Hv|Hv]; [eexists; by eapply endpoint_vacant|].
    destruct (decide (a = Z.to_nat from)) as [->|Hnf].
    { assert (k = kf) as -> by (rewrite Akf in Ha; injection Ha as Ha; lia). eexists. apply endpoint_from. }
    destruct (decide (a = Z.to_nat to)) as [->|Hnt].
    { assert (k = kt) as -> by (rewrite Akt in Ha; injection Ha as Ha; lia). rewrite Z2Nat.id in Hs by lia. eexists. by apply (endpoint_to t s). }
    eexists. by eapply endpoint_other.
  Qed.

  Section Pairs.
    Context (L : list (option (site * site))).
    Context (HL : rmapM (endpoint_site act o full ini fin from to) (enumerate full) = Ok L).

    Lemma pair_at k t : cell_site (la_template la) (1, 1, 1) k = Some t ->
      exists y, L !! k = Some y /\ endpoint_site act o full ini fin from to (k, t) = Ok y.
    Proof.
      intros Hk. destruct (rmapM_lookup_l _ _ _ k (k, t) HL) as (y & Hy & E); [|by exists y].
      rewrite enumerate_lookup. unfold full. by rewrite (full_lookup C), Hk.
    Qed.
    Lemma pair_inv k y : L !! k = Some y -> exists t, cell_site (la_template la) (1, 1, 1) k = Some t /\
      endpoint_site act o full ini fin from to (k, t) = Ok y.
    Proof.
      intros Hk. destruct (rmapM_lookup _ _ _ _ _ HL Hk) as ([k' t] & Hkt & E).
      rewrite enumerate_lookup in Hkt. unfold full in Hkt. rewrite (full_lookup C) in Hkt.
      destruct (cell_site _ _ k) as [t'|] eqn:Et; [|done]. injection Hkt as <- ->. by exists t.
    Qed.

    (** Every atom but the moving one is the same in both. *)
    Lemma pair_cases k i f : second_is_vacancy act to -> L !! k = Some (Some (i, f)) ->
      (k = kf /\ i = (fs, snd tf) /\ f = (ts, snd tt')) \/
      (k <> kf /\ k <> kt /\ i = f /\ exists t, cell_site (la_template la) (1, 1, 1) k = Some t /\ snd i = snd t /\
         (Z.of_nat k ∉ o_a2o o /\ i = t \/ exists a, o_a2o o !! a = Some (Z.of_nat k) /\ holds act initial_data (Z.of_nat a) (fst i) /\ ~ is_vacancy (fst i))).
    Proof.
      intros Hsv Hk. destruct (pair_inv k _ Hk) as (t & Hcell & E).
      assert (Hin : forall a, o_a2o o !! a = Some (Z.of_nat k) -> a <> Z.to_nat from -> k <> kf).
      { intros a Ha Hna ->. apply Hna. apply (cx_inv _ _ _ C) in Ha, Akf. congruence. }
      assert (Hin' : forall a, o_a2o o !! a = Some (Z.of_nat k) -> a <> Z.to_nat to -> k <> kt).
      { intros a Ha Hna ->. apply Hna. apply (cx_inv _ _ _ C) in Ha, Akt. congruence. }
      destruct (active_or_fixed (o := o) k) as [Hfix|[a Ha]].
      - rewrite endpoint_fixed in E by done. injection E as <- <-. right. split; [|split; [|split; [done|]]].
        + intros ->. destruct Hfix. by eapply elem_of_list_lookup_2.
        + intros ->. destruct Hfix. by eapply elem_of_list_lookup_2.
        + exists t. split; [done|]. split; [done|]. by left.
      - destruct (holds_total (o := o) (act := act) initial_data a) as (s & v & _ & Hs).
        { by apply initial_length. } { by apply initial_codes. } { by eapply lookup_lt_Some. }
        destruct (decide (is_vacancy_species (SObj s) = true)) as [Hv|Hv]; [erewrite endpoint_vacant in E by done; done|].
        destruct (decide (a = Z.to_nat from)) as [->|Hnf].
        { assert (k = kf) as -> by (rewrite Akf in Ha; injection Ha as Ha; lia). rewrite endpoint_from in E. injection E as <- <-. left. by simplify_eq. }
        destruct (decide (a = Z.to_nat to)) as [->|Hnt].
        { exfalso. rewrite Z2Nat.id in Hs by lia. destruct Hsv as (l & s' & Hal & Hl & Hvac). apply Hv.
          assert (holds act initial_data to s') as Hs'.
          { exists l, 1. split; [done|]. split; [done|]. rewrite initial_at by done. rewrite decide_False, decide_True; [done|done|].
            intros E'. by apply ne_nat, eq_sym. }
          by rewrite (holds_fun C Hdist _ _ _ _ Hs Hs'). }
        erewrite endpoint_other in E by done. injection E as <- <-. right. split; [by eapply Hin|]. split; [by eapply Hin'|]. split; [done|].
        exists t. split; [done|]. split; [done|]. right. by exists a.
    Qed.
    Lemma pair_moving : L !! kf = Some (Some ((fs, snd tf), (ts, snd tt'))).
    Proof.
      destruct (pair_at kf tf Tf) as (y & Hy & E). rewrite endpoint_from in E. by injection E as <-.
    Qed.
    Lemma pair_to : second_is_vacancy act to -> L !! kt = Some None.
    Proof.
      intros (l & s' & Hal & Hl & Hvac). destruct (pair_at kt tt' Tt) as (y & Hy & E).
      erewrite endpoint_vacant in E; [injection E as <-; done|exact Akt| |exact Hvac]. rewrite Z2Nat.id by lia.
      exists l, 1. split; [done|]. split; [done|]. rewrite initial_at by done. rewrite decide_False, decide_True; [done|done|].
      intros E'. by apply ne_nat, eq_sym.
    Qed.

    Lemma initial_structure : structure_from_active la act o ini = Ok (map fst (keep_some L)).
    Proof.
      destruct (structure_ok (la := la) C Hdist initial_data) as [L' HL']; [by apply initial_length|by apply initial_codes|].
      unfold structure_from_active. unfold ini. fold (full_sites (la := la) (o := o)). rewrite HL'. cbn [rbind]. f_equal. rewrite keep_some_map. f_equal.
      apply list_eq. intros k. change (map ?f ?l) with (f <$> l). rewrite list_lookup_fmap.
      destruct (L' !! k) as [x|] eqn:Ex.
      - destruct (rmapM_lookup _ _ _ _ _ HL' Ex) as ([k' t] & Hkt & E).
        rewrite enumerate_lookup, (full_lookup C) in Hkt. destruct (cell_site _ _ k) as [t'|] eqn:Et; [|done]. injection Hkt as <- ->.
        destruct (pair_at k t Et) as (y & Hy & E'). rewrite Hy. simpl. f_equal.
        destruct (active_or_fixed (o := o) k) as [Hfix|[a Ha]].
        + rewrite endpoint_fixed in E' by done. rewrite (site_of_original_fixed C) in E by done. injection E as <-. injection E' as <-. done.
        + destruct (holds_total (o := o) (act := act) initial_data a) as (s & v & _ & Hs).
          { by apply initial_length. } { by apply initial_codes. } { by eapply lookup_lt_Some. }
          erewrite (site_of_original_active C Hdist) in E by done.
          destruct (is_vacancy_species (SObj s)) eqn:Ev.
          { erewrite endpoint_vacant in E' by done. injection E as <-. injection E' as <-. done. }
          injection E as <-.
          assert (Hv : ~ is_vacancy s) by (unfold is_vacancy; congruence).
          destruct (decide (a = Z.to_nat from)) as [->|Hnf].
          { assert (k = kf) as -> by (rewrite Akf in Ha; injection Ha as Ha; lia). rewrite endpoint_from in E'. injection E' as <-. simpl.
            rewrite Z2Nat.id in Hs by lia. by rewrite (holds_fun C Hdist _ _ _ _ Hs initial_from). }
          destruct (decide (a = Z.to_nat to)) as [->|Hnt].
          { assert (k = kt) as -> by (rewrite Akt in Ha; injection Ha as Ha; lia). rewrite Z2Nat.id in Hs by lia. rewrite (endpoint_to t s) in E' by done. injection E' as <-. done. }
          erewrite endpoint_other in E' by done. injection E' as <-. done.
      - destruct (L !! k) as [y|] eqn:Ey; [|done]. apply lookup_lt_Some in Ey. apply lookup_ge_None in Ex.
        apply rmapM_length in HL, HL'. unfold full in HL. lia.
    Qed.

    Lemma final_atoms s p : second_is_vacancy act from -> second_is_vacancy act to ->
      (s, p) ∈ map snd (keep_some L) <-> atom la act o final_data s p.
    Proof.
      intros Hsf Hst. rewrite (elem_of_list_fmap snd). split.
      - intros ([i f] & Ef & Hin). simpl in Ef. apply elem_of_keep_some, elem_of_list_lookup in Hin as (k & Hk).
        destruct (pair_cases k i f Hst Hk) as [(-> & -> & ->)|(N1 & N2 & -> & t & Hcell & Et & Hcase)].
        + injection Ef as -> ->. exists kt, tt'. split; [done|]. split; [done|]. right. exists (Z.to_nat to). split; [done|]. rewrite Z2Nat.id by lia.
          split; [by apply final_to|done].
        + subst f. simpl in Et. exists k, t. split; [done|]. split; [done|]. destruct Hcase as [[H1 H2]|(a & Ha & H1 & H2)].
          * left. split; [done|]. by subst t.
          * right. exists a. split; [done|]. split; [|done]. apply same_elsewhere; [..|done].
            -- intros ->. apply N1. rewrite Akf in Ha. injection Ha as Ha. lia.
            -- intros ->. apply N2. rewrite Akt in Ha. injection Ha as Ha. lia.
      - intros (k & t & Hcell & -> & Hcase). destruct (pair_at k t Hcell) as (y & Hy & E).
        destruct Hcase as [[Hfix ->]|(a & Ha & Hs & Hv)].
        + rewrite endpoint_fixed in E by done. injection E as <-. exists (t, t). split; [by destruct t|]. apply elem_of_keep_some. by eapply elem_of_list_lookup_2.
        + destruct (decide (a = Z.to_nat from)) as [->|Hnf].
          { exfalso. rewrite Z2Nat.id in Hs by lia. destruct Hsf as (l & s' & Hal & Hl & Hvac). apply Hv.
            assert (holds act final_data from s') as Hs'.
            { exists l, 1. split; [done|]. split; [done|]. rewrite final_at by done. by rewrite decide_True. }
            by rewrite (holds_fun C Hdist _ _ _ _ Hs Hs'). }
          destruct (decide (a = Z.to_nat to)) as [->|Hnt].
          { rewrite Z2Nat.id in Hs by lia. rewrite (holds_fun C Hdist _ _ _ _ Hs final_to).
            assert (k = kt) as -> by (rewrite Akt in Ha; injection Ha as Ha; lia). assert (t = tt') as -> by congruence.
            exists ((fs, snd tf), (ts, snd tt')). split; [done|]. apply elem_of_keep_some. apply (elem_of_list_lookup_2 _ kf), pair_moving. }
          erewrite (endpoint_other k t a s) in E; [|done|done|done|by apply same_elsewhere|done]. injection E as <-.
          exists ((s, snd t), (s, snd t)). split; [done|]. apply elem_of_keep_some. by eapply elem_of_list_lookup_2.
    Qed.

    Lemma final_NoDup : distinct_sites (la_template la) -> second_is_vacancy act to -> NoDup (map snd (keep_some L)).
    Proof.
      intros Hds Hst. apply NoDup_alt. intros i j x Hi Hj. change (map ?f ?l) with (f <$> l) in Hi, Hj. rewrite list_lookup_fmap in Hi, Hj.
      destruct (keep_some L !! i) as [[a x1]|] eqn:Ei; [|done]. destruct (keep_some L !! j) as [[b x2]|] eqn:Ej; [|done].
      simpl in Hi, Hj. injection Hi as ->. injection Hj as ->.
      destruct (keep_some_lookup _ _ _ Ei) as (k & Hk & ->). destruct (keep_some_lookup _ _ _ Ej) as (k' & Hk' & ->).
      assert (k = k') as ->; [|done].
      assert (U : forall j k t u, cell_site (la_template la) (1, 1, 1) j = Some t -> cell_site (la_template la) (1, 1, 1) k = Some u -> snd t = snd u -> j = k).
      { intros j' k1 t u H1 H2 E. eapply supercell_distinct; [apply one_shape|exact Hds|exact H1|exact H2|]. rewrite E. apply congruent_refl. }
      destruct (pair_cases k a x Hst Hk) as [(-> & -> & ->)|(N1 & N2 & -> & t & Hcell & Et & _)].
      - destruct (pair_cases k' b _ Hst Hk') as [(-> & -> & _)|(N1' & N2' & -> & t' & Hcell' & Et' & _)]; [done|].
        simpl in Et'. destruct N2'. symmetry. eapply U; [exact Tt|exact Hcell'|done].
      - destruct (pair_cases k' b _ Hst Hk') as [(-> & -> & ->)|(N1' & N2' & -> & t' & Hcell' & Et' & _)].
        + simpl in Et. destruct N2. symmetry. eapply U; [exact Tt|exact Hcell|done].
        + eapply U; [exact Hcell|exact Hcell'|congruence].
    Qed.

    Lemma one_atom_moves : second_is_vacancy act to ->
      exists m, map fst (keep_some L) !! m = Some (fs, snd tf) /\ map snd (keep_some L) !! m = Some (ts, snd tt') /\
        forall j, j <> m -> map fst (keep_some L) !! j = map snd (keep_some L) !! j.
    Proof.
      intros Hst. pose proof (keep_some_position _ _ _ pair_moving) as Hm. exists (length (keep_some (take kf L))).
      change (map ?f ?l) with (f <$> l). split; [by rewrite list_lookup_fmap, Hm|]. split; [by rewrite list_lookup_fmap, Hm|].
      intros j Hj. change (map ?f ?l) with (f <$> l). rewrite !list_lookup_fmap. destruct (keep_some L !! j) as [[i f]|] eqn:E; [|done]. simpl. f_equal.
      destruct (keep_some_lookup _ _ _ E) as (k & Hk & ->).
      destruct (pair_cases k i f Hst Hk) as [(-> & _ & _)|(_ & _ & -> & _)]; done.
    Qed.
  End Pairs.
End Neb.


Section Main.
  Variable parse : string -> result species.
  Variable fp : fp_payload -> string.
  Context (template : list site) (mapping : list (spval * allowedval)) (bt : string) (la act : lattice) (o : order).
  Context (M : made parse template mapping bt la) (Hctx : active_context parse fp la = Ok (act, o)) (Hdist : tells_apart la).

  Local Lemma ctx : context la act o.
  Proof using M Hctx. by destruct (context_of _ _ _ _ _ _ _ _ M Hctx). Qed.
  Local Lemma ctx_template : la_template la = template.
  Proof using M Hctx. by destruct (context_of _ _ _ _ _ _ _ _ M Hctx). Qed.

  Lemma enumerate_inv local counts vs given base max tol rs :
    sites_in_range act local -> no_repeats local given -> proper_counts counts ->
    enumerate_local_environments parse fp la local counts vs given base max tol = Ok rs ->
    exists vars b pre rest os, (1 <= max)%Z /\ variable_sites_are act vs local given vars /\ base_values act base tol b /\
      (forall req, counts = Some req -> total req = Z.of_nat (length vars)) /\
      NoDup (pre ++ rest) /\ (forall cs, cs ∈ pre ++ rest <-> assignment act vs vars cs) /\
      Forall2 (fun cs x => match x with Some r => meets counts cs /\ result_ok (la := la) (act := act) (o := o) local vars cs b r | None => ~ meets counts cs end) pre os /\
      rs = keep_some os /\ length rs <= Z.to_nat max /\ (length rs < Z.to_nat max -> rest = []).
  Proof using M Hctx Hdist.
    intros Hloc Hrep Hp H. pose proof ctx as C.
    unfold enumerate_local_environments in H. destruct (Z.ltb_spec max 1); [done|]. rewrite Hctx in H. cbn [rbind] in H.
    apply rbind_ok in H as (b & Hb & H). apply rbind_ok in H as (vars & Hv & H). cbn zeta in H.
    destruct (match canonical_counts counts with Some c => _ | None => _ end) eqn:Ec; [done|].
    apply rbind_ok in H as (choices & Hch & H).
    destruct (variables_inv C _ _ _ _ Hv) as [Hvs Hvl].
    destruct (base_codes C base tol b Hb) as (Eb & Hbl & Hbc & Hbv).
    destruct (in_choices C Hdist vs vars choices Hch) as [Hin Hnd].
    apply collect_spec in H as (pre & rest & os & Epr & Hos & -> & Hle & Hrest); [|lia].
    rewrite Epr in Hin, Hnd.
    assert (Hloc' : forall i, i ∈ local -> (0 <= i < Z.of_nat (active_site_count o))%Z).
    { intros i Hi. rewrite <- (cx_len _ _ _ C). by apply Hloc. }
    exists vars, (oc_data b), pre, rest, os. split; [lia|]. do 2 (split; [done|]). split.
    { intros req ->. simpl in Ec. rewrite zsum_total in Ec by done. apply negb_false_iff, Z.eqb_eq in Ec. done. }
    do 2 (split; [done|]). split.
    { apply Forall2_same_length_lookup_2; [symmetry; by eapply rmapM_length|]. intros k cs x Hk Hx.
      destruct (rmapM_lookup _ _ _ _ _ Hos Hx) as (cs' & Hk' & Hf). assert (cs' = cs) as -> by congruence.
      destruct (one_choice_ok C Hdist (oc_data b) local vars counts cs) as (x' & Hx' & HR).
      - by eapply vars_NoDup.
      - done.
      - done.
      - done.
      - done.
      - eapply assignment_weak. apply Hin. apply elem_of_app. left. by eapply elem_of_list_lookup_2.
      - rewrite <- Eb, Hf in Hx'. injection Hx' as <-. done. }
    done.
  Qed.

  Lemma enumeration_lemma local counts vs given base max tol rs :
    sites_in_range act local -> no_repeats local given -> proper_counts counts ->
    enumerate_local_environments parse fp la local counts vs given base max tol = Ok rs ->
    exists vars b, variable_sites_are act vs local given vars /\ base_values act base tol b /\
      (Z.of_nat (length rs) <= max)%Z /\
      (forall r, r ∈ rs -> exists cs, assignment act vs vars cs /\ meets counts cs /\ shows act vars cs b r /\
         en_local_sites r = local /\ en_variable_sites r = vars /\
         Forall2 (fun i v => oc_data (en_full r) !! Z.to_nat i = Some v) local (en_local r)) /\
      NoDup (map en_full rs) /\
      ((Z.of_nat (length rs) < max)%Z ->
        forall cs, assignment act vs vars cs -> meets counts cs -> exists r, r ∈ rs /\ shows act vars cs b r).
  Proof using M Hctx Hdist.
    intros Hloc Hrep Hp H. pose proof ctx as C.
    destruct (enumerate_inv _ _ _ _ _ _ _ _ Hloc Hrep Hp H) as (vars & b & pre & rest & os & Hm & Hv & Hb & _ & Hnd & Hin & HF & -> & Hle & Hrest).
    exists vars, b. do 2 (split; [done|]). split; [lia|]. split; [|split].
    - intros r Hr. apply elem_of_keep_some, elem_of_list_lookup in Hr as (k & Hk).
      destruct (Forall2_lookup_r _ _ _ _ _ HF Hk) as (cs & Hcs & Hmt & HR). exists cs. split.
      + apply Hin, elem_of_app. left. by eapply elem_of_list_lookup_2.
      + destruct HR as (R1 & _ & _ & R2 & R3 & R4 & _). split; [done|]. split; [done|]. split; [done|]. split; [done|].
        eapply Forall2_impl; [exact R4|]. by intros ? ? [_ ?].
    - apply NoDup_alt. intros i j x Hi Hj. change (map ?f ?l) with (f <$> l) in Hi, Hj. rewrite list_lookup_fmap in Hi, Hj.
      destruct (keep_some os !! i) as [r|] eqn:Er; [|done]. destruct (keep_some os !! j) as [r'|] eqn:Er'; [|done].
      simpl in Hi, Hj. injection Hi as Hi. injection Hj as Hj.
      destruct (keep_some_lookup _ _ _ Er) as (k & Hk & ->). destruct (keep_some_lookup _ _ _ Er') as (k' & Hk' & ->).
      destruct (Forall2_lookup_r _ _ _ _ _ HF Hk) as (cs & Hcs & _ & HR). destruct (Forall2_lookup_r _ _ _ _ _ HF Hk') as (cs' & Hcs' & _ & HR').
      assert (cs = cs') as <-.
      { destruct HR as (R1 & _), HR' as (R1' & _). eapply shows_fun; [exact C|exact Hdist| | |exact R1|exact R1'|congruence].
        - eapply Forall2_length. apply (assignment_weak (act := act) vs), Hin, elem_of_app. left. by eapply elem_of_list_lookup_2.
        - eapply Forall2_length. apply (assignment_weak (act := act) vs), Hin, elem_of_app. left. by eapply elem_of_list_lookup_2. }
      apply NoDup_app in Hnd as [Hnd _]. rewrite (NoDup_lookup _ _ _ _ Hnd Hcs Hcs'). done.
    - intros Hlt cs Has Hmt. rewrite Hrest in Hin by lia. rewrite app_nil_r in Hin. apply Hin, elem_of_list_lookup in Has as (k & Hk).
      destruct (Forall2_lookup_l _ _ _ _ _ HF Hk) as (x & Hx & HR). destruct x as [r|]; [|done]. destruct HR as [_ (R1 & _)].
      exists r. split; [|done]. apply elem_of_keep_some. by eapply elem_of_list_lookup_2.
  Qed.

  Lemma enumeration_iff_lemma local counts vs given base max tol :
    sites_in_range act local -> no_repeats local given -> proper_counts counts ->
    (exists rs, enumerate_local_environments parse fp la local counts vs given base max tol = Ok rs) <->
    (1 <= max)%Z /\
    (forall S, base = Some S -> readable act S tol (1, 1, 1)) /\
    (forall l, given = Some l -> forall i, i ∈ l -> i ∈ local /\ exists allowed s, allows act i allowed /\ permitted vs allowed s) /\
    exists vars, variable_sites_are act vs local given vars /\ forall req, counts = Some req -> total req = Z.of_nat (length vars).
  Proof using M Hctx Hdist.
    intros Hloc Hrep Hp. pose proof ctx as C.
    assert (Hloc' : forall i, i ∈ local -> (0 <= i < Z.of_nat (active_site_count o))%Z).
    { intros i Hi. rewrite <- (cx_len _ _ _ C). by apply Hloc. }
    split.
    - intros [rs H]. destruct (enumerate_inv _ _ _ _ _ _ _ _ Hloc Hrep Hp H) as (vars & b & pre & rest & os & Hm & Hv & Hb & Ht & _).
      split; [done|]. split; [|split; [|by exists vars]].
      + intros S ->. simpl in Hb. apply (reads_full _ _ _ _ _ (cx_awf _ _ _ C) one_shape) in Hb as [Hr _]. done.
      + intros l -> i Hi. unfold enumerate_local_environments in H. destruct (Z.ltb_spec max 1); [done|]. rewrite Hctx in H. cbn [rbind] in H.
        apply rbind_ok in H as (b' & _ & H). apply rbind_ok in H as (vars' & Hv' & H).
        apply (variables_inv C) in Hv' as [E Hv']. simpl in E. subst vars'. destruct (Hv' i Hi) as [Hil (al & Hal & Hne)].
        split; [done|]. destruct (pick vs al) as [|s r] eqn:Ep; [done|]. exists al, s. split; [done|]. apply elem_of_pick. rewrite Ep. by left.
    - intros (Hm & Hr & Hg & vars & Hv & Ht). unfold enumerate_local_environments. destruct (Z.ltb_spec max 1); [lia|]. rewrite Hctx. cbn [rbind].
      assert (exists b, base_occupation act base tol = Ok b) as [b Hb].
      { unfold base_occupation. destruct base as [S|]; [|by eexists]. apply (readable_ok act S tol (1, 1, 1) (cx_awf _ _ _ C) one_shape). by apply Hr. }
      rewrite Hb. cbn [rbind].
      assert (Hres : exists vars', resolve_variable_sites act local given vs = Ok vars').
      { unfold resolve_variable_sites. destruct given as [l|].
        - assert (forallb (fun i => bool_decide (i ∈ local)) l = true) as ->.
          { apply forallb_forall. intros i Hi. apply bool_decide_eq_true. apply (Hg l eq_refl i). by apply elem_of_list_In. }
          simpl. destruct (rmapM_ok_exists (fun i => allowed_choices act i vs) l) as [x Hx]; [|rewrite Hx; by eexists].
          intros i Hi. destruct (Hg l eq_refl i Hi) as (_ & al & s & Hal & Hs). eexists. apply (allowed_choices_ok C); [done|].
          apply elem_of_pick in Hs. intros E. rewrite E in Hs. by apply elem_of_nil in Hs.
        - eexists. by apply (variable_default_ok C). }
      destruct Hres as [vars' Hres]. rewrite Hres. cbn [rbind]. cbn zeta.
      destruct (variables_inv C _ _ _ _ Hres) as [Hvs Hvl].
      assert (match canonical_counts counts with Some c => negb (zsum (dvalues c) =? Z.of_nat (length vars'))%Z | None => false end = false) as ->.
      { destruct counts as [req|]; [|done]. simpl. rewrite zsum_total by done. rewrite (Ht req eq_refl).
        rewrite (vars_length vs local given vars vars' Hrep Hv Hvs). by rewrite Z.eqb_refl. }
      destruct (rmapM_ok_exists (fun i => allowed_choices act i vs) vars') as [choices Hch].
      { intros i Hi. destruct (Hvl i Hi) as (_ & l & Hal & Hne). eexists. by apply (allowed_choices_ok C). }
      rewrite Hch. cbn [rbind]. apply collect_total. intros cs Hcs.
      destruct (base_codes C base tol b Hb) as (Eb & Hbl & Hbc & Hbv). rewrite Eb.
      apply (proj1 (in_choices C Hdist vs vars' choices Hch)) in Hcs.
      destruct (one_choice_ok C Hdist (oc_data b) local vars' counts cs) as (x & Hx & _); [by eapply vars_NoDup|done..|by eapply assignment_weak|].
      by exists x.
  Qed.

  Lemma limit_lemma local counts vs given base max max' tol rs rs' :
    (max <= max')%Z ->
    enumerate_local_environments parse fp la local counts vs given base max tol = Ok rs ->
    enumerate_local_environments parse fp la local counts vs given base max' tol = Ok rs' ->
    rs = take (Z.to_nat max) rs'.
  Proof using Hctx.
    intros Hle H H'. unfold enumerate_local_environments in H, H'. rewrite Hctx in H, H'.
    destruct (Z.ltb_spec max 1); [done|]. destruct (Z.ltb_spec max' 1); [done|]. cbn [rbind] in H, H'.
    apply rbind_ok in H as (b & Hb & H). apply rbind_ok in H as (vars & Hv & H). cbn zeta in H.
    rewrite Hb in H'. cbn [rbind] in H'. rewrite Hv in H'. cbn [rbind] in H'. cbn zeta in H'.
    destruct (match canonical_counts counts with Some c => _ | None => _ end); [done|].
    apply rbind_ok in H as (choices & Hc & H). rewrite Hc in H'. cbn [rbind] in H'.
    eapply collect_prefix; [|exact H|exact H']. lia.
  Qed.

  Lemma structure_lemma local counts vs given base max tol rs :
    sites_in_range act local -> no_repeats local given -> proper_counts counts ->
    enumerate_local_environments parse fp la local counts vs given base max tol = Ok rs ->
    forall r, r ∈ rs ->
    (forall s p, (s, p) ∈ en_structure r <-> atom la act o (oc_data (en_full r)) s p) /\
    (distinct_sites template -> fixed_sites_occupied la template o -> forall tol', (0 <= tol')%Q ->
     exists full, get_occ_from_structure la (en_structure r) tol' (1, 1, 1) None = Ok full /\
       select_active_values o (oc_data full) = Ok (oc_data (en_full r))).
  Proof using M Hctx Hdist.
    intros Hloc Hrep Hp H r Hr. pose proof ctx as C.
    destruct (enumerate_inv _ _ _ _ _ _ _ _ Hloc Hrep Hp H) as (vars & b & pre & rest & os & Hm & Hv & Hb & _ & Hnd & Hin & HF & -> & Hle & Hrest).
    apply elem_of_keep_some, elem_of_list_lookup in Hr as (k & Hk).
    destruct (Forall2_lookup_r _ _ _ _ _ HF Hk) as (cs & Hcs & Hmt & HR).
    destruct HR as (R1 & R2 & R3 & _ & _ & _ & R4).
    assert (E : en_full r = Occupation (la_basis act) (oc_data (en_full r))).
    { destruct R1 as [Eb _]. rewrite <- Eb. by destruct (en_full r). }
    rewrite E in R4.
    pose proof (structure_atoms C Hdist _ _ R3 R2 R4) as Hat. split; [done|]. intros Hd Hf tol' Ht. rewrite <- ctx_template in Hd, Hf.
    destruct (reads_back C Hdist _ _ tol' R3 R2 Hd Hf Ht (structure_NoDup C Hdist _ _ Hd R3 R2 R4) Hat) as (full & H1 & _ & H2). by exists full.
  Qed.

  Lemma environment_ok env d : environment_values act o env d -> all_codes act d ->
    environment_occupation act o env = Ok (Occupation (la_basis act) d) /\ length d = active_site_count o.
  Proof using M Hctx.
    intros [Hl He] Hc. pose proof ctx as C. rewrite (cx_len _ _ _ C) in Hl. split; [|done].
    pose proof (all_codes_valid C d Hl Hc) as Hv.
    destruct env as [e|oc|l]; simpl in *; [by rewrite He| |]; rewrite He; cbn [rbind]; unfold occupation_new; cbn zeta; by rewrite Hv.
  Qed.

  Lemma active_site_of (i : Z) : (0 <= i < Z.of_nat (active_site_count o))%Z -> exists k t,
    o_a2o o !! Z.to_nat i = Some (Z.of_nat k) /\ cell_site (la_template la) (1, 1, 1) k = Some t /\ la_template act !! Z.to_nat i = Some t.
  Proof using M Hctx.
    intros Hi. pose proof ctx as C. destruct (lookup_lt_is_Some_2 (o_a2o o) (Z.to_nat i)) as [z Hz].
    { unfold active_site_count in Hi. lia. }
    destruct (cx_site _ _ _ C _ _ Hz) as (k & l & -> & Hk & Hs & _).
    destruct (cell_site_total (la_template la) (1, 1, 1) k one_shape) as [t Ht]; [simpl; lia|].
    exists k, t. by rewrite Hs.
  Qed.

  Lemma indices_ok from to : validate_active_indices o [from; to] = Ok tt <->
    (0 <= from < Z.of_nat (active_site_count o))%Z /\ (0 <= to < Z.of_nat (active_site_count o))%Z.
  Proof using.
    unfold validate_active_indices. simpl.
    destruct (Z.ltb_spec from 0), (Z.leb_spec (Z.of_nat (active_site_count o)) from), (Z.ltb_spec to 0), (Z.leb_spec (Z.of_nat (active_site_count o)) to);
      simpl; split; try done; try lia.
  Qed.

  Definition hop_ok (from to : Z) (fs ts : species) : Prop :=
    (0 <= from < Z.of_nat (active_site_count o))%Z /\ (0 <= to < Z.of_nat (active_site_count o))%Z /\ from <> to /\
    first_species act from fs /\ first_species act to ts /\ ~ is_vacancy fs /\ ~ is_vacancy ts /\ same_name fs ts.

  Lemma generate_value env d from to fs ts : environment_values act o env d -> all_codes act d -> hop_ok from to fs ts ->
    exists L,
      rmapM (endpoint_site act o (full_sites (la := la) (o := o)) (Occupation (la_basis act) (initial_data (act := act) d from to))
        (Occupation (la_basis act) (final_data (act := act) d from to)) from to) (enumerate (full_sites (la := la) (o := o))) = Ok L /\
      generate_neb_endpoint_pair parse fp la env [from; to] = Ok (EndpointPair (map fst (keep_some L)) (map snd (keep_some L))
        (Occupation (la_basis act) (initial_data (act := act) d from to)) (Occupation (la_basis act) (final_data (act := act) d from to)) (from, to)).
  Proof using M Hctx Hdist.
    intros He Hc (Hf & Ht & Hne & Hfs & Hts & Hvf & Hvt & Hsame). pose proof ctx as C.
    destruct (environment_ok env d He Hc) as [Hocc Hl].
    destruct (active_site_of from Hf) as (kf & tf & Akf & Tf & _). destruct (active_site_of to Ht) as (kt & t' & Akt & Tt & _).
    destruct (pairs_ok C Hdist d from to Hl Hc Hf Ht Hne fs ts Hfs Hts Hvf Hvt kf kt t' Akf Akt Tt) as [L HL].
    exists L. split; [done|]. unfold generate_neb_endpoint_pair. rewrite Hctx. cbn [rbind unpack2].
    rewrite (proj2 (indices_ok from to) (conj Hf Ht)). cbn [rbind]. destruct (Z.eqb_spec from to); [done|]. rewrite Hocc. cbn [rbind oc_data].
    rewrite Hl, Nat.eqb_refl. cbn [negb]. rewrite (proj2 (first_allowed_spec act from fs ltac:(lia)) Hfs). cbn [rbind].
    rewrite (proj2 (first_allowed_spec act to ts ltac:(lia)) Hts). cbn [rbind].
    unfold is_vacancy in Hvf, Hvt. apply not_true_is_false in Hvf, Hvt. rewrite Hvf, Hvt. cbn [orb].
    rewrite (proj2 (species_same_spec fs ts) Hsame). cbn [negb]. rewrite match_code, mismatch_code.
    destruct (set_code C d from 0 Hf) as [E1 C1]; [lia|done..|]. rewrite E1. cbn [rbind].
    destruct (set_code C (<[Z.to_nat from := code (la_basis act) 0]> d) to 1 Ht) as [E2 C2]; [lia|by rewrite insert_length|done|].
    rewrite E2. cbn [rbind].
    change (<[Z.to_nat to := code (la_basis act) 1]> (<[Z.to_nat from := code (la_basis act) 0]> d)) with (initial_data (act := act) d from to).
    rewrite (flip_initial d from to Hl Hf Ht Hne). cbn [rbind]. fold (full_sites (la := la) (o := o)). by rewrite HL.
  Qed.

  Lemma generate_iff_lemma env d from to : environment_values act o env d -> all_codes act d ->
    (exists ep, generate_neb_endpoint_pair parse fp la env [from; to] = Ok ep) <->
    sites_in_range act [from; to] /\ from <> to /\
    exists fs ts, first_species act from fs /\ first_species act to ts /\ ~ is_vacancy fs /\ ~ is_vacancy ts /\ same_name fs ts.
  Proof using M Hctx Hdist.
    intros He Hc. pose proof ctx as C. split.
    - intros [ep H]. unfold generate_neb_endpoint_pair in H. rewrite Hctx in H. cbn [rbind unpack2] in H.
      apply rbind_ok in H as ([] & Hi & H). apply indices_ok in Hi as [Hf Ht]. destruct (Z.eqb_spec from to); [done|].
      apply rbind_ok in H as (oc & Hoc & H). destruct (negb _); [done|].
      apply rbind_ok in H as (fs & Hfs & H). apply rbind_ok in H as (ts & Hts & H).
      apply first_allowed_spec in Hfs; [|lia]. apply first_allowed_spec in Hts; [|lia].
      destruct (is_vacancy_species (SObj fs)) eqn:Vf; [done|]. destruct (is_vacancy_species (SObj ts)) eqn:Vt; [done|]. cbn [orb] in H.
      destruct (species_same fs ts) eqn:Es; [|done]. apply species_same_spec in Es.
      split; [|split; [done|]].
      + intros i Hi. rewrite (cx_len _ _ _ C). apply elem_of_cons in Hi as [->|Hi]; [done|]. apply elem_of_list_singleton in Hi as ->. done.
      + exists fs, ts. unfold is_vacancy. rewrite Vf, Vt. split; [done|]. split; [done|]. by split; [|split].
    - intros (Hr & Hne & fs & ts & H). destruct (generate_value env d from to fs ts He Hc) as (L & _ & E); [|by eexists].
      pose proof (Hr from ltac:(by left)) as H1. pose proof (Hr to ltac:(right; by left)) as H2. rewrite (cx_len _ _ _ C) in H1, H2.
      destruct H as (?&?&?&?&?). by repeat (split; [done|]).
  Qed.

  Lemma generate_inv env d from to ep : environment_values act o env d -> all_codes act d ->
    generate_neb_endpoint_pair parse fp la env [from; to] = Ok ep -> exists fs ts, hop_ok from to fs ts.
  Proof using M Hctx Hdist.
    intros He Hc H. pose proof ctx as C. destruct (proj1 (generate_iff_lemma env d from to He Hc)) as (Hr & Hne & fs & ts & G); [by eexists|].
    exists fs, ts. pose proof (Hr from ltac:(by left)) as H1. pose proof (Hr to ltac:(right; by left)) as H2. rewrite (cx_len _ _ _ C) in H1, H2.
    by repeat (split; [done|]).
  Qed.

  Lemma occupations_lemma env d from to ep : environment_values act o env d -> all_codes act d ->
    generate_neb_endpoint_pair parse fp la env [from; to] = Ok ep ->
    ep_indices ep = (from, to) /\
    oc_basis (ep_initial_occ ep) = la_basis act /\ oc_basis (ep_final_occ ep) = la_basis act /\
    oc_data (ep_initial_occ ep) !! Z.to_nat from = Some (code (la_basis act) 0) /\
    oc_data (ep_initial_occ ep) !! Z.to_nat to = Some (code (la_basis act) 1) /\
    oc_data (ep_final_occ ep) !! Z.to_nat from = Some (code (la_basis act) 1) /\
    oc_data (ep_final_occ ep) !! Z.to_nat to = Some (code (la_basis act) 0) /\
    forall j : nat, Z.of_nat j <> from -> Z.of_nat j <> to ->
      oc_data (ep_initial_occ ep) !! j = d !! j /\ oc_data (ep_final_occ ep) !! j = d !! j.
  Proof using M Hctx Hdist.
    intros He Hc H. destruct (generate_inv _ _ _ _ _ He Hc H) as (fs & ts & Hop).
    destruct (generate_value env d from to fs ts He Hc Hop) as (L & _ & E). rewrite E in H. injection H as <-. simpl.
    destruct (environment_ok env d He Hc) as [_ Hl]. destruct Hop as (Hf & Ht & Hne & _).
    assert (Z.to_nat to <> Z.to_nat from) by lia.
    split; [done|]. split; [done|]. split; [done|].
    split; [rewrite (initial_at (o := o)) by done; by rewrite decide_True|].
    split; [rewrite (initial_at (o := o)) by done; by rewrite decide_False, decide_True|].
    split; [rewrite (final_at (o := o)) by done; by rewrite decide_True|].
    split; [rewrite (final_at (o := o)) by done; by rewrite decide_False, decide_True|].
    intros j H1 H2. rewrite (initial_at (o := o)), (final_at (o := o)) by done. by rewrite !(decide_False (P := j = Z.to_nat from)), !(decide_False (P := j = Z.to_nat to)) by lia.
  Qed.

  Lemma endpoints_lemma env d from to ep : environment_values act o env d -> all_codes act d ->
    generate_neb_endpoint_pair parse fp la env [from; to] = Ok ep ->
    second_is_vacancy act from -> second_is_vacancy act to ->
    (exists m fs ts p q, first_species act from fs /\ first_species act to ts /\ position act from p /\ position act to q /\
       ep_initial ep !! m = Some (fs, p) /\ ep_final ep !! m = Some (ts, q) /\
       forall j, j <> m -> ep_initial ep !! j = ep_final ep !! j) /\
    (forall s p, (s, p) ∈ ep_initial ep <-> atom la act o (oc_data (ep_initial_occ ep)) s p) /\
    (forall s p, (s, p) ∈ ep_final ep <-> atom la act o (oc_data (ep_final_occ ep)) s p) /\
    (distinct_sites template -> fixed_sites_occupied la template o -> forall tol, (0 <= tol)%Q ->
     exists i f, get_occ_from_structure la (ep_initial ep) tol (1, 1, 1) None = Ok i /\
       select_active_values o (oc_data i) = Ok (oc_data (ep_initial_occ ep)) /\
       get_occ_from_structure la (ep_final ep) tol (1, 1, 1) None = Ok f /\
       select_active_values o (oc_data f) = Ok (oc_data (ep_final_occ ep))).
  Proof using M Hctx Hdist.
    intros He Hc H Sf St. pose proof ctx as C. destruct (generate_inv _ _ _ _ _ He Hc H) as (fs & ts & Hop).
    destruct (generate_value env d from to fs ts He Hc Hop) as (L & HL & E). rewrite E in H. injection H as <-. simpl.
    destruct (environment_ok env d He Hc) as [_ Hl]. destruct Hop as (Hf & Ht & Hne & Hfs & Hts & Hvf & Hvt & Hsame).
    destruct (active_site_of from Hf) as (kf & [sf pf] & Akf & Tf & Pf). destruct (active_site_of to Ht) as (kt & [st pt] & Akt & Tt & Pt).
    assert (Hil : length (initial_data (act := act) d from to) = active_site_count o) by (by apply initial_length).
    assert (Hfl : length (final_data (act := act) d from to) = active_site_count o) by (by apply final_length).
    assert (Hic : all_codes act (initial_data (act := act) d from to)) by (by eapply initial_codes).
    assert (Hfc : all_codes act (final_data (act := act) d from to)) by (by eapply final_codes).
    pose proof (initial_structure C Hdist d from to Hl Hc Hf Ht Hne fs ts Hfs Hts Hvf Hvt kf kt _ Akf Akt Tt L HL) as HSi.
    pose proof (structure_atoms C Hdist _ _ Hil Hic HSi) as Hai.
    assert (Haf : forall s p, (s, p) ∈ map snd (keep_some L) <-> atom la act o (final_data (act := act) d from to) s p).
    { intros s p. exact (final_atoms C Hdist d from to Hl Hc Hf Ht Hne fs ts Hfs Hts Hvf Hvt kf kt _ _ Akf Akt Tf Tt L HL s p Sf St). }
    split; [|split; [done|split; [done|]]].
    - destruct (one_atom_moves C Hdist d from to Hl Hc Hf Ht Hne fs ts Hfs Hts Hvf Hvt kf kt _ _ Akf Akt Tf Tt L HL St) as (m & M1 & M2 & M3).
      exists m, fs, ts, pf, pt. split; [done|]. split; [done|]. split; [by exists sf|]. split; [by exists st|]. done.
    - intros Hds Hfx tol Htol. rewrite <- ctx_template in Hds, Hfx.
      destruct (reads_back C Hdist _ _ tol Hil Hic Hds Hfx Htol (structure_NoDup C Hdist _ _ Hds Hil Hic HSi) Hai) as (i & I1 & _ & I2).
      pose proof (final_NoDup C Hdist d from to Hl Hc Hf Ht Hne fs ts Hfs Hts Hvf Hvt kf kt _ _ Akf Akt Tf Tt L HL Hds St) as Hnd.
      destruct (reads_back C Hdist _ _ tol Hfl Hfc Hds Hfx Htol Hnd Haf) as (f & F1 & _ & F2).
      by exists i, f.
  Qed.

  Lemma pairs_distinct_lemma local counts vs given base max tol from to ps :
    sites_in_range act local -> no_repeats local given -> proper_counts counts ->
    enumerate_neb_endpoint_pairs parse fp la [from; to] local counts vs given base max tol = Ok ps ->
    (forall vars, variable_sites_are act vs local given vars -> from ∉ vars /\ to ∉ vars) ->
    exists rs, enumerate_local_environments parse fp la local counts vs given base max tol = Ok rs /\
      length ps = length rs /\
      (forall k r p, rs !! k = Some r -> ps !! k = Some p ->
         generate_neb_endpoint_pair parse fp la (FromEnumeration r) [from; to] = Ok p /\
         forall j : nat, Z.of_nat j <> from -> Z.of_nat j <> to ->
           oc_data (ep_initial_occ p) !! j = oc_data (en_full r) !! j) /\
      NoDup (map ep_initial_occ ps).
  Proof using M Hctx Hdist.
    intros Hloc Hrep Hp H Hvar. pose proof ctx as C. unfold enumerate_neb_endpoint_pairs in H. cbn [unpack2 rbind] in H.
    apply rbind_ok in H as (rs & Hrs & H). exists rs. split; [done|]. split; [by eapply rmapM_length|].
    destruct (enumerate_inv _ _ _ _ _ _ _ _ Hloc Hrep Hp Hrs) as (vars & b & pre & rest & os & Hm & Hv & Hb & _ & _ & _ & HF & Ers & _).
    destruct (enumeration_lemma _ _ _ _ _ _ _ _ Hloc Hrep Hp Hrs) as (_ & _ & _ & _ & _ & _ & Hnd & _).
    destruct (Hvar vars Hv) as [Nf Nt].
    assert (Hr : forall k r p, rs !! k = Some r -> ps !! k = Some p ->
      (0 <= from)%Z /\ (0 <= to)%Z /\ oc_basis (en_full r) = la_basis act /\ oc_basis (ep_initial_occ p) = la_basis act /\
      oc_data (en_full r) !! Z.to_nat from = b !! Z.to_nat from /\ oc_data (en_full r) !! Z.to_nat to = b !! Z.to_nat to /\
      forall j : nat, Z.of_nat j <> from -> Z.of_nat j <> to -> oc_data (ep_initial_occ p) !! j = oc_data (en_full r) !! j).
    { intros k r p Hk Hkp. destruct (rmapM_lookup _ _ _ _ _ H Hkp) as (r' & Hk' & G). assert (r' = r) as -> by congruence.
      apply elem_of_list_lookup_2 in Hk. rewrite Ers in Hk. apply elem_of_keep_some, elem_of_list_lookup in Hk as (q & Hq).
      destruct (Forall2_lookup_r _ _ _ _ _ HF Hq) as (cs & Hcs & _ & HR). destruct HR as ((R1 & R2 & R3 & R4) & R5 & R6 & _).
      assert (He : environment_values act o (FromEnumeration r) (oc_data (en_full r))).
      { split; [by rewrite R6, (cx_len _ _ _ C)|]. rewrite <- R1. by destruct (en_full r). }
      destruct (generate_inv _ _ _ _ _ He R5 G) as (fs & ts & Hop).
      destruct (occupations_lemma _ _ _ _ _ He R5 G) as (_ & B1 & _ & _ & _ & _ & _ & B2).
      destruct Hop as (Hf & Ht & _). split; [lia|]. split; [lia|]. split; [done|]. split; [done|].
      split; [apply R4; by rewrite Z2Nat.id by lia|]. split; [apply R4; by rewrite Z2Nat.id by lia|].
      intros j H1 H2. by apply B2. }
    split.
    { intros k r p Hk Hkp. split; [|by apply (Hr k r p)]. destruct (rmapM_lookup _ _ _ _ _ H Hkp) as (r' & Hk' & G). congruence. }
    apply NoDup_alt. intros i j x Hi Hj. change (map ?f ?l) with (f <$> l) in Hi, Hj. rewrite list_lookup_fmap in Hi, Hj.
    destruct (ps !! i) as [p|] eqn:Ep; [|done]. destruct (ps !! j) as [p'|] eqn:Ep'; [|done]. simpl in Hi, Hj. injection Hi as Hi. injection Hj as Hj.
    destruct (rmapM_lookup _ _ _ _ _ H Ep) as (r & Er & _). destruct (rmapM_lookup _ _ _ _ _ H Ep') as (r' & Er' & _).
    destruct (Hr i r p Er Ep) as (P1 & P2 & B & _ & F1 & T1 & O1). destruct (Hr j r' p' Er' Ep') as (_ & _ & B' & _ & F2 & T2 & O2).
    assert (en_full r = en_full r') as E.
    { destruct (en_full r) as [b1 d1], (en_full r') as [b2 d2]. simpl in *. subst b1 b2. f_equal. apply list_eq. intros q.
      destruct (decide (Z.of_nat q = from)) as [E|N1]; [assert (q = Z.to_nat from) as -> by lia; congruence|].
      destruct (decide (Z.of_nat q = to)) as [E|N2]; [assert (q = Z.to_nat to) as -> by lia; congruence|].
      rewrite <- O1, <- O2 by done. congruence. }
    eapply (NoDup_lookup (map en_full rs)); [done| |]; change (map ?f ?l) with (f <$> l); rewrite list_lookup_fmap.
    - rewrite Er. reflexivity.
    - rewrite Er'. simpl. by rewrite E.
  Qed.
End Main.
