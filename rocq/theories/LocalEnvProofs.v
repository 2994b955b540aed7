From Coq Require Import QArith Lqa Qround Sorted.
From Verif Require Import Py PyLemmas Json ActiveSiteModel ActiveSiteSpec ActiveSiteProofs BasisModel LatticeModel LatticeSpec LatticeProofs
  MatcherModel MatcherSpec MatcherProofs LceModel BuildModel BuildSpec LocalEnvModel LocalEnvSpec.
Local Open Scope nat_scope.

(* ------------------------------------------------------------------ *)
(** ** Local site orders *)

Lemma rmapM_text ks : rmapM py_text (map JStr ks) = Ok ks.
Proof. induction ks as [|k ks IH]; [done|]. simpl. by rewrite IH. Qed.

Lemma from_name_lemma name :
  order_from_name name = if String.eqb name "kmcpy_default" then Ok default_order
                         else if String.eqb name "nasicon_nat_commun_2022" then Ok nasicon_order
                         else Err ValueError.
Proof.
  unfold order_from_name, builtin_orders. cbn [dget].
  destruct (String.eqb_spec name "kmcpy_default") as [->|H1]; [by rewrite decide_True|].
  rewrite decide_False by done.
  destruct (String.eqb_spec name "nasicon_nat_commun_2022") as [->|H2]; [by rewrite decide_True|].
  by rewrite decide_False.
Qed.
Lemma base_lemma name :
  match order_from_name name with
  | Ok o => o
  | Err _ => LocalOrder name ["species_string"%string] false (1 # 1000)
  end = LocalOrder name (lo_keys (base_of name)) (lo_exclude (base_of name)) (lo_tol (base_of name)).
Proof.
  rewrite from_name_lemma. unfold base_of. cbn [lo_name nasicon_order].
  destruct (String.eqb_spec name "kmcpy_default") as [->|H1]; [done|].
  destruct (String.eqb_spec name "nasicon_nat_commun_2022") as [->|H2]; done.
Qed.
Lemma dict_lemma d name keys exclude tol :
  dget d "name"%string = Some (JStr name) ->
  dget d "sort_keys"%string = (fun l => JList (map JStr l)) <$> keys ->
  dget d "exclude_center_site"%string = JBool <$> exclude ->
  dget d "center_match_tolerance"%string = JFloat <$> tol ->
  local_order_from_dict d = Ok (LocalOrder name (given keys (lo_keys (base_of name)))
                                  (given exclude (lo_exclude (base_of name)))
                                  (given tol (lo_tol (base_of name)))).
Proof.
  intros H1 H2 H3 H4. unfold local_order_from_dict. rewrite H1. cbn [py_text rbind]. rewrite base_lemma, H2, H3, H4.
  destruct keys as [ks|]; cbn [fmap option_fmap option_map key_tuple]; [rewrite rmapM_text|]; cbn [rbind];
    destruct exclude, tol; done.
Qed.
Lemma order_roundtrip_lemma o : local_order_from_dict (local_order_as_dict o) = Ok o.
Proof.
  rewrite (dict_lemma _ (lo_name o) (Some (lo_keys o)) (Some (lo_exclude o)) (Some (lo_tol o))); try done.
  by destruct o.
Qed.
Lemma resolve_name_lemma name o :
  order_resolve (OName name) = Ok o <-> (o = default_order \/ o = nasicon_order) /\ lo_name o = name.
Proof.
  cbn [order_resolve]. rewrite from_name_lemma.
  destruct (String.eqb_spec name "kmcpy_default") as [->|H1].
  { split; [intros [= <-]; split; [by left|done]|]. intros [[->| ->] H]; [done|discriminate]. }
  destruct (String.eqb_spec name "nasicon_nat_commun_2022") as [->|H2].
  { split; [intros [= <-]; split; [by right|done]|]. intros [[->| ->] H]; [discriminate|done]. }
  split; [discriminate|]. intros [[->| ->] <-]; done.
Qed.

(* ------------------------------------------------------------------ *)
(** ** Stable sorting *)

Lemma strong_lookup {A} (R : A -> A -> Prop) l i j x y : StronglySorted R l -> i < j ->
  l !! i = Some x -> l !! j = Some y -> R x y.
Proof.
  intros H. revert i j. induction H as [|z l Hs IH Hf]; intros i j Hij Hx Hy; [done|].
  destruct j as [|j]; [lia|]. destruct i as [|i]; cbn [lookup list_lookup] in Hx, Hy.
  - injection Hx as ->. rewrite Forall_forall in Hf. apply Hf. by eapply elem_of_list_lookup_2.
  - apply (IH i j); [lia|done|done].
Qed.

Section Stable.
  Context {A : Type} (leb : A -> A -> bool).
  Hypothesis total : forall a b, leb a b = true \/ leb b a = true.
  Hypothesis trans : forall a b c, leb a b = true -> leb b c = true -> leb a c = true.

  Lemma sorted_strong l : StronglySorted (fun a b => leb a b = true) (sorted leb l).
  Proof. apply Sorted_StronglySorted; [exact trans|]. apply sorted_sorted, total. Qed.

  Lemma insert_filter (P : A -> bool) x l :
    (forall y, y ∈ l -> P x = true -> P y = true -> leb x y = true) ->
    List.filter P (insert leb x l) = List.filter P (x :: l).
  Proof.
    induction l as [|y l IH]; intros H; [done|]. cbn [insert].
    destruct (leb x y) eqn:E; [done|].
    cbn [List.filter]. rewrite IH by (intros z Hz; apply H; by right). cbn [List.filter].
    destruct (P x) eqn:Ex, (P y) eqn:Ey; try done.
    rewrite (H y) in E; [done|by left|done|done].
  Qed.
  Lemma sorted_filter (P : A -> bool) l :
    (forall x y, x ∈ l -> y ∈ l -> P x = true -> P y = true -> leb x y = true) ->
    List.filter P (sorted leb l) = List.filter P l.
  Proof.
    induction l as [|x l IH]; intros H; [done|].
    change (sorted leb (x :: l)) with (insert leb x (sorted leb l)). rewrite insert_filter.
    - cbn [List.filter]. rewrite IH; [done|]. intros a b Ha Hb. apply H; by right.
    - intros y Hy Hx Hy'. rewrite sorted_perm in Hy. apply H; [by left|by right|done|done].
  Qed.

  Lemma filter_split (P : A -> bool) l a x b : List.filter P l = a ++ x :: b ->
    exists l1 l2, l = l1 ++ x :: l2 /\ List.filter P l1 = a /\ List.filter P l2 = b.
  Proof.
    revert a. induction l as [|y l IH]; intros a H; [by destruct a|]. cbn [List.filter] in H.
    destruct (P y) eqn:E.
    - destruct a as [|z a]; injection H as -> H.
      + exists [], l. split; [done|]. split; [done|]. done.
      + apply IH in H as (l1 & l2 & -> & H1 & H2). exists (z :: l1), l2. cbn [List.filter]. rewrite E, H1. done.
    - apply IH in H as (l1 & l2 & -> & H1 & H2). exists (y :: l1), l2. cbn [List.filter]. rewrite E. done.
  Qed.

  (** Two elements that tie are in the order of the input. *)
  Lemma sorted_stable l i j x y : i < j -> sorted leb l !! i = Some x -> sorted leb l !! j = Some y ->
    leb y x = true -> exists p q, p < q /\ l !! p = Some x /\ l !! q = Some y.
  Proof.
    intros Hij Hx Hy Hyx.
    assert (Hxy : leb x y = true).
    { by apply (strong_lookup (fun a b => leb a b = true) (sorted leb l) i j); [apply sorted_strong|..]. }
    set (P := fun z => leb x z && leb z x).
    assert (E : List.filter P (sorted leb l) = List.filter P l).
    { apply sorted_filter. intros a b _ _ Ha Hb. apply andb_true_iff in Ha as [_ Ha], Hb as [Hb _]. by eapply trans. }
    assert (Hs : exists s1 s2 s3, sorted leb l = s1 ++ x :: s2 ++ y :: s3).
    { exists (take i (sorted leb l)), (take (j - S i) (drop (S i) (sorted leb l))), (drop (S j) (sorted leb l)).
      rewrite <- (take_drop_middle _ _ _ Hx) at 1. f_equal. f_equal.
      assert (Hy' : drop (S i) (sorted leb l) !! (j - S i) = Some y).
      { rewrite lookup_drop. by replace (S i + (j - S i)) with j by lia. }
      rewrite <- (take_drop_middle _ _ _ Hy') at 1. f_equal. f_equal. rewrite drop_drop. f_equal. lia. }
    destruct Hs as (s1 & s2 & s3 & Es). rewrite Es in E. symmetry in E.
    rewrite List.filter_app in E. cbn [List.filter] in E.
    assert (Px : P x = true). { unfold P. assert (leb x x = true) as -> by (destruct (total x x); done). done. }
    assert (Py : P y = true). { unfold P. by rewrite Hxy, Hyx. }
    rewrite Px, List.filter_app in E. cbn [List.filter] in E. rewrite Py in E.
    apply filter_split in E as (l1 & l2 & -> & _ & E2). apply filter_split in E2 as (l3 & l4 & -> & _ & _).
    exists (length l1), (length l1 + S (length l3)). split; [lia|].
    rewrite lookup_app_r, Nat.sub_diag by lia. split; [done|].
    rewrite lookup_app_r by lia. replace (length l1 + S (length l3) - length l1) with (S (length l3)) by lia.
    change ((l3 ++ y :: l4) !! length l3 = Some y). rewrite lookup_app_r, Nat.sub_diag by lia. done.
  Qed.
End Stable.

Lemma strongly_sorted_unique {A} (R : A -> A -> Prop) l l' :
  (forall x y, x ∈ l -> y ∈ l -> R x y -> R y x -> x = y) ->
  StronglySorted R l -> StronglySorted R l' -> Permutation l l' -> l = l'.
Proof.
  intros Ha H. revert l'. induction H as [|x l Hs IH Hf]; intros l' Hs' Hp; [by apply Permutation_nil in Hp|].
  destruct l' as [|y l']; [symmetry in Hp; by apply Permutation_nil in Hp|].
  inversion Hs' as [|? ? Hs'' Hf']; subst. rewrite Forall_forall in Hf, Hf'.
  assert (x = y) as ->.
  { assert (Hy : y ∈ x :: l) by (rewrite Hp; by left). assert (Hx : x ∈ y :: l') by (rewrite <- Hp; by left).
    apply elem_of_cons in Hy as [->|Hy]; [done|]. apply elem_of_cons in Hx as [->|Hx]; [done|].
    apply Ha; [by left|by right|by apply Hf|by apply Hf']. }
  f_equal. apply IH; [|done|by eapply Permutation_cons_inv]. intros a b Hin Hin'. apply Ha; by right.
Qed.
Lemma sorted_unique {A} (leb : A -> A -> bool) l l' :
  (forall a b, leb a b = true \/ leb b a = true) ->
  (forall a b c, leb a b = true -> leb b c = true -> leb a c = true) ->
  (forall x y, x ∈ l -> y ∈ l -> leb x y = true -> leb y x = true -> x = y) ->
  Permutation l l' -> sorted leb l = sorted leb l'.
Proof.
  intros Ht Htr Ha Hp. apply (strongly_sorted_unique (fun a b => leb a b = true)).
  - intros x y Hx Hy. apply Ha; by rewrite <- (sorted_perm leb l).
  - by apply sorted_strong.
  - by apply sorted_strong.
  - by rewrite !sorted_perm.
Qed.

(* ------------------------------------------------------------------ *)
(** ** Positions *)

Lemma point_eq_refl p : point_eq p p.
Proof. destruct p as [[x y] z]. repeat split; reflexivity. Qed.
Lemma point_eq_sym p q : point_eq p q -> point_eq q p.
Proof. destruct p as [[x y] z], q as [[x' y'] z']. intros (H1 & H2 & H3). repeat split; symmetry; done. Qed.
Lemma point_eq_trans p q r : point_eq p q -> point_eq q r -> point_eq p r.
Proof.
  destruct p as [[x y] z], q as [[x' y'] z'], r as [[x'' y''] z'']. intros (H1 & H2 & H3) (H4 & H5 & H6).
  repeat split; [by rewrite H1|by rewrite H2|by rewrite H3].
Qed.
Ltac points :=
  unfold point_eq, to_cart, shift, vadd, vsub, vscale, norm2 in *.
Lemma vsub_eq p q p' q' : point_eq p p' -> point_eq q q' -> point_eq (vsub p q) (vsub p' q').
Proof.
  destruct p as [[x y] z], q as [[a b] c], p' as [[x' y'] z'], q' as [[a' b'] c']. points.
  intros (H1 & H2 & H3) (H4 & H5 & H6). rewrite H1, H2, H3, H4, H5, H6. repeat split; reflexivity.
Qed.
Lemma vadd_eq p p' v : point_eq p p' -> point_eq (vadd p v) (vadd p' v).
Proof.
  destruct p as [[x y] z], p' as [[x' y'] z'], v as [[a b] c]. points.
  intros (H1 & H2 & H3). rewrite H1, H2, H3. repeat split; reflexivity.
Qed.
Lemma norm2_eq p q : point_eq p q -> (norm2 p == norm2 q)%Q.
Proof.
  destruct p as [[x y] z], q as [[a b] c]. points. intros (H1 & H2 & H3). by rewrite H1, H2, H3.
Qed.
Lemma to_cart_eq m f f' : point_eq f f' -> point_eq (to_cart m f) (to_cart m f').
Proof.
  destruct m as [[[[a1 a2] a3] [[b1 b2] b3]] [[c1 c2] c3]], f as [[x y] z], f' as [[x' y'] z']. points.
  intros (H1 & H2 & H3). rewrite H1, H2, H3. repeat split; reflexivity.
Qed.
Lemma shift_eq f f' t : point_eq f f' -> point_eq (shift f t) (shift f' t).
Proof.
  destruct f as [[x y] z], f' as [[x' y'] z'], t as [[a b] c]. points.
  intros (H1 & H2 & H3). rewrite H1, H2, H3. repeat split; reflexivity.
Qed.
Lemma place_unit f : point_eq (place (1, 1, 1) f (0, 0, 0)) f.
Proof.
  destruct f as [[x y] z]. unfold point_eq, place. change (inject_Z (Z.of_nat 0)) with 0%Q. change (inject_Z (Z.of_nat 1)) with 1%Q.
  repeat split; field.
Qed.
Lemma reaches_eq m f f' t c c' r r' : point_eq f f' -> point_eq c c' -> (r == r')%Q -> reaches m f t c r <-> reaches m f' t c' r'.
Proof.
  intros Hf Hc Hr. unfold reaches. rewrite Hr.
  rewrite (norm2_eq _ (vsub (to_cart m (shift f' t)) c')); [done|].
  apply vsub_eq; [by apply to_cart_eq, shift_eq|done].
Qed.

(* ------------------------------------------------------------------ *)
(** ** Comparison of sites *)

Record good {A} (c : A -> A -> comparison) : Prop := Good {
  good_anti : forall x y, c y x = CompOpp (c x y);
  good_eq : forall x y z, c x y = Eq -> c x z = c y z;
  good_lt : forall x y z, c x y = Lt -> c y z = Lt -> c x z = Lt;
}.
Lemma good_lex {A} (c d : A -> A -> comparison) : good c -> good d ->
  good (fun x y => match c x y with Eq => d x y | r => r end).
Proof.
  intros [a1 e1 t1] [a2 e2 t2]. split.
  - intros x y. rewrite (a1 x y). destruct (c x y); simpl; [apply a2|done|done].
  - intros x y z. destruct (c x y) eqn:E; [|done|done]. intros H. rewrite (e1 x y z E). by rewrite (e2 x y z H).
  - intros x y z. destruct (c x y) eqn:E; [| |done]; intros H.
    + rewrite (e1 x y z E). destruct (c y z); [by apply t2|done|done].
    + destruct (c y z) eqn:E2; [|intros _; by rewrite (t1 x y z)|done].
      intros _. assert (c x z = Lt) as ->; [|done].
      rewrite a1. rewrite <- (e1 y z x); [|done]. rewrite (a1 x y), E. done.
Qed.
Lemma good_pull {A B} (f : A -> B) c : good c -> good (fun x y => c (f x) (f y)).
Proof. intros [a e t]. split; eauto. Qed.
Lemma good_string : good String.compare.
Proof.
  split.
  - intros x y. apply String.compare_antisym.
  - intros x y z H. apply string_compare_eq in H as ->. done.
  - intros x y z. apply string_lt_trans.
Qed.
Lemma good_Q : good Qcompare.
Proof.
  split.
  - intros x y. symmetry. apply Qcompare_antisym.
  - intros x y z H. apply Qeq_alt in H. by rewrite H.
  - intros x y z H1 H2. rewrite <- Qlt_alt in *. by apply (Qlt_trans x y z).
Qed.
Lemma good_const {A} : good (fun _ _ : A => Eq).
Proof. split; done. Qed.
Lemma good_en : good electronegativity_compare.
Proof.
  destruct good_Q as [a e t]. split.
  - intros [x|] [y|]; simpl; try done; apply a.
  - intros [x|] [y|] [z|]; simpl; try done; apply e.
  - intros [x|] [y|] [z|]; simpl; try done; apply t.
Qed.

Section Keys.
  Variable en : string -> option Q.

  Definition x_of (p : point) : Q := let '(x, _, _) := p in x.
  Definition y_of (p : point) : Q := let '(_, y, _) := p in y.
  Definition z_of (p : point) : Q := let '(_, _, z) := p in z.
  Definition compare_in (key : string) (s t : species * point) : comparison :=
    if String.eqb key "species_string" then String.compare (sp_str (fst s)) (sp_str (fst t))
    else if String.eqb key "species" then species_compare en (fst s) (fst t)
    else if String.eqb key "cartesian_x" then (x_of (snd s) ?= x_of (snd t))%Q
    else if String.eqb key "cartesian_y" then (y_of (snd s) ?= y_of (snd t))%Q
    else if String.eqb key "cartesian_z" then (z_of (snd s) ?= z_of (snd t))%Q
    else Eq.
  Fixpoint compare_sites (keys : list string) (s t : species * point) : comparison :=
    match keys with
    | [] => Eq
    | k :: keys' => match compare_in k s t with Eq => compare_sites keys' s t | c => c end
    end.

  Lemma good_species : good (species_compare en).
  Proof.
    unfold species_compare.
    apply (good_lex (fun a b => electronegativity_compare (en (sp_str a)) (en (sp_str b))) (fun a b => String.compare (sp_str a) (sp_str b))).
    - apply (good_pull (fun a => en (sp_str a))), good_en.
    - apply (good_pull sp_str), good_string.
  Qed.
  Lemma good_in key : good (compare_in key).
  Proof.
    unfold compare_in. destruct (String.eqb key "species_string"); [apply (good_pull (fun s : species * point => sp_str (fst s))), good_string|].
    destruct (String.eqb key "species"); [apply (good_pull (fun s : species * point => fst s)), good_species|].
    destruct (String.eqb key "cartesian_x"); [apply (good_pull (fun s : species * point => x_of (snd s))), good_Q|].
    destruct (String.eqb key "cartesian_y"); [apply (good_pull (fun s : species * point => y_of (snd s))), good_Q|].
    destruct (String.eqb key "cartesian_z"); [apply (good_pull (fun s : species * point => z_of (snd s))), good_Q|].
    apply good_const.
  Qed.
  Lemma good_sites keys : good (compare_sites keys).
  Proof. induction keys as [|k keys IH]; [apply good_const|]. apply (good_lex (compare_in k) (compare_sites keys)); [apply good_in|done]. Qed.

  Lemma compare_in_less key s t : compare_in key s t = Lt <-> less_in en key s t.
  Proof.
    unfold compare_in, less_in, coordinate. destruct s as [sp [[x y] z]], t as [sp' [[x' y'] z']]. cbn [fst snd x_of y_of z_of].
    destruct (String.eqb_spec key "species_string") as [->|N1].
    { cbn. unfold String.ltb. split.
      - intros H. left. by rewrite H.
      - intros [[_ H]|[[H _]|(a & b & H & _)]]; [|done|done]. by destruct (String.compare _ _). }
    destruct (String.eqb_spec key "species") as [->|N2].
    { cbn. unfold species_compare, electronegativity_compare, less_electronegative, String.ltb. split.
      - intros H. right. left. split; [done|].
        destruct (en (sp_str sp)) as [u|], (en (sp_str sp')) as [v|]; try (by left); try done.
        + destruct (u ?= v)%Q eqn:E; [|by left|done].
          apply Qeq_alt in E. right. split; [intros L; rewrite E in L; by apply Qlt_irrefl in L|]. by rewrite H.
        + right. split; [tauto|]. by rewrite H.
      - intros [[H _]|[[_ H]|(a & b & H & _)]]; [done| |done].
        destruct (en (sp_str sp)) as [u|], (en (sp_str sp')) as [v|]; try done.
        + destruct H as [H|[H1 H2]]; [by rewrite (proj1 (Qlt_alt u v) H)|].
          destruct (u ?= v)%Q eqn:E; [|done|]; [|by apply Qgt_alt in E].
          by destruct (String.compare _ _).
        + destruct H as [H|[H1 H2]]; [done|]. done.
        + destruct H as [H|[H1 H2]]; [done|]. by destruct (String.compare _ _). }
    assert (forall a b : Q, (a ?= b)%Q = Lt <-> exists x y, Some a = Some x /\ Some b = Some y /\ (x < y)%Q) as Hq.
    { intros a b. split; [intros H; exists a, b; by apply Qlt_alt in H|]. intros (u & v & [= <-] & [= <-] & H). by apply Qlt_alt. }
    destruct (String.eqb_spec key "cartesian_x") as [->|N3].
    { rewrite Hq. split; [by right; right|]. intros [[H _]|[[H _]|H]]; done. }
    destruct (String.eqb_spec key "cartesian_y") as [->|N4].
    { rewrite Hq. split; [by right; right|]. intros [[H _]|[[H _]|H]]; done. }
    destruct (String.eqb_spec key "cartesian_z") as [->|N5].
    { rewrite Hq. split; [by right; right|]. intros [[H _]|[[H _]|H]]; done. }
    split; [done|]. intros [[H _]|[[H _]|(a & b & H & _)]]; done.
  Qed.
  Lemma compare_sites_before keys s t : compare_sites keys s t = Lt <-> comes_before en keys s t.
  Proof.
    induction keys as [|k keys IH]; simpl; [done|]. rewrite <- !compare_in_less, <- IH.
    rewrite (good_anti _ (good_in k) s t). destruct (compare_in k s t); simpl.
    - split; [intros H; right; done|]. by intros [H|[_ H]].
    - split; [by left|done].
    - split; [done|]. intros [H|[H _]]; done.
  Qed.

  (** Moving both sites does not change the comparison. *)
  Lemma compare_sites_moved keys sp p q sp' p' q' c c' :
    point_eq q (vsub p c) -> point_eq q' (vsub p' c') -> point_eq c c' ->
    compare_sites keys (sp, q) (sp', q') = compare_sites keys (sp, p) (sp', p').
  Proof.
    intros H1 H2 Hc. induction keys as [|k keys IH]; [done|]. simpl. rewrite IH.
    assert (compare_in k (sp, q) (sp', q') = compare_in k (sp, p) (sp', p')) as ->; [|done].
    unfold compare_in. cbn [fst snd].
    destruct p as [[x y] z], q as [[a b] d], p' as [[x' y'] z'], q' as [[a' b'] d'], c as [[u v] w], c' as [[u' v'] w'].
    unfold point_eq, vsub in *. destruct H1 as (H11 & H12 & H13), H2 as (H21 & H22 & H23), Hc as (Hc1 & Hc2 & Hc3). cbn [x_of y_of z_of].
    rewrite H11, H12, H13, H21, H22, H23, Hc1, Hc2, Hc3.
    assert (forall a b c : Q, (a - c ?= b - c)%Q = (a ?= b)%Q) as Hs.
    { intros e f g. destruct (e ?= f)%Q eqn:E.
      - apply Qeq_alt in E. apply Qeq_alt. by rewrite E.
      - rewrite <- Qlt_alt in *. lra.
      - rewrite <- Qgt_alt in *. lra. }
    by rewrite !Hs.
  Qed.

  (** The sort keys compare like the sites. *)
  Definition site_of (s : found_site) : species * point := (fst (fst s), snd (fst s)).
  Lemma sort_entry_compare k s t a b : sort_key_entry s k = Ok a -> sort_key_entry t k = Ok b ->
    key_value_compare en a b = compare_in k (site_of s) (site_of t).
  Proof.
    destruct s as [[sp [[x y] z]] i], t as [[sp' [[x' y'] z']] i']. unfold sort_key_entry, compare_in, site_of. cbn [fst snd].
    destruct (String.eqb k "species_string"); [by intros [= <-] [= <-]|].
    destruct (String.eqb k "species"); [by intros [= <-] [= <-]|].
    destruct (String.eqb k "cartesian_x"); [by intros [= <-] [= <-]|].
    destruct (String.eqb k "cartesian_y"); [by intros [= <-] [= <-]|].
    destruct (String.eqb k "cartesian_z"); [by intros [= <-] [= <-]|]. done.
  Qed.
  Lemma sort_key_compare rule s t a b : sort_key rule s = Ok a -> sort_key rule t = Ok b ->
    key_compare en a b = compare_sites (lo_keys rule) (site_of s) (site_of t).
  Proof.
    unfold sort_key. generalize (lo_keys rule). intros keys. revert a b. induction keys as [|k keys IH]; intros a b Ha Hb; simpl in *.
    - injection Ha as <-. injection Hb as <-. done.
    - apply rbind_ok in Ha as (x & Hx & Ha). apply rbind_ok in Ha as (a' & Ha & [= <-]).
      apply rbind_ok in Hb as (y & Hy & Hb). apply rbind_ok in Hb as (b' & Hb & [= <-]).
      cbn [key_compare]. rewrite (sort_entry_compare _ _ _ _ _ Hx Hy), (IH a' b' Ha Hb). done.
  Qed.
  Lemma sort_key_ok rule s : (forall k, k ∈ lo_keys rule -> k ∈ known_keys) -> exists a, sort_key rule s = Ok a.
  Proof.
    intros H. unfold sort_key. apply rmapM_ok_exists. intros k Hk. apply H in Hk. destruct s as [[sp [[x y] z]] i].
    unfold known_keys in Hk. rewrite !elem_of_cons, elem_of_nil in Hk.
    destruct Hk as [->|[->|[->|[->|[->|[]]]]]]; eexists; reflexivity.
  Qed.
  Lemma sort_key_err rule s : ~ (forall k, k ∈ lo_keys rule -> k ∈ known_keys) -> sort_key rule s = Err ValueError.
  Proof.
    unfold sort_key. generalize (lo_keys rule). intros keys. induction keys as [|k keys IH]; intros H.
    - exfalso. apply H. intros k Hk. by apply elem_of_nil in Hk.
    - destruct s as [[sp [[x y] z]] i]. simpl. destruct (decide (k ∈ known_keys)) as [Hk|Hk].
      + assert (exists a, sort_key_entry (sp, (x, y, z), i) k = Ok a) as [a Ea].
        { unfold known_keys in Hk. rewrite !elem_of_cons, elem_of_nil in Hk.
          destruct Hk as [->|[->|[->|[->|[->|[]]]]]]; eexists; reflexivity. }
        simpl in Ea. rewrite Ea. simpl. rewrite IH; [done|]. intros Hn. apply H. intros k' Hk'. apply elem_of_cons in Hk' as [->|Hk']; auto.
      + unfold known_keys in Hk. rewrite !elem_of_cons, elem_of_nil in Hk.
        destruct (String.eqb_spec k "species_string"); [tauto|]. destruct (String.eqb_spec k "species"); [tauto|].
        destruct (String.eqb_spec k "cartesian_x"); [tauto|]. destruct (String.eqb_spec k "cartesian_y"); [tauto|].
        destruct (String.eqb_spec k "cartesian_z"); [tauto|]. done.
  Qed.

  Definition site_leb (keys : list string) (s t : found_site) : bool :=
    match compare_sites keys (site_of s) (site_of t) with Gt => false | _ => true end.
  Lemma site_leb_total keys s t : site_leb keys s t = true \/ site_leb keys t s = true.
  Proof. unfold site_leb. rewrite (good_anti _ (good_sites keys) (site_of s)). destruct (compare_sites keys (site_of s) (site_of t)); auto. Qed.
  Lemma site_leb_trans keys s t u : site_leb keys s t = true -> site_leb keys t u = true -> site_leb keys s u = true.
  Proof.
    unfold site_leb. destruct (good_sites keys) as [ga ge gt].
    destruct (compare_sites keys (site_of s) (site_of t)) eqn:E1; [|destruct (compare_sites keys (site_of t) (site_of u)) eqn:E2|done].
    - intros _. by rewrite (ge _ _ _ E1).
    - intros _ _. assert (compare_sites keys (site_of s) (site_of u) = Lt) as ->; [|done].
      rewrite ga. rewrite <- (ge _ _ _ E2). rewrite ga, E1. done.
    - intros _ _. by rewrite (gt _ _ _ E1 E2).
    - done.
  Qed.
  Lemma site_leb_before keys s t : site_leb keys s t = true <-> ~ comes_before en keys (site_of t) (site_of s).
  Proof.
    rewrite <- compare_sites_before. unfold site_leb. rewrite (good_anti _ (good_sites keys) (site_of s)).
    destruct (compare_sites keys (site_of s) (site_of t)); simpl; split; try done; intros H; by exfalso; apply H.
  Qed.

  Lemma sort_ok rule l : (forall k, k ∈ lo_keys rule -> k ∈ known_keys) ->
    sort_local_env_sites en rule l = Ok (sorted (site_leb (lo_keys rule)) l).
  Proof.
    intros Hk. unfold sort_local_env_sites.
    set (K := fun s => match sort_key rule s with Ok a => a | Err _ => [] end).
    assert (HK : forall s, sort_key rule s = Ok (K s)).
    { intros s. unfold K. destruct (sort_key_ok rule s Hk) as [a ->]. done. }
    assert (E : rmapM (fun s => let* k := sort_key rule s in Ok (k, s)) l = Ok (map (fun s => (K s, s)) l)).
    { induction l as [|s l IH]; [done|]. simpl. rewrite HK. simpl. rewrite IH. done. }
    rewrite E. simpl. f_equal.
    rewrite <- (sorted_map (fun s => (K s, s)) (fun a b => key_le en (fst a) (fst b))). rewrite map_map. cbn [snd]. rewrite map_id.
    cbn [fst]. clear E.
    assert (forall (le le' : found_site -> found_site -> bool), (forall a b, le a b = le' a b) -> sorted le l = sorted le' l) as Hx.
    { intros le le' H. induction l as [|x l' IHl]; [done|]. cbn [sorted fold_right]. fold (sorted le l'). fold (sorted le' l').
      rewrite IHl.
      generalize (sorted le' l'). intros k. induction k as [|y k IHk]; [done|]. simpl. rewrite H. destruct (le' x y); [done|]. by rewrite IHk. }
    apply Hx. intros a b. unfold key_le, site_leb. by rewrite (sort_key_compare rule a b (K a) (K b)).
  Qed.
  Lemma sort_nil rule : sort_local_env_sites en rule [] = Ok [].
  Proof. done. Qed.
  Lemma sort_err rule s l : ~ (forall k, k ∈ lo_keys rule -> k ∈ known_keys) ->
    sort_local_env_sites en rule (s :: l) = Err ValueError.
  Proof. intros H. unfold sort_local_env_sites. simpl. by rewrite sort_key_err. Qed.
  Lemma sort_inv rule l l' : sort_local_env_sites en rule l = Ok l' ->
    l' = sorted (site_leb (lo_keys rule)) l /\ (l = [] \/ forall k, k ∈ lo_keys rule -> k ∈ known_keys).
  Proof.
    intros H. destruct l as [|s l]; [injection H as <-; auto|].
    destruct (decide (Forall (fun k => k ∈ known_keys) (lo_keys rule))) as [Hk|Hk]; rewrite Forall_forall in Hk.
    - rewrite sort_ok in H by done. injection H as <-. auto.
    - rewrite sort_err in H by done. done.
  Qed.
End Keys.

(* ------------------------------------------------------------------ *)
(** ** The active sites of the unit cell *)

Lemma unit_order parse fp template mapping o : built parse fp template mapping None o ->
  o_shape o = [1; 1; 1]%Z /\ o_prim_active o = o_a2o o /\ o_template o = Some template /\
  increasing (o_a2o o) /\ o_a2o o <> [] /\
  forall a z, o_a2o o !! a = Some z -> exists i, z = Z.of_nat i /\ i < length template.
Proof.
  intros H. assert (Hs : o_shape o = [1; 1; 1]%Z).
  { unfold built, from_structure_and_mapping in H. simpl in H. apply rbind_ok in H as (al & _ & H).
    destruct (primitive_active al); [done|]. destruct (fold_left _ _ _) as [[? ?] ?]. injection H as <-. done. }
  pose proof (order_partition_lemma _ _ _ _ _ _ H) as [_ (Hinc & _)].
  apply built_inv in H as (a & b & c & allowed & Hpos & Hsh & _ & Hlen & Hne & H). cbn zeta in H.
  destruct H as (_ & _ & Hpa & Ha2o & _ & _ & _ & _ & Htm & _).
  rewrite Hs in Hsh. injection Hsh as <- <- <-.
  assert (E : o_prim_active o = o_a2o o).
  { apply increasing_ext; [rewrite Hpa; apply increasing_of_nat, primitive_active_sorted|done|].
    intros k. rewrite Hpa, Ha2o, !elem_of_map_of_nat. split; intros (n & -> & Hn); exists n; (split; [done|]).
    - apply elem_of_filter_enum. exists (SSite n (0, 0, 0)). split; [|by apply bool_decide_eq_true].
      apply supercell_lookup_lemma. apply elem_of_primitive_active in Hn as (l & Hl & _). apply lookup_lt_Some in Hl. rewrite Hlen in Hl.
      repeat split; try (simpl; lia).
    - apply elem_of_filter_enum in Hn as ([p [[x y] z]] & Hs' & Hp). cbn [snd ss_prim] in Hp.
      apply bool_decide_eq_true in Hp. apply supercell_lookup_lemma in Hs' as (_ & Hx & Hy & Hz & ->).
      change (Z.to_nat 1) with 1 in *. replace (((p * 1 + x) * 1 + y) * 1 + z) with p by lia. done. }
  do 4 (split; [done|]). split.
  - rewrite <- E, Hpa. intros Hn. apply Hne. by destruct (primitive_active allowed).
  - intros k z Hz. rewrite <- E, Hpa in Hz. change (map ?f ?l) with (f <$> l) in Hz. rewrite list_lookup_fmap in Hz.
    apply fmap_Some in Hz as (i & Hi & ->). exists i. split; [done|]. apply elem_of_list_lookup_2, elem_of_primitive_active in Hi as (l & Hl & _).
    apply lookup_lt_Some in Hl. by rewrite Hlen in Hl.
Qed.

Lemma active_sites_unit parse fp (template : list site) mapping o : built parse fp (map fst template) mapping None o ->
  exists l, active_sites template o = Ok l /\ length l = length (o_a2o o) /\
    forall a i, active_is o a i -> exists s, template !! i = Some s /\ l !! a = Some (fst s, place (1, 1, 1) (snd s) (0, 0, 0)).
Proof.
  intros H. apply unit_order in H as (Hs & _ & Ht & _ & _ & Hlt). rewrite map_length in Hlt.
  unfold active_sites, active_structure. rewrite Ht, Hs, map_length. cbn [shape3].
  change (Z.to_nat 1) with 1.
  assert (Hfull : forall i, i < length template -> make_kmc_supercell (length template) (1, 1, 1) !! i = Some (SSite i (0, 0, 0))).
  { intros i Hi. apply supercell_lookup_lemma. repeat split; lia. }
  assert (E1 : rmapM (py_get (make_kmc_supercell (length template) (1, 1, 1))) (o_a2o o) = Ok (map (fun z => SSite (Z.to_nat z) (0, 0, 0)) (o_a2o o))).
  { apply rmapM_id. intros z Hz. apply elem_of_list_lookup in Hz as (a & Ha). destruct (Hlt a z Ha) as (i & -> & Hi).
    apply py_get_nonneg; [lia|]. rewrite Nat2Z.id. by apply Hfull. }
  rewrite E1. simpl.
  assert (Hat : forall a i, active_is o a i -> combine (map (fun z => SSite (Z.to_nat z) (0, 0, 0)) (o_a2o o)) (seq 0 (active_site_count o)) !! a = Some (SSite i (0, 0, 0), a)).
  { intros a i Ha. unfold active_is in Ha. pose proof (lookup_lt_Some _ _ _ Ha) as Hal.
    assert (G : forall (X : list ssite) (Y : list nat) x y, X !! a = Some x -> Y !! a = Some y -> combine X Y !! a = Some (x, y)).
    { clear. induction a as [|a IH]; intros [|x0 X] [|y0 Y] x y HX HY; try done; simpl in *; [congruence|]. by apply IH. }
    apply G.
    - change (map ?f ?l) with (f <$> l). rewrite list_lookup_fmap, Ha. simpl. by rewrite Nat2Z.id.
    - by rewrite lookup_seq_lt. }
  assert (Hall : forall e, e ∈ combine (map (fun z => SSite (Z.to_nat z) (0, 0, 0)) (o_a2o o)) (seq 0 (active_site_count o)) ->
            exists i a s, active_is o a i /\ e = (SSite i (0, 0, 0), a) /\ template !! i = Some s).
  { intros e He. apply elem_of_list_lookup in He as (a & He).
    assert (Hal : a < length (o_a2o o)). { apply lookup_lt_Some in He. rewrite combine_length, map_length in He. lia. }
    destruct (lookup_lt_is_Some_2 _ _ Hal) as [z Hz]. destruct (Hlt a z Hz) as (i & -> & Hi).
    rewrite (Hat a i Hz) in He. injection He as <-. destruct (lookup_lt_is_Some_2 _ _ Hi) as [s Hs']. eauto 10. }
  match goal with |- exists l, rmapM ?f ?c = Ok l /\ _ => destruct (rmapM_ok_exists f c) as [l Hl] end.
  { intros e He. destruct (Hall e He) as (i & a & s & _ & -> & Hs'). cbn [fst ss_prim]. rewrite Hs'. eauto. }
  exists l. split; [exact Hl|]. split.
  { apply rmapM_length in Hl. rewrite Hl, combine_length, map_length, seq_length. unfold active_site_count. lia. }
  intros a i Ha. destruct (rmapM_lookup_l _ _ _ _ _ Hl (Hat a i Ha)) as (y & Hy & E). cbn [fst ss_prim ss_image] in E.
  destruct (template !! i) as [s|] eqn:Es; [|done]. injection E as <-. eauto.
Qed.

(** The sites the environment is made from: each active site, without charge. *)
Definition uncharged (s : string) : species := Species s (Some s) None.
Definition working_is (is_element : string -> bool) (template : list site) (o : order) (w : list site) : Prop :=
  length w = length (o_a2o o) /\
  forall a i, active_is o a i -> exists sp f symbol, template !! i = Some (sp, f) /\ sp_symbol sp = Some symbol /\
    is_element symbol = true /\ w !! a = Some (uncharged symbol, place (1, 1, 1) f (0, 0, 0)).

Lemma working_lemma parse fp is_element (template : list site) mapping o : built parse fp (map fst template) mapping None o ->
  forall w, (let* l := active_sites template o in rmapM (remove_oxidation_state is_element) l) = Ok w <-> working_is is_element template o w.
Proof.
  intros H. pose proof (unit_order _ _ _ _ _ H) as (_ & _ & _ & _ & _ & Hlt). rewrite map_length in Hlt.
  apply active_sites_unit in H as (l & -> & Hlen & Hl). intros w. simpl. split.
  - intros Hw. split; [by rewrite (rmapM_length _ _ _ Hw)|]. intros a i Ha. destruct (Hl a i Ha) as ([sp f] & Hs & Hla).
    destruct (rmapM_lookup_l _ _ _ _ _ Hw Hla) as (y & Hy & E). unfold remove_oxidation_state in E. cbn [fst snd] in E.
    destruct (sp_symbol sp) as [symbol|] eqn:Es; [|done]. destruct (is_element symbol) eqn:Ee; [|done]. injection E as <-.
    exists sp, f, symbol. done.
  - intros (Hwl & Hw). destruct (rmapM_ok_exists (remove_oxidation_state is_element) l) as [w' Hw'].
    { intros s Hs. apply elem_of_list_lookup in Hs as (a & Ha). destruct (lookup_lt_is_Some_2 (o_a2o o) a) as [z Hz].
      { rewrite <- Hlen. by eapply lookup_lt_Some. }
      destruct (Hlt a z Hz) as (i & -> & _). destruct (Hl a i Hz) as (s' & Hs' & Hla). rewrite Hla in Ha. injection Ha as <-.
      destruct (Hw a i Hz) as (sp & f & symbol & Ht & Hsy & He & _). rewrite Ht in Hs'. injection Hs' as <-.
      unfold remove_oxidation_state. cbn [fst snd]. rewrite Hsy, He. eauto. }
    rewrite Hw'. f_equal. apply list_eq. intros a. pose proof (rmapM_length _ _ _ Hw') as Hl'.
    destruct (o_a2o o !! a) as [z|] eqn:Ez.
    + destruct (Hlt a z Ez) as (i & -> & _). destruct (Hl a i Ez) as (s' & Hs' & Hla). destruct (Hw a i Ez) as (sp & f & symbol & Ht & Hsy & He & ->).
      rewrite Ht in Hs'. injection Hs' as <-. destruct (rmapM_lookup_l _ _ _ _ _ Hw' Hla) as (y & -> & E).
      unfold remove_oxidation_state in E. cbn [fst snd] in E. rewrite Hsy, He in E. by injection E as <-.
    + apply lookup_ge_None in Ez. rewrite !lookup_ge_None_2; [done|lia|lia].
Qed.

(* ------------------------------------------------------------------ *)
(** ** The constructor, taken apart *)

Definition centre_of (o : order) (m : cell) (w : list site) (center : center_arg) (c : point) (ci : option nat) : Prop :=
  match center with
  | CIndex i => exists a s, o_a2o o !! a = Some i /\ w !! a = Some s /\ c = to_cart m (snd s) /\ ci = Some a
  | CPoint [x; y; z] => c = to_cart m (x, y, z) /\ ci = None
  | _ => False
  end.

Definition rule_with (rule : local_order) (b : option bool) : local_order :=
  match b with Some b => with_exclude_center_site rule b | None => rule end.
Lemma rule_with_used rule b : rule_with rule b = rule_used rule b.
Proof. destruct b, rule; done. Qed.

(** The site found for a key of the search, and whether it stays. *)
Definition site_at (m : cell) (w : list site) (k : nat * image) : found_site :=
  match w !! fst k with
  | Some s => (fst s, to_cart m (shift (snd s) (snd k)), fst k)
  | None => (uncharged "", (0, 0, 0)%Q, fst k)
  end.
Definition stays (m : cell) (w : list site) (rule : local_order) (c : point) (ci : option nat) (k : nat * image) : bool :=
  negb (lo_exclude rule && is_center_site rule c ci (site_at m w k)).
Definition keys_of (en : string -> option Q) (m : cell) (w : list site) (rule : local_order) (c : point) (ci : option nat)
    (raw : list (nat * image)) : list (nat * image) :=
  sorted (fun a b => site_leb en (lo_keys rule) (site_at m w a) (site_at m w b)) (List.filter (stays m w rule c ci) raw).

Section Make.
  Variable parse : string -> result species.
  Variable fp : fp_payload -> string.
  Variable is_element : string -> bool.
  Variable en : string -> option Q.
  Variable sphere : cell -> list coords -> point -> Q -> list (nat * image).
  Variable empty_molecule : bool.
  Variable round8 : Q -> Q.
  Variable site_hash : list (string * point) -> string.
  Notation new := (local_lattice_new parse fp is_element en sphere empty_molecule round8 site_hash).

  Definition relative (m : cell) (w : list site) (c : point) (k : nat * image) : species * point :=
    (fst (fst (site_at m w k)), vsub (snd (fst (site_at m w k))) c).
  Definition result_of (m : cell) (w : list site) (la : lattice) (o : order) (rule : local_order) (c : point) (ci : option nat)
      (keys : list (nat * image)) : local_lattice :=
    let sites := map (relative m w c) keys in
    LocalLattice la o rule c ci (map (fun k : nat * image => Z.of_nat (fst k)) keys) sites (ordered_site_signature round8 sites)
      (site_hash (ordered_site_signature round8 sites)).

  Lemma centre_lemma template mapping o m w center : built parse fp template mapping None o -> length w = length (o_a2o o) ->
    forall c ci, (let* center' := center_to_active o center in center_site m w center') = Ok (c, ci) <-> centre_of o m w center c ci.
  Proof.
    intros H Hw c ci. pose proof (unit_order _ _ _ _ _ H) as (_ & E & _ & _ & _ & _).
    destruct center as [i|l|].
    - unfold center_to_active. assert (primitive_to_active o = original_to_active o) as ->.
      { unfold primitive_to_active, original_to_active. by rewrite E. }
      destruct (dget (original_to_active o) i) as [a|] eqn:Ea.
      + apply (order_inverse_lemma _ _ _ _ _ _ _ _ H) in Ea. simpl.
        destruct (lookup_lt_is_Some_2 w a) as [s Hs]. { rewrite Hw. by eapply lookup_lt_Some. }
        assert (py_get w (Z.of_nat a) = Ok s) as -> by (apply py_get_nonneg; [lia|by rewrite Nat2Z.id]). simpl.
        rewrite Nat2Z.id. split.
        * intros [= <- <-]. eauto 10.
        * intros (a' & s' & Ha' & Hs' & -> & ->). assert (a' = a) as ->.
          { apply (order_inverse_lemma _ _ _ _ _ _ _ _ H) in Ea, Ha'. congruence. }
          rewrite Hs in Hs'. injection Hs' as <-. done.
      + simpl. split; [done|]. intros (a & s & Ha & _). apply (order_inverse_lemma _ _ _ _ _ _ _ _ H) in Ha. congruence.
    - simpl. destruct l as [|x [|y [|z [|? ?]]]]; simpl; try (split; [done|tauto]). split; [by intros [= <- <-]|by intros [-> ->]].
    - simpl. split; [done|tauto].
  Qed.

  Lemma found_lemma_raw m w raw found : rmapM (site_in_sphere m w) raw = Ok found <->
    found = map (site_at m w) raw /\ Forall (fun k => fst k < length w) raw.
  Proof.
    revert found. induction raw as [|[i t] raw IH]; intros found; simpl.
    - split; [intros [= <-]; done|by intros [-> _]].
    - unfold site_in_sphere at 1, site_at at 1. simpl. unfold at_nat.
      destruct (w !! i) as [s|] eqn:Es; simpl.
      + split.
        * intros H. apply rbind_ok in H as (l & Hl & [= <-]). apply IH in Hl as [-> Hf]. split; [done|].
          constructor; [by eapply lookup_lt_Some|done].
        * intros [-> Hf]. inversion Hf; subst. rewrite (proj2 (IH _) (conj eq_refl H2)). done.
      + split; [done|]. intros [_ Hf]. inversion Hf; subst. simpl in *. apply lookup_ge_None in Es. lia.
  Qed.

  Lemma keys_map m w rule c ci raw :
    map (site_at m w) (keys_of en m w rule c ci raw) =
    sorted (site_leb en (lo_keys rule))
      (if lo_exclude rule then List.filter (fun s => negb (is_center_site rule c ci s)) (map (site_at m w) raw) else map (site_at m w) raw).
  Proof.
    unfold keys_of. rewrite (sorted_map (site_at m w)). f_equal. unfold stays.
    induction raw as [|k raw IH]; [by destruct (lo_exclude rule)|]. simpl.
    destruct (lo_exclude rule); simpl in *.
    - destruct (is_center_site rule c ci (site_at m w k)); simpl; by rewrite IH.
    - by rewrite IH.
  Qed.
  Lemma keys_nil m w rule c ci raw : keys_of en m w rule c ci raw = [] <->
    (if lo_exclude rule then List.filter (fun s => negb (is_center_site rule c ci s)) (map (site_at m w) raw) else map (site_at m w) raw) = [].
  Proof.
    assert (G : forall (X : list found_site), sorted (site_leb en (lo_keys rule)) X = [] <-> X = []).
    { intros X. split; [|by intros ->]. intros HX. apply Permutation_nil. rewrite <- HX. apply sorted_perm. }
    rewrite <- G, <- keys_map. destruct (keys_of _ _ _ _ _ _ _); done.
  Qed.

  Lemma new_iff m template center cutoff mapping bt ex arg xc e :
    new m template center cutoff mapping bt ex arg xc = Ok e <->
    ex = false /\ exists o w rule0 la c ci,
      built parse fp (map fst template) mapping None o /\ working_is is_element template o w /\
      order_resolve arg = Ok rule0 /\ lattice_new parse w mapping bt = Ok la /\ centre_of o m w center c ci /\
      let rule := rule_with rule0 xc in
      let raw := sphere m (map snd w) c cutoff in
      let keys := keys_of en m w rule c ci raw in
      Forall (fun k => fst k < length w) raw /\
      (keys = [] \/ forall k, k ∈ lo_keys rule -> k ∈ known_keys) /\ (keys = [] -> empty_molecule = true) /\
      e = result_of m w la o rule c ci keys.
  Proof.
    unfold local_lattice_new. destruct ex; [split; [done|intros [? _]; done]|].
    split.
    - intros H. split; [done|]. apply rbind_ok in H as (o & Ho & H). apply rbind_ok in H as (center' & Hc' & H).
      apply rbind_ok in H as (act & Ha & H). apply rbind_ok in H as (w & Hw & H). apply rbind_ok in H as (rule0 & Hr & H).
      apply rbind_ok in H as (la & Hla & H). apply rbind_ok in H as ([c ci] & Hc & H). cbn [fst snd] in H.
      apply rbind_ok in H as (found & Hf & H). apply found_lemma_raw in Hf as [-> Hf].
      change (match xc with Some b => with_exclude_center_site rule0 b | None => rule0 end) with (rule_with rule0 xc) in H.
      apply rbind_ok in H as (found & Hs & H). apply sort_inv in Hs as [-> Hk]. rewrite <- keys_map in H.
      apply rbind_ok in H as (sites & Hm & [= <-]).
      assert (Hw' : working_is is_element template o w).
      { apply (working_lemma parse fp is_element template mapping o Ho). rewrite Ha. simpl. exact Hw. }
      assert (Hcc : centre_of o m w center c ci).
      { apply (centre_lemma _ _ _ m w center Ho); [apply Hw'|]. rewrite Hc'. simpl. exact Hc. }
      exists o, w, rule0, la, c, ci. do 5 (split; [done|]). cbn zeta. split; [done|]. split; [by rewrite keys_nil|].
      set (keys := keys_of _ _ _ _ _ _ _) in *. rewrite map_map in Hm.
      assert (sites = map (relative m w c) keys /\ (keys = [] -> empty_molecule = true)) as [-> Hem].
      { unfold molecule in Hm. destruct keys as [|k keys]; simpl in *.
        - destruct empty_molecule; [|done]. injection Hm as <-. done.
        - injection Hm as <-. done. }
      split; [done|]. unfold result_of. rewrite map_map.
      assert (map (fun x => Z.of_nat (snd (site_at m w x))) keys = map (fun k : nat * image => Z.of_nat (fst k)) keys) as ->; [|done].
      apply map_ext. intros k. unfold site_at. by destruct (w !! fst k).
    - intros (_ & o & w & rule0 & la & c & ci & Ho & Hw & Hr & Hla & Hc & H). cbn zeta in H.
      set (keys := keys_of _ _ _ _ _ _ _) in *. destruct H as (Hraw & Hk & Hem & ->).
      unfold built in Ho. rewrite Ho. simpl.
      pose proof (proj2 (centre_lemma _ _ _ m w center Ho (proj1 Hw) c ci) Hc) as Hc'. apply rbind_ok in Hc' as (center' & -> & Hc').
      pose proof (proj2 (working_lemma _ _ is_element _ _ _ Ho w) Hw) as Hw'. apply rbind_ok in Hw' as (act & -> & Hw'). simpl.
      rewrite Hw'. simpl. rewrite Hr. simpl. rewrite Hla. simpl. rewrite Hc'. simpl.
      rewrite (proj2 (found_lemma_raw m w _ _) (conj eq_refl Hraw)). simpl.
      change (match xc with Some b => with_exclude_center_site rule0 b | None => rule0 end) with (rule_with rule0 xc).
      set (rule := rule_with rule0 xc) in *.
      assert (Hsort : sort_local_env_sites en rule
          (if lo_exclude rule then List.filter (fun s => negb (is_center_site rule c ci s)) (map (site_at m w) (sphere m (map snd w) c cutoff))
           else map (site_at m w) (sphere m (map snd w) c cutoff)) = Ok (map (site_at m w) keys)).
      { unfold keys. rewrite keys_map. destruct Hk as [Hk|Hk]; [|by apply sort_ok].
        apply keys_nil in Hk. rewrite Hk. done. }
      rewrite Hsort. simpl. rewrite map_map.
      assert (Hm : molecule empty_molecule (map (fun x => (fst (fst (site_at m w x)), vsub (snd (fst (site_at m w x))) c)) keys) = Ok (map (relative m w c) keys)).
      { unfold molecule. destruct keys as [|k keys']; simpl; [|done]. by rewrite Hem. }
      rewrite Hm. simpl. unfold result_of. rewrite map_map.
      assert (map (fun x => Z.of_nat (snd (site_at m w x))) keys = map (fun k : nat * image => Z.of_nat (fst k)) keys) as ->; [|done].
      apply map_ext. intros k. unfold site_at. by destruct (w !! fst k).
  Qed.

  (* ---------------- contents ---------------- *)
  Lemma a2o_inj template mapping o a b z : built parse fp template mapping None o ->
    o_a2o o !! a = Some z -> o_a2o o !! b = Some z -> a = b.
  Proof.
    intros H Ha Hb. apply (order_inverse_lemma _ _ _ _ _ _ _ _ H) in Ha, Hb. congruence.
  Qed.

  Lemma working_lookup template o w a s : working_is is_element template o w ->
    (forall a z, o_a2o o !! a = Some z -> exists i, z = Z.of_nat i /\ i < length template) ->
    w !! a = Some s -> exists i sp f symbol, active_is o a i /\ template !! i = Some (sp, f) /\ sp_symbol sp = Some symbol /\
      is_element symbol = true /\ s = (uncharged symbol, place (1, 1, 1) f (0, 0, 0)).
  Proof.
    intros [Hl Hw] Hlt Hs. destruct (lookup_lt_is_Some_2 (o_a2o o) a) as [z Hz].
    { rewrite <- Hl. by eapply lookup_lt_Some. }
    destruct (Hlt a z Hz) as (i & -> & _). destruct (Hw a i Hz) as (sp & f & symbol & Ht & Hsy & He & E).
    rewrite E in Hs. injection Hs as <-. eauto 10.
  Qed.

  Lemma is_centre_lemma template mapping o m w rule center c ci a i t sp f symbol :
    built parse fp (map fst template) mapping None o -> centre_of o m w center c ci ->
    active_is o a i -> w !! a = Some (uncharged symbol, place (1, 1, 1) f (0, 0, 0)) -> template !! i = Some (sp, f) ->
    is_center_site rule c ci (site_at m w (a, t)) = true <->
    center = CIndex (Z.of_nat i) \/ reaches m f t c (lo_tol rule).
  Proof.
    intros Ho Hc Ha Hw Ht. unfold site_at. cbn [fst snd]. rewrite Hw. unfold is_center_site. cbn [fst snd].
    assert (Hr : Qle_bool 0 (lo_tol rule) && Qle_bool (norm2 (vsub (to_cart m (shift (place (1, 1, 1) f (0, 0, 0)) t)) c)) (sq (lo_tol rule)) = true <->
                 reaches m f t c (lo_tol rule)).
    { rewrite <- (reaches_eq m _ _ t c c _ _ (place_unit f) (point_eq_refl c) (Qeq_refl (lo_tol rule))).
      unfold reaches. rewrite andb_true_iff, !Qle_bool_iff. done. }
    destruct center as [z|l|]; simpl in Hc.
    - destruct Hc as (a0 & s0 & Ha0 & _ & _ & ->). destruct (Nat.eqb_spec a a0) as [->|Hne].
      + split; [|done]. intros _. left. unfold active_is in Ha. congruence.
      + rewrite Hr. split; [tauto|]. intros [[= ->]|H]; [|done]. exfalso. apply Hne. by eapply a2o_inj.
    - destruct l as [|x [|y [|z [|? ?]]]]; try done. destruct Hc as [_ ->]. rewrite Hr. split; [tauto|]. intros [?|?]; done.
    - done.
  Qed.

  Lemma centre_is_lemma template mapping o m w center c ci : built parse fp (map fst template) mapping None o ->
    working_is is_element template o w -> centre_of o m w center c ci -> centre_is m template center c.
  Proof.
    intros Ho Hw Hc. destruct center as [z|l|]; simpl in *.
    - destruct Hc as (a & s & Ha & Hs & -> & _). pose proof (unit_order _ _ _ _ _ Ho) as (_ & _ & _ & _ & _ & Hlt). rewrite map_length in Hlt.
      destruct (working_lookup _ _ _ _ _ Hw Hlt Hs) as (i & sp & f & symbol & Hai & Ht & _ & _ & ->).
      unfold active_is in Hai. exists i, (sp, f). split; [congruence|]. split; [done|]. apply to_cart_eq, place_unit.
    - destruct l as [|x [|y [|z [|? ?]]]]; try done. destruct Hc as [-> _]. apply point_eq_refl.
    - done.
  Qed.

  Lemma keys_elem m w rule c ci raw k : k ∈ keys_of en m w rule c ci raw <-> k ∈ raw /\ stays m w rule c ci k = true.
  Proof. unfold keys_of. rewrite sorted_perm. rewrite elem_of_list_In, filter_In, <- elem_of_list_In. done. Qed.
  Lemma keys_nodup m w rule c ci raw : NoDup raw -> NoDup (keys_of en m w rule c ci raw).
  Proof. intros H. unfold keys_of. rewrite sorted_perm. apply NoDup_ListNoDup. apply List.NoDup_filter. by apply NoDup_ListNoDup. Qed.

  Lemma belongs_lemma template mapping o m w rule center c ci cutoff a t : search_exact sphere m ->
    built parse fp (map fst template) mapping None o -> working_is is_element template o w -> centre_of o m w center c ci ->
    (a, t) ∈ keys_of en m w rule c ci (sphere m (map snd w) c cutoff) <->
    belongs_to_environment o rule m template center c cutoff a t.
  Proof.
    intros Hx Ho Hw Hc. rewrite keys_elem. destruct (Hx (map snd w) c cutoff) as [_ Hin]. rewrite Hin.
    pose proof (unit_order _ _ _ _ _ Ho) as (_ & _ & _ & _ & _ & Hlt). rewrite map_length in Hlt.
    assert (Hst : forall i sp f symbol, active_is o a i -> w !! a = Some (uncharged symbol, place (1, 1, 1) f (0, 0, 0)) ->
              template !! i = Some (sp, f) -> stays m w rule c ci (a, t) = true <-> ~ left_out rule m center i f t c).
    { intros i sp f symbol Ha Hwa Ht. unfold stays, left_out.
      rewrite <- (is_centre_lemma template mapping o m w rule center c ci a i t sp f symbol) by done.
      destruct (lo_exclude rule), (is_center_site rule c ci (site_at m w (a, t))); simpl; split; try done; try tauto.
      all: intros _ [? ?]; done. }
    split.
    - intros [(f' & Hf' & Hr) Hs]. change (map ?f ?l) with (f <$> l) in Hf'. rewrite list_lookup_fmap in Hf'.
      apply fmap_Some in Hf' as (s & Hs' & ->).
      destruct (working_lookup _ _ _ _ _ Hw Hlt Hs') as (i & sp & f & symbol & Hai & Ht & _ & _ & ->). cbn [snd] in Hr.
      exists i, (sp, f). split; [done|]. split; [done|]. split.
      + by apply (reaches_eq m _ _ t c c _ _ (place_unit f) (point_eq_refl c) (Qeq_refl cutoff)).
      + by eapply Hst.
    - intros (i & [sp f] & Ha & Ht & Hr & Hl). destruct Hw as [Hwl Hw]. destruct (Hw a i Ha) as (sp' & f' & symbol & Ht' & Hsy & He & Hwa).
      rewrite Ht in Ht'. injection Ht' as <- <-. split.
      + exists (place (1, 1, 1) f (0, 0, 0)). split.
        * change (map ?f ?l) with (f <$> l). by rewrite list_lookup_fmap, Hwa.
        * by apply (reaches_eq m _ _ t c c _ _ (place_unit f) (point_eq_refl c) (Qeq_refl cutoff)).
      + by eapply Hst.
  Qed.

  Lemma filter_order {A} (P : A -> bool) l p q x y : p < q -> List.filter P l !! p = Some x -> List.filter P l !! q = Some y ->
    exists p' q', p' < q' /\ l !! p' = Some x /\ l !! q' = Some y.
  Proof.
    revert p q. induction l as [|z l IH]; intros p q Hpq Hp Hq; [done|]. simpl in *. destruct (P z).
    - destruct q as [|q]; [lia|]. simpl in Hq. destruct p as [|p].
      + injection Hp as ->. apply elem_of_list_lookup_2 in Hq. rewrite elem_of_list_In, filter_In, <- elem_of_list_In in Hq.
        destruct Hq as [Hq _]. apply elem_of_list_lookup in Hq as (q' & Hq). exists 0, (S q'). split; [lia|done].
      + destruct (IH p q) as (p' & q' & ? & ? & ?); [lia|done|done|]. exists (S p'), (S q'). split; [lia|done].
    - destruct (IH p q) as (p' & q' & ? & ? & ?); [lia|done|done|]. exists (S p'), (S q'). split; [lia|done].
  Qed.
  Lemma compare_relative m w c keys x y : compare_sites en keys (relative m w c x) (relative m w c y) =
    compare_sites en keys (site_of (site_at m w x)) (site_of (site_at m w y)).
  Proof.
    unfold relative, site_of. apply (compare_sites_moved en keys _ _ _ _ _ _ c c); apply point_eq_refl.
  Qed.

  Lemma contents_lemma m template center cutoff mapping bt ex arg xc e : search_exact sphere m ->
    new m template center cutoff mapping bt ex arg xc = Ok e ->
    built parse fp (map fst template) mapping None (ll_order e) /\
    centre_is m template center (ll_center e) /\
    (exists rule, order_resolve arg = Ok rule /\ ll_rule e = rule_used rule xc) /\
    exists keys, listed m template center cutoff e keys /\
      (forall k a t, keys !! k = Some (a, t) -> describes m template e k a t) /\
      exists fs, positions (ll_order e) template fs /\
        forall j k x y s t, j < k -> keys !! j = Some x -> keys !! k = Some y ->
          ll_sites e !! j = Some s -> ll_sites e !! k = Some t ->
          comes_before en (lo_keys (ll_rule e)) s t \/
          ~ comes_before en (lo_keys (ll_rule e)) t s /\
          exists p q, p < q /\ sphere m fs (ll_center e) cutoff !! p = Some x /\ sphere m fs (ll_center e) cutoff !! q = Some y.
  Proof.
    intros Hx H. apply new_iff in H as (_ & o & w & rule0 & la & c & ci & Ho & Hw & Hr & Hla & Hc & H). cbn zeta in H.
    destruct H as (Hraw & _ & _ & ->). cbn [ll_order ll_center ll_rule result_of].
    split; [done|]. split; [by eapply centre_is_lemma|]. split; [exists rule0; split; [done|]; apply rule_with_used|].
    set (rule := rule_with rule0 xc) in *. set (keys := keys_of _ _ _ _ _ _ _). exists keys. split; [split_and!|split].
    - apply keys_nodup. apply Hx.
    - cbn [ll_sites result_of]. by rewrite map_length.
    - cbn [ll_indices result_of]. by rewrite map_length.
    - intros a t. by eapply belongs_lemma.
    - intros k a t Hk. unfold describes. cbn [ll_indices ll_sites ll_order ll_center result_of].
      change (map ?f ?l) with (f <$> l). rewrite !list_lookup_fmap, Hk. split; [done|].
      pose proof (elem_of_list_lookup_2 _ _ _ Hk) as Hin. apply keys_elem in Hin as [Hin _].
      rewrite Forall_forall in Hraw. apply Hraw in Hin. cbn [fst] in Hin. destruct (lookup_lt_is_Some_2 _ _ Hin) as [s Hs].
      pose proof (unit_order _ _ _ _ _ Ho) as (_ & _ & _ & _ & _ & Hlt). rewrite map_length in Hlt.
      destruct (working_lookup _ _ _ _ _ Hw Hlt Hs) as (i & sp & f & symbol & Hai & Ht & Hsy & _ & ->).
      exists i, sp, f, symbol. eexists. split; [done|]. split; [done|]. split; [done|].
      simpl. unfold relative, site_at. cbn [fst snd]. rewrite Hs. cbn [fst snd]. split; [done|].
      apply vsub_eq; [apply to_cart_eq, shift_eq, place_unit|apply point_eq_refl].
    - exists (map snd w). split.
      { intros a i s Ha Hs. destruct Hw as [_ Hw]. destruct (Hw a i Ha) as (sp & f & symbol & Ht & _ & _ & Hwa). rewrite Hs in Ht. injection Ht as ->.
        exists (place (1, 1, 1) f (0, 0, 0)). split; [|apply place_unit]. change (map ?f ?l) with (f <$> l). by rewrite list_lookup_fmap, Hwa. }
      intros j k x y s t Hjk Hj Hk Hs Ht. cbn [ll_sites result_of ll_rule] in *.
      change (map ?f ?l) with (f <$> l) in Hs, Ht. rewrite list_lookup_fmap, Hj in Hs. rewrite list_lookup_fmap, Hk in Ht.
      injection Hs as <-. injection Ht as <-. rewrite <- !compare_sites_before, !compare_relative.
      assert (Hle : site_leb en (lo_keys rule) (site_at m w x) (site_at m w y) = true).
      { apply (strong_lookup (fun a b => site_leb en (lo_keys rule) (site_at m w a) (site_at m w b) = true) keys j k); [|done|done|done].
        unfold keys, keys_of. apply (sorted_strong (fun a b => site_leb en (lo_keys rule) (site_at m w a) (site_at m w b))).
        - intros a b. apply site_leb_total.
        - intros a b d. apply site_leb_trans. }
      destruct (compare_sites en (lo_keys rule) (site_of (site_at m w x)) (site_of (site_at m w y))) eqn:E.
      + right. assert (E' : compare_sites en (lo_keys rule) (site_of (site_at m w y)) (site_of (site_at m w x)) = Eq).
        { rewrite (good_anti _ (good_sites en (lo_keys rule)) _ _). by rewrite E. }
        split; [by rewrite E'|].
        destruct (sorted_stable (fun a b => site_leb en (lo_keys rule) (site_at m w a) (site_at m w b))) with
          (l := List.filter (stays m w rule c ci) (sphere m (map snd w) c cutoff)) (i := j) (j := k) (x := x) (y := y)
          as (p & q & Hpq & Hp & Hq); [intros a b; apply site_leb_total|intros a b d; apply site_leb_trans|done|exact Hj|exact Hk| |].
        { unfold site_leb. by rewrite E'. }
        by eapply filter_order.
      + by left.
      + unfold site_leb in Hle. rewrite E in Hle. done.
  Qed.

  (* ---------------- the search ---------------- *)
  Lemma exact_range m (w : list site) c cutoff : search_exact sphere m -> Forall (fun k : nat * image => fst k < length w) (sphere m (map snd w) c cutoff).
  Proof.
    intros Hx. apply Forall_forall. intros [i t] Hin. apply Hx in Hin as (f & Hf & _). apply lookup_lt_Some in Hf.
    by rewrite map_length in Hf.
  Qed.
End Make.

Lemma told_apart_keys en m w c rule keys : told_apart en (lo_keys rule) (map (relative m w c) keys) ->
  forall x y, x ∈ keys -> y ∈ keys -> site_leb en (lo_keys rule) (site_at m w x) (site_at m w y) = true ->
    site_leb en (lo_keys rule) (site_at m w y) (site_at m w x) = true -> x = y.
Proof.
  intros Hta x y Hx Hy H1 H2. apply elem_of_list_lookup in Hx as (j & Hj), Hy as (k & Hk).
  destruct (decide (j = k)) as [->|Hne]; [congruence|]. exfalso.
  specialize (Hta j k (relative m w c x) (relative m w c y) Hne).
  change (map ?f ?l) with (f <$> l) in Hta. rewrite !list_lookup_fmap, Hj, Hk in Hta.
  specialize (Hta eq_refl eq_refl). rewrite <- !compare_sites_before, !compare_relative in Hta.
  unfold site_leb in H1, H2. rewrite (good_anti _ (good_sites en (lo_keys rule)) (site_of (site_at m w x))) in H2, Hta.
  destruct (compare_sites en (lo_keys rule) (site_of (site_at m w x)) (site_of (site_at m w y))); simpl in *; try done; destruct Hta; done.
Qed.

Lemma independent_lemma parse fp is_element en sphere sphere' empty_molecule round8 site_hash
    m template center cutoff mapping bt ex arg xc e :
  search_exact sphere m -> search_exact sphere' m ->
  local_lattice_new parse fp is_element en sphere empty_molecule round8 site_hash m template center cutoff mapping bt ex arg xc = Ok e ->
  told_apart en (lo_keys (ll_rule e)) (ll_sites e) ->
  local_lattice_new parse fp is_element en sphere' empty_molecule round8 site_hash m template center cutoff mapping bt ex arg xc = Ok e.
Proof.
  intros Hx Hx' H Hta. apply new_iff in H as (Hex & o & w & rule0 & la & c & ci & Ho & Hw & Hr & Hla & Hc & H). cbn zeta in H.
  set (rule := rule_with rule0 xc) in *. destruct H as (Hraw & Hk & Hem & ->).
  apply new_iff. split; [done|]. exists o, w, rule0, la, c, ci. do 5 (split; [done|]). cbn zeta.
  cbn [ll_rule ll_sites result_of] in Hta. pose proof (told_apart_keys en m w c rule _ Hta) as Hanti.
  assert (E : keys_of en m w (rule_with rule0 xc) c ci (sphere' m (map snd w) c cutoff) = keys_of en m w rule c ci (sphere m (map snd w) c cutoff)).
  { fold rule. symmetry. apply sorted_unique.
    - intros a b. apply site_leb_total.
    - intros a b d. apply site_leb_trans.
    - intros x y Hx1 Hy1. apply Hanti; unfold keys_of; by rewrite sorted_perm.
    - apply NoDup_Permutation.
      + apply NoDup_ListNoDup, List.NoDup_filter, NoDup_ListNoDup. apply Hx.
      + apply NoDup_ListNoDup, List.NoDup_filter, NoDup_ListNoDup. apply Hx'.
      + intros [a t]. rewrite !elem_of_list_In, !filter_In, <- !elem_of_list_In.
        destruct (Hx (map snd w) c cutoff) as [_ H1], (Hx' (map snd w) c cutoff) as [_ H2]. rewrite H1, H2. done. }
  rewrite E. split; [by apply exact_range|]. done.
Qed.

(* ------------------------------------------------------------------ *)
(** ** The states of the sites *)

Lemma tokens_uncharged symbol sp k : sp_symbol sp = Some symbol ->
  species_equivalent (SObj (uncharged symbol)) (SObj k) = true -> species_equivalent (SObj sp) (SObj k) = true.
Proof.
  intros Hs. unfold species_equivalent, species_tokens at 2 4, is_vacancy_species. rewrite Hs. cbn [uncharged sp_symbol sp_str sp_element].
  destruct (str_in symbol vacancy_labels) eqn:E; [done|]. simpl. rewrite !orb_false_r, !orb_true_iff. tauto.
Qed.

Lemma distinct_entries parse mapping entries : distinct_keys parse mapping ->
  rmapM (mapping_entry parse) mapping = Ok entries -> dof_pairs entries = entries.
Proof.
  intros Hd He. apply dof_pairs_self. unfold dkeys. apply NoDup_alt. intros i j k Hi Hj.
  change (map ?f ?l) with (f <$> l) in Hi, Hj. rewrite list_lookup_fmap in Hi, Hj.
  apply fmap_Some in Hi as ([k1 l1] & Hi & ->), Hj as ([k2 l2] & Hj & E). cbn [fst] in E. subst k2.
  destruct (rmapM_lookup _ _ _ _ _ He Hi) as (kv & Hkv & E1), (rmapM_lookup _ _ _ _ _ He Hj) as (kv' & Hkv' & E2).
  unfold mapping_entry in E1, E2. apply rbind_ok in E1 as (x & Hx & E1). apply rbind_ok in E1 as (? & _ & [= -> ->]).
  apply rbind_ok in E2 as (y & Hy & E2). apply rbind_ok in E2 as (? & _ & [= -> ->]).
  exact (Hd _ _ _ _ _ Hkv Hkv' Hx Hy).
Qed.

Lemma allowed_uncharged parse mapping template entries i sp f symbol : keys_name_elements parse mapping template ->
  rmapM (mapping_entry parse) mapping = Ok entries -> template !! i = Some (sp, f) -> sp_symbol sp = Some symbol ->
  allowed_for entries (uncharged symbol) = allowed_for entries sp.
Proof.
  intros Hk He Ht Hs. unfold allowed_for.
  assert (List.filter (fun e : species * list species => species_equivalent (SObj (uncharged symbol)) (SObj (fst e))) entries =
          List.filter (fun e => species_equivalent (SObj sp) (SObj (fst e))) entries) as ->; [|done].
  apply filter_ext_in. intros [k l] Hin. apply elem_of_list_In, elem_of_list_lookup in Hin as (j & Hj). cbn [fst].
  destruct (rmapM_lookup _ _ _ _ _ He Hj) as (kv & Hkv & E). unfold mapping_entry in E. apply rbind_ok in E as (x & Hx & E).
  apply rbind_ok in E as (? & _ & [= -> ->]).
  apply eq_true_iff_eq. split; [by apply tokens_uncharged|]. intros H.
  eapply (Hk (sp, f) kv k symbol); [by eapply elem_of_list_lookup_2|by eapply elem_of_list_lookup_2|done|done|done].
Qed.

Lemma order_entries parse fp template mapping o : built parse fp template mapping None o ->
  exists entries, rmapM (mapping_entry parse) mapping = Ok entries /\
    forall i sp, template !! i = Some sp -> exists l, allowed_for entries sp = Some l /\
      o_allowed o !! i = Some (map (fun s => species_label (SObj s)) l) /\
      (Z.of_nat i ∈ o_a2o o <-> 1 < length l).
Proof.
  intros H. pose proof (unit_order _ _ _ _ _ H) as (_ & Epa & _).
  apply built_inv in H as (a & b & c & allowed & _ & _ & Hal & Hlen & _ & H). cbn zeta in H.
  destruct H as (_ & _ & Hpa & _ & _ & _ & _ & Hall & _).
  unfold allowed_species_by_site in Hal. apply rbind_ok in Hal as (entries & He & Hal). exists entries. split; [done|].
  intros i sp Hi. destruct (rmapM_lookup_l _ _ _ _ _ Hal Hi) as (l & Hl & Hs). exists l. split; [by apply site_allowed_for|].
  split; [rewrite Hall; change (map ?f ?l) with (f <$> l) at 1; by rewrite list_lookup_fmap, Hl|].
  rewrite <- Epa, Hpa, elem_of_map_of_nat. split.
  - intros (n & E & Hn). apply Nat2Z.inj in E. subst n. apply elem_of_primitive_active in Hn as (l' & Hl' & H'). congruence.
  - intros Hlt. exists i. split; [done|]. apply elem_of_primitive_active. eauto.
Qed.

Section States.
  Variable parse : string -> result species.
  Variable fp : fp_payload -> string.
  Variable is_element : string -> bool.

  Lemma states_working template mapping o w : distinct_keys parse mapping -> keys_name_elements parse mapping template ->
    built parse fp (map fst template) mapping None o -> working_is is_element template o w ->
    exists entries, rmapM (mapping_entry parse) mapping = Ok entries /\ dof_pairs entries = entries /\
      forall a i, active_is o a i -> exists l, map (fun s => allowed_for entries (fst s)) w !! a = Some (Some l) /\
        o_allowed o !! i = Some (map (fun s => species_label (SObj s)) l) /\ 1 < length l.
  Proof.
    intros Hd Hk Ho [Hwl Hw]. destruct (order_entries _ _ _ _ _ Ho) as (entries & He & Hall). exists entries. split; [done|].
    split; [by eapply distinct_entries|]. intros a i Ha. destruct (Hw a i Ha) as (sp & f & symbol & Ht & Hs & _ & Hwa).
    destruct (Hall i sp) as (l & Hl & Hol & Hlt). { change (map ?f ?l) with (f <$> l). by rewrite list_lookup_fmap, Ht. }
    exists l. split; [|split; [done|apply Hlt; by eapply elem_of_list_lookup_2]].
    change (map ?f ?l) with (f <$> l). rewrite list_lookup_fmap, Hwa. cbn [fmap option_fmap option_map fst]. f_equal. rewrite <- Hl.
    by eapply allowed_uncharged.
  Qed.

  (** The lattice of the environment exists for the two known bases. *)
  Lemma lattice_exists template mapping o w bt : distinct_keys parse mapping -> keys_name_elements parse mapping template ->
    built parse fp (map fst template) mapping None o -> working_is is_element template o w ->
    (exists la, lattice_new parse w mapping bt = Ok la) <-> bt = "occupation"%string \/ bt = "chebyshev"%string.
  Proof.
    intros Hd Hk Ho Hw. destruct (states_working _ _ _ _ Hd Hk Ho Hw) as (entries & He & Hdo & Hst).
    unfold lattice_new. rewrite He. simpl. rewrite Hdo.
    assert (exists x l, List.filter is_nonempty (map (fun s => allowed_for entries (fst s)) w) = x :: l) as (x & l & El).
    { pose proof (unit_order _ _ _ _ _ Ho) as (_ & _ & _ & _ & Hne & Hlt). destruct (o_a2o o) as [|z r] eqn:Ez; [done|].
      destruct (Hlt 0 z eq_refl) as (i & -> & _). destruct (Hst 0 i) as (l & Hl & _ & Hl1). { unfold active_is. by rewrite Ez. }
      destruct (List.filter is_nonempty (map (fun s => allowed_for entries (fst s)) w)) as [|x r'] eqn:E; [|eauto]. exfalso.
      assert (In (Some l) (List.filter is_nonempty (map (fun s => allowed_for entries (fst s)) w))) as Hin; [|by rewrite E in Hin].
      apply filter_In. split; [apply elem_of_list_In; by eapply elem_of_list_lookup_2|]. destruct l; simpl in *; [lia|done]. }
    rewrite El. split.
    - intros (la & H). apply rbind_ok in H as (b & Hb & _).
      destruct (String.eqb_spec bt "chebyshev") as [->|N]; [auto|]. unfold get_basis in Hb.
      destruct (String.eqb_spec bt "occupation") as [->|N']; [auto|]. destruct (String.eqb_spec bt "chebyshev"); done.
    - intros [->| ->]; simpl; [eauto|]. unfold get_basis, basis_of_class. simpl. unfold cheb_new.
      match goal with |- context [(Z.max 2 ?n <? 2)%Z] => destruct (Z.ltb_spec (Z.max 2 n) 2); [lia|] end. simpl. eauto.
  Qed.
End States.

Lemma working_exists is_element (template : list site) o :
  (forall a i, active_is o a i -> exists s symbol, template !! i = Some s /\ sp_symbol (fst s) = Some symbol /\ is_element symbol = true) ->
  exists w, working_is is_element template o w.
Proof.
  intros H. exists (map (fun z => match template !! Z.to_nat z with
      | Some (sp, f) => (uncharged (match sp_symbol sp with Some s => s | None => "" end), place (1, 1, 1) f (0, 0, 0))
      | None => (uncharged "", (0, 0, 0)%Q) end) (o_a2o o)).
  split; [by rewrite map_length|]. intros a i Ha. destruct (H a i Ha) as ([sp f] & symbol & Ht & Hs & He). cbn [fst] in Hs.
  exists sp, f, symbol. do 3 (split; [done|]). unfold active_is in Ha. change (map ?f ?l) with (f <$> l).
  rewrite list_lookup_fmap, Ha. cbn [fmap option_fmap option_map]. by rewrite Nat2Z.id, Ht, Hs.
Qed.

Lemma belongs_centre o rule m template center c c' cutoff a t : point_eq c c' ->
  belongs_to_environment o rule m template center c cutoff a t -> belongs_to_environment o rule m template center c' cutoff a t.
Proof.
  intros Hc (i & s & Ha & Ht & Hr & Hl). exists i, s. do 2 (split; [done|]). split.
  - by apply (reaches_eq m _ _ t _ _ _ _ (point_eq_refl (snd s)) Hc (Qeq_refl cutoff)).
  - intros [He H]. apply Hl. split; [done|]. destruct H as [H|H]; [by left|right].
    by apply (reaches_eq m _ _ t _ _ _ _ (point_eq_refl (snd s)) Hc (Qeq_refl _)).
Qed.
Lemma centre_is_unique m template center c c' : centre_is m template center c -> centre_is m template center c' -> point_eq c c'.
Proof.
  destruct center as [z|l|]; simpl.
  - intros (k & s & -> & Hs & H) (k' & s' & E & Hs' & H'). apply Nat2Z.inj in E. subst k'. rewrite Hs in Hs'. injection Hs' as <-.
    eapply point_eq_trans; [exact H|]. by apply point_eq_sym.
  - destruct l as [|x [|y [|z [|? ?]]]]; try done. intros H H'. eapply point_eq_trans; [exact H|]. by apply point_eq_sym.
  - done.
Qed.

Section Result.
  Variable parse : string -> result species.
  Variable fp : fp_payload -> string.
  Variable is_element : string -> bool.
  Variable en : string -> option Q.
  Variable sphere : cell -> list coords -> point -> Q -> list (nat * image).
  Variable empty_molecule : bool.
  Variable round8 : Q -> Q.
  Variable site_hash : list (string * point) -> string.
  Notation new := (local_lattice_new parse fp is_element en sphere empty_molecule round8 site_hash).

  Lemma states_lemma m template center cutoff mapping bt ex arg xc e : distinct_keys parse mapping -> keys_name_elements parse mapping template ->
    new m template center cutoff mapping bt ex arg xc = Ok e ->
    length (la_allowed (ll_lattice e)) = length (o_a2o (ll_order e)) /\
    forall a i, active_is (ll_order e) a i -> exists l, la_allowed (ll_lattice e) !! a = Some (Some l) /\
      o_allowed (ll_order e) !! i = Some (map (fun s => species_label (SObj s)) l) /\ 1 < length l.
  Proof.
    intros Hd Hk H. apply new_iff in H as (_ & o & w & rule0 & la & c & ci & Ho & Hw & _ & Hla & _ & H). cbn zeta in H.
    destruct H as (_ & _ & _ & ->). cbn [ll_lattice ll_order result_of].
    destruct (states_working _ _ _ _ _ _ _ Hd Hk Ho Hw) as (entries & He & Hdo & Hst).
    unfold lattice_new in Hla. rewrite He in Hla. simpl in Hla. rewrite Hdo in Hla.
    destruct (List.filter is_nonempty (map (fun s => allowed_for entries (fst s)) w)) as [|x r]; [done|].
    apply rbind_ok in Hla as (b & _ & [= <-]). cbn [la_allowed]. split; [rewrite map_length; apply Hw|]. exact Hst.
  Qed.

  Lemma keys_something template mapping o m w rule center c ci cutoff : search_exact sphere m ->
    built parse fp (map fst template) mapping None o -> working_is is_element template o w -> centre_of o m w center c ci ->
    keys_of en m w rule c ci (sphere m (map snd w) c cutoff) <> [] <-> something_belongs o rule m template center cutoff.
  Proof.
    intros Hx Ho Hw Hc. pose proof (centre_is_lemma _ _ _ _ _ _ _ _ _ _ _ Ho Hw Hc) as Hci. split.
    - destruct (keys_of _ _ _ _ _ _ _) as [|[a t] r] eqn:E; [done|]. intros _. exists c, a, t. split; [done|].
      apply (belongs_lemma parse fp is_element en sphere round8 template mapping o m w rule center c ci cutoff a t Hx Ho Hw Hc). rewrite E. by left.
    - intros (c' & a & t & Hc' & Hb) E. apply (belongs_centre _ _ _ _ _ _ c) in Hb; [|by eapply centre_is_unique].
      apply (belongs_lemma parse fp is_element en sphere round8 template mapping o m w rule center c ci cutoff a t Hx Ho Hw Hc) in Hb. rewrite E in Hb. by apply elem_of_nil in Hb.
  Qed.

  Lemma exists_lemma m template center cutoff mapping bt ex arg xc : search_exact sphere m ->
    distinct_keys parse mapping -> keys_name_elements parse mapping template ->
    (exists e, new m template center cutoff mapping bt ex arg xc = Ok e) <->
    ex = false /\ (bt = "occupation"%string \/ bt = "chebyshev"%string) /\
    exists o rule, built parse fp (map fst template) mapping None o /\ order_resolve arg = Ok rule /\ usable_centre o center /\
      (forall a i, active_is o a i -> exists s symbol, template !! i = Some s /\ sp_symbol (fst s) = Some symbol /\ is_element symbol = true) /\
      (something_belongs o (rule_used rule xc) m template center cutoff -> forall k, k ∈ lo_keys rule -> k ∈ known_keys) /\
      (~ something_belongs o (rule_used rule xc) m template center cutoff -> empty_molecule = true).
  Proof.
    intros Hx Hd Hk. split.
    - intros (e & H). apply new_iff in H as (Hex & o & w & rule0 & la & c & ci & Ho & Hw & Hr & Hla & Hc & H). cbn zeta in H.
      destruct H as (_ & Hks & Hem & _). split; [done|].
      split; [by eapply (lattice_exists parse fp is_element template mapping o w bt); [..|exists la]|].
      exists o, rule0. split; [done|]. split; [done|]. split.
      { destruct center as [z|l|]; simpl in *.
        - destruct Hc as (a & s & Ha & _). by eapply elem_of_list_lookup_2.
        - by destruct l as [|x [|y [|z [|? ?]]]].
        - done. }
      split. { intros a i Ha. destruct Hw as [_ Hw]. destruct (Hw a i Ha) as (sp & f & symbol & ? & ? & ? & _). exists (sp, f), symbol. done. }
      rewrite <- rule_with_used. rewrite <- (keys_something template mapping o m w (rule_with rule0 xc) center c ci cutoff) by done.
      split.
      + intros Hne. destruct Hks as [Hks|Hks]; [done|]. intros k Hin. apply Hks. by destruct xc.
      + intros Hne. apply Hem. destruct (keys_of _ _ _ _ _ _ _); [done|]. exfalso. by apply Hne.
    - intros (Hex & Hbt & o & rule0 & Ho & Hr & Huc & Hel & Hkn & Hem). destruct (working_exists is_element template o Hel) as [w Hw].
      destruct (proj2 (lattice_exists parse fp is_element template mapping o w bt Hd Hk Ho Hw) Hbt) as [la Hla].
      assert (exists c ci, centre_of o m w center c ci) as (c & ci & Hc).
      { destruct center as [z|l|]; simpl in *.
        - apply elem_of_list_lookup in Huc as (a & Ha). destruct (lookup_lt_is_Some_2 w a) as [s Hs].
          { rewrite (proj1 Hw). by eapply lookup_lt_Some. } exists (to_cart m (snd s)), (Some a), a, s. done.
        - destruct l as [|x [|y [|z [|? ?]]]]; try done. eauto.
        - done. }
      rewrite <- rule_with_used in Hkn, Hem.
      rewrite <- (keys_something template mapping o m w (rule_with rule0 xc) center c ci cutoff) in Hkn by done.
      rewrite <- (keys_something template mapping o m w (rule_with rule0 xc) center c ci cutoff) in Hem by done.
      eexists. apply new_iff. split; [done|]. exists o, w, rule0, la, c, ci. do 5 (split; [done|]). cbn zeta.
      split; [by apply exact_range|]. split; [|split; [|reflexivity]].
      + destruct (keys_of _ _ _ _ _ _ _) as [|? ?]; [by left|]. right. intros k Hin. apply Hkn; [done|]. by destruct xc.
      + intros E. apply Hem. rewrite E. tauto.
  Qed.

  (** The stored signature and hash are those of the stored sites. *)
  Lemma hash_lemma m template center cutoff mapping bt ex arg xc e :
    new m template center cutoff mapping bt ex arg xc = Ok e ->
    ll_signature e = ordered_site_signature round8 (ll_sites e) /\ ll_hash e = site_hash (ll_signature e).
  Proof.
    intros H. apply new_iff in H as (_ & o & w & rule0 & la & c & ci & _ & _ & _ & _ & _ & H). cbn zeta in H.
    destruct H as (_ & _ & _ & ->). done.
  Qed.
End Result.

(* ------------------------------------------------------------------ *)
(** ** The same crystal given differently *)

Definition iadd (s t : image) : image := let '(a, b, c) := s in let '(a', b', c') := t in ((a + a')%Z, (b + b')%Z, (c + c')%Z).
Definition isub (s t : image) : image := let '(a, b, c) := s in let '(a', b', c') := t in ((a - a')%Z, (b - b')%Z, (c - c')%Z).
Lemma same_difference m f f' fc fc' v na nc t :
  point_eq f' (shift (vadd f v) na) -> point_eq fc' (shift (vadd fc v) nc) ->
  point_eq (vsub (to_cart m (shift f' t)) (to_cart m fc')) (vsub (to_cart m (shift f (isub (iadd t na) nc))) (to_cart m fc)).
Proof.
  destruct m as [[[[a1 a2] a3] [[b1 b2] b3]] [[c1 c2] c3]], f as [[x y] z], f' as [[x' y'] z'], fc as [[u w] r], fc' as [[u' w'] r'],
    v as [[v1 v2] v3], na as [[n1 n2] n3], nc as [[k1 k2] k3], t as [[t1 t2] t3]. unfold isub, iadd. points.
  intros (H1 & H2 & H3) (H4 & H5 & H6). rewrite H1, H2, H3, H4, H5, H6. unfold Z.sub. rewrite !inject_Z_plus, !inject_Z_opp.
  repeat split; ring.
Qed.

Lemma forall2_choice {A B C} (R : A -> B -> C -> Prop) l l' : Forall2 (fun x y => exists c, R x y c) l l' ->
  exists cs : list C, forall i x, l !! i = Some x -> exists y c, l' !! i = Some y /\ cs !! i = Some c /\ R x y c.
Proof.
  induction 1 as [|x y l l' (c & Hc) H IH]; [by exists []|]. destruct IH as (cs & IH). exists (c :: cs).
  intros [|i] x' Hx; simpl in *; [injection Hx as <-; eauto|]. by apply IH.
Qed.

Section Same.
  Variable parse : string -> result species.
  Variable fp : fp_payload -> string.
  Variable is_element : string -> bool.
  Variable en : string -> option Q.
  Variable sphere : cell -> list coords -> point -> Q -> list (nat * image).
  Variable empty_molecule : bool.
  Variable round8 : Q -> Q.
  Variable site_hash : list (string * point) -> string.
  Notation new := (local_lattice_new parse fp is_element en sphere empty_molecule round8 site_hash).

  Lemma same_lemma m v template template' center center' cutoff mapping bt ex arg xc e : search_exact sphere m ->
    same_sites v template template' -> same_centre v center center' ->
    new m template center cutoff mapping bt ex arg xc = Ok e ->
    told_apart en (lo_keys (ll_rule e)) (ll_sites e) ->
    exists e', new m template' center' cutoff mapping bt ex arg xc = Ok e' /\ same_environment e e' /\
      ((forall x y, (x == y)%Q -> round8 x = round8 y) -> ll_hash e' = ll_hash e).
  Proof.
    intros Hx Hsame Hcen H Hta. apply new_iff in H as (Hex & o & w & rule0 & la & c & ci & Ho & Hw & Hr & Hla & Hc & H). cbn zeta in H.
    set (rule := rule_with rule0 xc) in *. destruct H as (Hraw & Hk & Hem & ->). cbn [ll_rule ll_sites result_of] in Hta.
    assert (Emap : map fst template' = map fst template).
    { clear -Hsame. induction Hsame as [|s s' l l' [Hs _] _ IH]; simpl; [done|]. by rewrite Hs, IH. }
    assert (Ho' : built parse fp (map fst template') mapping None o) by by rewrite Emap.
    pose proof (unit_order _ _ _ _ _ Ho) as (_ & _ & _ & _ & _ & Hlt). rewrite map_length in Hlt.
    destruct (forall2_choice (fun s s' n => fst s' = fst s /\ point_eq (snd s') (shift (vadd (snd s) v) n)) template template') as (ns & Hns).
    { eapply Forall2_impl; [exact Hsame|]. intros s s' [E (n & Hn)]. by exists n. }
    assert (Hw' : exists w', working_is is_element template' o w').
    { apply working_exists. intros a i Ha. destruct Hw as [_ Hw]. destruct (Hw a i Ha) as (sp & f & symbol & Ht & Hs & He & _).
      destruct (Hns i _ Ht) as ([sp' f'] & n & Ht' & _ & E & _). cbn [fst] in E. subst sp'. exists (sp, f'), symbol. done. }
    destruct Hw' as [w' Hw'].
    assert (Ew : map fst w' = map fst w).
    { apply list_eq. intros a. change (map ?f ?l) with (f <$> l). rewrite !list_lookup_fmap.
      destruct (w !! a) as [s|] eqn:Es.
      - destruct (working_lookup is_element _ _ _ _ _ Hw Hlt Es) as (i & sp & f & symbol & Ha & Ht & Hsy & He & ->).
        destruct (proj2 Hw' a i Ha) as (sp' & f' & symbol' & Ht' & Hsy' & _ & ->).
        destruct (Hns i _ Ht) as ([sp2 f2] & n & Ht2 & _ & E & _). cbn [fst] in E. subst sp2. rewrite Ht' in Ht2. injection Ht2 as -> ->.
        rewrite Hsy in Hsy'. injection Hsy' as <-. done.
      - apply lookup_ge_None in Es. rewrite lookup_ge_None_2; [done|]. rewrite (proj1 Hw'), <- (proj1 Hw). done. }
    assert (Hla' : exists la', lattice_new parse w' mapping bt = Ok la' /\ la_allowed la' = la_allowed la /\ la_basis la' = la_basis la).
    { unfold lattice_new in *. apply rbind_ok in Hla as (entries & -> & Hla). cbn [rbind].
      assert (E : forall l l' : list site, map fst l' = map fst l ->
         map (fun s : site => allowed_for (dof_pairs entries) (fst s)) l' = map (fun s => allowed_for (dof_pairs entries) (fst s)) l).
      { intros l l' E. rewrite <- (map_map fst (allowed_for (dof_pairs entries)) l'), <- (map_map fst (allowed_for (dof_pairs entries)) l). by rewrite E. }
      rewrite (E w w' Ew). destruct (List.filter is_nonempty _); [done|]. apply rbind_ok in Hla as (b & -> & [= <-]). simpl.
      eexists. split; [reflexivity|]. done. }
    destruct Hla' as (la' & Hla' & Eal & Eba).
    (* the centre *)
    assert (Hcc : exists c' fc nc, centre_of o m w' center' c' ci /\
       c = to_cart m fc /\ point_eq c' (to_cart m (shift (vadd fc v) nc))).
    { destruct center as [z|l|], center' as [z'|l'|]; simpl in Hcen, Hc; try done; try (by destruct l as [|? [|? [|? [|? ?]]]]).
      - subst z'. destruct Hc as (a & s & Ha & Hs & -> & ->).
        destruct (working_lookup is_element _ _ _ _ _ Hw Hlt Hs) as (i & sp & f & symbol & Hai & Ht & Hsy & He & ->).
        destruct (proj2 Hw' a i Hai) as (sp' & f' & symbol' & Ht' & _ & _ & Hwa').
        destruct (Hns i _ Ht) as ([sp2 f2] & n & Ht2 & _ & _ & Hf2). rewrite Ht' in Ht2. injection Ht2 as <- <-. cbn [snd] in *.
        exists (to_cart m (place (1, 1, 1) f' (0, 0, 0))), (place (1, 1, 1) f (0, 0, 0)), n. simpl. split; [eauto 10|]. split; [done|].
        apply to_cart_eq. eapply point_eq_trans; [apply place_unit|]. eapply point_eq_trans; [exact Hf2|]. apply shift_eq.
        apply vadd_eq, point_eq_sym, place_unit.
      - destruct l as [|x [|y [|z [|? ?]]]]; try done. destruct l' as [|x' [|y' [|z' [|? ?]]]]; try done.
        destruct Hc as [-> ->], Hcen as (n & Hn). exists (to_cart m (x', y', z')), (x, y, z), n. split; [done|]. split; [done|]. by apply to_cart_eq. }
    destruct Hcc as (c' & fc & nc & Hc' & -> & Hc'').
    set (n := fun a : nat => match o_a2o o !! a with Some z => match ns !! Z.to_nat z with Some t => t | None => (0, 0, 0)%Z end | None => (0, 0, 0)%Z end).
    set (h := fun k : nat * image => (fst k, isub (iadd (snd k) nc) (n (fst k)))).
    set (hi := fun k : nat * image => (fst k, isub (iadd (snd k) (n (fst k))) nc)).
    assert (hhi : forall k, h (hi k) = k). { intros [a [[t1 t2] t3]]. unfold h, hi. cbn [fst snd]. destruct (n a) as [[? ?] ?], nc as [[? ?] ?]. simpl. repeat f_equal; lia. }
    assert (hih : forall k, hi (h k) = k). { intros [a [[t1 t2] t3]]. unfold h, hi. cbn [fst snd]. destruct (n a) as [[? ?] ?], nc as [[? ?] ?]. simpl. repeat f_equal; lia. }
    set (K := keys_of en m w rule (to_cart m fc) ci (sphere m (map snd w) (to_cart m fc) cutoff)) in *.
    set (K' := keys_of en m w' rule c' ci (sphere m (map snd w') c' cutoff)).
    (* positions *)
    assert (Hpos : forall a t i sp f sp' f', active_is o a i -> template !! i = Some (sp, f) -> template' !! i = Some (sp', f') ->
       point_eq (vsub (to_cart m (shift f' t)) c') (vsub (to_cart m (shift f (snd (hi (a, t))))) (to_cart m fc))).
    { intros a t i sp f sp' f' Ha Ht Ht'. destruct (Hns i _ Ht) as (s2 & n2 & Ht2 & Hn2 & _ & Hf2). rewrite Ht' in Ht2. injection Ht2 as <-.
      cbn [snd] in Hf2. unfold hi, n. cbn [fst snd]. unfold active_is in Ha. rewrite Ha, Nat2Z.id, Hn2.
      eapply point_eq_trans; [apply vsub_eq; [apply point_eq_refl|exact Hc'']|]. eapply same_difference; [exact Hf2|apply point_eq_refl]. }
    assert (Hcidx : forall i, center' = CIndex (Z.of_nat i) <-> center = CIndex (Z.of_nat i)).
    { intros i. destruct center, center'; simpl in Hcen; try done; try (by destruct l as [|? [|? [|? [|? ?]]]]). by subst. }
    assert (Hbel : forall k, k ∈ K' <-> hi k ∈ K).
    { intros [a t]. unfold hi at 1. cbn [fst].
      unfold K, K'. rewrite (belongs_lemma parse fp is_element en sphere round8 template' mapping o m w' rule center' c' ci cutoff a t Hx Ho' Hw' Hc').
      rewrite (belongs_lemma parse fp is_element en sphere round8 template mapping o m w rule center (to_cart m fc) ci cutoff a _ Hx Ho Hw Hc).
      assert (Hre : forall i sp f sp' f' r, active_is o a i -> template !! i = Some (sp, f) -> template' !! i = Some (sp', f') ->
                reaches m f' t c' r <-> reaches m f (snd (hi (a, t))) (to_cart m fc) r).
      { intros i sp f sp' f' r Ha Ht Ht'. unfold reaches. by rewrite (norm2_eq _ _ (Hpos a t i sp f sp' f' Ha Ht Ht')). }
      split.
      - intros (i & [sp' f'] & Ha & Ht' & Hr1 & Hl). destruct (Hlt a _ Ha) as (i' & Ei & Hi). apply Nat2Z.inj in Ei. subst i'.
        destruct (lookup_lt_is_Some_2 _ _ Hi) as [[sp f] Ht]. exists i, (sp, f). do 2 (split; [done|]). cbn [snd] in *. split; [by eapply Hre|].
        intros [He Hlo]. apply Hl. split; [done|]. destruct Hlo as [Hlo|Hlo]; [left; by apply Hcidx|right; by eapply Hre].
      - intros (i & [sp f] & Ha & Ht & Hr1 & Hl). destruct (Hns i _ Ht) as ([sp' f'] & n2 & Ht' & _). exists i, (sp', f'). do 2 (split; [done|]).
        cbn [snd] in *. split; [by eapply Hre|].
        intros [He Hlo]. apply Hl. split; [done|]. destruct Hlo as [Hlo|Hlo]; [left; by apply Hcidx|right; by eapply Hre]. }
    (* the sites of corresponding keys *)
    assert (Hrel : forall k, k ∈ K -> fst (relative m w' c' (h k)) = fst (relative m w (to_cart m fc) k) /\
                     point_eq (snd (relative m w (to_cart m fc) k)) (snd (relative m w' c' (h k)))).
    { intros k Hin. pose proof (hih k) as Ehi. destruct k as [a t]. unfold K in Hin.
      apply (belongs_lemma parse fp is_element en sphere round8 template mapping o m w rule center (to_cart m fc) ci cutoff a t Hx Ho Hw Hc) in Hin.
      destruct Hin as (i & [sp f] & Ha & Ht & _ & _). destruct (Hns i _ Ht) as ([sp' f'] & n2 & Ht' & _ & E & _). cbn [fst] in E. subst sp'.
      destruct (proj2 Hw a i Ha) as (sp1 & f1 & symbol & Ht1 & Hsy & He & Hwa). rewrite Ht in Ht1. injection Ht1 as <- <-.
      destruct (proj2 Hw' a i Ha) as (sp2 & f2 & symbol' & Ht2 & Hsy' & _ & Hwa'). rewrite Ht' in Ht2. injection Ht2 as <- <-.
      rewrite Hsy in Hsy'. injection Hsy' as <-.
      unfold relative, site_at. change (fst (h (a, t))) with a. change (fst (a, t)) with a. rewrite Hwa, Hwa'. cbn [fst snd]. split; [done|].
      apply point_eq_sym. pose proof (Hpos a (snd (h (a, t))) i sp f sp f' Ha Ht Ht') as Hp.
      change (a, snd (h (a, t))) with (h (a, t)) in Hp. rewrite Ehi in Hp. cbn [snd] in Hp.
      eapply point_eq_trans; [apply vsub_eq; [apply to_cart_eq, shift_eq, place_unit|apply point_eq_refl]|].
      eapply point_eq_trans; [exact Hp|]. apply vsub_eq; [apply to_cart_eq, shift_eq, point_eq_sym, place_unit|apply point_eq_refl]. }
    assert (Hleb : forall x y, x ∈ K -> y ∈ K -> site_leb en (lo_keys rule) (site_at m w' (h x)) (site_at m w' (h y)) = site_leb en (lo_keys rule) (site_at m w x) (site_at m w y)).
    { intros x y Hx1 Hy1. unfold site_leb. rewrite <- (compare_relative en m w' c'), <- (compare_relative en m w (to_cart m fc)).
      destruct (Hrel x Hx1) as [E1 P1], (Hrel y Hy1) as [E2 P2].
      destruct (relative m w' c' (h x)) as [sx px], (relative m w' c' (h y)) as [sy py], (relative m w (to_cart m fc) x) as [sx' px'], (relative m w (to_cart m fc) y) as [sy' py'].
      cbn [fst snd] in *. subst sx' sy'.
      rewrite (compare_sites_moved en (lo_keys rule) sx px' px sy py' py (0, 0, 0)%Q (0, 0, 0)%Q); [done| | |apply point_eq_refl].
      - destruct px as [[? ?] ?], px' as [[? ?] ?]. unfold point_eq, vsub in *. destruct P1 as (Q1 & Q2 & Q3). rewrite <- Q1, <- Q2, <- Q3. repeat split; ring.
      - destruct py as [[? ?] ?], py' as [[? ?] ?]. unfold point_eq, vsub in *. destruct P2 as (Q1 & Q2 & Q3). rewrite <- Q1, <- Q2, <- Q3. repeat split; ring. }
    assert (EK : map h K = K').
    { apply (strongly_sorted_unique (fun a b => site_leb en (lo_keys rule) (site_at m w' a) (site_at m w' b) = true)).
      - intros x y Hx1 Hy1. apply elem_of_list_fmap in Hx1 as (x0 & -> & Hx0), Hy1 as (y0 & -> & Hy0). rewrite !Hleb by done.
        intros H1 H2. f_equal. by apply (told_apart_keys en m w (to_cart m fc) rule K Hta).
      - assert (Hs : StronglySorted (fun a b => site_leb en (lo_keys rule) (site_at m w a) (site_at m w b) = true) K).
        { apply (sorted_strong (fun a b => site_leb en (lo_keys rule) (site_at m w a) (site_at m w b))).
          - intros a b. apply site_leb_total.
          - intros a b d. apply site_leb_trans. }
        clear -Hs Hleb. induction Hs as [|x l Hs IH Hf]; simpl; [constructor|]. constructor.
        + apply IH. intros a b Ha Hb. apply Hleb; by right.
        + rewrite Forall_forall in *. intros y Hy. apply elem_of_list_fmap in Hy as (y0 & -> & Hy0). rewrite Hleb; [by apply Hf|by left|by right].
      - apply (sorted_strong (fun a b => site_leb en (lo_keys rule) (site_at m w' a) (site_at m w' b))).
        + intros a b. apply site_leb_total.
        + intros a b d. apply site_leb_trans.
      - apply NoDup_Permutation.
        + change (map ?f ?l) with (f <$> l). apply NoDup_fmap_2.
          * intros x y E. rewrite <- (hih x), <- (hih y). by rewrite E.
          * apply keys_nodup. apply Hx.
        + apply keys_nodup. apply Hx.
        + intros k. rewrite Hbel. split.
          * intros Hin. apply elem_of_list_fmap in Hin as (k0 & -> & Hk0). by rewrite hih.
          * intros Hin. apply elem_of_list_fmap. exists (hi k). by rewrite hhi. }
    assert (Hsites : Forall2 (fun s s' => fst s' = fst s /\ point_eq (snd s) (snd s')) (map (relative m w (to_cart m fc)) K) (map (relative m w' c') K')).
    { rewrite <- EK. clear -Hrel. induction K as [|k K IH]; simpl; [constructor|]. constructor.
      - apply Hrel. by left.
      - apply IH. intros k' Hk'. apply Hrel. by right. }
    exists (result_of round8 site_hash m w' la' o rule c' ci K'). split; [|split].
    - apply new_iff. split; [done|]. exists o, w', rule0, la', c', ci. do 5 (split; [done|]). cbn zeta. fold rule. fold K'.
      split; [by apply exact_range|]. split; [|split; [|done]].
      + destruct Hk as [Hk|Hk]; [left; by rewrite <- EK, Hk|by right].
      + intros E. apply Hem. rewrite <- EK in E. by destruct K.
    - unfold same_environment. cbn [ll_indices ll_sites ll_lattice result_of]. rewrite Eal, Eba. split; [|done].
      rewrite <- EK, map_map. done.
    - intros Hround. cbn [ll_hash result_of]. f_equal. revert Hsites. generalize (map (relative m w' c') K'), (map (relative m w (to_cart m fc)) K).
      clear -Hround. intros l' l Hs. unfold ordered_site_signature. induction Hs as [|s s' l l' [E P] _ IH]; simpl; [done|]. rewrite IH, E. f_equal. f_equal.
      destruct (snd s) as [[x y] z], (snd s') as [[x' y'] z']. simpl in *. destruct P as (H1 & H2 & H3).
      by rewrite (Hround _ _ H1), (Hround _ _ H2), (Hround _ _ H3).
  Qed.
End Same.

(* ------------------------------------------------------------------ *)
(** ** Matching *)

Section Match.
  Variable distance : point -> point -> Q.
  Hypothesis distance_sym : forall x y, (distance x y == distance y x)%Q.
  Variable empty_molecule : bool.
  Variable round8 : Q -> Q.
  Variable site_hash : list (string * point) -> string.

  Definition cluster_of (e : local_lattice) : cluster :=
    Cluster (ll_indices e) (map (fun s => sp_str (fst s)) (ll_sites e)) (replicate (length (ll_sites e)) ""%string)
      (build_distance_matrix distance (map snd (ll_sites e))).
  Lemma to_cluster_ok e : indexed e -> to_cluster distance e = Ok (cluster_of e).
  Proof.
    intros H. unfold to_cluster, cluster_new. rewrite !map_length, Nat.eqb_refl. simpl. unfold indexed in H.
    rewrite H, Nat.eqb_refl. simpl. rewrite replicate_length, Nat.eqb_refl. done.
  Qed.
  Lemma cluster_of_proper e : indexed e -> proper (cluster_of e).
  Proof. intros H. apply to_cluster_ok in H. by eapply cluster_new_proper. Qed.
  Lemma cluster_of_symmetric e : indexed e -> symmetric (cluster_of e).
  Proof. intros H. apply to_cluster_ok in H. by eapply cluster_new_symmetric. Qed.
  Lemma cluster_size e : size (cluster_of e) = length (ll_sites e).
  Proof. unfold size. simpl. by rewrite map_length. Qed.
  Lemma cluster_label e i s : ll_sites e !! i = Some s -> cl_labels (cluster_of e) !! i = Some (sp_str (fst s), ""%string).
  Proof.
    intros H. unfold cl_labels. simpl. apply lookup_zip_with_Some. exists (sp_str (fst s)), ""%string. split; [done|].
    split; [change (map ?f ?l) with (f <$> l); by rewrite list_lookup_fmap, H|]. apply lookup_replicate_2. by eapply lookup_lt_Some.
  Qed.
  Lemma cluster_dist e i j s t : ll_sites e !! i = Some s -> ll_sites e !! j = Some t ->
    dist_at (cluster_of e) i j = Some (distance (snd s) (snd t)).
  Proof.
    intros Hi Hj. unfold dist_at. simpl. unfold build_distance_matrix. change (map ?f ?l) with (f <$> l).
    rewrite !list_lookup_fmap, Hi. simpl. change (map ?f ?l) with (f <$> l). by rewrite !list_lookup_fmap, Hj.
  Qed.
  Lemma cluster_dist_inv e i j d : dist_at (cluster_of e) i j = Some d ->
    exists s t, ll_sites e !! i = Some s /\ ll_sites e !! j = Some t /\ d = distance (snd s) (snd t).
  Proof.
    unfold dist_at. simpl. unfold build_distance_matrix. change (map ?f ?l) with (f <$> l).
    rewrite !list_lookup_fmap. destruct (ll_sites e !! i) as [s|]; simpl; [|done]. change (map ?f ?l) with (f <$> l). rewrite !list_lookup_fmap.
    destruct (ll_sites e !! j) as [t|]; simpl; [|done]. intros [= <-]. eauto.
  Qed.

  Lemma preserving_bridge ref e p : label_preserving (cluster_of ref) (cluster_of e) p <-> keeps_species ref e p.
  Proof.
    unfold label_preserving, keeps_species. rewrite !cluster_size. split.
    - intros (Hl & Hs & Hn & H). do 3 (split; [done|]). intros i c Hp. destruct (H i c Hp) as (l & H1 & H2).
      assert (Hi : i < length (ll_sites ref)) by (rewrite <- Hl; by eapply lookup_lt_Some).
      destruct (lookup_lt_is_Some_2 _ _ Hi) as [s Hs']. rewrite (cluster_label _ _ _ Hs') in H1. injection H1 as <-.
      assert (Hc : c < length (ll_sites e)).
      { apply lookup_lt_Some in H2. unfold cl_labels in H2. simpl in H2. rewrite zip_with_length, map_length in H2. lia. }
      destruct (lookup_lt_is_Some_2 _ _ Hc) as [t Ht]. rewrite (cluster_label _ _ _ Ht) in H2. injection H2 as E. exists s, t. done.
    - intros (Hl & Hs & Hn & H). do 3 (split; [done|]). intros i c Hp. destruct (H i c Hp) as (s & t & H1 & H2 & E).
      exists (sp_str (fst s), ""%string). split; [by apply cluster_label|]. rewrite E. by apply cluster_label.
  Qed.
  Lemma fits_bridge rtol atol ref e p : fits rtol atol (cluster_of ref) (cluster_of e) p <-> fits_reference distance rtol atol ref e p.
  Proof.
    unfold fits, fits_reference. rewrite preserving_bridge. split; intros [Hk H]; (split; [done|]).
    - intros i j c d s s' t t' Hij Hi Hj Hs Hs' Ht Ht'. eapply (H i j c d); [done|done|done|by apply cluster_dist|by apply cluster_dist].
    - intros i j c d a b Hij Hi Hj Ha Hb. apply cluster_dist_inv in Ha as (s & s' & Hs & Hs' & ->), Hb as (t & t' & Ht & Ht' & ->). eauto.
  Qed.

  Lemma keeps_permutation ref e p : keeps_species ref e p -> Permutation p (seq 0 (length (ll_sites e))).
  Proof.
    intros (Hl & Hp & Hn & H).
    assert (Hsub : p ⊆+ seq 0 (length (ll_sites e))).
    { apply NoDup_submseteq; [done|]. intros c Hc. apply elem_of_list_lookup in Hc as (i & Hi). destruct (H i c Hi) as (_ & t & _ & Ht & _).
      apply elem_of_seq. apply lookup_lt_Some in Ht. lia. }
    apply submseteq_Permutation_length_eq; [rewrite seq_length; lia|done].
  Qed.

  Lemma rmapM_at {A} (l : list A) p l' : rmapM (at_nat l) p = Ok l' ->
    length l' = length p /\ forall k i, p !! k = Some i -> l' !! k = l !! i.
  Proof.
    intros H. split; [by eapply rmapM_length|]. intros k i Hk. destruct (rmapM_lookup_l _ _ _ _ _ H Hk) as (y & -> & E).
    unfold at_nat in E. destruct (l !! i); [by injection E as ->|done].
  Qed.

  Notation match_ref := (match_with_reference empty_molecule round8 site_hash distance).

  Lemma matched_lemma e ref rtol atol nearest e' : indexed e -> indexed ref ->
    match_ref e ref rtol atol nearest = Ok e' ->
    exists p, rearranged e p e' /\ keeps_species ref e p /\ indexed e' /\
      ((exists q, fits_reference distance rtol atol ref e q) -> fits_reference distance rtol atol ref e p) /\
      (nearest = false -> fits_reference distance rtol atol ref e p) /\
      ll_signature e' = ordered_site_signature round8 (ll_sites e') /\ ll_hash e' = site_hash (ll_signature e').
  Proof.
    intros He Href H. unfold match_with_reference in H. rewrite (to_cluster_ok _ Href), (to_cluster_ok _ He) in H. cbn [rbind] in H.
    apply rbind_ok in H as (fd & Hf & H). apply rbind_ok in H as (sites & Hs & H). apply rbind_ok in H as (sites' & Hm & H).
    apply rbind_ok in H as (indices & Hi & [= <-]).
    assert (sites' = sites) as ->. { unfold molecule in Hm. destruct sites; [destruct empty_molecule; [|done]|]; by injection Hm as <-. }
    apply rmapM_at in Hs as [Hsl Hs], Hi as [Hil Hi].
    destruct (match_reports round8 rtol atol (cluster_of ref) (cluster_of e)) with (ru := false) (fn := nearest) (m := fd)
      as (Hlp & _ & _); [by apply cluster_of_proper|by apply cluster_of_proper|by apply cluster_of_symmetric|by apply cluster_of_symmetric|done|].
    apply preserving_bridge in Hlp. exists (reference_to_candidate fd).
    assert (Hfit : (exists q, fits rtol atol (cluster_of ref) (cluster_of e) q) -> fits_reference distance rtol atol ref e (reference_to_candidate fd)).
    { intros Hq. apply fits_bridge. eapply (found_lemma round8 rtol atol (cluster_of ref) (cluster_of e)); [by apply cluster_of_proper|by apply cluster_of_proper|by apply cluster_of_symmetric|by apply cluster_of_symmetric|exact Hf|done]. }
    split; [|split; [done|split; [|split; [|split; [|done]]]]].
    - split; [by eapply keeps_permutation|]. cbn [ll_sites ll_indices ll_lattice ll_order ll_rule ll_center ll_center_index].
      do 2 (split; [done|]). split; [|done]. intros k i Hk. auto.
    - unfold indexed. cbn [ll_sites ll_indices]. lia.
    - intros (q & Hq). apply Hfit. exists q. by apply fits_bridge.
    - intros ->. apply Hfit. eapply (found_iff_lemma round8); [by apply cluster_of_proper|by apply cluster_of_proper|by apply cluster_of_symmetric|by apply cluster_of_symmetric|]. eauto.
  Qed.

  Lemma match_exists e ref rtol atol nearest fd : indexed e -> indexed ref -> (ll_sites e <> [] \/ empty_molecule = true) ->
    cluster_match round8 (cluster_of ref) rtol atol (cluster_of e) false nearest = Ok fd ->
    exists e', match_ref e ref rtol atol nearest = Ok e'.
  Proof.
    intros He Href Hne Hf. unfold match_with_reference. rewrite (to_cluster_ok _ Href), (to_cluster_ok _ He). cbn [rbind]. rewrite Hf. cbn [rbind].
    destruct (match_reports round8 rtol atol (cluster_of ref) (cluster_of e)) with (ru := false) (fn := nearest) (m := fd)
      as (Hlp & _ & _); [by apply cluster_of_proper|by apply cluster_of_proper|by apply cluster_of_symmetric|by apply cluster_of_symmetric|done|].
    apply preserving_bridge in Hlp. pose proof (keeps_permutation _ _ _ Hlp) as Hp.
    assert (Hin : forall {A} (l : list A), length l = length (ll_sites e) -> exists l', rmapM (at_nat l) (reference_to_candidate fd) = Ok l').
    { intros A l Hl. apply rmapM_ok_exists. intros i Hin. rewrite Hp in Hin. apply elem_of_seq in Hin. destruct (lookup_lt_is_Some_2 l i) as [x Hx]; [lia|].
      unfold at_nat. rewrite Hx. eauto. }
    destruct (Hin _ (ll_sites e) eq_refl) as [sites Hs], (Hin _ (ll_indices e) He) as [indices Hi]. rewrite Hs. cbn [rbind].
    assert (molecule empty_molecule sites = Ok sites) as ->.
    { unfold molecule. destruct sites; [|done]. destruct Hne as [Hne| ->]; [|done]. exfalso. apply Hne.
      apply rmapM_length in Hs. apply Permutation_length in Hp. rewrite seq_length in Hp. simpl in Hs. apply length_zero_iff_nil. lia. }
    cbn [rbind]. rewrite Hi. cbn [rbind]. eauto.
  Qed.

  Lemma match_iff_lemma e ref rtol atol : indexed e -> indexed ref -> (ll_sites e <> [] \/ empty_molecule = true) ->
    (exists e', match_ref e ref rtol atol false = Ok e') <-> exists p, fits_reference distance rtol atol ref e p.
  Proof.
    intros He Href Hne. split.
    - intros (e' & H). destruct (matched_lemma _ _ _ _ _ _ He Href H) as (p & _ & _ & _ & _ & Hf & _). exists p. by apply Hf.
    - intros (p & Hp). apply fits_bridge in Hp.
      destruct (proj2 (found_iff_lemma round8 rtol atol (cluster_of ref) (cluster_of e) (cluster_of_proper _ Href) (cluster_of_proper _ He)
                  (cluster_of_symmetric _ Href) (cluster_of_symmetric _ He))) as [fd Hfd]; [eauto|]. by eapply match_exists.
  Qed.
  Lemma nearest_iff_lemma e ref rtol atol : indexed e -> indexed ref -> (ll_sites e <> [] \/ empty_molecule = true) ->
    (exists e', match_ref e ref rtol atol true = Ok e') <-> exists p, keeps_species ref e p.
  Proof.
    intros He Href Hne. split.
    - intros (e' & H). destruct (matched_lemma _ _ _ _ _ _ He Href H) as (p & _ & Hk & _). eauto.
    - intros (p & Hp). apply preserving_bridge in Hp.
      destruct (cluster_match round8 (cluster_of ref) rtol atol (cluster_of e) false true) as [fd|x] eqn:E; [by eapply match_exists|]. exfalso.
      assert (x = ValueError) as -> by (eapply (match_error round8 rtol atol); [..|exact E]; (by apply cluster_of_proper) || by apply cluster_of_symmetric).
      refine (proj1 (nearest_fails_lemma round8 rtol atol (cluster_of ref) (cluster_of e) (cluster_of_proper _ Href) (cluster_of_proper _ He)
                  (cluster_of_symmetric _ Href) (cluster_of_symmetric _ He)) E p Hp).
  Qed.

  Lemma match_error_lemma e ref rtol atol nearest x : indexed e -> indexed ref -> (ll_sites e <> [] \/ empty_molecule = true) ->
    match_ref e ref rtol atol nearest = Err x -> x = ValueError.
  Proof.
    intros He Href Hne H. destruct (cluster_match round8 (cluster_of ref) rtol atol (cluster_of e) false nearest) as [fd|y] eqn:E.
    - destruct (match_exists _ _ _ _ _ _ He Href Hne E) as [e' He']. congruence.
    - unfold match_with_reference in H. rewrite (to_cluster_ok _ Href), (to_cluster_ok _ He) in H. cbn [rbind] in H. rewrite E in H. injection H as <-.
      eapply (match_error round8 rtol atol); [..|exact E]; (by apply cluster_of_proper) || by apply cluster_of_symmetric.
  Qed.

  Lemma equivalent_lemma e other rtol atol : indexed e -> indexed other ->
    exists b, is_equivalent_to round8 distance e other rtol atol = Ok b /\
      (b = true <-> exists p, fits_reference distance rtol atol e other p).
  Proof.
    intros He Ho. unfold is_equivalent_to. rewrite (to_cluster_ok _ He), (to_cluster_ok _ Ho). cbn [rbind].
    pose proof (found_iff_lemma round8 rtol atol (cluster_of e) (cluster_of other) (cluster_of_proper _ He) (cluster_of_proper _ Ho)
                  (cluster_of_symmetric _ He) (cluster_of_symmetric _ Ho)) as Hi.
    assert (Hb : (exists p, fits rtol atol (cluster_of e) (cluster_of other) p) <-> exists p, fits_reference distance rtol atol e other p).
    { split; intros (p & Hp); exists p; by apply fits_bridge. }
    rewrite Hb in Hi.
    destruct (cluster_match round8 (cluster_of e) rtol atol (cluster_of other) false false) as [fd|x] eqn:E.
    - exists true. split; [done|]. split; [|done]. intros _. apply Hi. eauto.
    - assert (x = ValueError) as -> by (eapply (match_error round8 rtol atol); [..|exact E]; (by apply cluster_of_proper) || by apply cluster_of_symmetric).
      exists false. split; [done|]. split; [done|]. intros Hp. apply Hi in Hp as [m Hm]. done.
  Qed.

  (** When only one permutation fits, the result does not depend on the order of the sites. *)
  Lemma canonical_lemma e ref rtol atol e' s f : indexed e -> indexed ref ->
    match_ref e ref rtol atol false = Ok e' ->
    (forall p q, fits_reference distance rtol atol ref e p -> fits_reference distance rtol atol ref e q -> p = q) ->
    rearranged e s f ->
    exists f', match_ref f ref rtol atol false = Ok f' /\ ll_sites f' = ll_sites e' /\ ll_indices f' = ll_indices e' /\ ll_hash f' = ll_hash e'.
  Proof.
    intros He Href Hm Huniq (Hperm & Hlf & Hif & Hat & _).
    pose proof (Permutation_length Hperm) as Hsl. rewrite seq_length in Hsl.
    assert (Hf : indexed f) by (unfold indexed; lia).
    destruct (matched_lemma _ _ _ _ _ _ He Href Hm) as (p & (Hp & Hpl & Hpi & Hpat & _) & Hk & _ & _ & Hfit & Hsig & Hhash). specialize (Hfit eq_refl).
    assert (Hne : ll_sites f <> [] \/ empty_molecule = true).
    { destruct (decide (ll_sites e = [])) as [E|E].
      - right. unfold match_with_reference in Hm. rewrite (to_cluster_ok _ Href), (to_cluster_ok _ He) in Hm. cbn [rbind] in Hm.
        apply rbind_ok in Hm as (fd & _ & Hm). apply rbind_ok in Hm as (sites & Hs & Hm). apply rbind_ok in Hm as (sites' & Hmo & _).
        assert (sites = []) as ->. { rewrite E in Hs. destruct (reference_to_candidate fd) as [|i r]; [by injection Hs as <-|]. done. }
        unfold molecule in Hmo. by destruct empty_molecule.
      - left. intros E'. apply E. apply length_zero_iff_nil. rewrite E' in Hlf. simpl in Hlf. lia. }
    (* a permutation of f is one of e *)
    assert (Hback : forall q, fits_reference distance rtol atol ref f q ->
      exists r, fits_reference distance rtol atol ref e r /\ length r = length q /\ forall i k, q !! i = Some k -> r !! i = s !! k).
    { intros q [(Hq1 & Hq2 & Hq3 & Hq4) Hq5].
      exists (map (fun k => match s !! k with Some c => c | None => 0 end) q).
      assert (Hr : forall i c, map (fun k => match s !! k with Some c => c | None => 0 end) q !! i = Some c <-> exists k, q !! i = Some k /\ s !! k = Some c).
      { intros i c. change (map ?f ?l) with (f <$> l). rewrite list_lookup_fmap. split.
        - intros H. apply fmap_Some in H as (k & Hk' & ->). exists k. split; [done|]. destruct (Hq4 i k Hk') as (_ & t & _ & Ht & _).
          apply lookup_lt_Some in Ht. rewrite Hlf in Ht. destruct (lookup_lt_is_Some_2 s k Ht) as [c ->]. done.
        - intros (k & -> & Hc). simpl. by rewrite Hc. }
      split; [|split; [by rewrite map_length|]].
      - split; [split_and!|].
        + rewrite <- Hq1, Hlf. done.
        + by rewrite map_length.
        + apply NoDup_alt. intros i j c Hi Hj. apply Hr in Hi as (k & Hi & Hk1), Hj as (k' & Hj & Hk2).
          assert (NoDup s) as Hns. { rewrite Hperm. apply NoDup_seq. }
          assert (k = k') as <- by (by eapply (NoDup_lookup s)). by eapply (NoDup_lookup q).
        + intros i c Hi. apply Hr in Hi as (k & Hi & Hkc). destruct (Hq4 i k Hi) as (x & t & Hx & Ht & E). exists x, t.
          destruct (Hat k c Hkc) as [Hs _]. rewrite Ht in Hs. done.
        + intros i j c d x x' t t' Hij Hi Hj Hx Hx' Ht Ht'. apply Hr in Hi as (k & Hi & Hk1), Hj as (k' & Hj & Hk2).
        destruct (Hat k c Hk1) as [Hs1 _], (Hat k' d Hk2) as [Hs2 _]. rewrite Ht in Hs1. rewrite Ht' in Hs2. eapply (Hq5 i j k k'); done.
      - intros i k Hi. change (map ?f ?l) with (f <$> l). rewrite list_lookup_fmap, Hi. simpl.
        destruct (Hq4 i k Hi) as (_ & t & _ & Ht & _). apply lookup_lt_Some in Ht. rewrite Hlf in Ht. by destruct (lookup_lt_is_Some_2 s k Ht) as [c ->]. }
    (* and the other way round *)
    assert (Hex : exists q, fits_reference distance rtol atol ref f q).
    { destruct Hfit as [(Hq1 & Hq2 & Hq3 & Hq4) Hq5].
      assert (Hpos : forall c, c < length s -> exists k, s !! k = Some c).
      { intros c Hc. apply elem_of_list_lookup. rewrite Hperm. apply elem_of_seq. lia. }
      set (pos := fun c => match List.filter (fun k => bool_decide (s !! k = Some c)) (seq 0 (length s)) with k :: _ => k | [] => 0 end).
      assert (Hposs : forall c, c < length s -> s !! pos c = Some c).
      { intros c Hc. unfold pos. destruct (Hpos c Hc) as [k Hk'].
        assert (Hin : In k (List.filter (fun k => bool_decide (s !! k = Some c)) (seq 0 (length s)))).
        { apply filter_In. split; [apply in_seq; apply lookup_lt_Some in Hk'; lia|by apply bool_decide_eq_true]. }
        destruct (List.filter _ _) as [|k' l] eqn:El; [done|].
        assert (In k' (List.filter (fun k => bool_decide (s !! k = Some c)) (seq 0 (length s)))) as Hin' by (rewrite El; by left).
        apply filter_In in Hin' as [_ Hin']. by apply bool_decide_eq_true in Hin'. }
      assert (Hpc : forall i c, p !! i = Some c -> c < length s).
      { intros i c Hi. destruct (Hq4 i c Hi) as (_ & t & _ & Ht & _). apply lookup_lt_Some in Ht. lia. }
      assert (Hr : forall i k, map pos p !! i = Some k -> exists c, p !! i = Some c /\ s !! k = Some c).
      { intros i k Hi. change (map ?f ?l) with (f <$> l) in Hi. rewrite list_lookup_fmap in Hi. apply fmap_Some in Hi as (c & Hc & ->).
        exists c. split; [done|]. apply Hposs. by eapply Hpc. }
      exists (map pos p). split; [split_and!|].
      - lia.
      - by rewrite map_length.
      - apply NoDup_alt. intros i j k Hi Hj. apply Hr in Hi as (c & Hi & Hk1), Hj as (c' & Hj & Hk2). rewrite Hk1 in Hk2. injection Hk2 as <-.
        by eapply (NoDup_lookup p).
      - intros i k Hi. apply Hr in Hi as (c & Hi & Hkc). destruct (Hq4 i c Hi) as (x & t & Hx & Ht & E). exists x, t.
        destruct (Hat k c Hkc) as [Hs _]. rewrite Hs. done.
      - intros i j k k' x x' t t' Hij Hi Hj Hx Hx' Ht Ht'. apply Hr in Hi as (c & Hi & Hk1), Hj as (c' & Hj & Hk2).
        destruct (Hat k c Hk1) as [Hs1 _], (Hat k' c' Hk2) as [Hs2 _]. rewrite Hs1 in Ht. rewrite Hs2 in Ht'. eapply (Hq5 i j c c'); done. }
    destruct (proj2 (match_iff_lemma f ref rtol atol Hf Href Hne) Hex) as [f' Hf']. exists f'. split; [done|].
    destruct (matched_lemma _ _ _ _ _ _ Hf Href Hf') as (q & (Hq & Hql & Hqi & Hqat & _) & _ & _ & _ & Hqfit & Hsig' & Hhash'). specialize (Hqfit eq_refl).
    destruct (Hback q Hqfit) as (r & Hrfit & Hrl & Hrat).
    assert (r = p) as -> by (by apply Huniq).
    assert (ll_sites f' = ll_sites e' /\ ll_indices f' = ll_indices e') as [E1 E2].
    { assert (G : forall i, ll_sites f' !! i = ll_sites e' !! i /\ ll_indices f' !! i = ll_indices e' !! i).
      { intros i. destruct (q !! i) as [k|] eqn:Ei.
        - destruct (Hqat i k Ei) as [-> ->]. specialize (Hrat i k Ei).
          destruct (p !! i) as [c|] eqn:Ep.
          + symmetry in Hrat. destruct (Hat k c Hrat) as [-> ->]. destruct (Hpat i c Ep) as [-> ->]. done.
          + apply lookup_ge_None in Ep. apply lookup_lt_Some in Ei. lia.
        - apply lookup_ge_None in Ei. rewrite !lookup_ge_None_2 by lia. done. }
      split; apply list_eq; intros i; apply G. }
    rewrite Hhash', Hsig', Hhash, Hsig, E1. done.
  Qed.
End Match.

Lemma congruent_lemma distance (Hsym : forall x y, (distance x y == distance y x)%Q) round8 e other rtol atol p :
  indexed e -> indexed other -> (0 <= rtol)%Q -> (0 <= atol)%Q -> congruent_by distance e other p ->
  is_equivalent_to round8 distance e other rtol atol = Ok true.
Proof.
  intros He Ho Hr Ha [Hk H]. destruct (equivalent_lemma distance Hsym round8 e other rtol atol He Ho) as (b & -> & Hb).
  f_equal. apply Hb. exists p. split; [done|]. intros i j c d s s' t t' _ Hi Hj Hs Hs' Ht Ht'.
  specialize (H i j c d s s' t t' Hi Hj Hs Hs' Ht Ht').
  assert (E : (distance s.2 s'.2 - distance t.2 t'.2 == 0)%Q) by (rewrite H; ring). rewrite E. simpl.
  apply (Qle_trans _ (0 + 0)); [done|]. apply Qplus_le_compat; [done|]. apply Qmult_le_0_compat; [done|]. apply Qabs.Qabs_nonneg.
Qed.

(** What the constructor makes has one number per site, and suits a cluster expansion. *)
Lemma indexed_lemma parse fp is_element en sphere empty_molecule round8 site_hash m template center cutoff mapping bt ex arg xc e :
  search_exact sphere m ->
  local_lattice_new parse fp is_element en sphere empty_molecule round8 site_hash m template center cutoff mapping bt ex arg xc = Ok e ->
  indexed e.
Proof. intros Hx H. destruct (contents_lemma _ _ _ _ _ _ _ _ _ _ _ _ _ _ _ _ _ _ Hx H) as (_ & _ & _ & keys & (_ & H1 & H2 & _) & _). unfold indexed. lia. Qed.

Lemma suits_lemma parse fp is_element en sphere empty_molecule round8 site_hash (distance : point -> point -> Q)
    m template center cutoff mapping bt ex arg xc e :
  search_exact sphere m -> distinct_keys parse mapping -> keys_name_elements parse mapping template ->
  (forall x y, (distance x y == distance y x)%Q) ->
  local_lattice_new parse fp is_element en sphere empty_molecule round8 site_hash m template center cutoff mapping bt ex arg xc = Ok e ->
  BuildSpec.well_formed distance (env_of e) /\
  forall i, i < length (e_species (env_of e)) -> exists k, BuildSpec.states_is (env_of e) i k /\ 1 < k.
Proof.
  intros Hx Hd Hn Hs H. pose proof (indexed_lemma _ _ _ _ _ _ _ _ _ _ _ _ _ _ _ _ _ _ Hx H) as Hi. unfold indexed in Hi.
  split; [split_and!; simpl; rewrite ?map_length; done|].
  intros i Hlt. simpl in Hlt. rewrite map_length in Hlt.
  destruct (states_lemma _ _ _ _ _ _ _ _ _ _ _ _ _ _ _ _ _ _ Hd Hn H) as (Hl & Hst).
  destruct (contents_lemma _ _ _ _ _ _ _ _ _ _ _ _ _ _ _ _ _ _ Hx H) as (_ & _ & _ & keys & (_ & H1 & H2 & _) & Hdesc & _).
  destruct (lookup_lt_is_Some_2 keys i) as [[a t] Hk]; [lia|]. destruct (Hdesc i a t Hk) as (Ha & j & sp & f & symbol & x & Hact & _).
  destruct (Hst a j Hact) as (l & Hla & _ & Hgt). exists (length l). split; [|done].
  exists (Z.of_nat a), l. split; [exact Ha|]. split; [|done]. apply py_get_nonneg; [lia|]. by rewrite Nat2Z.id.
Qed.

Lemma hashed_lemma round8 site_hash e :
  ll_signature e = ordered_site_signature round8 (ll_sites e) /\ ll_hash e = site_hash (ll_signature e) -> hashed round8 site_hash e.
Proof.
  intros [H1 H2]. split; [|split; [|done]].
  - rewrite H1. unfold ordered_site_signature. by rewrite map_length.
  - intros k sp x y z Hk. rewrite H1. unfold ordered_site_signature. change (map ?f ?l) with (f <$> l). by rewrite list_lookup_fmap, Hk.
Qed.

Lemma forms_lemma :
  order_resolve ONone = Ok default_order /\ (forall o, order_resolve (OOrder o) = Ok o) /\
  (forall d, order_resolve (ODict d) = local_order_from_dict d) /\ order_resolve OOther = Err TypeError /\
  forall name x, order_resolve (OName name) = Err x -> x = ValueError.
Proof.
  split_and!; try done. intros name x. simpl. unfold order_from_name. destruct (dget builtin_orders name) as [[k b]|]; congruence.
Qed.
