(** Proofs about cluster expansions. *)
From Coq Require Import Reals Lra.
From Verif Require Import Py PyLemmas Json ActiveSiteModel EventModel EventSpec
  KmcProofs LceModel LceSpec CompositeModel.

(* ---------------- orbits ---------------- *)
Section Orbits.
  Context {C : Type}.
  Variable eqb : C -> C -> bool.

  Lemma add_to_orbit_permutation i orbits :
    concat (map snd (add_to_orbit eqb i orbits)) ≡ₚ concat (map snd orbits) ++ [i].
  Proof.
    induction orbits as [|[r ms] rest IH]; simpl; [done|].
    destruct (eqb r i); simpl.
    - rewrite <-!app_assoc. f_equiv. apply Permutation_app_comm.
    - rewrite IH, app_assoc. done.
  Qed.

  Lemma build_orbits_permutation clusters :
    concat (build_orbits eqb clusters) ≡ₚ clusters.
  Proof.
    unfold build_orbits.
    assert (H : forall l acc, concat (map snd (fold_left (fun o i => add_to_orbit eqb i o) l acc))
              ≡ₚ concat (map snd acc) ++ l).
    { induction l as [|x l IH]; intros acc; simpl; [by rewrite app_nil_r|].
      rewrite IH, add_to_orbit_permutation, <-app_assoc. done. }
    apply (H clusters []).
  Qed.

  (** State of the grouping loop after the clusters [done]. *)
  Definition grouped (reps : list C) (orbits : list (C * list C)) (dn : list C) : Prop :=
    map fst orbits = reps /\
    (forall i o, orbits !! i = Some o ->
       snd o = List.filter (fun c => bool_decide (first_match eqb reps c = Some i)) dn) /\
    (forall c, c ∈ dn -> is_Some (first_match eqb reps c)).

  Lemma first_match_app reps r c :
    first_match eqb (reps ++ [r]) c =
    match first_match eqb reps c with
    | Some i => Some i
    | None => if eqb r c then Some (length reps) else None
    end.
  Proof.
    induction reps as [|a reps IH]; simpl.
    - destruct (eqb r c); done.
    - destruct (eqb a c); [done|]. rewrite IH.
      destruct (first_match eqb reps c); [done|]. destruct (eqb r c); done.
  Qed.

  Lemma first_match_lt reps c i : first_match eqb reps c = Some i -> i < length reps.
  Proof.
    revert i; induction reps as [|a reps IH]; intros i; simpl; [done|].
    destruct (eqb a c); [intros [= <-]; lia|].
    destruct (first_match eqb reps c) as [j|] eqn:E; [|done]. intros [= <-].
    specialize (IH j eq_refl). lia.
  Qed.

  Lemma first_match_eqb reps c i :
    first_match eqb reps c = Some i <->
    (exists r, reps !! i = Some r /\ eqb r c = true) /\
    (forall j r, j < i -> reps !! j = Some r -> eqb r c = false).
  Proof.
    revert i; induction reps as [|a reps IH]; intros i; simpl.
    - split; [done|]. intros [(r & Hr & _) _]. by rewrite lookup_nil in Hr.
    - destruct (eqb a c) eqn:E.
      + split.
        * intros [= <-]. split; [eauto|]. intros; lia.
        * intros [(r & Hr & Hrc) Hj]. destruct i as [|i]; [done|].
          rewrite (Hj 0 a) in E; [done|lia|done].
      + split.
        * destruct (first_match eqb reps c) as [j|] eqn:F; [|done]. intros [= <-].
          destruct (proj1 (IH j) eq_refl) as [(r & Hr & Hrc) Hj].
          split; [eauto|]. intros [|k] r' Hk Hr'; simpl in Hr'; [by simplify_eq|].
          apply (Hj k); [lia|done].
        * intros [(r & Hr & Hrc) Hj]. destruct i as [|i]; simpl in Hr; [simplify_eq; congruence|].
          assert (F : first_match eqb reps c = Some i).
          { apply IH. split; [eauto|]. intros j r' Hji Hr'. apply (Hj (S j)); [lia|done]. }
          by rewrite F.
  Qed.

  Lemma add_to_orbit_found i orbits k :
    first_match eqb (map fst orbits) i = Some k ->
    map fst (add_to_orbit eqb i orbits) = map fst orbits /\
    forall j o, add_to_orbit eqb i orbits !! j = Some o ->
      exists o', orbits !! j = Some o' /\
        snd o = (if decide (j = k) then snd o' ++ [i] else snd o').
  Proof.
    revert k; induction orbits as [|[r ms] rest IH]; intros k; simpl; [done|].
    destruct (eqb r i) eqn:E.
    - intros [= <-]. split; [done|]. intros [|j] o Ho; simpl in *.
      + injection Ho as <-. eexists. split; [done|]. simpl. done.
      + exists o. split; [done|]. done.
    - destruct (first_match eqb (map fst rest) i) as [k'|] eqn:F; [|done]. intros [= <-].
      destruct (IH k' eq_refl) as [H1 H2]. split; [simpl; congruence|].
      intros [|j] o Ho; simpl in *.
      + injection Ho as <-. eexists. split; [done|]. done.
      + destruct (H2 j o Ho) as (o' & Ho' & Hs). exists o'. split; [done|].
        rewrite Hs. destruct (decide (j = k')), (decide (S j = S k')); try lia; done.
  Qed.

  Lemma add_to_orbit_new i orbits :
    first_match eqb (map fst orbits) i = None ->
    add_to_orbit eqb i orbits = orbits ++ [(i, [i])].
  Proof.
    induction orbits as [|[r ms] rest IH]; simpl; [done|].
    destruct (eqb r i) eqn:E; [done|].
    destruct (first_match eqb (map fst rest) i) eqn:F; [done|]. intros _.
    by rewrite IH.
  Qed.

  Lemma filter_ext_in {A} (f g : A -> bool) l :
    (forall x, x ∈ l -> f x = g x) -> List.filter f l = List.filter g l.
  Proof.
    induction l as [|x l IH]; simpl; intros H; [done|].
    rewrite (H x) by set_solver. rewrite IH by set_solver. done.
  Qed.

  Lemma grouped_step reps orbits dn i :
    (forall c, eqb c c = true) -> grouped reps orbits dn ->
    exists reps', grouped reps' (add_to_orbit eqb i orbits) (dn ++ [i]) /\
      (reps' = reps \/ reps' = reps ++ [i]).
  Proof.
    intros Hrefl (Hreps & Ho & Hsome).
    destruct (first_match eqb reps i) as [k|] eqn:F.
    - exists reps. split; [|by left]. pose proof F as F0. rewrite <-Hreps in F.
      destruct (add_to_orbit_found _ _ _ F) as [H1 H2]. split; [congruence|]. split.
      + intros j o Hj. destruct (H2 j o Hj) as (o' & Ho' & ->). rewrite List.filter_app. simpl.
        rewrite (Ho j o' Ho'). destruct (decide (j = k)) as [->|Hne].
        * by rewrite (bool_decide_true (first_match eqb reps i = Some k)).
        * rewrite (bool_decide_false (first_match eqb reps i = Some j)) by congruence.
          by rewrite app_nil_r.
      + intros c [Hc|Hc]%elem_of_app; [by apply Hsome|].
        apply elem_of_list_singleton in Hc as ->. eauto.
    - exists (reps ++ [i]). split; [|by right].
      rewrite add_to_orbit_new by congruence. unfold grouped. rewrite map_app, Hreps.
      split; [done|]. split.
      + intros j o Hj. rewrite List.filter_app. simpl. rewrite first_match_app, F, Hrefl.
        apply lookup_app_Some in Hj as [Hj|[Hge Hj]].
        * assert (Hlt : j < length reps).
          { rewrite <-Hreps, map_length. by eapply lookup_lt_Some. }
          rewrite (bool_decide_false (Some (length reps) = Some j)) by (injection 1; lia).
          rewrite app_nil_r, (Ho j o Hj). apply filter_ext_in. intros c Hc.
          rewrite first_match_app. destruct (Hsome c Hc) as [x ->]. done.
        * assert (Hl : length orbits = length reps) by (rewrite <-Hreps; by rewrite map_length).
          apply list_lookup_singleton_Some in Hj as [Hz <-]. simpl.
          assert (j = length reps) as -> by lia.
          rewrite (bool_decide_true (Some (length reps) = _)) by done.
          replace (List.filter _ dn) with (@nil C); [done|].
          symmetry. clear Ho. induction dn as [|c dn IH]; simpl; [done|].
          rewrite first_match_app. destruct (Hsome c) as [x Hx]; [set_solver|].
          rewrite Hx, bool_decide_false.
          -- apply IH. intros c' Hc'. apply Hsome. set_solver.
          -- injection 1 as ->. apply first_match_lt in Hx. lia.
      + intros c [Hc|Hc]%elem_of_app; rewrite first_match_app.
        * destruct (Hsome c Hc) as [x ->]. eauto.
        * apply elem_of_list_singleton in Hc as ->. rewrite F, Hrefl. eauto.
  Qed.

  Lemma build_orbits_grouped clusters :
    (forall c, eqb c c = true) ->
    exists reps, length reps = length (build_orbits eqb clusters) /\ sublist reps clusters /\
      (forall i o, build_orbits eqb clusters !! i = Some o ->
         o = List.filter (fun c => bool_decide (first_match eqb reps c = Some i)) clusters) /\
      (forall i r, reps !! i = Some r -> first_match eqb reps r = Some i) /\
      (forall c, c ∈ clusters -> is_Some (first_match eqb reps c)).
  Proof.
    intros Hrefl. unfold build_orbits.
    assert (H : forall l acc dn reps, grouped reps acc dn -> sublist reps dn ->
              (forall i r, reps !! i = Some r -> first_match eqb reps r = Some i) ->
              exists reps', grouped reps' (fold_left (fun o i => add_to_orbit eqb i o) l acc) (dn ++ l)
                /\ sublist reps' (dn ++ l) /\
                (forall i r, reps' !! i = Some r -> first_match eqb reps' r = Some i)).
    { induction l as [|x l IH]; intros acc dn reps Hg Hs Hown; simpl.
      - exists reps. rewrite app_nil_r. done.
      - destruct (grouped_step _ _ _ x Hrefl Hg) as (reps' & Hg' & Hor).
        destruct (first_match eqb reps x) as [k|] eqn:F.
        + (* already present: the representatives do not change *)
          assert (reps' = reps) as ->.
          { destruct Hor as [->| ->]; [done|]. exfalso.
            destruct Hg' as (Hm & _). destruct Hg as (Hm0 & _).
            rewrite <-Hm0 in F. destruct (add_to_orbit_found _ _ _ F) as [H1 _].
            rewrite H1, Hm0 in Hm. apply (f_equal length) in Hm. rewrite app_length in Hm. simpl in Hm. lia. }
          destruct (IH _ (dn ++ [x]) reps Hg') as (r2 & Hr2).
          { apply sublist_inserts_r. done. }
          { done. }
          exists r2. rewrite <-app_assoc in Hr2. done.
        + assert (reps' = reps ++ [x]) as ->.
          { destruct Hor as [->| ->]; [|done]. exfalso.
            destruct Hg' as (_ & _ & Hs'). destruct (Hs' x) as [y Hy]; [set_solver|]. congruence. }
          destruct (IH _ (dn ++ [x]) (reps ++ [x]) Hg') as (r2 & Hr2).
          { apply sublist_app; done. }
          { intros i r Hi. rewrite first_match_app.
            apply lookup_app_Some in Hi as [Hi|[Hge Hi]].
            - by rewrite (Hown i r Hi).
            - apply list_lookup_singleton_Some in Hi as [Hz <-]. rewrite F, Hrefl. f_equal. lia. }
          exists r2. rewrite <-app_assoc in Hr2. done. }
    destruct (H clusters [] [] []) as (reps & (Hm & Ho & Hs) & Hsub & Hown).
    { split; [done|]. split; [intros i o Hi; by rewrite lookup_nil in Hi|]. intros c Hc. by apply elem_of_nil in Hc. }
    { constructor. }
    { intros i r Hi. by rewrite lookup_nil in Hi. }
    exists reps. split; [rewrite <-Hm, !map_length; done|]. split; [done|]. split; [|done].
    intros i o Hi. rewrite list_lookup_fmap in Hi.
    destruct (_ !! i) as [o'|] eqn:E; [|done]. injection Hi as <-. by apply Ho.
  Qed.

  Lemma build_orbits_equivalence clusters i j oi oj ci cj :
    (forall c, eqb c c = true) ->
    (forall a b, eqb a b = true -> eqb b a = true) ->
    (forall a b c, eqb a b = true -> eqb b c = true -> eqb a c = true) ->
    build_orbits eqb clusters !! i = Some oi -> build_orbits eqb clusters !! j = Some oj ->
    ci ∈ oi -> cj ∈ oj ->
    (eqb ci cj = true <-> i = j).
  Proof.
    intros Hr Hs Ht Hi Hj Hci Hcj.
    destruct (build_orbits_grouped clusters Hr) as (reps & Hl & _ & Ho & _ & _).
    apply Ho in Hi as ->. apply Ho in Hj as ->.
    apply elem_of_list_In, filter_In in Hci as [_ Hci%bool_decide_eq_true].
    apply elem_of_list_In, filter_In in Hcj as [_ Hcj%bool_decide_eq_true].
    apply first_match_eqb in Hci as [(ri & Hri & Hci) Hci'].
    apply first_match_eqb in Hcj as [(rj & Hrj & Hcj) Hcj'].
    split.
    - intros He. destruct (Nat.lt_trichotomy i j) as [Hlt|[->|Hlt]]; [|done|].
      + exfalso. specialize (Hcj' i ri Hlt Hri). assert (eqb ri cj = true) by eauto. congruence.
      + specialize (Hci' j rj Hlt Hrj). assert (eqb rj ci = true) by eauto. congruence.
    - intros ->. simplify_eq. eauto.
  Qed.
End Orbits.

(* ---------------- correlations ---------------- *)
Local Open Scope R_scope.

Lemma rfold_steps {A B S} (step : S -> A -> result S) (f : A -> result B) (op : S -> B -> S) l :
  (forall acc x, step acc x = (let* v := f x in Ok (op acc v))) ->
  forall a, rfold step a l = (let* ys := rmapM f l in Ok (fold_left op ys a)).
Proof.
  intros Hs. induction l as [|x l IH]; intros a; simpl; [done|].
  rewrite Hs. destruct (f x) as [y|]; simpl; [|done]. rewrite IH.
  destruct (rmapM f l); done.
Qed.

Lemma rmapM_enumerate {A B} (f : nat * A -> result B) l ys :
  rmapM f (enumerate l) = Ok ys <->
  length ys = length l /\
  forall i x y, l !! i = Some x -> ys !! i = Some y -> f (i, x) = Ok y.
Proof.
  split.
  - intros H. pose proof (rmapM_length _ _ _ H) as Hl. unfold enumerate in Hl.
    rewrite enum_from_length in Hl. split; [done|].
    intros i x y Hx Hy. destruct (rmapM_lookup _ _ _ _ _ H Hy) as (p & Hp & Hf).
    rewrite enumerate_lookup, Hx in Hp. simpl in Hp. simplify_eq. done.
  - intros [Hl Hf]. apply rmapM_ok. apply Forall2_same_length_lookup. split.
    { unfold enumerate. rewrite enum_from_length. done. }
    intros i [j x] y Hp Hy. rewrite enumerate_lookup in Hp.
    destruct (l !! i) as [x'|] eqn:E; [|done]. simpl in Hp. simplify_eq. eauto.
Qed.

Lemma rmapM_pointwise {A B} (f : A -> result B) l ys :
  rmapM f l = Ok ys <->
  length ys = length l /\
  forall i x y, l !! i = Some x -> ys !! i = Some y -> f x = Ok y.
Proof.
  rewrite rmapM_ok, Forall2_same_length_lookup. split; intros [? ?]; split; eauto.
Qed.

Lemma fold_left_mul l a : fold_left Rmult l a = a * Rprod l.
Proof.
  revert a; induction l as [|x l IH]; intros a; simpl; [lra|]. rewrite IH.
  unfold Rprod. simpl. lra.
Qed.
Lemma fold_left_add l a : fold_left Rplus l a = a + Rsum l.
Proof.
  revert a; induction l as [|x l IH]; intros a; simpl; [lra|]. rewrite IH.
  unfold Rsum. simpl. lra.
Qed.

Lemma map_zip_pointwise {A B} (f : A -> B) l ys :
  ys = map f l <-> length ys = length l /\ forall i x y, l !! i = Some x -> ys !! i = Some y -> y = f x.
Proof.
  split.
  - intros ->. split; [by rewrite map_length|]. intros i x y Hx Hy.
    rewrite list_lookup_fmap, Hx in Hy. simpl in Hy. congruence.
  - intros [Hl H]. apply list_eq. intros i. rewrite list_lookup_fmap.
    destruct (l !! i) as [x|] eqn:E; simpl.
    + destruct (lookup_lt_is_Some_2 ys i) as [y Hy].
      { rewrite Hl. by eapply lookup_lt_Some. }
      rewrite Hy. f_equal. eauto.
    + apply lookup_ge_None in E. apply lookup_ge_None. lia.
Qed.

(** A step that produces sums (products) of sub-lists. *)
Lemma chain_map {A B} (f : A -> result R) (rel : nat -> A -> B -> Prop) (val : B -> R) l ys :
  (forall i x y, l !! i = Some x -> f x = Ok y <-> exists b, rel i x b /\ y = val b) ->
  rmapM f l = Ok ys <->
  exists bs, ys = map val bs /\ length bs = length l /\
    forall i x b, l !! i = Some x -> bs !! i = Some b -> rel i x b.
Proof.
  revert ys rel; induction l as [|x l IH]; intros ys rel Hf; simpl.
  - split.
    + intros [= <-]. exists []. split; [done|]. split; [done|]. intros i x b Hx. by rewrite lookup_nil in Hx.
    + intros (bs & -> & Hl & _). destruct bs; done.
  - specialize (IH) with (rel := fun i => rel (S i)).
    assert (Hf' : forall i a c, l !! i = Some a -> f a = Ok c <-> exists b, rel (S i) a b /\ c = val b).
    { intros i a c Ha. apply (Hf (S i)). done. }
    split.
    + intros H. apply rbind_ok in H as (y & Hy & H). apply rbind_ok in H as (zs & Hzs & [= <-]).
      apply (Hf 0%nat x y eq_refl) in Hy as (b & Hb & ->).
      apply IH in Hzs as (bs & -> & Hl & Hrel).
      2:{ exact Hf'. }
      exists (b :: bs). split; [done|]. split; [simpl; lia|].
      intros [|i] a c Ha Hc; simpl in *; simplify_eq; eauto.
    + intros (bs & -> & Hl & Hrel). destruct bs as [|b bs]; [done|]. simpl.
      rewrite (proj2 (Hf 0%nat x (val b) eq_refl)).
      2:{ exists b. split; [|done]. by apply (Hrel 0%nat). }
      simpl. rewrite (proj2 (IH (map val bs) Hf')).
      * done.
      * exists bs. split; [done|]. split; [simpl in Hl; lia|].
        intros i a c Ha Hc. by apply (Hrel (S i)).
Qed.

(** Same, for loops over [enumerate]. *)
Lemma chain_enum {A B} (f : nat * A -> result R) (rel : nat -> A -> B -> Prop) (val : B -> R) l ys :
  (forall i x y, l !! i = Some x -> f (i, x) = Ok y <-> exists b, rel i x b /\ y = val b) ->
  rmapM f (enumerate l) = Ok ys <->
  exists bs, ys = map val bs /\ length bs = length l /\
    forall i x b, l !! i = Some x -> bs !! i = Some b -> rel i x b.
Proof.
  intros Hf. rewrite (chain_map f (fun i p b => rel i (snd p) b) val).
  - unfold enumerate. rewrite enum_from_length. fold (enumerate l).
    split; intros (bs & Hv & Hl & Hr); exists bs; (split; [done|]); (split; [done|]).
    + intros i x b Hx Hb. apply (Hr i (i, x) b); [|done]. rewrite enumerate_lookup, Hx. done.
    + intros i [j x] b Hx Hb. rewrite enumerate_lookup in Hx.
      destruct (l !! i) eqn:E; [|done]. simpl in *. simplify_eq. eauto.
  - intros i [j x] y Hx. rewrite enumerate_lookup in Hx.
    destruct (l !! i) eqn:E; [|done]. simpl in *. simplify_eq. by apply Hf.
Qed.

Notation Rcluster_product := (cluster_product 1 Rmult IZR).
Notation Rorbit_sum := (orbit_sum 0 1 Rplus Rmult IZR).
Notation Rcalc_corr := (calc_corr 0 1 Rplus Rmult IZR).
Notation Rdecorated_product := (decorated_product 1 Rmult).
Notation Rdecorated_sum := (decorated_sum 0 1 Rplus Rmult).
Notation Rcalc_corr_decorated := (calc_corr_decorated 0 1 Rplus Rmult).

Lemma cluster_product_spec occ cl x :
  Rcluster_product occ cl = Ok x <->
  exists xs, (length xs = length cl /\
    forall p site y, cl !! p = Some site -> xs !! p = Some y ->
      exists st, py_get occ site = Ok st /\ y = IZR st) /\ x = Rprod xs.
Proof.
  unfold cluster_product.
  rewrite (rfold_steps _ (fun s => rmap IZR (py_get occ s)) Rmult).
  2:{ intros acc s. destruct (py_get occ s); done. }
  split.
  - intros H. apply rbind_ok in H as (ys & Hys & [= <-]). exists ys.
    rewrite fold_left_mul, Rmult_1_l. split; [|done].
    apply rmapM_pointwise in Hys as [Hl Hp]. split; [done|]. intros p site y Hs Hy.
    specialize (Hp p site y Hs Hy). destruct (py_get occ site); simplify_eq/=. eauto.
  - intros (xs & (Hl & Hp) & ->).
    rewrite (proj2 (rmapM_pointwise (fun s => rmap IZR (py_get occ s)) cl xs)).
    + simpl. by rewrite fold_left_mul, Rmult_1_l.
    + split; [done|]. intros p site y Hs Hy. destruct (Hp p site y Hs Hy) as (st & -> & ->). done.
Qed.

Lemma orbit_sum_spec occ orbit s :
  Rorbit_sum occ orbit = Ok s <->
  exists css, (length css = length orbit /\
    forall c cl xs, orbit !! c = Some cl -> css !! c = Some xs ->
      length xs = length cl /\ forall p site y, cl !! p = Some site -> xs !! p = Some y ->
        exists st, py_get occ site = Ok st /\ y = IZR st) /\ s = Rsum (map Rprod css).
Proof.
  unfold orbit_sum.
  rewrite (rfold_steps _ (Rcluster_product occ) Rplus) by done.
  split.
  - intros H. apply rbind_ok in H as (ys & Hys & [= <-]).
    rewrite (chain_map _ _ Rprod _ _ (fun i x y _ => cluster_product_spec occ x y)) in Hys.
    destruct Hys as (bs & -> & Hl & Hp). exists bs.
    rewrite fold_left_add, Rplus_0_l. split; [|done]. split; [done|].
    intros c cl xs Hc Hx. exact (Hp c cl xs Hc Hx).
  - intros (css & (Hl & Hp) & ->).
    assert (H : rmapM (Rcluster_product occ) orbit = Ok (map Rprod css)).
    { apply (chain_map _ _ Rprod _ _ (fun i x y _ => cluster_product_spec occ x y)).
      exists css. done. }
    rewrite H. simpl. by rewrite fold_left_add, Rplus_0_l.
Qed.

Definition table_of (rel : nat -> nat -> nat -> Z -> R -> Prop) (sites : list (list (list Z)))
    (table : list (list (list R))) : Prop :=
  length table = length sites /\
  forall o orbit css, sites !! o = Some orbit -> table !! o = Some css ->
    length css = length orbit /\
    forall c cl xs, orbit !! c = Some cl -> css !! c = Some xs ->
      length xs = length cl /\ forall p site y, cl !! p = Some site -> xs !! p = Some y ->
        rel o c p site y.

Lemma calc_corr_spec occ sites corr :
  Rcalc_corr occ sites = Ok corr <->
  exists table, corr = map (fun orbit => Rsum (map Rprod orbit)) table /\
    table_of (fun _ _ _ site y => exists st, py_get occ site = Ok st /\ y = IZR st) sites table.
Proof.
  unfold calc_corr.
  rewrite (chain_map _ _ (fun css => Rsum (map Rprod css)) _ _
             (fun i x y _ => orbit_sum_spec occ x y)). done.
Qed.

Lemma table_shape rel sites table :
  table_of rel sites table <->
  same_shape sites table /\
  forall o c p site, entry sites o c p = Some site ->
    exists x, entry table o c p = Some x /\ rel o c p site x.
Proof.
  unfold same_shape, entry. split.
  - intros [Hl H]. split.
    + apply Forall2_same_length_lookup. split; [done|]. intros o orbit css Ho Hc.
      destruct (H o orbit css Ho Hc) as [Hl2 H2].
      apply Forall2_same_length_lookup. split; [done|]. intros c cl xs Hcl Hxs.
      destruct (H2 c cl xs Hcl Hxs) as [Hl3 _]. done.
    + intros o c p site He.
      destruct (sites !! o) as [orbit|] eqn:Ho; [|done].
      destruct (orbit !! c) as [cl|] eqn:Hc; [|done].
      destruct (lookup_lt_is_Some_2 table o) as [css Hcss].
      { rewrite Hl. by eapply lookup_lt_Some. }
      destruct (H o orbit css Ho Hcss) as [Hl2 H2]. rewrite Hcss.
      destruct (lookup_lt_is_Some_2 css c) as [xs Hxs].
      { rewrite Hl2. by eapply lookup_lt_Some. }
      destruct (H2 c cl xs Hc Hxs) as [Hl3 H3]. rewrite Hxs.
      destruct (lookup_lt_is_Some_2 xs p) as [y Hy].
      { rewrite Hl3. by eapply lookup_lt_Some. }
      exists y. split; [done|]. by apply H3.
  - intros [Hs He]. apply Forall2_same_length_lookup in Hs as [Hl Hs]. split; [done|].
    intros o orbit css Ho Hcss. specialize (Hs o orbit css Ho Hcss).
    apply Forall2_same_length_lookup in Hs as [Hl2 Hs]. split; [done|].
    intros c cl xs Hcl Hxs. specialize (Hs c cl xs Hcl Hxs). split; [done|].
    intros p site y Hp Hy. destruct (He o c p site) as (x & Hx & Hr).
    { rewrite Ho, Hcl. done. }
    rewrite Hcss, Hxs in Hx. simplify_eq. done.
Qed.

Lemma decorated_product_spec values occ b cl x :
  Rdecorated_product values occ b cl = Ok x <->
  exists xs, (length xs = length cl /\
    forall p site y, cl !! p = Some site -> xs !! p = Some y ->
      exists bi, b !! p = Some bi /\ site_value values occ site bi = Ok y) /\ x = Rprod xs.
Proof.
  unfold decorated_product.
  rewrite (rfold_steps _ (fun ps => let* bi := py_get b (Z.of_nat (fst ps)) in
             site_value values occ (snd ps) bi) Rmult).
  2:{ intros acc s. destruct (py_get b _); simpl; [|done]. destruct (site_value _ _ _ _); done. }
  split.
  - intros H. apply rbind_ok in H as (ys & Hys & [= <-]). exists ys.
    rewrite fold_left_mul, Rmult_1_l. split; [|done].
    apply rmapM_enumerate in Hys as [Hl Hp]. split; [done|]. intros p site y Hs Hy.
    specialize (Hp p site y Hs Hy). simpl in Hp. apply rbind_ok in Hp as (bi & Hb & Hv).
    apply py_get_nat in Hb. eauto.
  - intros (xs & (Hl & Hp) & ->).
    rewrite (proj2 (rmapM_enumerate (fun ps => let* bi := py_get b (Z.of_nat (fst ps)) in
             site_value values occ (snd ps) bi) cl xs)).
    + simpl. by rewrite fold_left_mul, Rmult_1_l.
    + split; [done|]. intros p site y Hs Hy. destruct (Hp p site y Hs Hy) as (bi & Hb & Hv).
      simpl. apply py_get_nat in Hb. rewrite Hb. done.
Qed.

Lemma decorated_sum_spec values occ bs orbit s :
  Rdecorated_sum values occ bs orbit = Ok s <->
  exists css, (length css = length orbit /\
    forall c cl xs, orbit !! c = Some cl -> css !! c = Some xs ->
      exists b, bs !! c = Some b /\ length xs = length cl /\
      forall p site y, cl !! p = Some site -> xs !! p = Some y ->
        exists bi, b !! p = Some bi /\ site_value values occ site bi = Ok y)
    /\ s = Rsum (map Rprod css).
Proof.
  unfold decorated_sum.
  rewrite (rfold_steps _ (fun cl => let* b := py_get bs (Z.of_nat (fst cl)) in
             Rdecorated_product values occ b (snd cl)) Rplus).
  2:{ intros acc cl. destruct (py_get bs _); simpl; [|done]. destruct (Rdecorated_product _ _ _ _); done. }
  assert (Hstep : forall i (x : list Z) y, orbit !! i = Some x ->
            (let* b := py_get bs (Z.of_nat (fst (i, x))) in
             Rdecorated_product values occ b (snd (i, x))) = Ok y <->
            exists xs, (exists b, bs !! i = Some b /\ length xs = length x /\
              forall p site y, x !! p = Some site -> xs !! p = Some y ->
                exists bi, b !! p = Some bi /\ site_value values occ site bi = Ok y) /\ y = Rprod xs).
  { intros i x y _. simpl. split.
    - intros H. apply rbind_ok in H as (b & Hb & H). apply py_get_nat in Hb.
      apply decorated_product_spec in H as (xs & (Hl & Hp) & ->). exists xs. split; [|done].
      exists b. done.
    - intros (xs & (b & Hb & Hl & Hp) & ->). apply py_get_nat in Hb. rewrite Hb. simpl.
      apply decorated_product_spec. exists xs. done. }
  split.
  - intros H. apply rbind_ok in H as (ys & Hys & [= <-]).
    apply (chain_enum _ _ Rprod _ _ Hstep) in Hys as (css & -> & Hl & Hp). exists css.
    rewrite fold_left_add, Rplus_0_l. split; [|done]. split; [done|].
    intros c cl xs Hc Hx. exact (Hp c cl xs Hc Hx).
  - intros (css & (Hl & Hp) & ->).
    rewrite (proj2 (chain_enum _ _ Rprod orbit (map Rprod css) Hstep)).
    + simpl. by rewrite fold_left_add, Rplus_0_l.
    + exists css. done.
Qed.

Lemma calc_corr_decorated_spec values occ basis sites corr :
  Rcalc_corr_decorated values occ basis sites = Ok corr ->
  exists table, corr = map (fun orbit => Rsum (map Rprod orbit)) table /\
    table_of (fun o c p site y => exists b, entry basis o c p = Some b /\
                site_value values occ site b = Ok y) sites table.
Proof.
  unfold calc_corr_decorated. intros H.
  assert (Hstep : forall i (x : list (list Z)) y, sites !! i = Some x ->
            (let* b := py_get basis (Z.of_nat (fst (i, x))) in
             Rdecorated_sum values occ b (snd (i, x))) = Ok y <->
            exists css, (exists bs, basis !! i = Some bs /\ length css = length x /\
              forall c cl xs, x !! c = Some cl -> css !! c = Some xs ->
                exists b, bs !! c = Some b /\ length xs = length cl /\
                forall p site y, cl !! p = Some site -> xs !! p = Some y ->
                  exists bi, b !! p = Some bi /\ site_value values occ site bi = Ok y)
              /\ y = Rsum (map Rprod css)).
  { intros i x y _. simpl. split.
    - intros Hy. apply rbind_ok in Hy as (b & Hb & Hy). apply py_get_nat in Hb.
      apply decorated_sum_spec in Hy as (css & (Hl & Hp) & ->). exists css. split; [|done].
      exists b. done.
    - intros (css & (b & Hb & Hl & Hp) & ->). apply py_get_nat in Hb. rewrite Hb. simpl.
      apply decorated_sum_spec. exists css. done. }
  apply (chain_enum _ _ (fun css => Rsum (map Rprod css)) _ _ Hstep) in H as (table & -> & Hl & Hp).
  exists table. split; [done|]. split; [done|]. intros o orbit css Ho Hcss.
  destruct (Hp o orbit css Ho Hcss) as (bs & Hbs & Hl2 & H2). split; [done|].
  intros c cl xs Hc Hxs. destruct (H2 c cl xs Hc Hxs) as (b & Hb & Hl3 & H3). split; [done|].
  intros p site y Hs Hy. destruct (H3 p site y Hs Hy) as (bi & Hbi & Hv).
  exists bi. unfold entry. rewrite Hbs, Hb. done.
Qed.

Lemma calc_corr_decorated_total values occ basis sites table :
  same_shape sites basis ->
  table_of (fun o c p site y => exists b, entry basis o c p = Some b /\
                site_value values occ site b = Ok y) sites table ->
  Rcalc_corr_decorated values occ basis sites =
  Ok (map (fun orbit => Rsum (map Rprod orbit)) table).
Proof.
  intros Hshape [Hl H]. unfold calc_corr_decorated.
  apply rmapM_enumerate. split; [by rewrite map_length|].
  intros o orbit s Ho Hs. rewrite list_lookup_fmap in Hs.
  destruct (table !! o) as [css|] eqn:Hcss; [|done]. injection Hs as <-. simpl.
  apply Forall2_same_length_lookup in Hshape as [Hlb Hshape].
  destruct (lookup_lt_is_Some_2 basis o) as [bs Hbs].
  { rewrite <-Hlb. by eapply lookup_lt_Some. }
  rewrite (proj2 (py_get_nat basis o bs) Hbs). simpl. apply decorated_sum_spec.
  destruct (H o orbit css Ho Hcss) as [Hl2 H2]. exists css. split; [|done]. split; [done|].
  specialize (Hshape o orbit bs Ho Hbs). apply Forall2_same_length_lookup in Hshape as [Hlc Hshape].
  intros c cl xs Hc Hxs. destruct (H2 c cl xs Hc Hxs) as [Hl3 H3].
  destruct (lookup_lt_is_Some_2 bs c) as [b Hb].
  { rewrite <-Hlc. by eapply lookup_lt_Some. }
  exists b. split; [done|]. split; [done|]. intros p site y Hp Hy.
  destruct (H3 p site y Hp Hy) as (bi & He & Hv). exists bi. split; [|done].
  unfold entry in He. rewrite Hbs, Hb in He. done.
Qed.

Lemma site_value_spec values occ site b x :
  site_value values occ site b = Ok x <->
  exists state row column, py_get occ site = Ok state /\ py_get values site = Ok row /\
    py_get row state = Ok column /\ py_get column b = Ok (x : R).
Proof.
  unfold site_value. split.
  - intros H. apply rbind_ok in H as (st & Hst & H). apply rbind_ok in H as (row & Hrow & H).
    apply rbind_ok in H as (col & Hcol & H). eauto 10.
  - intros (st & row & col & -> & Hr & Hc & Hx). simpl. rewrite Hr. simpl. rewrite Hc. done.
Qed.

Lemma correlation_factors m env corr :
  calculate_correlation 0 1 Rplus Rmult IZR m env = Ok corr ->
  exists table, factors m env table /\
    corr = map (fun orbit => Rsum (map Rprod orbit)) table.
Proof.
  unfold calculate_correlation, factors, is_factor.
  destruct (l_decorations m) as [[basis values]|]; intros H.
  - apply calc_corr_decorated_spec in H as (table & -> & Ht). exists table. split; [|done].
    apply table_shape in Ht as [Hs Ht]. split; [done|]. intros o c p site He.
    destruct (Ht o c p site He) as (x & Hx & b & Hb & Hv). exists x. split; [done|].
    apply site_value_spec in Hv as (st & row & col & H1 & H2 & H3 & H4). exists st.
    split; [done|]. exists b, row, col. done.
  - apply calc_corr_spec in H as (table & -> & Ht). exists table. split; [|done].
    apply table_shape in Ht as [Hs Ht]. split; [done|]. intros o c p site He.
    destruct (Ht o c p site He) as (x & Hx & st & Hst & ->). eauto.
Qed.

Lemma factors_correlation m env table :
  (forall basis values, l_decorations m = Some (basis, values) -> same_shape (l_sites m) basis) ->
  factors m env table ->
  calculate_correlation 0 1 Rplus Rmult IZR m env =
  Ok (map (fun orbit => Rsum (map Rprod orbit)) table).
Proof.
  unfold calculate_correlation, factors, is_factor. intros Hb [Hs Ht].
  destruct (l_decorations m) as [[basis values]|].
  - apply calc_corr_decorated_total; [by eapply Hb|]. apply table_shape. split; [done|].
    intros o c p site He. destruct (Ht o c p site He) as (x & Hx & st & Hst & b & row & col & H1 & H2 & H3 & H4).
    exists x. split; [done|]. exists b. split; [done|]. apply site_value_spec. eauto 10.
  - apply calc_corr_spec. exists table. split; [done|]. apply table_shape. split; [done|].
    intros o c p site He. destruct (Ht o c p site He) as (x & Hx & st & Hst & ->). eauto.
Qed.

Lemma inner_spec table keci s :
  inner 0 Rplus Rmult (map (fun orbit => Rsum (map Rprod orbit)) table) keci = Ok s <->
  length keci = length table /\ s = expansion keci table.
Proof.
  unfold inner, expansion. rewrite map_length.
  assert (H : forall table keci a,
    fold_left (fun acc ab => acc + fst ab * snd ab)
      (zip (map (fun orbit => Rsum (map Rprod orbit)) table) keci) a =
    a + Rsum (zip_with (fun k orbit => k * Rsum (map Rprod orbit)) keci table)).
  { clear. induction table as [|o table IH]; intros [|k keci] a; try (unfold Rsum; simpl; lra).
    cbn [map zip_with fold_left fst snd]. rewrite IH.
    set (w := zip_with _ keci table). set (x := Rsum (map Rprod o)).
    change (Rsum (k * x :: w)) with (k * x + Rsum w). ring. }

  destruct (Nat.eqb_spec (length table) (length keci)) as [E|E].
  - rewrite H, Rplus_0_l. split; [intros [= <-]; done|]. intros [_ ->]. done.
  - split; [done|]. intros [? _]. congruence.
Qed.

Lemma validate_spec {T} (m : lce T) keci fps hash k :
  validate_parameter_orbits m keci fps hash = Ok k <-> k = keci /\ fitting m keci fps hash.
Proof.
  unfold validate_parameter_orbits, fitting. split.
  - destruct (negb _ && negb _) eqn:E1; [done|].
    destruct (truthy _ && _) eqn:E2; [done|]. intros H.
    assert (Hk : k = keci /\ forall l, fps = Some l -> l = l_features m).
    { destruct fps as [l|]; [|injection H as <-; split; [done|intros l Hl; discriminate Hl]]. destruct (length l =? length (l_features m))%nat; simpl in H; [|done].
      destruct (bool_decide_reflect (l = l_features m)); [|done]. injection H as <-.
      split; [done|]. by intros ? [= <-]. }
    destruct Hk as [-> Hf]. split; [done|]. split.
    { intros Hne. destruct (Nat.eqb_spec (length (l_features m)) 0) as [E|E].
      - by apply nil_length_inv in E.
      - simpl in E1. apply negb_false_iff, Nat.eqb_eq in E1. done. }
    split; [done|]. intros h h' -> Hh' Hne. rewrite Hh' in E2. simpl in E2.
    destruct (String.eqb_spec h' ""); [done|]. simpl in E2.
    apply negb_false_iff, bool_decide_eq_true in E2. congruence.
  - intros [-> (Hl & Hf & Hh)].
    destruct (negb _ && negb _) eqn:E1.
    { apply andb_true_iff in E1 as [E1 E1']. apply negb_true_iff, Nat.eqb_neq in E1.
      apply negb_true_iff, Nat.eqb_neq in E1'. exfalso. apply E1', Hl.
      intros E. by rewrite E in E1. }
    destruct (truthy _ && _) eqn:E2.
    { exfalso. apply andb_true_iff in E2 as [E2 E2'].
      destruct hash as [h|]; [|done]. apply negb_true_iff, bool_decide_eq_false in E2'.
      unfold truthy in E2. destruct (l_env_hash m) as [h'|] eqn:Eh; [|done].
      apply E2'. f_equal. apply (Hh h h'); [done|done|]. intros ->. done. }
    destruct fps as [l|]; [|done]. rewrite (Hf l eq_refl), Nat.eqb_refl. simpl.
    rewrite bool_decide_true; done.
Qed.

Lemma lce_compute_spec m occ e r :
  Rcompute m occ e = Ok r ->
  exists keci empty env table,
    l_keci m = Some keci /\ l_empty m = Some empty /\
    Forall2 (fun s v => py_get occ s = Ok v) (local_env_indices e) env /\
    factors m env table /\ length keci = length (l_sites m) /\
    r = empty + expansion keci table.
Proof.
  unfold Rcompute, lce_compute. destruct (l_keci m) as [keci|]; [|done].
  destruct (l_empty m) as [empty|]; [|done]. intros H.
  apply rbind_ok in H as (k & Hk & H). apply validate_spec in Hk as [-> Hfit].
  apply rbind_ok in H as (env & Henv & H). apply rmapM_ok in Henv.
  apply rbind_ok in H as (corr & Hcorr & H).
  apply correlation_factors in Hcorr as (table & Ht & ->).
  apply rbind_ok in H as (s & Hs & [= <-]). apply inner_spec in Hs as [Hl ->].
  exists keci, empty, env, table. split; [done|]. split; [done|]. split; [done|].
  split; [done|]. split; [|lra]. rewrite Hl. destruct Ht as [Ht _].
  symmetry. by eapply Forall2_length.
Qed.

Lemma lce_compute_total m occ e keci empty env table :
  l_keci m = Some keci -> l_empty m = Some empty ->
  fitting m keci (l_param_fingerprints m) (l_param_hash m) ->
  Forall2 (fun s v => py_get occ s = Ok v) (local_env_indices e) env ->
  (forall basis values, l_decorations m = Some (basis, values) -> same_shape (l_sites m) basis) ->
  factors m env table -> length keci = length (l_sites m) ->
  Rcompute m occ e = Ok (empty + expansion keci table).
Proof.
  intros Hk He Hfit Henv Hb Ht Hl. unfold Rcompute, lce_compute. rewrite Hk, He.
  rewrite (proj2 (validate_spec _ _ _ _ keci) (conj eq_refl Hfit)). simpl.
  apply rmapM_ok in Henv. rewrite Henv. simpl.
  rewrite (factors_correlation _ _ _ Hb Ht). simpl.
  rewrite (proj2 (inner_spec table keci (expansion keci table))).
  - simpl. f_equal. lra.
  - split; [|done]. rewrite Hl. destruct Ht as [Ht _]. by eapply Forall2_length.
Qed.

Lemma lce_reads_environment (m : lce R) occ occ' e :
  (forall s, s ∈ local_env_indices e -> py_get occ' s = py_get occ s) ->
  Rcompute m occ' e = Rcompute m occ e.
Proof.
  intros H. unfold Rcompute, lce_compute. destruct (l_keci m), (l_empty m); [|done..].
  rewrite (rmapM_ext (py_get occ') (py_get occ)) by done. done.
Qed.

Lemma set_parameters_accepted {T} (m : lce T) p m' :
  set_parameters m p = (m', Ok tt) ->
  exists keci empty fps hash,
    provides p keci empty fps hash /\ fitting m keci fps hash /\
    l_keci m' = Some keci /\ l_empty m' = Some empty /\
    l_sites m' = l_sites m /\ l_decorations m' = l_decorations m /\
    l_features m' = l_features m /\ l_env_hash m' = l_env_hash m /\
    l_param_fingerprints m' = Some (l_features m) /\
    fitting m' keci (l_param_fingerprints m') (l_param_hash m').
Proof.
  unfold set_parameters. destruct (read_parameters p) as [[[[keci empty] fps] hash]|] eqn:Hp; [|done].
  destruct (validate_parameter_orbits m keci fps hash) as [k|] eqn:Hv; [|done].
  intros [= <-]. apply validate_spec in Hv as [-> Hfit]. exists keci, empty, fps, hash.
  split.
  { unfold provides. destruct p as [??? ?|[?|] [?|] ??|]; simpl in Hp; try done; injection Hp as <- <- <- <-; eauto. }
  split; [done|]. simpl. destruct Hfit as (H1 & H2 & H3).
  assert (Hf : (match fps with Some l => Some l | None => Some (l_features m) end) = Some (l_features m)).
  { destruct fps as [l|]; [|done]. by rewrite (H2 l eq_refl). }
  rewrite Hf. do 7 (split; [done|]). unfold fitting; simpl. split; [done|]. split; [intros l Hl; congruence|].
  simpl. intros h h' Hh Hh' Hne. destruct hash as [h0|].
  - injection Hh as <-. by apply H3.
  - congruence.
Qed.

Lemma set_parameters_accepts {T} (m : lce T) p keci empty fps hash :
  provides p keci empty fps hash -> fitting m keci fps hash ->
  snd (set_parameters m p) = Ok tt.
Proof.
  intros [-> | ->] Hf; unfold set_parameters; simpl;
    rewrite (proj2 (validate_spec m keci fps hash keci) (conj eq_refl Hf)); done.
Qed.

Lemma set_parameters_rejected {T} (m : lce T) p m' x :
  set_parameters m p = (m', Err x) -> m' = m.
Proof.
  unfold set_parameters. destruct (read_parameters p) as [[[[keci empty] fps] hash]|]; [|congruence].
  destruct (validate_parameter_orbits m keci fps hash); congruence.
Qed.
