(** Proofs about random occupations. *)
From Coq Require Import QArith Lqa.
From Verif Require Import Py PyLemmas Json BasisModel RandomOccModel RandomOccSpec.
Local Open Scope nat_scope.

Lemma below_lt x y : below x y = true <-> (x < y)%Q.
Proof.
  unfold below. split.
  - intros H. apply Qnot_le_lt. intros Hle. apply Qle_bool_iff in Hle. by rewrite Hle in H.
  - intros H. destruct (Qle_bool y x) eqn:E; [|done]. apply Qle_bool_iff in E. lra.
Qed.

Section Random.
  Context {G : Type} (seeded : Z -> G) (draw : G -> Q * G).
  Notation draws := (draws draw).
  Notation rnd := (random_occupation seeded draw).

  Lemma draws_length n : forall g, length (fst (draws n g)) = n.
  Proof using.
    induction n as [|n IH]; intros g; [done|]. cbn. destruct (draw g) as [x g1].
    pose proof (IH g1) as H. destruct (draws n g1) as [l g2]. cbn in *. by rewrite H.
  Qed.
  Lemma draws_app n m : forall g,
    draws (n + m) g = (fst (draws n g) ++ fst (draws m (snd (draws n g))), snd (draws m (snd (draws n g)))).
  Proof using.
    induction n as [|n IH]; intros g; cbn; [by destruct (draws m g)|].
    destruct (draw g) as [x g1]. rewrite IH. destruct (draws n g1) as [l g2]. cbn. done.
  Qed.
  Lemma draws_range n : unit_numbers draw -> forall g,
    Forall (fun x => 0 <= x /\ x < 1)%Q (fst (draws n g)).
  Proof using.
    intros H. induction n as [|n IH]; intros g; [constructor|]. cbn.
    pose proof (H g) as Hg. destruct (draw g) as [x g1]. pose proof (IH g1) as Hi.
    destruct (draws n g1). by constructor.
  Qed.

  Lemma rnd_ok n a fill seed g g' o :
    rnd n a fill seed g = (g', Ok o) ->
    exists g0 b, reseed seeded seed g = Ok g0 /\ basis_of a = Ok b /\ (0 <= n)%Z /\
      g' = snd (draws (Z.to_nat n) g0) /\
      o = Occupation b (map (fun x => if below x fill then occupied_value b else vacant_value b)
            (fst (draws (Z.to_nat n) g0))).
  Proof using.
    unfold random_occupation. destruct (reseed seeded seed g) as [g0|]; [|done].
    destruct (Z.ltb_spec n 0); [done|]. destruct (draws (Z.to_nat n) g0) as [l g1] eqn:E.
    destruct (basis_of a) as [b|]; [|done]. intros [= <- <-]. exists g0, b. rewrite E. done.
  Qed.

  Lemma values_differ b : occupied_value b <> vacant_value b.
  Proof using. by destruct b. Qed.

  Lemma count_lemma b fill l :
    count_occupied (Occupation b (map (fun x => if below x fill then occupied_value b else vacant_value b) l))
      = length (List.filter (fun x => below x fill) l).
  Proof using.
    unfold count_occupied, count_value. cbn. induction l as [|x l IH]; [done|]. cbn.
    destruct (below x fill).
    - rewrite Z.eqb_refl. cbn. by rewrite IH.
    - pose proof (values_differ b). destruct (Z.eqb_spec (vacant_value b) (occupied_value b)); [congruence|].
      done.
  Qed.

  Lemma valid_lemma b v : proper_basis b -> v = occupied_value b \/ v = vacant_value b -> valid_value b v = true.
  Proof using.
    intros Hb [->| ->]; destruct b as [|n]; try done; cbn in *; apply Z.ltb_lt; lia.
  Qed.

  Lemma full_lemma n a fill seed g g' o : unit_numbers draw ->
    rnd n a fill seed g = (g', Ok o) ->
    ((fill <= 0)%Q -> o = zeros (Z.to_nat n) (oc_basis o)) /\
    ((1 <= fill)%Q -> o = ones (Z.to_nat n) (oc_basis o)).
  Proof using.
    intros Hu (g0 & b & _ & _ & _ & _ & ->)%rnd_ok. cbn [oc_basis].
    pose proof (draws_range (Z.to_nat n) Hu g0) as Hr.
    pose proof (draws_length (Z.to_nat n) g0) as Hl. revert Hr Hl.
    generalize (fst (draws (Z.to_nat n) g0)) as l. intros l Hr <-.
    split; intros Hf; unfold zeros, ones; f_equal;
      (induction Hr as [|x l [H1 H2] _ IH]; [done|]); cbn; rewrite IH; f_equal.
    - destruct (below x fill) eqn:E; [|done]. apply below_lt in E. lra.
    - destruct (below x fill) eqn:E; [done|]. assert (below x fill = true); [|congruence].
      apply below_lt. lra.
  Qed.

  Lemma nested_lemma n a a' fill fill' seed g g1 g2 o o' :
    (fill <= fill')%Q ->
    rnd n a fill seed g = (g1, Ok o) -> rnd n a' fill' seed g = (g2, Ok o') ->
    g1 = g2 /\ no_more_atoms o o'.
  Proof using.
    intros Hf (g0 & b & Hs & _ & _ & -> & ->)%rnd_ok (g0' & b' & Hs' & _ & _ & -> & ->)%rnd_ok.
    rewrite Hs in Hs'. injection Hs' as <-. split; [done|]. split; [cbn; by rewrite !fmap_length|].
    intros i. cbn. rewrite !list_lookup_fmap. destruct (fst (draws (Z.to_nat n) g0) !! i) as [x|]; [|done].
    cbn. intros [= E]. destruct (below x fill) eqn:Ex; [|by destruct (values_differ b)].
    apply below_lt in Ex. assert (below x fill' = true) as ->; [|done]. apply below_lt. lra.
  Qed.

  Lemma basis_lemma n a b' fill seed g g' o :
    rnd n a fill seed g = (g', Ok o) ->
    exists o', rnd n (Object b') fill seed g = (g', Ok o') /\ oc_basis o' = b' /\
      oc_data o' = oc_data (to_basis o b').
  Proof using.
    intros H. pose proof H as (g0 & b & Hs & _ & Hn & -> & ->)%rnd_ok.
    unfold random_occupation. rewrite Hs. destruct (Z.ltb_spec n 0); [lia|].
    destruct (draws (Z.to_nat n) g0) as [l g1]. cbn [basis_of fst snd].
    eexists. split; [reflexivity|]. split; [done|]. cbn [oc_data].
    unfold to_basis. cbn [oc_basis oc_data].
    destruct (same_class b' b) eqn:E.
    - cbn. apply map_ext. intros x. destruct b, b'; done.
    - cbn. rewrite map_map. apply map_ext. intros x.
      destruct b, b'; try done; cbn; by destruct (below x fill).
  Qed.

  Lemma concat_lemma n m a fill g g1 g2 o1 o2 :
    rnd n a fill None g = (g1, Ok o1) -> rnd m a fill None g1 = (g2, Ok o2) ->
    exists o, rnd (n + m)%Z a fill None g = (g2, Ok o) /\ oc_basis o = oc_basis o1 /\
      oc_data o = oc_data o1 ++ oc_data o2.
  Proof using.
    intros (g0 & b & Hs & Hb & Hn & -> & ->)%rnd_ok (g0' & b' & Hs' & Hb' & Hm & -> & ->)%rnd_ok.
    cbn in Hs, Hs'. injection Hs as <-. injection Hs' as <-. rewrite Hb in Hb'. injection Hb' as <-.
    unfold random_occupation. cbn [reseed]. destruct (Z.ltb_spec (n + m) 0); [lia|].
    rewrite Z2Nat.inj_add by done. rewrite draws_app. rewrite Hb.
    eexists. split; [reflexivity|]. split; [done|]. cbn. by rewrite map_app.
  Qed.

  Lemma seed_lemma n a fill s g g' : (0 <= s < 4294967296)%Z ->
    rnd n a fill (Some s) g = rnd n a fill (Some s) g'.
  Proof using.
    intros Hs. unfold random_occupation, reseed.
    destruct (Z.ltb_spec s 0); [lia|]. destruct (Z.ltb_spec 4294967295 s); [lia|]. done.
  Qed.

  Lemma count_valid_lemma n a fill seed g g' o :
    (forall b, a = Object b -> proper_basis b) ->
    rnd n a fill seed g = (g', Ok o) ->
    exists g0, reseed seeded seed g = Ok g0 /\
    Z.of_nat (length (oc_data o)) = n /\ validate o = Ok tt /\
    count_occupied o = length (List.filter (fun x => below x fill) (fst (draws (Z.to_nat n) g0))) /\
    count_occupied o + count_vacant o = Z.to_nat n.
  Proof using.
    intros Hp (g0 & b & Hs & Hb & Hn & -> & ->)%rnd_ok. exists g0. split; [done|].
    assert (proper_basis b) as Hpb.
    { destruct a as [s|b0]; cbn in Hb; [|injection Hb as <-; by apply Hp].
      unfold get_basis in Hb.
      repeat match type of Hb with context[if ?c then _ else _] => destruct c end; try done;
        cbn in Hb; by injection Hb as <-. }
    split; [cbn; rewrite map_length, draws_length; lia|]. split; [|split; [apply count_lemma|]].
    - unfold validate. cbn. rewrite (proj2 (forallb_forall _ _)); [done|].
      intros v Hv. apply elem_of_list_In, elem_of_list_fmap in Hv as (x & -> & _).
      apply valid_lemma; [done|]. destruct (below x fill); [by left|by right].
    - rewrite count_lemma. pose proof (draws_length (Z.to_nat n) g0) as Hl. revert Hl.
      unfold count_vacant, count_value. cbn.
      generalize (fst (draws (Z.to_nat n) g0)) as l. intros l <-. induction l as [|x l IH]; [done|]. cbn.
      pose proof (values_differ b). destruct (below x fill); cbn.
      + destruct (Z.eqb_spec (occupied_value b) (vacant_value b)); [congruence|]. lia.
      + rewrite Z.eqb_refl. cbn. lia.
  Qed.

  Lemma refuses_lemma n a fill seed g :
    (forall g' x, rnd n a fill seed g = (g', Err x) -> x = ValueError) /\
    ((exists g' x, rnd n a fill seed g = (g', Err x)) <->
     (exists s, seed = Some s /\ (s < 0 \/ 4294967296 <= s)%Z) \/ (n < 0)%Z \/
     (exists name, a = Named name /\ name <> "occupation"%string /\ name <> "chebyshev"%string)) /\
    (forall s, seed = Some s -> (s < 0 \/ 4294967296 <= s)%Z -> fst (rnd n a fill seed g) = g).
  Proof using.
    assert (reseed seeded seed g = Err ValueError /\ (exists s, seed = Some s /\ (s < 0 \/ 4294967296 <= s)%Z)
      \/ (exists g0, reseed seeded seed g = Ok g0) /\ ~ (exists s, seed = Some s /\ (s < 0 \/ 4294967296 <= s)%Z)) as Hs.
    { destruct seed as [s|]; cbn; [|right; split; [by eexists|by intros (? & ? & _)]].
      destruct (Z.ltb_spec s 0); cbn; [left; split; [done|]; exists s; split; [done|lia]|].
      destruct (Z.ltb_spec 4294967295 s); cbn; [left; split; [done|]; exists s; split; [done|lia]|].
      right. split; [by eexists|]. intros (s' & [= <-] & ?). lia. }
    assert (basis_of a = Err ValueError /\
        (exists name, a = Named name /\ name <> "occupation"%string /\ name <> "chebyshev"%string)
      \/ (exists b, basis_of a = Ok b) /\
        ~ (exists name, a = Named name /\ name <> "occupation"%string /\ name <> "chebyshev"%string)) as Ha.
    { destruct a as [name|b]; cbn; [|right; split; [by eexists|by intros (? & ? & _)]].
      unfold get_basis. destruct (String.eqb_spec name "occupation") as [->|H1].
      { right. split; [by eexists|]. intros (? & [= <-] & ? & _). done. }
      destruct (String.eqb_spec name "chebyshev") as [->|H2].
      { right. split; [by eexists|]. intros (? & [= <-] & _ & ?). done. }
      left. split; [done|]. by exists name. }
    unfold random_occupation. destruct Hs as [[Hs Hs']|[[g0 Hs] Hs']]; rewrite Hs.
    { split; [by intros ? ? [= _ <-]|]. split; [|done]. split; [by left|]. intros _. by do 2 eexists. }
    split; [|split].
    - intros g' x. destruct (Z.ltb_spec n 0); [by intros [= _ <-]|].
      destruct (draws (Z.to_nat n) g0). destruct Ha as [[-> _]|[[b ->] _]]; [by intros [= _ <-]|done].
    - destruct (Z.ltb_spec n 0).
      { split; [by right; left|]. intros _. by do 2 eexists. }
      destruct (draws (Z.to_nat n) g0). destruct Ha as [[-> Ha]|[[b ->] Ha]].
      + split; [by right; right|]. intros _. by do 2 eexists.
      + split; [by intros (? & ? & ?)|]. intros [?|[?|?]]; [done|lia|done].
    - intros s Hs1 Hs2. destruct Hs'. by exists s.
  Qed.

  Lemma below_is_less x y : below x y = is_less x y.
  Proof using.
    unfold is_less. destruct (Qlt_le_dec x y) as [H|H].
    - by apply below_lt.
    - destruct (below x y) eqn:E; [|done]. apply below_lt in E. lra.
  Qed.
  Lemma after_S n g : after draw n (snd (draw g)) = after draw (S n) g.
  Proof using.
    unfold after. symmetry. exact (Nat.iter_succ_r n (fun g => snd (draw g)) g).
  Qed.
  Lemma draws_numbers n : forall g,
    fst (draws n g) = map (number draw g) (seq 0 n) /\ snd (draws n g) = after draw n g.
  Proof using.
    induction n as [|n IH]; intros g; [done|]. cbn [RandomOccModel.draws].
    pose proof (after_S n g) as Ha.
    destruct (IH (snd (draw g))) as [H1 H2]. revert H1 H2 Ha.
    destruct (draw g) as [x g1] eqn:E. cbn [snd]. destruct (draws n g1) as [l g2].
    cbn [fst snd]. intros H1 H2 Ha. split.
    - cbn [seq map]. f_equal; [unfold number; cbn; by rewrite E|].
      rewrite H1, <- seq_shift, map_map. apply map_ext. intros i. unfold number.
      rewrite <- after_S, E. done.
    - by rewrite H2, Ha.
  Qed.
  Lemma reseed_start seed g g0 : reseed seeded seed g = Ok g0 -> g0 = start seeded seed g.
  Proof using.
    destruct seed as [s|]; cbn; [|by intros [= <-]]. destruct (_ || _); [done|]. by intros [= <-].
  Qed.
  Lemma site_lemma n a fill seed g g' o :
    rnd n a fill seed g = (g', Ok o) ->
    g' = after draw (Z.to_nat n) (start seeded seed g) /\
    Z.of_nat (length (oc_data o)) = n /\ basis_of a = Ok (oc_basis o) /\
    forall i, (Z.of_nat i < n)%Z ->
      oc_data o !! i = Some (if is_less (number draw (start seeded seed g) i) fill
                             then occupied_value (oc_basis o) else vacant_value (oc_basis o)).
  Proof using.
    intros (g0 & b & Hs & Hb & Hn & -> & ->)%rnd_ok. apply reseed_start in Hs as ->.
    cbn [oc_basis oc_data]. destruct (draws_numbers (Z.to_nat n) (start seeded seed g)) as [H1 H2].
    split; [done|]. split; [rewrite map_length, draws_length; lia|]. split; [done|].
    intros i Hi. rewrite H1, map_map. rewrite list_lookup_fmap.
    rewrite lookup_seq_lt by lia. cbn. by rewrite below_is_less.
  Qed.
  Lemma count_less_lemma n a fill seed g g' o :
    (forall b, a = Object b -> proper_basis b) ->
    rnd n a fill seed g = (g', Ok o) ->
    validate o = Ok tt /\
    count_occupied o = length (List.filter (fun x => is_less x fill)
                         (map (number draw (start seeded seed g)) (seq 0 (Z.to_nat n)))) /\
    count_occupied o + count_vacant o = Z.to_nat n.
  Proof using.
    intros Hp H. destruct (count_valid_lemma _ _ _ _ _ _ _ Hp H) as (g0 & Hs & _ & H1 & H2 & H3).
    apply reseed_start in Hs as ->. split; [done|]. split; [|done]. rewrite H2.
    rewrite (proj1 (draws_numbers _ _)). f_equal. apply filter_ext. intros x. apply below_is_less.
  Qed.
End Random.
