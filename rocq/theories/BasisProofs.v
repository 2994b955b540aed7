(** Proofs about occupation bases. *)
From Coq Require Import Reals Lra.
From Verif Require Import Py PyLemmas Json BasisModel BasisSpec.
Local Open Scope nat_scope.

(* ---------------- values ---------------- *)
Lemma valid_legal b v : valid_value b v = true <-> legal_value b v.
Proof.
  destruct b; simpl.
  - rewrite orb_true_iff, !Z.eqb_eq. done.
  - rewrite andb_true_iff, Z.leb_le, Z.ltb_lt. done.
Qed.

Lemma validate_legal o : validate o = Ok tt <-> legal o.
Proof.
  unfold validate, legal. destruct (forallb _ _) eqn:E.
  - split; [|done]. intros _ v Hv. apply valid_legal.
    rewrite forallb_forall in E. apply E. by apply elem_of_list_In.
  - split; [done|]. intros H. assert (forallb (valid_value (oc_basis o)) (oc_data o) = true); [|congruence].
    apply forallb_forall. intros v Hv. apply valid_legal, H. by apply elem_of_list_In.
Qed.

Lemma new_checked_lemma data b o :
  occupation_new data b true = Ok o <-> o = Occupation b data /\ legal (Occupation b data).
Proof.
  unfold occupation_new. destruct (validate (Occupation b data)) as [[]|] eqn:E; simpl.
  - apply validate_legal in E. split; [by intros [= <-]|]. intros [-> _]. done.
  - split; [done|]. intros [_ H]. apply validate_legal in H. congruence.
Qed.

Lemma new_error_lemma data b x : occupation_new data b true = Err x -> x = ValueError.
Proof. unfold occupation_new, validate. destruct (forallb _ _); simpl; congruence. Qed.

Lemma dichotomy b v : two_state b -> legal_value b v -> means_occupied b v \/ means_vacant b v.
Proof. intros [->| ->]; simpl; lia. Qed.
Lemma exclusive b v : means_occupied b v -> means_vacant b v -> False.
Proof. destruct b; simpl; lia. Qed.
Lemma occupied_legal b v : two_state b -> means_occupied b v -> legal_value b v.
Proof. intros [->| ->]; simpl; lia. Qed.
Lemma vacant_legal b v : two_state b -> means_vacant b v -> legal_value b v.
Proof. intros [->| ->]; simpl; lia. Qed.
Lemma occupied_value_spec b v : means_occupied b v <-> v = occupied_value b.
Proof. destruct b; simpl; lia. Qed.
Lemma vacant_value_spec b v : means_vacant b v <-> v = vacant_value b.
Proof. destruct b; simpl; lia. Qed.
Lemma match_value_spec b v : means_occupied b v <-> v = match_value b.
Proof. destruct b; simpl; lia. Qed.
Lemma mismatch_value_spec b v : means_vacant b v <-> v = mismatch_value b.
Proof. destruct b; simpl; lia. Qed.

Lemma convert_occupied b b' v : means_occupied b v -> means_occupied b' (convert_to b v b').
Proof.
  intros H%match_value_spec. subst. unfold convert_to. destruct (Z.eqb_spec (match_value b) (mismatch_value b)).
  - destruct b; simpl in *; lia.
  - by apply match_value_spec.
Qed.
Lemma convert_vacant b b' v : means_vacant b v -> means_vacant b' (convert_to b v b').
Proof.
  intros H%mismatch_value_spec. subst. unfold convert_to. rewrite Z.eqb_refl. by apply mismatch_value_spec.
Qed.
Lemma same_class_eq a b : two_state a -> two_state b -> same_class a b = true -> a = b.
Proof. intros [->| ->] [->| ->]; simpl; try done. Qed.

(** The value in the other basis, whichever branch [to_basis] takes. *)
Definition conv (b b' : basis) (v : Z) : Z := if same_class b' b then v else convert_to b v b'.
Lemma to_basis_conv o b' : to_basis o b' = Occupation b' (map (conv (oc_basis o) b') (oc_data o)).
Proof. unfold to_basis, conv. destruct (same_class _ _); [|done]. f_equal. by rewrite map_id. Qed.
Lemma conv_occupied b b' v : two_state b -> two_state b' -> means_occupied b v -> means_occupied b' (conv b b' v).
Proof.
  intros H H'. unfold conv. destruct (same_class b' b) eqn:E.
  - apply same_class_eq in E; [|done..]. by subst.
  - apply convert_occupied.
Qed.
Lemma conv_vacant b b' v : two_state b -> two_state b' -> means_vacant b v -> means_vacant b' (conv b b' v).
Proof.
  intros H H'. unfold conv. destruct (same_class b' b) eqn:E.
  - apply same_class_eq in E; [|done..]. by subst.
  - apply convert_vacant.
Qed.
Lemma conv_back b b' v : two_state b -> two_state b' -> legal_value b v -> conv b' b (conv b b' v) = v.
Proof.
  intros H H' Hv. destruct (dichotomy b v H Hv) as [Ho|Hn].
  - pose proof (conv_occupied b' b _ H' H (conv_occupied b b' v H H' Ho)) as H1.
    apply occupied_value_spec in H1, Ho. congruence.
  - pose proof (conv_vacant b' b _ H' H (conv_vacant b b' v H H' Hn)) as H1.
    apply vacant_value_spec in H1, Hn. congruence.
Qed.

Lemma map_lookup {A B} (f : A -> B) l i : map f l !! i = f <$> (l !! i).
Proof. apply list_lookup_fmap. Qed.

Lemma convert_pattern_lemma o b' :
  two_state (oc_basis o) -> two_state b' -> legal o ->
  legal (to_basis o b') /\ same_pattern o (to_basis o b').
Proof.
  intros H H' Hl. rewrite to_basis_conv.
  assert (G : forall i v, oc_data o !! i = Some v -> legal_value (oc_basis o) v).
  { intros i v Hi. apply Hl. by eapply elem_of_list_lookup_2. }
  split.
  { intros v Hv. simpl in *. apply elem_of_list_lookup in Hv as (i & Hi). rewrite map_lookup in Hi.
    destruct (oc_data o !! i) as [w|] eqn:E; [|done]. simpl in Hi. injection Hi as <-.
    destruct (dichotomy _ w H (G _ _ E)).
    - apply occupied_legal; [done|]. by apply conv_occupied.
    - apply vacant_legal; [done|]. by apply conv_vacant. }
  split; [simpl; by rewrite map_length|].
  split; intros i; split; intros (v & Hv & Hm).
  - exists (conv (oc_basis o) b' v). simpl. rewrite map_lookup, Hv. split; [done|]. by apply conv_occupied.
  - simpl in Hv. rewrite map_lookup in Hv. destruct (oc_data o !! i) as [w|] eqn:E; [|done].
    injection Hv as <-. exists w. split; [done|]. destruct (dichotomy _ w H (G _ _ E)) as [|Hn]; [done|].
    destruct (exclusive _ _ Hm). by apply conv_vacant.
  - exists (conv (oc_basis o) b' v). simpl. rewrite map_lookup, Hv. split; [done|]. by apply conv_vacant.
  - simpl in Hv. rewrite map_lookup in Hv. destruct (oc_data o !! i) as [w|] eqn:E; [|done].
    injection Hv as <-. exists w. split; [done|]. destruct (dichotomy _ w H (G _ _ E)) as [Hn|]; [|done].
    destruct (exclusive b' (conv (oc_basis o) b' w)); [by apply conv_occupied|done].
Qed.

Lemma convert_back_lemma o b' :
  two_state (oc_basis o) -> two_state b' -> legal o -> to_basis (to_basis o b') (oc_basis o) = o.
Proof.
  intros H H' Hl. rewrite !to_basis_conv. simpl. destruct o as [b d]. f_equal. simpl in *.
  rewrite map_map. rewrite <- (map_id d) at 2. apply map_ext_in. intros v Hv.
  apply conv_back; [done..|]. apply Hl. by apply elem_of_list_In.
Qed.

Lemma pattern_unique o o' :
  oc_basis o = oc_basis o' -> two_state (oc_basis o) -> legal o -> legal o' -> same_pattern o o' ->
  oc_data o = oc_data o'.
Proof.
  intros Hb H Hl Hl' (Hlen & Ho & Hv). apply list_eq. intros i.
  destruct (oc_data o !! i) as [v|] eqn:E.
  - destruct (dichotomy (oc_basis o) v H) as [Hm|Hm].
    { apply Hl. by eapply elem_of_list_lookup_2. }
    + destruct (proj1 (Ho i)) as (w & Hw & Hmw); [by exists v|]. rewrite Hw. rewrite <- Hb in Hmw.
      apply occupied_value_spec in Hm, Hmw. congruence.
    + destruct (proj1 (Hv i)) as (w & Hw & Hmw); [by exists v|]. rewrite Hw. rewrite <- Hb in Hmw.
      apply vacant_value_spec in Hm, Hmw. congruence.
  - symmetry. apply lookup_ge_None. rewrite <- Hlen. by apply lookup_ge_None.
Qed.

Lemma pattern_sym a b : same_pattern a b -> same_pattern b a.
Proof. intros (H1 & H2 & H3). split; [done|]. split; intros i; symmetry; auto. Qed.
Lemma pattern_trans a b c : same_pattern a b -> same_pattern b c -> same_pattern a c.
Proof.
  intros (H1 & H2 & H3) (G1 & G2 & G3). split; [congruence|].
  split; intros i; [by rewrite H2, G2|by rewrite H3, G3].
Qed.

Lemma equivalent_lemma a b :
  two_state (oc_basis a) -> two_state (oc_basis b) -> legal a -> legal b ->
  equivalent_to a b = true <-> same_pattern a b.
Proof.
  intros Ha Hb La Lb. unfold equivalent_to. rewrite bool_decide_eq_true.
  assert (Ht : two_state OccupationBasis) by (by left).
  destruct (convert_pattern_lemma a _ Ha Ht La) as [La' Pa].
  destruct (convert_pattern_lemma b _ Hb Ht Lb) as [Lb' Pb]. split.
  - intros He. eapply pattern_trans; [exact Pa|]. eapply pattern_trans; [|apply pattern_sym; exact Pb].
    assert (to_basis a OccupationBasis = to_basis b OccupationBasis) as ->.
    { rewrite !to_basis_conv in *. simpl in He. by rewrite He. }
    done.
  - intros Hp. apply pattern_unique; [by rewrite !to_basis_conv|by rewrite to_basis_conv|done|done|].
    eapply pattern_trans; [apply pattern_sym; exact Pa|]. by eapply pattern_trans.
Qed.

(* ---------------- counts ---------------- *)
Lemma indices_of_lemma v l :
  lists_exactly (indices_of v l) (fun i => l !! i = Some v) /\ length (indices_of v l) = count_value v l.
Proof.
  unfold indices_of, count_value, enumerate, lists_exactly.
  assert (G : forall n, (forall i, i ∈ map fst (List.filter (fun e : nat * Z => (snd e =? v)%Z) (enum_from n l)) <->
       n <= i /\ l !! (i - n) = Some v) /\
     (forall i j a b, i < j ->
        map fst (List.filter (fun e : nat * Z => (snd e =? v)%Z) (enum_from n l)) !! i = Some a ->
        map fst (List.filter (fun e : nat * Z => (snd e =? v)%Z) (enum_from n l)) !! j = Some b -> a < b) /\
     length (map fst (List.filter (fun e : nat * Z => (snd e =? v)%Z) (enum_from n l))) =
       length (List.filter (fun x => (x =? v)%Z) l)).
  { induction l as [|x l IH]; intros n; simpl.
    - split; [|split; [by intros [|]|done]]. intros i. split; [by intros ?%elem_of_nil|by intros [_ ?]].
    - destruct (IH (S n)) as (H1 & H2 & H3). destruct (Z.eqb_spec x v) as [->|Hne]; simpl.
      + split; [|split; [|by rewrite H3]].
        * intros i. rewrite elem_of_cons, H1. split.
          -- intros [->|[Hle Hi]]; [by rewrite Nat.sub_diag|]. split; [lia|].
             replace (i - n) with (S (i - S n)) by lia. done.
          -- intros [Hle Hi]. destruct (decide (i = n)) as [->|Hn]; [by left|right]. split; [lia|].
             replace (i - n) with (S (i - S n)) in Hi by lia. done.
        * intros [|i] [|j] a b Hij Ha Hb; try lia; simpl in *.
          -- injection Ha as <-. assert (Hin : b ∈ map fst (List.filter (fun e : nat * Z => (snd e =? v)%Z) (enum_from (S n) l)))
               by (by eapply elem_of_list_lookup_2). apply H1 in Hin. lia.
          -- eapply H2; [|exact Ha|exact Hb]. lia.
      + split; [|split; [exact H2|exact H3]]. intros i. rewrite H1. split.
        * intros [Hle Hi]. split; [lia|]. replace (i - n) with (S (i - S n)) by lia. done.
        * intros [Hle Hi]. destruct (decide (i = n)) as [->|Hn].
          -- rewrite Nat.sub_diag in Hi. simpl in Hi. congruence.
          -- split; [lia|]. replace (i - n) with (S (i - S n)) in Hi by lia. done. }
  destruct (G 0) as (H1 & H2 & H3). split; [|exact H3]. split; [|exact H2].
  intros i. rewrite H1, Nat.sub_0_r. split; [by intros []|]. intros; split; [lia|done].
Qed.

Lemma lists_ext l P Q : (forall i, P i <-> Q i) -> lists_exactly l P -> lists_exactly l Q.
Proof. intros H [H1 H2]. split; [|exact H2]. intros i. by rewrite H1. Qed.

Lemma count_split b l : two_state b -> (forall v, v ∈ l -> legal_value b v) ->
  count_value (occupied_value b) l + count_value (vacant_value b) l = length l.
Proof.
  intros H. induction l as [|x l IH]; intros Hl; [done|]. unfold count_value in *. simpl.
  assert (Hx : legal_value b x) by (apply Hl; by left).
  specialize (IH (fun v Hv => Hl v (elem_of_list_further _ _ _ Hv))).
  destruct (dichotomy b x H Hx) as [Hm|Hm].
  - assert (Hn : ~ means_vacant b x) by (intros ?; by eapply exclusive).
    rewrite occupied_value_spec in Hm. rewrite vacant_value_spec in Hn.
    rewrite (proj2 (Z.eqb_eq _ _) Hm), (proj2 (Z.eqb_neq _ _) Hn). simpl. lia.
  - assert (Hn : ~ means_occupied b x) by (intros ?; by eapply exclusive).
    rewrite vacant_value_spec in Hm. rewrite occupied_value_spec in Hn.
    rewrite (proj2 (Z.eqb_eq _ _) Hm), (proj2 (Z.eqb_neq _ _) Hn). simpl. lia.
Qed.

Lemma occupied_match b : occupied_value b = match_value b.
Proof. by destruct b. Qed.
Lemma vacant_mismatch b : vacant_value b = mismatch_value b.
Proof. by destruct b. Qed.

Lemma counts_lemma o :
  lists_exactly (get_occupied_indices o) (occupied_at o) /\
  lists_exactly (get_vacant_indices o) (vacant_at o) /\
  get_match_indices o = get_occupied_indices o /\ get_mismatch_indices o = get_vacant_indices o /\
  count_occupied o = length (get_occupied_indices o) /\ count_vacant o = length (get_vacant_indices o) /\
  count_match o = count_occupied o /\ count_mismatch o = count_vacant o /\
  (two_state (oc_basis o) -> legal o -> count_occupied o + count_vacant o = length (oc_data o)).
Proof.
  unfold get_occupied_indices, get_vacant_indices, get_match_indices, get_mismatch_indices,
    count_occupied, count_vacant, count_match, count_mismatch.
  rewrite <- !occupied_match, <- !vacant_mismatch.
  pose proof (indices_of_lemma (occupied_value (oc_basis o)) (oc_data o)) as [H1 H1'].
  pose proof (indices_of_lemma (vacant_value (oc_basis o)) (oc_data o)) as [H2 H2'].
  split. { eapply lists_ext; [|exact H1]. intros i. unfold occupied_at. split.
    - intros Hi. eexists. split; [exact Hi|]. by apply occupied_value_spec.
    - intros (v & Hv & ->%occupied_value_spec). done. }
  split. { eapply lists_ext; [|exact H2]. intros i. unfold vacant_at. split.
    - intros Hi. eexists. split; [exact Hi|]. by apply vacant_value_spec.
    - intros (v & Hv & ->%vacant_value_spec). done. }
  do 2 (split; [done|]). split; [by rewrite H1'|]. split; [by rewrite H2'|]. do 2 (split; [done|]).
  intros Ht Hl. by apply count_split.
Qed.

(* ---------------- flips ---------------- *)
Fixpoint iterate {A} (n : nat) (f : A -> A) (x : A) : A :=
  match n with O => x | S n' => f (iterate n' f x) end.

Lemma norm_named n k i : k < n ->
  py_norm n i = Some k <-> ((i =? Z.of_nat k) || (i + Z.of_nat n =? Z.of_nat k))%Z = true.
Proof.
  intros Hk. unfold py_norm. rewrite orb_true_iff, !Z.eqb_eq.
  destruct (Z.leb_spec 0 i).
  - destruct (Z.ltb_spec i (Z.of_nat n)).
    + split; [intros [= <-]; left; lia|]. intros [->|]; [by rewrite Nat2Z.id|lia].
    + split; [done|]. lia.
  - destruct (Z.leb_spec (- Z.of_nat n) i).
    + split; [intros [= <-]; right; lia|]. intros [->|Hx]; [lia|]. f_equal. lia.
    + split; [done|]. lia.
Qed.

Lemma flip_one_inv b d i d' :
  flip_one b d i = Ok d' -> exists k v, py_norm (length d) i = Some k /\ d !! k = Some v /\
    d' = <[k := flip_value b v]> d.
Proof.
  unfold flip_one, py_get, py_set. destruct (py_norm (length d) i) as [k|] eqn:E; [|done].
  destruct (d !! k) as [v|] eqn:Ev; [|done]. simpl. intros [= <-]. eauto.
Qed.

Lemma times_named_cons n k i l : k < n ->
  times_named n k (i :: l) = (if decide (py_norm n i = Some k) then 1 else 0) + times_named n k l.
Proof.
  intros Hk. unfold times_named. simpl. destruct (decide _) as [H|H].
  - rewrite (proj1 (norm_named _ _ _ Hk) H). done.
  - destruct ((_ || _)%bool) eqn:E; [|done]. destruct H. by apply norm_named.
Qed.

Lemma flips_pointwise b is d d' :
  rfold (flip_one b) d is = Ok d' ->
  length d' = length d /\
  forall k, d' !! k = iterate (times_named (length d) k is) (flip_value b) <$> (d !! k).
Proof.
  revert d. induction is as [|i is IH]; intros d H; simpl in H.
  - injection H as <-. split; [done|]. intros k. simpl. by destruct (d !! k).
  - apply rbind_ok in H as (d1 & H1 & H). apply flip_one_inv in H1 as (j & v & Hj & Hv & ->).
    destruct (IH _ H) as [Hlen Hk]. rewrite insert_length in Hlen, Hk. split; [done|].
    intros k. rewrite Hk. destruct (decide (k < length d)) as [Hlt|Hge].
    + rewrite times_named_cons by done. destruct (decide (j = k)) as [->|Hne].
      * rewrite list_lookup_insert, Hv by done. rewrite decide_True by done. simpl. f_equal.
        generalize (times_named (length d) k is). intros n. induction n; simpl; congruence.
      * rewrite list_lookup_insert_ne by done. rewrite decide_False; [done|]. congruence.
    + rewrite (lookup_ge_None_2 d k) by lia.
      rewrite (lookup_ge_None_2 (<[j:=flip_value b v]> d) k); [done|]. rewrite insert_length. lia.
Qed.

Lemma flip_invol b v : two_state b -> legal_value b v -> flip_value b (flip_value b v) = v.
Proof. intros [->| ->]; simpl; intros; destruct (Z.eqb_spec v 0) as [->|]; simpl; lia. Qed.
Lemma flip_legal b v : two_state b -> legal_value b v -> legal_value b (flip_value b v).
Proof. intros [->| ->]; simpl; intros; destruct (Z.eqb_spec v 0) as [->|]; simpl; lia. Qed.
Lemma flip_toggle b v : two_state b -> legal_value b v ->
  (means_occupied b (flip_value b v) <-> means_vacant b v) /\
  (means_vacant b (flip_value b v) <-> means_occupied b v).
Proof. intros [->| ->]; simpl; intros; destruct (Z.eqb_spec v 0) as [->|]; simpl; lia. Qed.

Lemma iterate_parity b v n : two_state b -> legal_value b v ->
  iterate n (flip_value b) v = if Nat.odd n then flip_value b v else v.
Proof.
  intros H Hv. induction n as [|n IH]; [done|]. simpl iterate. rewrite IH, Nat.odd_succ, <- Nat.negb_odd.
  destruct (Nat.odd n); simpl; [by apply flip_invol|done].
Qed.

Lemma flip_lemma o is o' :
  two_state (oc_basis o) -> legal o -> flip o is = Ok o' ->
  oc_basis o' = oc_basis o /\ length (oc_data o') = length (oc_data o) /\ legal o' /\
  forall k, k < length (oc_data o) ->
    if Nat.odd (times_named (length (oc_data o)) k is)
    then (occupied_at o' k <-> vacant_at o k) /\ (vacant_at o' k <-> occupied_at o k)
    else oc_data o' !! k = oc_data o !! k.
Proof.
  intros H Hl Hf. unfold flip in Hf. apply rbind_ok in Hf as (d & Hd & [= <-]). simpl.
  destruct (flips_pointwise _ _ _ _ Hd) as [Hlen Hk].
  assert (G : forall i v, oc_data o !! i = Some v -> legal_value (oc_basis o) v).
  { intros i v Hi. apply Hl. by eapply elem_of_list_lookup_2. }
  split; [done|]. split; [done|]. split.
  { intros v Hv. simpl in *. apply elem_of_list_lookup in Hv as (i & Hi). rewrite Hk in Hi.
    destruct (oc_data o !! i) as [w|] eqn:E; [|done]. injection Hi as <-.
    rewrite iterate_parity by eauto. destruct (Nat.odd _); [|by eapply G]. apply flip_legal; eauto. }
  intros k Hlt. destruct (oc_data o !! k) as [v|] eqn:E; [|apply lookup_ge_None in E; lia].
  specialize (Hk k). rewrite E in Hk. simpl in Hk. rewrite iterate_parity in Hk by eauto.
  destruct (Nat.odd _); [|done].
  destruct (flip_toggle (oc_basis o) v H (G _ _ E)) as [T1 T2].
  unfold occupied_at, vacant_at. simpl. rewrite Hk, E. split; split; intros (w & [= <-] & Hw); eexists; (split; [done|]); tauto.
Qed.

Lemma flip_ok_same_length b is d d2 : length d2 = length d ->
  (exists d', rfold (flip_one b) d is = Ok d') -> exists d2', rfold (flip_one b) d2 is = Ok d2'.
Proof.
  revert d d2. induction is as [|i is IH]; intros d d2 Hl [d' H]; simpl in *; [by eexists|].
  apply rbind_ok in H as (d1 & H1 & H). apply flip_one_inv in H1 as (j & v & Hj & Hv & ->).
  unfold flip_one, py_get, py_set. rewrite Hl, Hj.
  assert (j < length d2) as Hjl. { rewrite Hl. by eapply lookup_lt_Some. }
  destruct (lookup_lt_is_Some_2 d2 j Hjl) as [w Hw]. rewrite Hw. simpl.
  eapply IH; [|eexists; exact H]. by rewrite !insert_length.
Qed.

Lemma flip_twice_lemma o is o' :
  two_state (oc_basis o) -> legal o -> flip o is = Ok o' -> flip o' is = Ok o.
Proof.
  intros H Hl Hf. unfold flip in *. apply rbind_ok in Hf as (d & Hd & [= <-]). simpl.
  destruct (flips_pointwise _ _ _ _ Hd) as [Hlen Hk].
  destruct (flip_ok_same_length (oc_basis o) is (oc_data o) d Hlen) as [d2 Hd2]; [by eexists|].
  rewrite Hd2. simpl. destruct o as [b d0]. simpl in *. do 2 f_equal.
  destruct (flips_pointwise _ _ _ _ Hd2) as [Hlen2 Hk2]. apply list_eq. intros k.
  rewrite Hk2, Hk, Hlen. destruct (d0 !! k) as [v|] eqn:E; [|done]. simpl. f_equal.
  assert (Hv : legal_value b v) by (apply Hl; by eapply elem_of_list_lookup_2).
  rewrite (iterate_parity b v) by done. destruct (Nat.odd (times_named _ k is)) eqn:Ho.
  - rewrite iterate_parity by (try apply flip_legal; done). rewrite Ho. by apply flip_invol.
  - rewrite iterate_parity by done. by rewrite Ho.
Qed.

Lemma setitem_inv o i v r o' : setitem o i v = (r, o') ->
  match py_norm (length (oc_data o)) i with
  | Some k => oc_data o' = <[k := v]> (oc_data o) /\ oc_basis o' = oc_basis o /\ (r = Ok tt <-> legal o')
  | None => r = Err IndexError /\ o' = o
  end.
Proof.
  unfold setitem, py_set. destruct (py_norm _ _) as [k|] eqn:E; intros [= <- <-]; [|done].
  do 2 (split; [done|]). apply validate_legal.
Qed.

Lemma repeat_at {A} (x : A) n i : i < n -> repeat x n !! i = Some x.
Proof. revert i. induction n as [|n IH]; intros [|i] H; simpl; try lia; [done|]. apply IH. lia. Qed.

Lemma zeros_ones_lemma n b :
  length (oc_data (zeros n b)) = n /\ length (oc_data (ones n b)) = n /\
  forall i, i < n -> vacant_at (zeros n b) i /\ occupied_at (ones n b) i.
Proof.
  unfold zeros, ones. simpl. rewrite !repeat_length. do 2 (split; [done|]). intros i Hi. split.
  - exists (vacant_value b). simpl. split; [by apply repeat_at|]. by apply vacant_value_spec.
  - exists (occupied_value b). simpl. split; [by apply repeat_at|]. by apply occupied_value_spec.
Qed.

Lemma dict_lemma b : match b with ChebyshevBasis n => (2 <= n)%Z | _ => True end ->
  basis_from_dict (basis_as_dict b) = Ok b.
Proof.
  destruct b as [|n]; intros H; [reflexivity|]. unfold basis_from_dict.
  change (basis_of_class true [("max_states"%string, JInt n)] = Ok (ChebyshevBasis n)).
  unfold basis_of_class, cheb_new. simpl. destruct (Z.ltb_spec n 2); [lia|done].
Qed.

Lemma explicit_converters v : legal_value OccupationBasis v ->
  to_chebyshev v = convert_to OccupationBasis v (ChebyshevBasis 2) /\
  from_occupation v = convert_to OccupationBasis v (ChebyshevBasis 2) /\
  to_occupation v = convert_to (ChebyshevBasis 2) v OccupationBasis /\
  from_chebyshev v = convert_to (ChebyshevBasis 2) v OccupationBasis.
Proof. intros [-> | ->]; done. Qed.

(* ---------------- Chebyshev site functions ---------------- *)
Local Open Scope R_scope.
Fixpoint comb (j : nat) (c : list R) (x : R) : R :=
  match c with [] => 0 | a :: c' => a * chebT j x + comb (S j) c' x end.

Lemma comb_app j c c' x : comb j (c ++ c') x = comb j c x + comb (j + length c) c' x.
Proof.
  revert j. induction c as [|a c IH]; intros j; simpl; [rewrite Nat.add_0_r; lra|].
  rewrite IH. replace (S j + length c)%nat with (j + S (length c))%nat by lia. lra.
Qed.
Lemma comb_snoc c l x : comb 0 (c ++ [l]) x = comb 0 c x + l * chebT (length c) x.
Proof. rewrite comb_app. simpl. lra. Qed.
Lemma comb_zeros j n x : comb j (repeat 0 n) x = 0.
Proof. revert j. induction n as [|n IH]; intros j; simpl; [done|]. rewrite IH. lra. Qed.

(** Functions spanned by [T_0 .. T_(m-1)]. *)
Definition sp (m : nat) (f : R -> R) : Prop :=
  exists c, length c = m /\ forall x, f x = comb 0 c x.
(** ... with coefficient [l] of [T_m]. *)
Definition spl (m : nat) (l : R) (f : R -> R) : Prop :=
  exists c, length c = m /\ forall x, f x = comb 0 (c ++ [l]) x.

Lemma comb_add (c d : list R) : length c = length d ->
  exists e, length e = length c /\ (forall i y, comb i e y = comb i c y + comb i d y).
Proof.
  intros H. revert d H. induction c as [|a c IH]; intros [|b d] H; try discriminate.
  - exists []. split; [done|]. intros. simpl. lra.
  - injection H as H. destruct (IH d H) as (e & He & Hs). exists (a + b :: e). simpl. split; [lia|].
    intros i y. rewrite Hs. lra.
Qed.
Lemma comb_scal c k : exists e, length e = length c /\ forall i y, comb i e y = k * comb i c y.
Proof.
  induction c as [|a c (e & He & Hs)].
  - exists []. split; [done|]. intros. simpl. lra.
  - exists (k * a :: e). simpl. split; [lia|]. intros. rewrite Hs. lra.
Qed.

Lemma sp_ext m f g : (forall x, f x = g x) -> sp m f -> sp m g.
Proof. intros H (c & Hc & Hf). exists c. split; [done|]. intros. by rewrite <- H. Qed.
Lemma spl_ext m l f g : (forall x, f x = g x) -> spl m l f -> spl m l g.
Proof. intros H (c & Hc & Hf). exists c. split; [done|]. intros. by rewrite <- H. Qed.
Lemma sp_add m f g : sp m f -> sp m g -> sp m (fun x => f x + g x).
Proof.
  intros (c & Hc & Hf) (d & Hd & Hg). destruct (comb_add c d) as (e & He & Hs); [congruence|].
  exists e. split; [congruence|]. intros. by rewrite Hs, Hf, Hg.
Qed.
Lemma sp_scal m k f : sp m f -> sp m (fun x => k * f x).
Proof.
  intros (c & Hc & Hf). destruct (comb_scal c k) as (e & He & Hs). exists e. split; [congruence|].
  intros. by rewrite Hs, Hf.
Qed.
Lemma sp_weaken m n f : (m <= n)%nat -> sp m f -> sp n f.
Proof.
  intros H (c & Hc & Hf). exists (c ++ repeat 0 (n - m)). split.
  - rewrite app_length, repeat_length. lia.
  - intros. rewrite comb_app, comb_zeros, Hf. lra.
Qed.
Lemma spl_sp m l f : spl m l f -> sp (S m) f.
Proof. intros (c & Hc & Hf). exists (c ++ [l]). split; [rewrite app_length; simpl; lia|done]. Qed.
Lemma spl_add_sp m l f g : sp m f -> spl m l g -> spl m l (fun x => f x + g x).
Proof.
  intros (c & Hc & Hf) (d & Hd & Hg). destruct (comb_add c d) as (e & He & Hs); [congruence|].
  exists e. split; [congruence|]. intros. rewrite Hf, Hg, !comb_snoc, Hs, He, Hc, <- Hd. lra.
Qed.
Lemma spl_scal m l k f : spl m l f -> spl m (k * l) (fun x => k * f x).
Proof.
  intros (c & Hc & Hf). destruct (comb_scal c k) as (e & He & Hs). exists e. split; [congruence|].
  intros. rewrite Hf, !comb_snoc, Hs, He. lra.
Qed.
Lemma spl_T m : spl m 1 (chebT m).
Proof.
  exists (repeat 0 m). split; [apply repeat_length|]. intros x. rewrite comb_snoc, comb_zeros, repeat_length. lra.
Qed.
Lemma sp_T k m : (k < m)%nat -> sp m (chebT k).
Proof. intros H. apply (sp_weaken (S k)); [lia|]. eapply spl_sp, spl_T. Qed.
Lemma sp_const m k : (0 < m)%nat -> sp m (fun _ => k).
Proof. intros H. eapply sp_ext; [|apply (sp_scal m k), (sp_T 0); exact H]. intros. simpl. lra. Qed.

Lemma chebT_SS k x : chebT (S (S k)) x = chebT (S k) x * (2 * x) - chebT k x.
Proof. reflexivity. Qed.

Lemma mulx_T k : exists l, l <> 0 /\ spl (S k) l (fun x => x * chebT k x).
Proof.
  destruct k as [|k].
  - exists 1. split; [lra|]. eapply spl_ext; [|apply spl_T]. intros. simpl. lra.
  - exists (/ 2 * 1). split; [lra|].
    eapply (spl_ext _ _ (fun x => / 2 * chebT k x + / 2 * chebT (S (S k)) x)).
    + intros x. rewrite chebT_SS. lra.
    + apply spl_add_sp; [|apply spl_scal, spl_T]. apply sp_scal, sp_T. lia.
Qed.
Lemma mulx_sp m f : sp m f -> sp (S m) (fun x => x * f x).
Proof.
  intros (c & Hc & Hf). revert m f Hc Hf. induction c as [|l c IH] using rev_ind; intros m f Hc Hf.
  - simpl in *. eapply (sp_ext _ (fun _ => 0)); [intros x; rewrite Hf; simpl; lra|]. apply sp_const. lia.
  - rewrite app_length in Hc. simpl in Hc.
    eapply (sp_ext _ (fun x => x * comb 0 c x + l * (x * chebT (length c) x))).
    + intros x. rewrite Hf, comb_snoc. lra.
    + apply sp_add.
      * apply (sp_weaken (S (length c))); [lia|]. by apply IH.
      * apply sp_scal. destruct (mulx_T (length c)) as (k & _ & Hk). apply spl_sp in Hk.
        eapply sp_weaken; [|exact Hk]. lia.
Qed.
Lemma mulx_spl m l f : spl m l f -> exists k, k <> 0 /\ spl (S m) (k * l) (fun x => x * f x).
Proof.
  intros (c & Hc & Hf). destruct (mulx_T m) as (k & Hk & Hs). exists k. split; [done|].
  eapply (spl_ext _ _ (fun x => x * comb 0 c x + l * (x * chebT m x))).
  - intros x. rewrite Hf, comb_snoc, Hc. lra.
  - apply spl_add_sp.
    + apply mulx_sp. exists c. done.
    + rewrite (Rmult_comm k l). by apply spl_scal.
Qed.

(** Division by [x - a]. *)
Lemma quotient_T a k : exists G l, l <> 0 /\ spl k l G /\
  (forall x, chebT (S k) x - chebT (S k) a = (x - a) * G x) /\
  exists G', sp k G' /\ (forall x, chebT k x - chebT k a = (x - a) * G' x).
Proof.
  induction k as [|k (G & l & Hl & Hs & HG & G' & Hs' & HG')].
  - exists (fun _ => 1), 1. split; [lra|]. split.
    { eapply spl_ext; [|apply (spl_T 0)]. done. }
    split; [intros; simpl; lra|]. exists (fun _ => 0). split; [exists []; done|]. intros. simpl. lra.
  - destruct (mulx_spl _ _ _ Hs) as (q & Hq & Hx).
    exists (fun x => (2 * chebT (S k) a + -1 * G' x) + 2 * (x * G x)), (2 * (q * l)).
    split. { apply Rmult_integral_contrapositive_currified; [lra|]. by apply Rmult_integral_contrapositive_currified. }
    split.
    { apply spl_add_sp; [|by apply spl_scal]. apply sp_add; [apply sp_const; lia|].
      apply sp_scal. eapply sp_weaken; [|exact Hs']. lia. }
    split.
    { intros x. rewrite !chebT_SS. specialize (HG x). specialize (HG' x).
      transitivity (2 * x * (chebT (S k) x - chebT (S k) a) + 2 * (x - a) * chebT (S k) a
                    - (chebT k x - chebT k a)); [ring|].
      rewrite HG, HG'. ring. }
    exists G. split; [by eapply spl_sp|done].
Qed.
Lemma quotient_sp a m c : length c = S m ->
  exists g, sp m g /\ forall x, comb 0 c x - comb 0 c a = (x - a) * g x.
Proof.
  revert c. induction m as [|m IH]; intros c Hc.
  - destruct c as [|r [|]]; try discriminate. exists (fun _ => 0). split; [exists []; done|].
    intros. simpl. lra.
  - destruct c as [|l c] using rev_ind; [discriminate|]. clear IHc.
    rewrite app_length in Hc. simpl in Hc. assert (Hc' : length c = S m) by lia.
    destruct (IH c Hc') as (g & Hg & He).
    destruct (quotient_T a m) as (G & k & _ & Hs & HG & _).
    exists (fun x => g x + l * G x). split.
    + apply sp_add; [by apply (sp_weaken m); [lia|]|]. apply sp_scal. by eapply spl_sp.
    + intros x. rewrite !comb_snoc, Hc'. specialize (He x). specialize (HG x). 
      transitivity ((comb 0 c x - comb 0 c a) + l * (chebT (S m) x - chebT (S m) a)); [ring|].
      rewrite He, HG. ring.
Qed.

Lemma lead_zero m : forall c l xs, length c = m -> length xs = S m -> NoDup xs ->
  (forall x, x ∈ xs -> comb 0 (c ++ [l]) x = 0) -> l = 0.
Proof.
  induction m as [|m IH]; intros c l xs Hc Hx Hnd Hz.
  - destruct c; [|discriminate]. destruct xs as [|a xs]; [discriminate|].
    specialize (Hz a (elem_of_list_here _ _)). simpl in Hz. lra.
  - destruct xs as [|a xs]; [discriminate|]. apply NoDup_cons in Hnd as [Ha Hnd].
    destruct (quotient_sp a m c Hc) as (g & Hg & He).
    destruct (quotient_T a m) as (G & k & Hk & Hs & HG & _).
    assert (Hspl : spl m (l * k) (fun x => g x + l * G x)).
    { apply spl_add_sp; [done|]. by apply spl_scal. }
    destruct Hspl as (d & Hd & Hdx).
    assert (l * k = 0) as Hlk.
    { apply (IH d (l * k) xs Hd); [simpl in Hx; lia|done|]. intros x Hin.
      pose proof (Hz a (elem_of_list_here _ _)) as Hza.
      pose proof (Hz x (elem_of_list_further _ _ _ Hin)) as Hzx.
      rewrite comb_snoc, Hc in Hza, Hzx. specialize (He x). specialize (HG x).
      assert (Hp : (x - a) * (g x + l * G x) = 0).
      { transitivity ((comb 0 c x - comb 0 c a) + l * (chebT (S m) x - chebT (S m) a)); [rewrite He, HG; ring|lra]. }
      apply Rmult_integral in Hp as [Hp|Hp].
      - exfalso. apply Ha. replace a with x by lra. done.
      - by rewrite <- Hdx. }
    apply Rmult_integral in Hlk as [|]; [done|contradiction].
Qed.

Lemma all_zero c xs : length xs = length c -> NoDup xs ->
  (forall x, x ∈ xs -> comb 0 c x = 0) -> c = repeat 0 (length c).
Proof.
  revert xs. induction c as [|l c IH] using rev_ind; intros xs Hx Hnd Hz; [done|].
  rewrite app_length in Hx. simpl in Hx.
  assert (l = 0) as ->.
  { eapply (lead_zero (length c) c l xs); [done|lia|done|done]. }
  destruct xs as [|a xs]; [simpl in Hx; lia|]. apply NoDup_cons in Hnd as [_ Hnd].
  rewrite (IH xs) at 1; [|simpl in Hx; lia|done|].
  - rewrite app_length. simpl. by rewrite repeat_app.
  - intros x Hin. specialize (Hz x (elem_of_list_further _ _ _ Hin)). rewrite comb_snoc in Hz. lra.
Qed.

(** Interpolation. *)
Fixpoint prod_at (xs : list R) (x : R) : R :=
  match xs with [] => 1 | a :: xs' => (x - a) * prod_at xs' x end.
Lemma prod_sp xs : sp (S (length xs)) (prod_at xs).
Proof.
  induction xs as [|a xs IH].
  - simpl. apply sp_const. lia.
  - eapply (sp_ext _ (fun x => x * prod_at xs x + (- a) * prod_at xs x)).
    + intros. simpl. lra.
    + apply sp_add; [by apply mulx_sp|]. apply sp_scal. eapply sp_weaken; [|exact IH]. simpl. lia.
Qed.
Lemma prod_zero xs x : x ∈ xs -> prod_at xs x = 0.
Proof.
  induction xs as [|a xs IH]; [by intros ?%elem_of_nil|]. rewrite elem_of_cons.
  intros [->|H]; simpl; [lra|]. rewrite IH by done. lra.
Qed.
Lemma prod_nonzero xs x : x ∉ xs -> prod_at xs x <> 0.
Proof.
  induction xs as [|a xs IH]; simpl; [lra|]. rewrite not_elem_of_cons. intros [H1 H2].
  apply Rmult_integral_contrapositive_currified; [|by apply IH]. lra.
Qed.
Lemma interpolate xs : NoDup xs -> forall ys, length ys = length xs ->
  exists f, sp (length xs) f /\ forall i x y, xs !! i = Some x -> ys !! i = Some y -> f x = y.
Proof.
  induction xs as [|a xs IH]; intros Hnd ys Hl.
  - exists (fun _ => 0). split; [exists []; done|]. done.
  - destruct ys as [|b ys]; [discriminate|]. apply NoDup_cons in Hnd as [Ha Hnd].
    destruct (IH Hnd ys) as (g & Hg & He); [simpl in Hl; lia|].
    exists (fun x => g x + ((b - g a) / prod_at xs a) * prod_at xs x). split.
    + apply sp_add; [eapply sp_weaken; [|exact Hg]; simpl; lia|]. apply sp_scal, prod_sp.
    + intros [|i] x y Hx Hy; simpl in Hx, Hy.
      * injection Hx as <-. injection Hy as <-. pose proof (prod_nonzero xs a Ha). field. done.
      * rewrite (prod_zero xs x) by (by eapply elem_of_list_lookup_2). rewrite (He i x y Hx Hy). lra.
Qed.

Lemma encoded_inj n i j : (2 <= n)%nat -> encoded n i = encoded n j -> i = j.
Proof.
  intros Hn. unfold encoded. intros H.
  assert (INR n - 1 > 0).
  { apply (le_INR 2) in Hn. simpl in Hn. lra. }
  apply INR_eq. assert (Hx : INR i * (2 / (INR n - 1)) = INR j * (2 / (INR n - 1))) by lra.
  apply Rmult_eq_reg_r in Hx; [done|]. apply Rgt_not_eq. apply Rdiv_lt_0_compat; lra.
Qed.
Lemma points_NoDup n : (2 <= n)%nat -> NoDup (map (encoded n) (seq 0 n)).
Proof.
  intros Hn. apply (NoDup_fmap_2_strong (encoded n)).
  - intros i j _ _. by apply encoded_inj.
  - apply NoDup_seq.
Qed.

Lemma dot_comb c j x : dot c (map (fun k => chebT k x) (seq j (length c))) = comb j c x.
Proof. revert j. induction c as [|a c IH]; intros j; simpl; [done|]. by rewrite IH. Qed.

Lemma cheb_row m n i row : (2 <= n)%nat -> site_basis_values (ChebyshevBasis m) n !! i = Some row ->
  (i < n)%nat /\ row = map (fun k => chebT k (encoded n i)) (seq 1 (n - 1)).
Proof.
  intros Hn. unfold site_basis_values. rewrite (proj2 (Nat.ltb_ge n 2)) by lia.
  rewrite map_lookup. destruct (seq 0 n !! i) as [k|] eqn:E; [|done].
  apply lookup_seq in E as [-> Hlt]. simpl. intros [= <-]. done.
Qed.
Lemma cheb_length m n : (2 <= n)%nat -> length (site_basis_values (ChebyshevBasis m) n) = n.
Proof.
  intros Hn. unfold site_basis_values. rewrite (proj2 (Nat.ltb_ge n 2)) by lia.
  by rewrite map_length, seq_length.
Qed.

Lemma complete_lemma m n f : (2 <= n)%nat -> length f = n ->
  exists c0 c, length c = (n - 1)%nat /\ reproduces (site_basis_values (ChebyshevBasis m) n) c0 c f.
Proof.
  intros Hn Hf. destruct (interpolate _ (points_NoDup n Hn) f) as (g & (c & Hc & Hg) & He).
  { by rewrite map_length, seq_length. }
  rewrite map_length, seq_length in Hc. destruct c as [|c0 c]; [simpl in Hc; lia|].
  exists c0, c. simpl in Hc. split; [lia|]. split; [by rewrite cheb_length|].
  intros i row y Hrow Hy. apply cheb_row in Hrow as [Hi ->]; [|done].
  rewrite map_length, seq_length. split; [lia|].
  rewrite <- (He i (encoded n i) y); [|by rewrite map_lookup, lookup_seq_lt|done].
  rewrite Hg. replace (n - 1)%nat with (length c) by lia. rewrite dot_comb. simpl. lra.
Qed.

Lemma repeat_unique (c : list R) n : length c = n -> (forall i a, c !! i = Some a -> a = 0) -> c = repeat 0 n.
Proof.
  revert n. induction c as [|a c IH]; intros [|n] H Hz; try discriminate; [done|]. simpl. f_equal.
  - by apply (Hz 0%nat).
  - apply IH; [simpl in H; lia|]. intros i b Hb. by apply (Hz (S i)).
Qed.

Lemma unique_lemma m n f c0 c d0 d : (2 <= n)%nat ->
  reproduces (site_basis_values (ChebyshevBasis m) n) c0 c f ->
  reproduces (site_basis_values (ChebyshevBasis m) n) d0 d f -> c0 = d0 /\ c = d.
Proof.
  intros Hn [Hlf Hc] [_ Hd]. rewrite cheb_length in Hlf by done.
  assert (Hrow : forall i, (i < n)%nat -> site_basis_values (ChebyshevBasis m) n !! i =
            Some (map (fun k => chebT k (encoded n i)) (seq 1 (n - 1)))).
  { intros i Hi. unfold site_basis_values. rewrite (proj2 (Nat.ltb_ge n 2)) by lia.
    rewrite map_lookup, lookup_seq_lt by done. done. }
  assert (Hlc : length c = (n - 1)%nat /\ length d = (n - 1)%nat).
  { destruct (lookup_lt_is_Some_2 f 0) as [y Hy]; [lia|].
    destruct (Hc 0%nat _ y (Hrow 0%nat ltac:(lia)) Hy) as [H1 _].
    destruct (Hd 0%nat _ y (Hrow 0%nat ltac:(lia)) Hy) as [H2 _].
    rewrite map_length, seq_length in H1, H2. done. }
  destruct Hlc as [Hlc Hld].
  assert (Hex : forall (a b : list R), length a = length b ->
     (forall i y, comb i (zip_with (fun x y => x - y) a b) y = comb i a y - comb i b y) /\
     length (zip_with (fun x y => x - y) a b) = length a).
  { induction a as [|x a IH]; intros [|y b] H; try discriminate; simpl.
    - split; [intros; lra|done].
    - destruct (IH b) as [H1 H2]; [simpl in H; lia|]. split; [intros; rewrite H1; lra|lia]. }
  destruct (Hex (c0 :: c) (d0 :: d)) as [Hcomb Hlen]; [simpl; lia|].
  set (w := zip_with (fun x y => x - y) (c0 :: c) (d0 :: d)) in *.
  assert (Hw : w = repeat 0 (length w)).
  { eapply all_zero; [|apply (points_NoDup n Hn)|].
    - rewrite map_length, seq_length, Hlen. simpl. lia.
    - intros x Hx. apply elem_of_list_fmap in Hx as (i & -> & Hi). apply elem_of_seq in Hi.
      rewrite Hcomb. destruct (lookup_lt_is_Some_2 f i) as [y Hy]; [lia|].
      destruct (Hc i _ y (Hrow i ltac:(lia)) Hy) as [_ H1].
      destruct (Hd i _ y (Hrow i ltac:(lia)) Hy) as [_ H2].
      rewrite <- Hlc in H1 at 1. rewrite <- Hld in H2 at 1. rewrite dot_comb in H1, H2. simpl. lra. }
  assert (Heq : c0 :: c = d0 :: d).
  { apply list_eq. intros i. destruct ((c0 :: c) !! i) as [a|] eqn:Ea.
    - destruct ((d0 :: d) !! i) as [b|] eqn:Eb.
      + assert (Hwi : w !! i = Some (a - b)). { unfold w. rewrite lookup_zip_with, Ea. simpl. by rewrite Eb. }
        rewrite Hw in Hwi. apply elem_of_list_lookup_2, elem_of_list_In, repeat_spec in Hwi.
        f_equal. lra.
      + apply lookup_ge_None in Eb. apply lookup_lt_Some in Ea. simpl in *. lia.
    - symmetry. apply lookup_ge_None. apply lookup_ge_None in Ea. simpl in *. lia. }
  by injection Heq.
Qed.

Lemma shape_lemma b n row : row ∈ site_basis_values b n ->
  length (site_basis_values b n) = n /\ length row = num_site_basis_functions b n.
Proof.
  destruct b as [|m]; simpl.
  - intros (i & -> & _)%elem_of_list_fmap. by rewrite map_length, seq_length.
  - destruct (Nat.ltb n 2).
    + intros H%elem_of_list_In%repeat_spec. subst. by rewrite repeat_length.
    + intros (i & -> & _)%elem_of_list_fmap. by rewrite !map_length, !seq_length.
Qed.

Lemma occupation_two_lemma f0 f1 : exists c0 c1, reproduces (site_basis_values OccupationBasis 2) c0 [c1] [f0; f1].
Proof.
  exists f1, (f0 - f1). split; [done|]. intros [|[|i]] row y Hr Hy; simpl in *; try done;
    injection Hr as <-; injection Hy as <-; (split; [done|]); simpl; lra.
Qed.
