(** Lemmas about the Python values of [Py.v] and [Json.v]. *)
From Coq Require Import DecimalString DecimalZ DecimalFacts Lia.
From Verif Require Import Py Json.

Lemma rbind_ok {A B} (r : result A) (f : A -> result B) b :
  rbind r f = Ok b <-> exists a, r = Ok a /\ f a = Ok b.
Proof.
  destruct r as [a|e]; simpl; split.
  - intros H; eauto.
  - intros (a' & [= <-] & H); exact H.
  - discriminate.
  - intros (a' & [=] & _).
Qed.

Lemma rmapM_ok {A B} (f : A -> result B) l l' :
  rmapM f l = Ok l' <-> Forall2 (fun x y => f x = Ok y) l l'.
Proof.
  revert l'; induction l as [|x l IH]; intros l'; simpl.
  - split; [intros [= <-]; constructor | intros H; inversion H; reflexivity].
  - split.
    + intros H. apply rbind_ok in H as (y & Hy & H).
      apply rbind_ok in H as (ys & Hys & [= <-]).
      constructor; [exact Hy | apply IH; exact Hys].
    + intros H; inversion H as [|? y ? ys Hy Hys]; subst.
      rewrite Hy; simpl. apply IH in Hys. rewrite Hys. reflexivity.
Qed.

Lemma rmapM_map {A B C} (g : A -> B) (f : B -> result C) l :
  rmapM f (map g l) = rmapM (fun x => f (g x)) l.
Proof. induction l as [|x l IH]; simpl; [done|]. rewrite IH. done. Qed.

Lemma rmapM_ext {A B} (f g : A -> result B) l :
  (forall x, x ∈ l -> f x = g x) -> rmapM f l = rmapM g l.
Proof.
  induction l as [|x l IH]; simpl; intros H; [done|].
  rewrite (H x), IH; [done| |]; set_solver.
Qed.

Lemma rmapM_id {A B} (f : A -> result B) (g : A -> B) l :
  (forall x, x ∈ l -> f x = Ok (g x)) -> rmapM f l = Ok (map g l).
Proof.
  induction l as [|x l IH]; simpl; intros H; [done|].
  rewrite (H x), IH; [done| |]; set_solver.
Qed.

Lemma rmapM_length {A B} (f : A -> result B) l l' :
  rmapM f l = Ok l' -> length l' = length l.
Proof. intros H%rmapM_ok. symmetry. eapply Forall2_length; eauto. Qed.

Lemma rmapM_lookup {A B} (f : A -> result B) l l' i y :
  rmapM f l = Ok l' -> l' !! i = Some y -> exists x, l !! i = Some x /\ f x = Ok y.
Proof.
  intros H%rmapM_ok Hi. destruct (Forall2_lookup_r _ _ _ _ _ H Hi) as (x & ? & ?). eauto.
Qed.

Lemma rmapM_lookup_l {A B} (f : A -> result B) l l' i x :
  rmapM f l = Ok l' -> l !! i = Some x -> exists y, l' !! i = Some y /\ f x = Ok y.
Proof.
  intros H%rmapM_ok Hi. destruct (Forall2_lookup_l _ _ _ _ _ H Hi) as (y & ? & ?). eauto.
Qed.

Lemma rmapM_app {A B} (f : A -> result B) l1 l2 :
  rmapM f (l1 ++ l2) =
  rbind (rmapM f l1) (fun a => rbind (rmapM f l2) (fun b => Ok (a ++ b))).
Proof.
  induction l1 as [|x l1 IH]; simpl.
  - destruct (rmapM f l2); done.
  - destruct (f x); simpl; [|done]. rewrite IH.
    destruct (rmapM f l1); simpl; [|done].
    destruct (rmapM f l2); done.
Qed.

Lemma rmapM_err {A B} (f : A -> result B) l e :
  rmapM f l = Err e -> exists x, x ∈ l /\ f x = Err e.
Proof.
  induction l as [|x l IH]; simpl; [discriminate|].
  destruct (f x) as [y|e'] eqn:Hx; simpl.
  - destruct (rmapM f l) eqn:Hl; simpl; [discriminate|].
    intros [= ->]. destruct IH as (z & Hz & Hf); [done|].
    exists z. split; [set_solver|done].
  - intros [= ->]. exists x. split; [set_solver|done].
Qed.

Lemma rmapM_ok_exists {A B} (f : A -> result B) l :
  (forall x, x ∈ l -> exists y, f x = Ok y) -> exists l', rmapM f l = Ok l'.
Proof.
  induction l as [|x l IH]; simpl; intros H; [eauto|].
  destruct (H x) as (y & Hy); [set_solver|].
  destruct IH as (l' & Hl'); [intros z Hz; apply H; set_solver|].
  rewrite Hy, Hl'. simpl. eauto.
Qed.

(* ------------------------------------------------------------------ *)

Lemma py_norm_nonneg n i :
  (0 <= i < Z.of_nat n)%Z -> py_norm n i = Some (Z.to_nat i).
Proof.
  intros H. unfold py_norm.
  rewrite (proj2 (Z.leb_le 0 i)), (proj2 (Z.ltb_lt i (Z.of_nat n))) by lia. done.
Qed.

Lemma py_norm_lt n i k : py_norm n i = Some k -> k < n.
Proof.
  unfold py_norm.
  destruct (Z.leb_spec 0 i), (Z.ltb_spec i (Z.of_nat n)),
    (Z.leb_spec (- Z.of_nat n) i); intros [= <-]; lia.
Qed.

Lemma py_get_nonneg {A} (l : list A) i x :
  (0 <= i)%Z -> (py_get l i = Ok x <-> l !! Z.to_nat i = Some x).
Proof.
  intros Hi. unfold py_get, py_norm.
  rewrite (proj2 (Z.leb_le 0 i)) by lia.
  destruct (Z.ltb_spec i (Z.of_nat (length l))) as [H|H].
  - destruct (l !! Z.to_nat i) eqn:E.
    + split; [intros [= ->]; done | intros [= ->]; done].
    + split; discriminate.
  - rewrite lookup_ge_None_2 by lia. split; discriminate.
Qed.

Lemma py_get_ok {A} (l : list A) i :
  (0 <= i < Z.of_nat (length l))%Z -> exists x, py_get l i = Ok x /\ l !! Z.to_nat i = Some x.
Proof.
  intros H. destruct (lookup_lt_is_Some_2 l (Z.to_nat i)) as [x Hx]; [lia|].
  exists x. split; [apply py_get_nonneg; [lia|done]|done].
Qed.

Lemma py_get_lt {A} (l : list A) i x :
  py_get l i = Ok x -> exists k, py_norm (length l) i = Some k /\ l !! k = Some x.
Proof.
  unfold py_get. destruct (py_norm (length l) i) as [k|]; [|discriminate].
  destruct (l !! k) eqn:E; [|discriminate]. intros [= ->]. eauto.
Qed.

Lemma py_set_ok {A} (l : list A) i x :
  (0 <= i < Z.of_nat (length l))%Z -> py_set l i x = Ok (<[Z.to_nat i := x]> l).
Proof. intros H. unfold py_set. rewrite py_norm_nonneg by done. done. Qed.

Lemma py_set_length {A} (l l' : list A) i x : py_set l i x = Ok l' -> length l' = length l.
Proof.
  unfold py_set. destruct (py_norm (length l) i); [|discriminate].
  intros [= <-]. apply insert_length.
Qed.

Lemma unpack2_ok {A} (l : list A) a b : unpack2 l = Ok (a, b) <-> l = [a; b].
Proof.
  split.
  - destruct l as [|x [|y [|z l]]]; simpl; try discriminate. intros [= -> ->]. done.
  - intros ->. done.
Qed.

(* ------------------------------------------------------------------ *)

Lemma sublist_NoDup {A} (l k : list A) : sublist l k -> NoDup k -> NoDup l.
Proof.
  induction 1 as [|x l k H IH|x l k H IH]; intros Hnd; [constructor| |].
  - apply NoDup_cons in Hnd as [Hx Hnd]. apply NoDup_cons. split; [|auto].
    intros Hin. apply Hx. eapply sublist_submseteq, elem_of_submseteq in H; eauto.
  - apply NoDup_cons in Hnd as [_ Hnd]. auto.
Qed.

Section DictLemmas.
  Context {K V : Type} `{EqDecision K}.
  Implicit Types (d : dict K V) (k : K).

  Lemma dget_dset_eq d k v : dget (dset d k v) k = Some v.
  Proof.
    induction d as [|[k' v'] d IH]; simpl.
    - rewrite decide_True; done.
    - destruct (decide (k = k')); simpl.
      + rewrite decide_True; done.
      + rewrite decide_False; done.
  Qed.

  Lemma dget_dset_ne d k k' v : k <> k' -> dget (dset d k v) k' = dget d k'.
  Proof.
    intros Hne. induction d as [|[k0 v0] d IH]; simpl.
    - rewrite decide_False; [done|congruence].
    - destruct (decide (k = k0)) as [->|]; simpl.
      + rewrite !decide_False by congruence. done.
      + destruct (decide (k' = k0)); done.
  Qed.

  Lemma dget_dset d k k' v :
    dget (dset d k v) k' = if decide (k' = k) then Some v else dget d k'.
  Proof.
    destruct (decide (k' = k)) as [->|Hne].
    - apply dget_dset_eq.
    - apply dget_dset_ne; congruence.
  Qed.

  Lemma dkeys_dset_in d k v : k ∈ dkeys d -> dkeys (dset d k v) = dkeys d.
  Proof.
    unfold dkeys. induction d as [|[k' v'] d IH]; simpl; intros Hin.
    - set_solver.
    - destruct (decide (k = k')) as [->|]; simpl; [done|].
      f_equal. apply IH. set_solver.
  Qed.

  Lemma dkeys_dset_notin d k v : k ∉ dkeys d -> dset d k v = d ++ [(k, v)].
  Proof.
    unfold dkeys. induction d as [|[k' v'] d IH]; simpl; intros Hin; [done|].
    rewrite decide_False by set_solver. f_equal. apply IH. set_solver.
  Qed.

  Lemma dget_Some_in d k v : dget d k = Some v -> (k, v) ∈ d.
  Proof.
    induction d as [|[k' v'] d IH]; simpl; [discriminate|].
    destruct (decide (k = k')) as [->|]; [intros [= ->]; left|].
    intros H. right. auto.
  Qed.

  Lemma dget_None d k : dget d k = None <-> k ∉ dkeys d.
  Proof.
    unfold dkeys. induction d as [|[k' v'] d IH]; simpl.
    - split; [set_solver|done].
    - destruct (decide (k = k')) as [->|]; [split; [done|set_solver]|].
      rewrite IH. set_solver.
  Qed.

  Lemma dget_in_keys d k : (exists v, dget d k = Some v) <-> k ∈ dkeys d.
  Proof.
    destruct (dget d k) eqn:E.
    - split; [intros _|eauto]. destruct (decide (k ∈ dkeys d)); [done|].
      apply dget_None in n. congruence.
    - apply dget_None in E. split; [intros (v & [=])|done].
  Qed.

  Lemma dget_in d k v : NoDup (dkeys d) -> (k, v) ∈ d -> dget d k = Some v.
  Proof.
    unfold dkeys. induction d as [|[k' v'] d IH]; simpl; intros Hnd Hin; [set_solver|].
    apply NoDup_cons in Hnd as [Hnotin Hnd].
    apply elem_of_cons in Hin as [[= -> ->]|Hin].
    - rewrite decide_True; done.
    - rewrite decide_False; [auto|]. intros ->. apply Hnotin.
      apply elem_of_list_fmap. exists (k', v). done.
  Qed.

  Lemma NoDup_dkeys_dset d k v : NoDup (dkeys d) -> NoDup (dkeys (dset d k v)).
  Proof.
    intros Hnd. destruct (decide (k ∈ dkeys d)).
    - rewrite dkeys_dset_in; done.
    - rewrite dkeys_dset_notin by done. unfold dkeys. rewrite map_app. simpl.
      apply NoDup_app. split; [done|]. split; [|apply NoDup_singleton].
      intros x Hx Hx'. apply elem_of_list_singleton in Hx' as ->. done.
  Qed.

  Lemma elem_of_dkeys_dset d k v k' :
    k' ∈ dkeys (dset d k v) <-> k' = k \/ k' ∈ dkeys d.
  Proof.
    rewrite <- !dget_in_keys. rewrite dget_dset.
    destruct (decide (k' = k)); naive_solver.
  Qed.

  (** Building from pairs with distinct keys keeps the pairs. *)
  Lemma dof_pairs_acc l d :
    NoDup (dkeys d ++ map fst l) ->
    fold_left (fun d kv => dset d (fst kv) (snd kv)) l d = d ++ l.
  Proof.
    revert d; induction l as [|[k v] l IH]; intros d Hnd; simpl.
    - rewrite app_nil_r; done.
    - simpl in Hnd. rewrite dkeys_dset_notin.
      2:{ intros Hin. apply NoDup_app in Hnd as (_ & H & _). apply (H k Hin). left. }
      rewrite IH; [rewrite <- app_assoc; done|].
      unfold dkeys in *. rewrite map_app. simpl.
      rewrite <- app_assoc. simpl. exact Hnd.
  Qed.

  Lemma dof_pairs_NoDup (l : list (K * V)) : NoDup (map fst l) -> dof_pairs l = l.
  Proof. intros H. unfold dof_pairs. rewrite dof_pairs_acc; done. Qed.

  Lemma dget_ddel_eq d k : NoDup (dkeys d) -> dget (ddel d k) k = None.
  Proof.
    unfold dkeys. induction d as [|[k' v'] d IH]; simpl; intros Hnd; [done|].
    apply NoDup_cons in Hnd as [Hni Hnd].
    destruct (decide (k = k')) as [->|].
    - apply dget_None. done.
    - simpl. rewrite decide_False by done. auto.
  Qed.

  Lemma dget_ddel_ne d k k' : k <> k' -> dget (ddel d k) k' = dget d k'.
  Proof.
    intros Hne. induction d as [|[k0 v0] d IH]; simpl; [done|].
    destruct (decide (k = k0)) as [->|].
    - rewrite decide_False by congruence. done.
    - simpl. destruct (decide (k' = k0)); done.
  Qed.

  Lemma ddel_sublist d k : sublist (ddel d k) d.
  Proof.
    induction d as [|[k' v'] d IH]; simpl; [constructor|].
    destruct (decide (k = k')); [by apply sublist_cons|].
    by apply sublist_skip.
  Qed.

  Lemma NoDup_dkeys_ddel d k : NoDup (dkeys d) -> NoDup (dkeys (ddel d k)).
  Proof.
    intros H. eapply sublist_NoDup; [|exact H].
    unfold dkeys. apply (fmap_sublist fst), ddel_sublist.
  Qed.

  Lemma ddel_notin d k : k ∉ dkeys d -> ddel d k = d.
  Proof.
    unfold dkeys. induction d as [|[k' v'] d IH]; simpl; intros Hn; [done|].
    rewrite decide_False by set_solver. f_equal. apply IH. set_solver.
  Qed.
End DictLemmas.

Lemma enum_from_lookup {A} n (l : list A) i :
  enum_from n l !! i = (fun x => (n + i, x)) <$> (l !! i).
Proof.
  revert n i; induction l as [|x l IH]; intros n i; simpl; [done|].
  destruct i as [|i]; simpl; [rewrite Nat.add_0_r; done|].
  rewrite IH. replace (S n + i) with (n + S i) by lia. done.
Qed.

Lemma enumerate_lookup {A} (l : list A) i :
  enumerate l !! i = (fun x => (i, x)) <$> (l !! i).
Proof. unfold enumerate. rewrite enum_from_lookup. done. Qed.

Lemma elem_of_enum_from {A} n (l : list A) i x :
  (i, x) ∈ enum_from n l <-> n <= i /\ l !! (i - n) = Some x.
Proof.
  rewrite elem_of_list_lookup. split.
  - intros (k & Hk). rewrite enum_from_lookup in Hk.
    destruct (l !! k) eqn:E; simpl in Hk; [|discriminate].
    injection Hk as <- <-. split; [lia|]. replace (n + k - n) with k by lia. done.
  - intros [Hle Hx]. exists (i - n). rewrite enum_from_lookup, Hx. simpl.
    replace (n + (i - n)) with i by lia. done.
Qed.

Lemma elem_of_enumerate {A} (l : list A) i x :
  (i, x) ∈ enumerate l <-> l !! i = Some x.
Proof.
  unfold enumerate. rewrite elem_of_enum_from. rewrite Nat.sub_0_r.
  split; [tauto|]. split; [lia|done].
Qed.

Lemma enum_from_fst {A} n (l : list A) : map fst (enum_from n l) = seq n (length l).
Proof. revert n; induction l as [|x l IH]; intros n; simpl; [done|]. rewrite IH. done. Qed.

Lemma enum_from_snd {A} n (l : list A) : map snd (enum_from n l) = l.
Proof. revert n; induction l as [|x l IH]; intros n; simpl; [done|]. rewrite IH. done. Qed.

Lemma enum_from_app {A} n (l1 l2 : list A) :
  enum_from n (l1 ++ l2) = enum_from n l1 ++ enum_from (n + length l1) l2.
Proof.
  revert n; induction l1 as [|x l1 IH]; intros n; simpl.
  - rewrite Nat.add_0_r; done.
  - rewrite IH. do 3 f_equal. lia.
Qed.

Lemma enum_from_length {A} n (l : list A) : length (enum_from n l) = length l.
Proof. revert n; induction l as [|x l IH]; intros n; simpl; [done|]. rewrite IH. done. Qed.

Lemma list_index_ok {A} `{EqDecision A} (l : list A) x i :
  list_index l x = Ok i <-> l !! i = Some x /\ forall j, j < i -> l !! j <> Some x.
Proof.
  revert i; induction l as [|y l IH]; intros i; simpl.
  - split; [discriminate|]. intros [H _]. discriminate.
  - destruct (decide (y = x)) as [->|Hne].
    + split.
      * intros [= <-]. split; [done|]. intros j Hj. lia.
      * intros [Hi Hj]. destruct i as [|i]; [done|].
        exfalso. apply (Hj 0); [lia|done].
    + destruct (list_index l x) as [k|e] eqn:E; simpl.
      * split.
        -- intros [= <-]. destruct (proj1 (IH k) eq_refl) as [Hk Hlt].
           split; [done|]. intros [|j] Hj; simpl; [congruence|]. apply Hlt. lia.
        -- intros [Hi Hj]. destruct i as [|i]; simpl in Hi; [congruence|].
           f_equal. assert (Ok k = Ok i) as [= ->]; [|done].
           rewrite IH. split; [done|]. intros j Hlt. apply (Hj (S j)). lia.
      * split; [discriminate|]. intros [Hi Hj]. destruct i as [|i]; simpl in Hi; [congruence|].
        assert (Err e = Ok i) as [=]. apply IH. split; [done|].
        intros j Hlt. apply (Hj (S j)). lia.
Qed.

Lemma list_index_in {A} `{EqDecision A} (l : list A) x :
  x ∈ l -> exists i, list_index l x = Ok i.
Proof.
  induction l as [|y l IH]; intros Hin; simpl; [set_solver|].
  destruct (decide (y = x)) as [->|]; [eauto|].
  destruct IH as (i & Hi); [set_solver|]. rewrite Hi. simpl. eauto.
Qed.

(* ------------------------------------------------------------------ *)

Lemma Z_to_int_not_nil z : Z.to_int z <> Decimal.Pos Decimal.Nil /\ Z.to_int z <> Decimal.Neg Decimal.Nil.
Proof.
  destruct z as [|p|p]; simpl; split; try discriminate; intros [= H];
    apply (DecimalPos.Unsigned.to_uint_nonnil p H).
Qed.

Lemma py_int_str_of_int z : py_int_str (py_str_int z) = Ok z.
Proof.
  unfold py_int_str, py_str_int.
  rewrite NilZero.isi by apply Z_to_int_not_nil.
  rewrite DecimalZ.of_to. done.
Qed.

Lemma py_str_int_inj z1 z2 : py_str_int z1 = py_str_int z2 -> z1 = z2.
Proof.
  intros H. assert (Ok z1 = Ok z2) as [= ->]; [|done].
  rewrite <- !py_int_str_of_int. rewrite H. done.
Qed.

(** Reading literal keys of literal dictionaries. *)
Lemma dget_hd {K V} `{EqDecision K} (k : K) (v : V) d : dget ((k, v) :: d) k = Some v.
Proof. simpl. rewrite decide_True; done. Qed.
Lemma dget_tl {K V} `{EqDecision K} (k k' : K) (v : V) d :
  k <> k' -> dget ((k', v) :: d) k = dget d k.
Proof. intros. simpl. rewrite decide_False; done. Qed.
Lemma dget_nil {K V} `{EqDecision K} (k : K) : dget (V:=V) [] k = None.
Proof. done. Qed.
Ltac dget_simpl :=
  unfold dgetitem;
  repeat first [rewrite dget_hd | rewrite dget_tl by discriminate | rewrite dget_nil];
  cbn [rbind].

(** Merge two equations that give the same call different results. *)
Ltac ok_eq :=
  repeat match goal with
  | H1 : ?t = Ok ?a, H2 : ?t = Ok ?b |- _ =>
      first [ constr_eq a b; clear H2
            | let E := fresh in
              assert (E : Ok a = Ok b) by (transitivity t; [symmetry; exact H1 | exact H2]);
              clear H2; injection E as E; subst ]
  | H1 : ?t = Ok ?a, H2 : ?t = Err ?b |- _ =>
      exfalso; rewrite H1 in H2; discriminate H2
  end.

Lemma py_get_same {A} (l l' : list A) s :
  (0 <= s)%Z -> length l' = length l -> l' !! Z.to_nat s = l !! Z.to_nat s ->
  py_get l' s = py_get l s.
Proof.
  intros Hs Hl H. unfold py_get, py_norm. rewrite Hl.
  destruct (0 <=? s)%Z eqn:E; [|lia]. destruct (s <? _)%Z; [|done]. by rewrite H.
Qed.
