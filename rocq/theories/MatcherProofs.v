(** Proofs about cluster matching. *)
From Coq Require Import QArith Qabs OrdersEx Lqa.
From stdpp Require Import sorting.
From Verif Require Import Py PyLemmas MatcherModel MatcherSpec.
Local Open Scope nat_scope.

(* ---------------- sorting ---------------- *)
Section SortProofs.
  Context {A : Type} (leb : A -> A -> bool).
  Lemma insert_perm x l : Permutation (insert leb x l) (x :: l).
  Proof.
    induction l as [|y l IH]; simpl; [done|]. destruct (leb x y); [done|]. rewrite IH. apply Permutation_swap.
  Qed.
  Lemma sorted_perm l : Permutation (sorted leb l) l.
  Proof. induction l as [|x l IH]; simpl; [done|]. rewrite insert_perm. by rewrite IH. Qed.
  Hypothesis total : forall x y, leb x y = true \/ leb y x = true.
  Lemma insert_sorted x l : Sorted (fun a b => leb a b = true) l ->
    Sorted (fun a b => leb a b = true) (insert leb x l).
  Proof.
    induction 1 as [|y l Hs IH Hr]; simpl; [by repeat constructor|].
    destruct (leb x y) eqn:E; [by repeat constructor|]. constructor; [done|].
    destruct (total x y); [congruence|].
    destruct l as [|z l]; simpl in *; [by constructor|]. destruct (leb x z); by constructor; inversion Hr.
  Qed.
  Lemma sorted_sorted l : Sorted (fun a b => leb a b = true) (sorted leb l).
  Proof. induction l; simpl; [constructor|]. by apply insert_sorted. Qed.
End SortProofs.

Lemma sorted_map {A B} (f : A -> B) (leb : B -> B -> bool) l :
  map f (sorted (fun a b => leb (f a) (f b)) l) = sorted leb (map f l).
Proof.
  induction l as [|x l IH]; simpl; [done|]. rewrite <- IH. generalize (sorted (fun a b => leb (f a) (f b)) l).
  clear. intros l. induction l as [|y l IH]; simpl; [done|]. destruct (leb (f x) (f y)); simpl; [done|]. by rewrite IH.
Qed.

(* ---------------- label order ---------------- *)
Lemma string_compare_OT a b : String.compare a b = String_as_OT.compare a b.
Proof.
  reflexivity.
Qed.
Lemma string_lt_trans a b c : String.compare a b = Lt -> String.compare b c = Lt -> String.compare a c = Lt.
Proof. rewrite !string_compare_OT. apply String_as_OT.lt_strorder. Qed.
Lemma string_compare_refl a : String.compare a a = Eq.
Proof.
  rewrite string_compare_OT. destruct (String_as_OT.compare_spec a a) as [|H|H]; [done| |];
    exfalso; by apply (StrictOrder_Irreflexive (R:=String_as_OT.lt) a).
Qed.
Lemma string_compare_eq a b : String.compare a b = Eq <-> a = b.
Proof. split; [apply String.compare_eq_iff|]. intros ->. apply string_compare_refl. Qed.

Lemma label_leb_total a b : label_leb a b = true \/ label_leb b a = true.
Proof.
  unfold label_leb. rewrite (String.compare_antisym (fst b)). destruct (String.compare (fst a) (fst b)) eqn:E; simpl; auto.
  apply String.leb_total.
Qed.
Lemma string_leb_trans a b c : String.leb a b = true -> String.leb b c = true -> String.leb a c = true.
Proof.
  unfold String.leb. destruct (String.compare a b) eqn:E1; try done; destruct (String.compare b c) eqn:E2; try done.
  - apply string_compare_eq in E1 as ->. by rewrite E2.
  - apply string_compare_eq in E1 as ->. by rewrite E2.
  - apply string_compare_eq in E2 as ->. by rewrite E1.
  - by rewrite (string_lt_trans _ _ _ E1 E2).
Qed.
Lemma label_leb_trans a b c : label_leb a b = true -> label_leb b c = true -> label_leb a c = true.
Proof.
  unfold label_leb. destruct (String.compare (fst a) (fst b)) eqn:E1; try done; destruct (String.compare (fst b) (fst c)) eqn:E2; try done.
  - apply string_compare_eq in E1 as ->. rewrite E2. apply string_leb_trans.
  - apply string_compare_eq in E1 as ->. by rewrite E2.
  - apply string_compare_eq in E2 as <-. by rewrite E1.
  - by rewrite (string_lt_trans _ _ _ E1 E2).
Qed.
Lemma label_leb_antisym a b : label_leb a b = true -> label_leb b a = true -> a = b.
Proof.
  unfold label_leb. rewrite (String.compare_antisym (fst b)). destruct (String.compare (fst a) (fst b)) eqn:E; simpl; try done.
  intros H1 H2. apply string_compare_eq in E. destruct a, b; simpl in *. subst. f_equal. by apply String.leb_antisym.
Qed.
Lemma sorted_labels_unique l l' : Permutation l l' -> sorted label_leb l = sorted label_leb l'.
Proof.
  intros H.
  assert (T : Transitive (fun a b => label_leb a b = true)) by (intros a b c; apply label_leb_trans).
  assert (S : AntiSymm (=) (fun a b => label_leb a b = true)) by (intros a b; apply label_leb_antisym).
  apply (Sorted_unique (fun a b => label_leb a b = true)).
  - apply sorted_sorted, label_leb_total.
  - apply sorted_sorted, label_leb_total.
  - by rewrite !sorted_perm.
Qed.

(* ---------------- signature ---------------- *)
Definition occurrences (l : label) (labels : list label) : nat := length (List.filter (fun x => bool_decide (x = l)) labels).

Lemma counts_acc labels : forall d, NoDup (dkeys d) ->
  NoDup (dkeys (fold_left (fun d l => dset d l (match dget d l with Some n => n | None => 0 end + 1)) labels d)) /\
  forall l, dget (fold_left (fun d l => dset d l (match dget d l with Some n => n | None => 0 end + 1)) labels d) l =
    match dget d l with
    | Some n => Some (n + occurrences l labels)
    | None => if decide (occurrences l labels = 0) then None else Some (occurrences l labels)
    end.
Proof.
  induction labels as [|x labels IH]; intros d Hd; simpl.
  - split; [done|]. intros l. unfold occurrences. simpl. destruct (dget d l); [by rewrite Nat.add_0_r|done].
  - destruct (IH (dset d x (match dget d x with Some n => n | None => 0 end + 1))) as [H1 H2].
    { by apply NoDup_dkeys_dset. }
    split; [done|]. intros l. rewrite H2, dget_dset. unfold occurrences. simpl. destruct (decide (x = l)) as [->|Hne].
    + rewrite (bool_decide_eq_true_2 (l = l)) by done. simpl.
      rewrite decide_True by done. destruct (dget d l); simpl; f_equal; lia.
    + rewrite (bool_decide_eq_false_2 (x = l)) by done. by rewrite decide_False by done.
Qed.
Lemma label_counts_spec labels : NoDup (dkeys (label_counts labels)) /\
  forall l, dget (label_counts labels) l = if decide (occurrences l labels = 0) then None else Some (occurrences l labels).
Proof. apply counts_acc. constructor. Qed.

Lemma occurrences_perm labels labels' : Permutation labels labels' <-> forall l, occurrences l labels = occurrences l labels'.
Proof.
  split.
  - intros H l. unfold occurrences. induction H; simpl; try done.
    + destruct (bool_decide _); simpl; congruence.
    + destruct (bool_decide (x = l)), (bool_decide (y = l)); done.
    + congruence.
  - revert labels'. induction labels as [|x labels IH]; intros labels' H.
    + destruct labels' as [|y labels']; [done|]. specialize (H y). unfold occurrences in H. simpl in H.
      by rewrite bool_decide_eq_true_2 in H.
    + assert (Hx : x ∈ labels').
      { specialize (H x). unfold occurrences in H. simpl in H. rewrite bool_decide_eq_true_2 in H by done. simpl in H.
        destruct (List.filter (fun y => bool_decide (y = x)) labels') as [|y l] eqn:E; [done|].
        assert (Hy : In y (y :: l)) by (by left). rewrite <- E in Hy. apply filter_In in Hy as [Hy Hd].
        apply bool_decide_eq_true in Hd as ->. by apply elem_of_list_In. }
      apply elem_of_Permutation in Hx as [k Hk]. rewrite Hk. apply perm_skip, IH. intros l.
      specialize (H l). assert (Hp : occurrences l labels' = occurrences l (x :: k)).
      { clear - Hk. unfold occurrences. induction Hk; simpl; try done.
        - destruct (bool_decide _); simpl; congruence.
        - destruct (bool_decide (x0 = l)), (bool_decide (y = l)); done.
        - congruence. }
      rewrite Hp in H. unfold occurrences in *. simpl in H. destruct (bool_decide (x = l)); simpl in H; lia.
Qed.

Lemma signature_iff a b : signature a = signature b <-> Permutation (cl_labels a) (cl_labels b).
Proof.
  unfold signature. destruct (label_counts_spec (cl_labels a)) as [Na Ca], (label_counts_spec (cl_labels b)) as [Nb Cb].
  set (da := label_counts (cl_labels a)) in *. set (db := label_counts (cl_labels b)) in *.
  assert (G : Permutation da db <-> Permutation (cl_labels a) (cl_labels b)).
  { rewrite occurrences_perm. split.
    - intros H l. assert (E : dget da l = dget db l).
      { apply option_eq. intros v. split; intros Hv.
        - apply dget_in; [done|]. rewrite <- H. by apply dget_Some_in.
        - apply dget_in; [done|]. rewrite H. by apply dget_Some_in. }
      rewrite Ca, Cb in E. destruct (decide _), (decide _); congruence.
    - intros H. assert (E : forall l, dget da l = dget db l) by (intros l; by rewrite Ca, Cb, H).
      apply NoDup_Permutation.
      + unfold dkeys in Na. by apply NoDup_fmap_1 in Na.
      + unfold dkeys in Nb. by apply NoDup_fmap_1 in Nb.
      + intros [l v]. split; intros Hv.
        * apply dget_Some_in. rewrite <- E. by apply dget_in.
        * apply dget_Some_in. rewrite E. by apply dget_in. }
  rewrite <- G. split.
  - intros H. rewrite <- (sorted_perm (fun a b => label_leb (fst a) (fst b)) da), H. apply sorted_perm.
  - intros H.
    assert (Hk : map fst (sorted (fun a b => label_leb (fst a) (fst b)) da) = map fst (sorted (fun a b => label_leb (fst a) (fst b)) db)).
    { rewrite !(sorted_map fst label_leb). apply sorted_labels_unique. by rewrite H. }
    assert (Hv : forall x, x ∈ sorted (fun a b => label_leb (fst a) (fst b)) da -> x ∈ sorted (fun a b => label_leb (fst a) (fst b)) db).
    { intros x Hx. rewrite sorted_perm, <- H. by rewrite sorted_perm in Hx. }
    assert (Hn : NoDup (map fst (sorted (fun a b => label_leb (fst a) (fst b)) db))).
    { rewrite (sorted_map fst label_leb), sorted_perm. exact Nb. }
    revert Hk Hv Hn. generalize (sorted (fun a b => label_leb (fst a) (fst b)) da) (sorted (fun a b => label_leb (fst a) (fst b)) db).
    clear. intros l. induction l as [|[k v] l IH]; intros [|[k' v'] l'] Hk Hv Hn; simpl in *; try done.
    injection Hk as -> Hk. apply NoDup_cons in Hn as [Hn1 Hn2].
    assert (v = v') as ->.
    { assert (Hin : (k', v) ∈ (k', v') :: l') by (apply Hv; by left). apply elem_of_cons in Hin as [[= ->]|Hin]; [done|].
      destruct Hn1. apply elem_of_list_fmap. by exists (k', v). }
    f_equal. apply IH; [done| |done]. intros [k v] Hx. assert (Hin : (k, v) ∈ (k', v') :: l') by (apply Hv; by right).
    apply elem_of_cons in Hin as [[= -> ->]|Hin]; [|done]. destruct Hn1. rewrite <- Hk. apply elem_of_list_fmap. by exists (k', v').
Qed.

(* ---------------- groups by label ---------------- *)
Definition with_label (labels : list label) (l : label) : list nat :=
  map fst (List.filter (fun e => bool_decide (snd e = l)) (enumerate labels)).

Lemma elem_of_with_label labels l i : i ∈ with_label labels l <-> labels !! i = Some l.
Proof.
  unfold with_label. rewrite elem_of_list_fmap. split.
  - intros ([j x] & -> & H). rewrite elem_of_list_In in H. apply filter_In in H as [H1 H2].
    apply bool_decide_eq_true in H2. simpl in H2. subst. apply elem_of_list_In in H1. by apply elem_of_enumerate in H1.
  - intros H. exists (i, l). split; [done|]. apply elem_of_list_In. apply filter_In. split.
    + apply elem_of_list_In. by apply elem_of_enumerate.
    + by apply bool_decide_eq_true.
Qed.
Lemma NoDup_with_label labels l : NoDup (with_label labels l).
Proof.
  unfold with_label. assert (H : NoDup (map fst (enumerate labels))) by (unfold enumerate; rewrite enum_from_fst; apply NoDup_ListNoDup, seq_NoDup).
  revert H. generalize (enumerate labels). intros es. induction es as [|e es IH]; simpl; [constructor|].
  intros H. apply NoDup_cons in H as [H1 H2]. destruct (bool_decide _); simpl; [|by apply IH].
  constructor; [|by apply IH]. intros Hin. apply H1. apply elem_of_list_fmap in Hin as (x & Hx & Hin).
  apply elem_of_list_fmap. exists x. split; [done|]. apply elem_of_list_In in Hin. apply filter_In in Hin as [Hin _]. by apply elem_of_list_In.
Qed.

Lemma by_label_acc (es : list (nat * label)) : forall d, NoDup (dkeys d) -> (forall l, dget d l <> Some []) ->
  let d' := fold_left (fun d e => dset d (snd e) ((match dget d (snd e) with Some l => l | None => [] end) ++ [fst e])) es d in
  NoDup (dkeys d') /\ forall l, dget d' l =
    match (match dget d l with Some m => m | None => [] end) ++ map fst (List.filter (fun e => bool_decide (snd e = l)) es) with
    | [] => None | m => Some m end.
Proof.
  induction es as [|[i x] es IH]; intros d Hd Hne; cbn [fold_left].
  - split; [done|]. intros l. cbn [List.filter map]. rewrite app_nil_r. specialize (Hne l).
    destruct (dget d l) as [[|? ?]|]; done.
  - cbn [fst snd]. destruct (IH (dset d x ((match dget d x with Some l => l | None => [] end) ++ [i]))) as [H1 H2].
    { by apply NoDup_dkeys_dset. }
    { intros l. rewrite dget_dset. destruct (decide _); [|apply Hne]. intros [= H]. by apply app_nil in H as [_ ?]. }
    split; [done|]. intros l. rewrite H2, dget_dset. cbn [List.filter snd]. destruct (decide (x = l)) as [->|Hn].
    + rewrite decide_True by done. rewrite (bool_decide_eq_true_2 (l = l)) by done. cbn [map fst]. by rewrite <- app_assoc.
    + rewrite decide_False by done. rewrite (bool_decide_eq_false_2 (x = l)) by done. done.
Qed.
Lemma by_label_spec labels : NoDup (dkeys (by_label labels)) /\ forall l, dget (by_label labels) l =
  match with_label labels l with [] => None | m => Some m end.
Proof. apply (by_label_acc (enumerate labels) []); [constructor|done]. Qed.
Lemma by_label_get labels l i : labels !! i = Some l -> dgetitem (by_label labels) l = Ok (with_label labels l).
Proof.
  intros H. unfold dgetitem. rewrite (proj2 (by_label_spec labels)). apply elem_of_with_label in H.
  destruct (with_label labels l); [by apply elem_of_nil in H|done].
Qed.

(* ---------------- the search, as a list of all completions ---------------- *)
Lemma NoDup_bind_disjoint {A B} (f : A -> list B) (l : list A) :
  NoDup l -> (forall x, x ∈ l -> NoDup (f x)) ->
  (forall x y z, x ∈ l -> y ∈ l -> z ∈ f x -> z ∈ f y -> x = y) -> NoDup (l ≫= f).
Proof.
  induction l as [|x l IH]; intros Hl Hf Hd; [constructor|].
  apply NoDup_cons in Hl as [Hx Hl]. change ((x :: l) ≫= f) with (f x ++ (l ≫= f)). apply NoDup_app. repeat split.
  - apply Hf. by left.
  - intros z Hz Hin. apply elem_of_list_bind in Hin as (y & Hy & Hin).
    assert (x = y) as -> by (apply (Hd x y z); [by left|by right|done|done]). done.
  - apply IH; [done| |].
    + intros y Hy. apply Hf. by right.
    + intros y y' z H1 H2. apply Hd; by right.
Qed.

Lemma zip_lookup {A B} (l : list A) (k : list B) i x y :
  zip l k !! i = Some (x, y) <-> l !! i = Some x /\ k !! i = Some y.
Proof.
  rewrite lookup_zip_with_Some. split.
  - by intros (a & b & [= -> ->] & H).
  - intros [H1 H2]. by exists x, y.
Qed.

Section Search.
  Variable round8 : Q -> Q.
  Variables ref cand : cluster.
  Variables rtol atol : Q.
  Hypothesis Pr : proper ref.
  Hypothesis Pc : proper cand.
  Hypothesis Hperm : Permutation (cl_labels ref) (cl_labels cand).
  Local Notation n := (size ref).

  Lemma labels_length c : proper c -> length (cl_labels c) = size c.
  Proof using. intros (_ & H & _). unfold cl_labels. rewrite zip_with_length, H. unfold size. lia. Qed.
  Lemma same_size : size cand = n.
  Proof. rewrite <- !labels_length by done. by rewrite Hperm. Qed.

  Definition D (c : cluster) (i j : nat) : Q := match dist_at c i j with Some x => x | None => 0%Q end.
  Lemma dist_some c i j : proper c -> i < size c -> j < size c -> dist_at c i j = Some (D c i j).
  Proof using.
    intros (_ & _ & H1 & H2) Hi Hj. unfold D. unfold dist_at. destruct (cl_dist c !! i) as [row|] eqn:E.
    - destruct (row !! j) eqn:E2; [done|]. apply lookup_ge_None in E2. rewrite (H2 i row E) in E2. lia.
    - apply lookup_ge_None in E. lia.
  Qed.
  Lemma entry_some c i j : proper c -> i < size c -> j < size c -> entry (cl_dist c) i j = Ok (D c i j).
  Proof using.
    intros H Hi Hj. pose proof (dist_some c i j H Hi Hj) as E. unfold entry, at_nat, dist_at in *.
    destruct (cl_dist c !! i); [|done]. simpl. by rewrite E.
  Qed.

  Definition members (i : nat) : list nat :=
    match cl_labels ref !! i with Some l => with_label (cl_labels cand) l | None => [] end.
  Definition okp (i c : nat) (assigned : list (option nat)) : bool :=
    forallb (fun e : nat * option nat =>
      match snd e with None => true | Some d => isclose rtol atol (D ref i (fst e)) (D cand c d) end) (enumerate assigned).
  Fixpoint ext (todo : list nat) (assigned : list (option nat)) (used : list nat) : list (list (option nat)) :=
    match todo with
    | [] => [assigned]
    | i :: t => c ← members i;
        if bool_decide (c ∈ used) then [] else
        if okp i c assigned then ext t (<[i := Some c]> assigned) (c :: used) else []
    end.

  Lemma members_bound i c : c ∈ members i -> c < size cand.
  Proof.
    unfold members. destruct (cl_labels ref !! i); [|by intros ?%elem_of_nil]. intros H%elem_of_with_label.
    rewrite <- labels_length by done. by eapply lookup_lt_Some.
  Qed.

  Definition bounded (assigned : list (option nat)) : Prop :=
    length assigned = n /\ forall i c, assigned !! i = Some (Some c) -> c < size cand.

  Lemma rfold_check (f : nat * option nat -> result bool) (g : nat * option nat -> bool) (es : list (nat * option nat)) (b : bool) :
    (forall e, e ∈ es -> f e = Ok (g e)) ->
    rfold (fun (ok : bool) (e : nat * option nat) => if ok then f e else Ok false) b es = Ok (b && forallb g es).
  Proof using.
    revert b. induction es as [|e es IH]; intros b H; simpl; [by rewrite andb_true_r|].
    destruct b; simpl.
    - rewrite (H e) by (by left). simpl. rewrite IH; [done|]. intros; apply H; by right.
    - rewrite IH; [done|]. intros; apply H; by right.
  Qed.
  Lemma partial_ok i c assigned : i < n -> c < size cand -> bounded assigned ->
    is_partial_distance_match ref rtol atol cand i c assigned = Ok (okp i c assigned).
  Proof.
    intros Hi Hc [Hl Hb]. unfold is_partial_distance_match, okp.
    rewrite (rfold_check _ (fun e : nat * option nat =>
      match snd e with None => true | Some d => isclose rtol atol (D ref i (fst e)) (D cand c d) end)).
    { done. }
    intros [j [d|]] He; [|done]. apply elem_of_enumerate in He. simpl.
    rewrite (entry_some ref i j), (entry_some cand c d); try done.
    - by apply (Hb j).
    - rewrite <- Hl. by eapply lookup_lt_Some.
  Qed.

  Definition cap (stop : option nat) (k : nat) (l : list (list (option nat))) : list (list (option nat)) :=
    match stop with None => l | Some s => take (s - k) l end.
  Lemma cap_app stop k l l' : cap stop k (l ++ l') = cap stop k l ++ cap stop (k + length (cap stop k l)) l'.
  Proof using.
    destruct stop as [s|]; simpl; [|done]. rewrite take_length.
    destruct (decide (s - k <= length l)).
    - rewrite take_app_le by done. rewrite Nat.min_l by done. replace (s - (k + (s - k))) with 0 by lia. by rewrite take_0, app_nil_r.
    - rewrite take_app_ge by lia. rewrite (take_ge l) by lia. rewrite Nat.min_r by lia. do 2 f_equal. lia.
  Qed.

  Lemma rfold_cap (f : list (list (option nat)) -> nat -> result (list (list (option nat)))) (g : nat -> list (list (option nat))) stop (l : list nat) :
    (forall c ms, c ∈ l -> f ms c = Ok (ms ++ cap stop (length ms) (g c))) ->
    forall ms, rfold f ms l = Ok (ms ++ cap stop (length ms) (l ≫= g)).
  Proof using.
    induction l as [|c l IH]; intros H ms; simpl.
    - destruct stop; simpl; [rewrite take_nil|]; by rewrite app_nil_r.
    - rewrite H by (by left). simpl. rewrite IH by (intros; apply H; by right).
      change ((c :: l) ≫= g) with (g c ++ (l ≫= g)). rewrite cap_app, app_length, app_assoc. done.
  Qed.

  Lemma label_at i : i < n -> exists l, cl_labels ref !! i = Some l /\ dgetitem (by_label (cl_labels cand)) l = Ok (with_label (cl_labels cand) l).
  Proof.
    intros Hi. rewrite <- labels_length in Hi by done. apply lookup_lt_is_Some in Hi as [l Hl]. exists l. split; [done|].
    assert (Hin : l ∈ cl_labels cand) by (rewrite <- Hperm; by eapply elem_of_list_lookup_2).
    apply elem_of_list_lookup in Hin as [j Hj]. by eapply by_label_get.
  Qed.

  Lemma backtrack_ext stop todo : (forall i, i ∈ todo -> i < n) -> forall assigned used ms, bounded assigned ->
    backtrack ref rtol atol cand (by_label (cl_labels cand)) stop todo assigned used ms =
    Ok (ms ++ cap stop (length ms) (ext todo assigned used)).
  Proof.
    induction todo as [|i t IH]; intros Ht assigned used ms Hb.
    - simpl. destruct stop as [s|]; [|done]. simpl. destruct (Nat.leb_spec s (length ms)).
      + replace (s - length ms) with 0 by lia. by rewrite take_0, app_nil_r.
      + by rewrite take_ge by (simpl; lia).
    - cbn [backtrack]. destruct (match stop with Some _ => _ | None => _ end) eqn:E.
      { destruct stop as [s|]; [|done]. apply Nat.leb_le in E. unfold cap. replace (s - length ms) with 0 by lia.
        by rewrite take_0, app_nil_r. }
      clear E. assert (Hi : i < n) by (apply Ht; by left). destruct (label_at i Hi) as (l & Hl & Hg).
      unfold at_nat. rewrite Hl. cbn [rbind]. rewrite Hg. cbn [rbind ext]. unfold members. rewrite Hl.
      apply rfold_cap. intros c ms' Hc. case_bool_decide.
      { destruct stop; simpl; [rewrite take_nil|]; by rewrite app_nil_r. }
      assert (Hcb : c < size cand).
      { apply elem_of_with_label in Hc. rewrite <- labels_length by done. by eapply lookup_lt_Some. }
      rewrite partial_ok by done. cbn [rbind]. destruct (okp i c assigned).
      + apply IH; [intros; apply Ht; by right|]. destruct Hb as [Hb1 Hb2]. split; [by rewrite insert_length|].
        intros j d. destruct (decide (i = j)) as [->|Hn].
        * rewrite list_lookup_insert by lia. by intros [= <-].
        * rewrite list_lookup_insert_ne by done. apply Hb2.
      + destruct stop; simpl; [rewrite take_nil|]; by rewrite app_nil_r.
  Qed.

  (* what a completion is *)
  Lemma ext_keeps todo : forall q assigned used j, q ∈ ext todo assigned used -> j ∉ todo -> q !! j = assigned !! j.
  Proof using.
    induction todo as [|i t IH]; intros q assigned used j Hq Hj; simpl in Hq.
    - by apply elem_of_list_singleton in Hq as ->.
    - apply elem_of_list_bind in Hq as (c & Hq & Hc). case_bool_decide; [by apply elem_of_nil in Hq|].
      destruct (okp i c assigned); [|by apply elem_of_nil in Hq]. apply not_elem_of_cons in Hj as [Hj1 Hj2].
      rewrite (IH _ _ _ _ Hq Hj2). by rewrite list_lookup_insert_ne.
  Qed.
  Lemma ext_length todo : forall q assigned used, q ∈ ext todo assigned used -> length q = length assigned.
  Proof using.
    induction todo as [|i t IH]; intros q assigned used Hq; simpl in Hq.
    - by apply elem_of_list_singleton in Hq as ->.
    - apply elem_of_list_bind in Hq as (c & Hq & Hc). case_bool_decide; [by apply elem_of_nil in Hq|].
      destruct (okp i c assigned); [|by apply elem_of_nil in Hq].
      rewrite (IH _ _ _ Hq). apply insert_length.
  Qed.
  Lemma ext_NoDup todo : NoDup todo -> forall assigned used, (forall i, i ∈ todo -> i < length assigned) -> NoDup (ext todo assigned used).
  Proof using.
    induction todo as [|i t IH]; intros Ht assigned used Hl; simpl; [apply NoDup_singleton|].
    apply NoDup_cons in Ht as [Hi Ht]. apply NoDup_bind_disjoint.
    - unfold members. destruct (cl_labels ref !! i); [apply NoDup_with_label|constructor].
    - intros c _. case_bool_decide; [constructor|]. destruct (okp i c assigned); [|constructor].
      apply IH; [done|]. intros j Hj. rewrite insert_length. apply Hl. by right.
    - assert (K : forall c q, q ∈ (if bool_decide (c ∈ used) then [] else
        if okp i c assigned then ext t (<[i := Some c]> assigned) (c :: used) else []) -> q !! i = Some (Some c)).
      { intros c q Hq. case_bool_decide; [by apply elem_of_nil in Hq|].
        destruct (okp i c assigned); [|by apply elem_of_nil in Hq].
        rewrite (ext_keeps _ _ _ _ _ Hq Hi). apply list_lookup_insert, Hl. by left. }
      intros c c' q _ _ H1 H2. apply K in H1, H2. congruence.
  Qed.

  Hypothesis Sr : symmetric ref.
  Hypothesis Sc : symmetric cand.
  Lemma close_sym i j c d : i < n -> j < n -> c < size cand -> d < size cand ->
    isclose rtol atol (D ref i j) (D cand c d) = isclose rtol atol (D ref j i) (D cand d c).
  Proof.
    intros Hi Hj Hc Hd. assert (E1 : (D ref i j == D ref j i)%Q) by (apply (Sr i j); by apply dist_some).
    assert (E2 : (D cand c d == D cand d c)%Q) by (apply (Sc c d); by apply dist_some).
    unfold isclose. apply eq_true_iff_eq. rewrite !Qle_bool_iff. by rewrite E1, E2.
  Qed.

  Definition valid (a : list (option nat)) (used : list nat) : Prop :=
    length a = n /\
    (forall i c, a !! i = Some (Some c) -> c ∈ used) /\
    (forall i c, a !! i = Some (Some c) -> c ∈ members i) /\
    (forall i j c, a !! i = Some (Some c) -> a !! j = Some (Some c) -> i = j) /\
    (forall i j c d, i <> j -> a !! i = Some (Some c) -> a !! j = Some (Some d) ->
      isclose rtol atol (D ref i j) (D cand c d) = true).

  Lemma ext_valid todo : forall q assigned used, NoDup todo ->
    (forall i, i ∈ todo -> i < n /\ assigned !! i = Some None) -> valid assigned used ->
    q ∈ ext todo assigned used ->
    (exists used', valid q used') /\ forall i, i ∈ todo -> exists c, q !! i = Some (Some c).
  Proof.
    induction todo as [|i t IH]; intros q assigned used Hnd Ht Hv Hq; simpl in Hq.
    - apply elem_of_list_singleton in Hq as ->. split; [by exists used|]. by intros i ?%elem_of_nil.
    - apply elem_of_list_bind in Hq as (c & Hq & Hc). case_bool_decide as Hu; [by apply elem_of_nil in Hq|].
      destruct (okp i c assigned) eqn:Hok; [|by apply elem_of_nil in Hq].
      apply NoDup_cons in Hnd as [Hi Hnd]. destruct (Ht i) as [Hin Hia]; [by left|].
      pose proof (members_bound _ _ Hc) as Hcb.
      destruct Hv as (V1 & V2 & V3 & V4 & V5).
      assert (Hclose : forall j d, assigned !! j = Some (Some d) -> isclose rtol atol (D ref i j) (D cand c d) = true).
      { intros j d Hj. unfold okp in Hok. rewrite forallb_forall in Hok.
        apply (Hok (j, Some d)). apply elem_of_list_In. by apply elem_of_enumerate. }
      assert (B : forall j d, assigned !! j = Some (Some d) -> j < n /\ d < size cand).
      { intros j d Hj. split; [rewrite <- V1; by eapply lookup_lt_Some|]. eapply members_bound, V3, Hj. }
      destruct (IH q (<[i := Some c]> assigned) (c :: used)) as [H1 H2]; [done| | |done|].
      { intros j Hj. destruct (Ht j) as [? ?]; [by right|]. split; [done|]. rewrite list_lookup_insert_ne; [done|]. by intros ->. }
      { assert (L : forall j o, <[i := Some c]> assigned !! j = Some o <-> (j = i /\ o = Some c) \/ (j <> i /\ assigned !! j = Some o)).
        { intros j o. destruct (decide (j = i)) as [->|Hn].
          - rewrite list_lookup_insert by (by rewrite V1). split; [intros [= <-]; auto|]. intros [[_ ->]|[? _]]; done.
          - rewrite list_lookup_insert_ne by done. split; [auto|]. intros [[? _]|[_ ?]]; done. }
        repeat split.
        - by rewrite insert_length.
        - intros j d Hj. apply L in Hj as [[-> [= ->]]|[_ Hj]]; [by left|]. right. by apply (V2 j).
        - intros j d Hj. apply L in Hj as [[-> [= ->]]|[_ Hj]]; [done|]. by apply V3.
        - intros j k d Hj Hk. apply L in Hj as [[-> [= ->]]|[Hj' Hj]], Hk as [[-> Hk]|[Hk' Hk]].
          + done.
          + destruct Hu. by apply (V2 k).
          + injection Hk as ->. destruct Hu. by apply (V2 j).
          + by apply (V4 j k d).
        - intros j k d e Hjk Hj Hk. apply L in Hj as [[-> [= ->]]|[Hj' Hj]], Hk as [[-> Hk]|[Hk' Hk]].
          + done.
          + by apply Hclose.
          + injection Hk as ->. destruct (B j d Hj). rewrite close_sym by done. by apply Hclose.
          + by apply V5. }
      split; [done|]. intros j [->|Hj]%elem_of_cons; [|by apply H2].
      exists c. rewrite (ext_keeps _ _ _ _ _ Hq Hi). apply list_lookup_insert. by rewrite V1.
  Qed.

  Lemma ext_complete (p : list nat) : length p = n -> valid (map Some p) p -> forall todo assigned used, NoDup todo ->
    length assigned = n ->
    (forall i, i ∈ todo -> i < n) ->
    (forall i c, i < n -> p !! i = Some c -> assigned !! i = Some (if bool_decide (i ∈ todo) then None else Some c)) ->
    (forall c, c ∈ used -> exists i, i ∉ todo /\ p !! i = Some c) ->
    map Some p ∈ ext todo assigned used.
  Proof.
    intros Hp (V1 & V2 & V3 & V4 & V5). 
    assert (M : forall i c, p !! i = Some c -> map Some p !! i = Some (Some c)).
    { intros i c H. change (map Some p) with (Some <$> p). by rewrite list_lookup_fmap, H. }
    induction todo as [|i t IH]; intros assigned used Hnd Hl Ht Ha Hu; simpl.
    - apply elem_of_list_singleton. apply list_eq. intros i. change (map Some p) with (Some <$> p). rewrite list_lookup_fmap.
      destruct (p !! i) as [c|] eqn:E; simpl.
      + symmetry. apply (Ha i c); [rewrite <- Hp; by eapply lookup_lt_Some|done].
      + symmetry. apply lookup_ge_None. apply lookup_ge_None in E. lia.
    - apply NoDup_cons in Hnd as [Hi Hnd]. assert (Hin : i < n) by (apply Ht; by left).
      destruct (lookup_lt_is_Some_2 p i) as [c Hc]; [lia|].
      apply elem_of_list_bind. exists c. split; [|by apply V3, M].
      rewrite bool_decide_eq_false_2.
      2:{ intros Hcu. destruct (Hu c Hcu) as (j & Hj & Hpj). apply not_elem_of_cons in Hj as [Hj _].
          apply Hj. apply (V4 j i c); by apply M. }
      assert (okp i c assigned = true) as ->.
      { apply forallb_forall. intros [j o] Hj. apply elem_of_list_In, elem_of_enumerate in Hj. simpl. destruct o as [d|]; [|done].
        assert (Hjn : j < n) by (rewrite <- Hl; by eapply lookup_lt_Some).
        destruct (lookup_lt_is_Some_2 p j) as [d' Hd]; [lia|].
        rewrite (Ha j d' Hjn Hd) in Hj. case_bool_decide as Hjt; [done|]. injection Hj as ->.
        apply V5; [|by apply M|by apply M]. intros ->. apply Hjt. by left. }
      apply IH; [done|by rewrite insert_length| | |].
      + intros j Hj. apply Ht. by right.
      + intros j d Hj Hd. destruct (decide (i = j)) as [->|Hn].
        * rewrite list_lookup_insert by lia. rewrite bool_decide_eq_false_2 by done. congruence.
        * rewrite list_lookup_insert_ne by done. rewrite (Ha j d Hj Hd).
          replace (bool_decide (j ∈ i :: t)) with (bool_decide (j ∈ t)); [done|].
          apply bool_decide_ext. rewrite elem_of_cons. split; [auto|]. intros [?|?]; [congruence|done].
      + intros d [->|Hd]%elem_of_cons; [by exists i|]. destruct (Hu d Hd) as (j & Hj & Hpj). exists j.
        split; [|done]. by apply not_elem_of_cons in Hj as [_ ?].
  Qed.

  Lemma isclose_iff a b : isclose rtol atol a b = true <-> (Qabs (a - b) <= atol + rtol * Qabs b)%Q.
  Proof using. apply Qle_bool_iff. Qed.

  Lemma members_iff i c : c ∈ members i <-> exists l, cl_labels ref !! i = Some l /\ cl_labels cand !! c = Some l.
  Proof using.
    unfold members. destruct (cl_labels ref !! i) as [l|].
    - rewrite elem_of_with_label. split; [eauto|]. by intros (? & [= ->] & ?).
    - split; [by intros ?%elem_of_nil|]. by intros (? & ? & _).
  Qed.

  Lemma map_Some_lookup (p : list nat) i c : map Some p !! i = Some (Some c) <-> p !! i = Some c.
  Proof using.
    change (map Some p) with (Some <$> p). rewrite list_lookup_fmap. destruct (p !! i); simpl; [|done].
    split; congruence.
  Qed.

  Lemma valid_fits p : (length p = n /\ exists used, valid (map Some p) used) <-> fits rtol atol ref cand p.
  Proof.
    split.
    - intros (Hp & used & V1 & V2 & V3 & V4 & V5). split.
      + repeat split; [done|apply same_size| |].
        * apply NoDup_alt. intros i j c Hi Hj. apply (V4 i j c); by apply map_Some_lookup.
        * intros i c Hc. apply members_iff, V3. by apply map_Some_lookup.
      + intros i j c d a b Hij Hi Hj Ha Hb. apply isclose_iff.
        apply map_Some_lookup in Hi, Hj. specialize (V5 i j c d Hij Hi Hj). unfold D in V5. by rewrite Ha, Hb in V5.
    - intros [(Hp & _ & Hn & Hl) Hd]. split; [done|]. exists p. repeat split.
      + by rewrite map_length.
      + intros i c H%map_Some_lookup. by eapply elem_of_list_lookup_2.
      + intros i c H%map_Some_lookup. by apply members_iff, Hl.
      + intros i j c Hi%map_Some_lookup Hj%map_Some_lookup. by eapply NoDup_lookup.
      + intros i j c d Hij Hi%map_Some_lookup Hj%map_Some_lookup. apply isclose_iff. eapply Hd; try done.
        * apply dist_some; [done| |]; rewrite <- Hp; by eapply lookup_lt_Some.
        * apply dist_some; [done| |]; eapply members_bound, members_iff, Hl; done.
  Qed.

  Lemma order_ok : exists order, reference_assignment_order round8 ref (by_label (cl_labels cand)) = Ok order /\ Permutation order (seq 0 n).
  Proof.
    unfold reference_assignment_order. fold n.
    destruct (rmapM_ok_exists (assignment_key round8 ref (by_label (cl_labels cand))) (seq 0 n)) as [keys Hk].
    { intros i Hi. apply elem_of_seq in Hi. unfold assignment_key, at_nat. destruct Pr as (_ & _ & H3 & _).
      destruct (lookup_lt_is_Some_2 (cl_dist ref) i) as [row Hrow]; [lia|]. rewrite Hrow. simpl.
      destruct (label_at i) as (l & Hl & Hg); [lia|]. rewrite Hl. simpl. rewrite Hg. simpl. eauto. }
    rewrite Hk. simpl. eexists. split; [done|]. rewrite sorted_perm.
    assert (map snd keys = seq 0 n) as ->; [|done].
    apply list_eq. intros i. change (map snd keys) with (snd <$> keys). rewrite list_lookup_fmap.
    pose proof (rmapM_length _ _ _ Hk) as Hlen. rewrite seq_length in Hlen.
    destruct (keys !! i) as [k|] eqn:E; simpl.
    - pose proof (lookup_lt_Some _ _ _ E) as Hlt. 
      destruct (rmapM_lookup _ _ _ i k Hk E) as (x & Hx & Hkey).
      rewrite Hx. f_equal. unfold assignment_key in Hkey.
      apply rbind_ok in Hkey as (? & _ & Hkey). apply rbind_ok in Hkey as (? & _ & Hkey). apply rbind_ok in Hkey as (? & _ & Hkey).
      by injection Hkey as <-.
    - symmetry. apply lookup_ge_None. rewrite seq_length. apply lookup_ge_None in E. lia.
  Qed.

  Lemma perms_lemma : exists perms, NoDup perms /\ (forall p, p ∈ perms <-> fits rtol atol ref cand p) /\
    forall stop, matching_permutations round8 ref rtol atol cand stop = Ok (match stop with Some s => take s perms | None => perms end).
  Proof.
    destruct order_ok as (order & Ho & Hp).
    assert (Hnd : NoDup order) by (rewrite Hp; apply NoDup_ListNoDup, seq_NoDup).
    assert (Hin : forall i, i ∈ order <-> i < n) by (intros i; rewrite Hp, elem_of_seq; lia).
    set (start := replicate n (@None nat)).
    set (full := ext order start []).
    assert (V0 : valid start []).
    { unfold valid, start. split; [by rewrite replicate_length|].
      repeat split; intros; match goal with H : replicate _ _ !! _ = _ |- _ => apply lookup_replicate in H as [? _]; done end. }
    assert (Hfull : forall q, q ∈ full -> exists p, q = map Some p /\ fits rtol atol ref cand p).
    { intros q Hq. destruct (ext_valid order q start [] Hnd) as [[used Hv] Hs]; [|done|done|].
      { intros i Hi%Hin. split; [done|]. by apply lookup_replicate. }
      pose proof (ext_length _ _ _ _ Hq) as Hlen. unfold start in Hlen. rewrite replicate_length in Hlen.
      assert (exists p, q = map Some p) as [p ->].
      { assert (K : forall i o, q !! i = Some o -> exists c, o = Some c).
        { intros i o Hi. destruct (Hs i) as [c Hc]; [apply Hin; rewrite <- Hlen; by eapply lookup_lt_Some|]. rewrite Hi in Hc. injection Hc. eauto. }
        clear - K. induction q as [|o q IH]; [by exists []|]. destruct (K 0 o eq_refl) as [c ->].
        destruct IH as [p ->]. { intros i. apply (K (S i)). } by exists (c :: p). }
      exists p. split; [done|]. apply valid_fits. rewrite map_length in Hlen. eauto. }
    exists (map (fun q => match complete q with Ok p => p | Err _ => [] end) full).
    assert (C : forall p, complete (map Some p) = Ok p).
    { intros p. unfold complete. rewrite rmapM_map. induction p as [|c p IH]; [done|]. simpl. by rewrite IH. }
    assert (S : forall q, q ∈ full -> complete q = Ok (match complete q with Ok p => p | Err _ => [] end)).
    { intros q Hq. destruct (Hfull q Hq) as (p & -> & _). by rewrite C. }
    split; [|split; [intros p; split|]].
    - change (map ?f full) with (f <$> full). apply NoDup_fmap_2_strong.
      + intros q q' Hq Hq'. destruct (Hfull q Hq) as (p & -> & _), (Hfull q' Hq') as (p' & -> & _). rewrite !C. congruence.
      + apply ext_NoDup; [done|]. intros i Hi%Hin. unfold start. by rewrite replicate_length.
    - intros Hq. apply elem_of_list_fmap in Hq as (q & -> & Hq). destruct (Hfull q Hq) as (p & -> & Hf). by rewrite C.
    - intros Hf. apply elem_of_list_fmap. exists (map Some p). split; [by rewrite C|].
      pose proof Hf as Hf'. apply valid_fits in Hf as (Hlen & used & V1 & V2 & V3 & V4 & V5).
      apply ext_complete; try done.
      + repeat split; try done. intros i c Hc%map_Some_lookup. by eapply elem_of_list_lookup_2.
      + unfold start. by rewrite replicate_length.
      + apply Hin.
      + intros i c Hi Hc. rewrite bool_decide_eq_true_2 by (by apply Hin). by apply lookup_replicate.
      + by intros c ?%elem_of_nil.
    - intros stop. unfold matching_permutations. rewrite Ho. simpl.
      rewrite backtrack_ext.
      + simpl. fold n. fold start. fold full.
        assert (G : forall l, (forall q, q ∈ l -> q ∈ full) -> rmapM complete l = Ok (map (fun q => match complete q with Ok p => p | Err _ => [] end) l)).
        { induction l as [|q l IH]; intros Hl; [done|]. simpl. rewrite (S q) at 1 by (apply Hl; by left). simpl.
          rewrite IH by (intros; apply Hl; by right). done. }
        destruct stop as [s|]; simpl.
        * rewrite Nat.sub_0_r. rewrite G.
          { f_equal. change (map ?f ?l) with (f <$> l). by rewrite fmap_take. }
          intros q Hq. rewrite <- (take_drop s full). apply elem_of_app. by left.
        * by apply G.
      + apply Hin.
      + split; [by rewrite replicate_length|]. intros i c H%lookup_replicate. by destruct H.
  Qed.
End Search.

(* ---------------- permutations of positions ---------------- *)
Lemma full_perm (p : list nat) n : NoDup p -> length p = n -> (forall c, c ∈ p -> c < n) -> Permutation p (seq 0 n).
Proof.
  intros H1 H2 H3. apply NoDup_Permutation_bis.
  - by apply NoDup_ListNoDup.
  - rewrite seq_length. lia.
  - intros c Hc. apply in_seq. apply elem_of_list_In in Hc. specialize (H3 c Hc). lia.
Qed.

Lemma label_preserving_bound ref cand p c : proper cand -> label_preserving ref cand p -> c ∈ p -> c < size cand.
Proof.
  intros Pc (_ & _ & _ & H) Hc. apply elem_of_list_lookup in Hc as [i Hi]. destruct (H i c Hi) as (l & _ & Hl).
  rewrite <- (labels_length cand) by done. by eapply lookup_lt_Some.
Qed.
Lemma label_preserving_perm ref cand p : proper cand -> label_preserving ref cand p -> Permutation p (seq 0 (size cand)).
Proof.
  intros Pc H. apply full_perm; [apply H| |].
  - destruct H as (-> & -> & _). done.
  - intros c. by apply (label_preserving_bound ref).
Qed.
Lemma label_preserving_labels ref cand p : proper ref -> proper cand -> label_preserving ref cand p ->
  Permutation (cl_labels ref) (cl_labels cand).
Proof.
  intros Pr Pc H. pose proof (label_preserving_perm _ _ _ Pc H) as Hp. destruct H as (H1 & H2 & H3 & H4).
  assert (E : map Some (cl_labels ref) = map (fun c => cl_labels cand !! c) p).
  { apply list_eq. intros i. change (map Some ?l) with (Some <$> l). change (map ?f p) with (f <$> p). rewrite !list_lookup_fmap.
    destruct (p !! i) as [c|] eqn:Hi.
    - destruct (H4 i c Hi) as (l & -> & Hl). simpl. by rewrite Hl.
    - apply lookup_ge_None in Hi. rewrite (lookup_ge_None_2 (cl_labels ref)); [done|]. rewrite labels_length by done. lia. }
  assert (E2 : map Some (cl_labels cand) = map (fun c => cl_labels cand !! c) (seq 0 (size cand))).
  { apply list_eq. intros i. change (map Some ?l) with (Some <$> l). change (map ?f (seq ?a ?b)) with (f <$> seq a b). rewrite !list_lookup_fmap.
    destruct (decide (i < size cand)) as [Hlt|Hlt].
    - rewrite lookup_seq_lt by done. simpl. destruct (lookup_lt_is_Some_2 (cl_labels cand) i) as [lab ->]; [by rewrite labels_length|done].
    - rewrite (lookup_ge_None_2 (cl_labels cand)) by (rewrite labels_length by done; lia).
      rewrite lookup_seq_ge by lia. done. }
  assert (P : Permutation (Some <$> cl_labels ref) (Some <$> cl_labels cand)).
  { change (Some <$> cl_labels ref) with (map Some (cl_labels ref)). change (Some <$> cl_labels cand) with (map Some (cl_labels cand)).
    rewrite E, E2. by rewrite Hp. }
  apply Permutation_map_inv in P as (l3 & E3 & P3). change (Some <$> cl_labels ref) with (map Some (cl_labels ref)) in E3.
  assert (cl_labels ref = l3) as ->; [|done]. apply (inj (fmap (M:=list) Some)). exact E3.
Qed.

(* ---------------- the reported match ---------------- *)
Lemma permuted_ok (c : cluster) (p : list nat) : proper c -> (forall i, i ∈ p -> i < size c) ->
  exists m, permuted (cl_dist c) p = Ok m /\ length m = length p /\
    (forall i row, m !! i = Some row -> length row = length p) /\
    forall i j a b, p !! i = Some a -> p !! j = Some b ->
      exists row, m !! i = Some row /\ row !! j = Some (D c a b).
Proof.
  intros Pc Hb. unfold permuted.
  assert (R : forall i row, cl_dist c !! i = Some row -> i ∈ p -> exists out, rmapM (at_nat row) p = Ok out).
  { intros i row Hi Hin. apply rmapM_ok_exists. intros j Hj. unfold at_nat.
    destruct (lookup_lt_is_Some_2 row j) as [x ->]; [|eauto]. destruct Pc as (_ & _ & _ & H4). rewrite (H4 i row Hi). by apply Hb. }
  destruct (rmapM_ok_exists (fun i => let* row := at_nat (cl_dist c) i in rmapM (at_nat row) p) p) as [m Hm].
  { intros i Hi. unfold at_nat at 1. destruct Pc as (_ & _ & H3 & _).
    destruct (lookup_lt_is_Some_2 (cl_dist c) i) as [row Hrow]; [rewrite H3; by apply Hb|]. rewrite Hrow. simpl. by apply (R i). }
  exists m. split; [done|]. split; [by eapply rmapM_length|]. split.
  - intros i row Hi. destruct (rmapM_lookup _ _ _ _ _ Hm Hi) as (a & Ha & Hr). apply rbind_ok in Hr as (r0 & _ & Hr).
    by eapply rmapM_length.
  - intros i j a b Ha Hb'. destruct (rmapM_lookup_l _ _ _ _ _ Hm Ha) as (row & Hrow & Hr). exists row. split; [done|].
    apply rbind_ok in Hr as (r0 & H0 & Hr). destruct (rmapM_lookup_l _ _ _ _ _ Hr Hb') as (x & Hx & Hat). rewrite Hx. f_equal.
    unfold at_nat in H0, Hat. destruct (cl_dist c !! a) as [r1|] eqn:E1; [|done]. injection H0 as ->.
    destruct (r0 !! b) as [y|] eqn:E2; [|done]. injection Hat as ->. unfold D, dist_at. by rewrite E1, E2.
Qed.

Lemma inverse_fold (es : list (nat * nat)) : forall inv : list Z,
  (forall e, e ∈ es -> snd e < length inv) ->
  rfold (fun l (e : nat * nat) => if Nat.ltb (snd e) (length l) then Ok (<[snd e := Z.of_nat (fst e)]> l) else Err IndexError) inv es =
  Ok (fold_left (fun l (e : nat * nat) => <[snd e := Z.of_nat (fst e)]> l) es inv).
Proof.
  induction es as [|e es IH]; intros inv H; [done|]. cbn [rfold fold_left].
  assert (Hlt : snd e < length inv) by (apply H; by left). rewrite (proj2 (Nat.ltb_lt _ _) Hlt). cbn [rbind].
  apply IH. intros e' He'. rewrite insert_length. apply H. by right.
Qed.
Lemma fold_insert_length {A} (es : list (nat * A)) : forall l : list A,
  length (fold_left (fun l (e : nat * A) => <[fst e := snd e]> l) es l) = length l.
Proof. induction es as [|e es IH]; intros l; simpl; [done|]. rewrite IH. apply insert_length. Qed.
Lemma fold_insert_other {A} (es : list (nat * A)) : forall (l : list A) k, k ∉ map fst es ->
  fold_left (fun l (e : nat * A) => <[fst e := snd e]> l) es l !! k = l !! k.
Proof.
  induction es as [|e es IH]; intros l k Hk; simpl; [done|]. simpl in Hk. apply not_elem_of_cons in Hk as [H1 H2].
  rewrite IH by done. by rewrite list_lookup_insert_ne.
Qed.
Lemma fold_insert_in {A} (es : list (nat * A)) : forall (l : list A) k v, NoDup (map fst es) ->
  (forall e, e ∈ es -> fst e < length l) -> (k, v) ∈ es ->
  fold_left (fun l (e : nat * A) => <[fst e := snd e]> l) es l !! k = Some v.
Proof.
  induction es as [|e es IH]; intros l k v Hn Hb Hin; [by apply elem_of_nil in Hin|].
  simpl in *. apply NoDup_cons in Hn as [Hn1 Hn2]. apply elem_of_cons in Hin as [<-|Hin].
  - rewrite fold_insert_other by done. apply list_lookup_insert. apply (Hb (k, v)). by left.
  - apply IH; [done| |done]. intros e' He'. rewrite insert_length. apply Hb. by right.
Qed.

Lemma inverse_ok (p : list nat) : Permutation p (seq 0 (length p)) ->
  exists inv, rfold (fun l (e : nat * nat) => if Nat.ltb (snd e) (length l) then Ok (<[snd e := Z.of_nat (fst e)]> l)
                                      else Err IndexError) (replicate (length p) (-1)%Z) (enumerate p) = Ok inv /\ inverse_of p inv.
Proof.
  intros Hp.
  assert (Hb : forall c, c ∈ p -> c < length p) by (intros c Hc; rewrite Hp, elem_of_seq in Hc; lia).
  rewrite inverse_fold.
  2:{ intros [i c] He. apply elem_of_enumerate in He. rewrite replicate_length. simpl. apply Hb. by eapply elem_of_list_lookup_2. }
  eexists. split; [done|].
  set (es := map (fun e : nat * nat => (snd e, Z.of_nat (fst e))) (enumerate p)).
  assert (E : fold_left (fun l (e : nat * nat) => <[snd e := Z.of_nat (fst e)]> l) (enumerate p) (replicate (length p) (-1)%Z) =
              fold_left (fun l (e : nat * Z) => <[fst e := snd e]> l) es (replicate (length p) (-1)%Z)).
  { unfold es. generalize (enumerate p) (replicate (length p) (-1)%Z). intros l. induction l; intros; simpl; auto. }
  rewrite E. clear E. split; [by rewrite fold_insert_length, replicate_length|].
  assert (Hk : map fst es = p).
  { unfold es. rewrite map_map. simpl. unfold enumerate. apply enum_from_snd. }
  assert (Hnd : NoDup p) by (rewrite Hp; apply NoDup_ListNoDup, seq_NoDup).
  assert (F : forall i c, p !! i = Some c -> fold_left (fun l (e : nat * Z) => <[fst e := snd e]> l) es (replicate (length p) (-1)%Z) !! c = Some (Z.of_nat i)).
  { intros i c Hi. apply fold_insert_in.
    - by rewrite Hk.
    - intros e He. rewrite replicate_length. apply Hb. rewrite <- Hk. by apply elem_of_list_fmap_1.
    - unfold es. apply elem_of_list_fmap. exists (i, c). split; [done|]. by apply elem_of_enumerate. }
  intros i c. split; [apply F|]. intros H.
  assert (Hc : c ∈ p).
  { rewrite Hp. apply elem_of_seq. apply lookup_lt_Some in H. rewrite fold_insert_length, replicate_length in H. lia. }
  apply elem_of_list_lookup in Hc as [j Hj]. rewrite (F j c Hj) in H. injection H as H. apply Nat2Z.inj in H as ->. done.
Qed.

Lemma at_nat_map {A} (l : list A) (p : list nat) : (forall i, i ∈ p -> i < length l) ->
  exists out, rmapM (at_nat l) p = Ok out /\ length out = length p /\ forall i k, p !! i = Some k -> out !! i = l !! k.
Proof.
  intros H. destruct (rmapM_ok_exists (at_nat l) p) as [out Ho].
  { intros i Hi. unfold at_nat. destruct (lookup_lt_is_Some_2 l i (H i Hi)) as [x ->]. eauto. }
  exists out. split; [done|]. split; [by eapply rmapM_length|]. intros i k Hi.
  destruct (rmapM_lookup_l _ _ _ _ _ Ho Hi) as (x & Hx & Ha). rewrite Hx. unfold at_nat in Ha. destruct (l !! k); congruence.
Qed.

Lemma build_ok (cand : cluster) (p : list nat) u s : proper cand -> Permutation p (seq 0 (size cand)) ->
  exists m, build_match cand p u s = Ok m /\ reference_to_candidate m = p /\ is_unique m = u /\ score m = s /\
    inverse_of p (candidate_to_reference m) /\ reordered cand p (ordered_candidate m).
Proof.
  intros Pc Hp. pose proof (Permutation_length Hp) as Hl. rewrite seq_length in Hl.
  assert (Hb : forall c, c ∈ p -> c < size cand) by (intros c Hc; rewrite Hp, elem_of_seq in Hc; lia).
  destruct (inverse_ok p) as (inv & Hi & Hinv); [by rewrite Hl|].
  destruct (permuted_ok cand p Pc Hb) as (m & Hm & M1 & M2 & M3).
  pose proof Pc as (P1 & P2 & P3 & P4).
  destruct (at_nat_map (cl_indices cand) p) as (ind & I1 & I2 & I3); [by rewrite P1|].
  destruct (at_nat_map (cl_species cand) p) as (spe & S1 & S2 & S3); [done|].
  destruct (at_nat_map (cl_roles cand) p) as (rol & R1 & R2 & R3); [by rewrite P2|].
  unfold build_match. rewrite Hi. simpl. rewrite I1. simpl. rewrite S1. simpl. rewrite R1. simpl. rewrite Hm. simpl.
  eexists. split; [done|]. do 4 (split; [done|]). simpl. unfold reordered.
  split; [|split; [done|split; [unfold size at 1; simpl; congruence|]]].
  - unfold proper, size. simpl. rewrite S2. do 3 (split; [congruence|]). exact M2.
  - intros i k Hk. simpl. do 3 (split; [by auto|]). intros j l Hj. destruct (M3 i j k l Hk Hj) as (row & H1 & H2).
    unfold dist_at at 1. simpl. rewrite H1, H2. symmetry. apply dist_some; [done| |]; apply Hb; by eapply elem_of_list_lookup_2.
Qed.

Lemma reordered_unique c s a b : reordered c s a -> reordered c s b -> a = b.
Proof.
  intros ((A1 & A2 & A3 & A4) & Hp & An & A) ((B1 & B2 & B3 & B4) & _ & Bn & B).
  pose proof (Permutation_length Hp) as Hl. rewrite seq_length in Hl.
  assert (G : forall {X} (f : cluster -> list X), length (f a) = size a -> length (f b) = size b ->
    (forall i k, s !! i = Some k -> f a !! i = f b !! i) -> f a = f b).
  { intros X f Ha Hb H. apply list_eq. intros i. destruct (s !! i) as [k|] eqn:E; [by apply (H i k)|].
    apply lookup_ge_None in E. rewrite !lookup_ge_None_2; [done| |]; lia. }
  assert (E1 : cl_indices a = cl_indices b).
  { apply (G _ cl_indices); try done. intros i k H. destruct (A i k H) as (-> & _), (B i k H) as (-> & _). done. }
  assert (E2 : cl_species a = cl_species b).
  { apply (G _ cl_species); try done. intros i k H. destruct (A i k H) as (_ & -> & _), (B i k H) as (_ & -> & _). done. }
  assert (E3 : cl_roles a = cl_roles b).
  { apply (G _ cl_roles); try done. intros i k H. destruct (A i k H) as (_ & _ & -> & _), (B i k H) as (_ & _ & -> & _). done. }
  assert (E4 : cl_dist a = cl_dist b).
  { apply (G _ cl_dist); try done. intros i k H. destruct (A i k H) as (_ & _ & _ & HA), (B i k H) as (_ & _ & _ & HB).
    pose proof (lookup_lt_Some _ _ _ H) as Hi.
    destruct (lookup_lt_is_Some_2 (cl_dist a) i) as [ra Ra]; [lia|]. destruct (lookup_lt_is_Some_2 (cl_dist b) i) as [rb Rb]; [lia|].
    rewrite Ra, Rb. f_equal. pose proof (A4 i ra Ra) as La. pose proof (B4 i rb Rb) as Lb. apply list_eq. intros j.
    destruct (s !! j) as [l|] eqn:E.
    - specialize (HA j l E). specialize (HB j l E). unfold dist_at in HA at 1. unfold dist_at in HB at 1. rewrite Ra in HA. rewrite Rb in HB. congruence.
    - apply lookup_ge_None in E. rewrite !lookup_ge_None_2; [done| |]; lia. }
  destruct a, b. simpl in *. congruence.
Qed.

(* ---------------- nearest assignment ---------------- *)
Lemma picks_sound {A} (l : list A) : forall x r, (x, r) ∈ picks l -> Permutation l (x :: r).
Proof.
  induction l as [|y l IH]; intros x r H; [by apply elem_of_nil in H|]. simpl in H. apply elem_of_cons in H as [[= -> ->]|H]; [done|].
  apply elem_of_list_fmap in H as ([x' r'] & [= -> ->] & H). simpl. rewrite (IH _ _ H). apply Permutation_swap.
Qed.
Lemma picks_complete {A} (l : list A) x : x ∈ l -> exists r, (x, r) ∈ picks l.
Proof.
  induction 1 as [x l|x y l H (r & IH)]; simpl.
  - exists l. by left.
  - exists (y :: r). right. apply elem_of_list_fmap. by exists (x, r).
Qed.
Lemma elem_of_permutations {A} (l p : list A) : p ∈ permutations l <-> Permutation p l.
Proof.
  unfold permutations. remember (length l) as k eqn:Hk. revert l p Hk. induction k as [|k IH]; intros l p Hk; simpl.
  - destruct l; [|done]. rewrite elem_of_list_singleton. split; [by intros ->|]. intros H. by apply Permutation_nil_r in H.
  - rewrite elem_of_list_bind. split.
    + intros ([x r] & H & Hx). apply elem_of_list_fmap in H as (q & -> & Hq). simpl in *. apply picks_sound in Hx.
      rewrite Hx. apply perm_skip. apply IH; [|done]. apply Permutation_length in Hx. simpl in Hx. lia.
    + intros Hp. destruct p as [|x p]; [apply Permutation_nil_l in Hp; subst; done|].
      destruct (picks_complete l x) as [r Hr]; [rewrite <- Hp; by left|].
      exists (x, r). split; [|done]. apply elem_of_list_fmap. exists p. split; [done|]. pose proof (picks_sound _ _ _ Hr) as Hs. simpl.
      apply IH; [apply Permutation_length in Hs; simpl in Hs; lia|]. rewrite Hs in Hp. by apply Permutation_cons_inv in Hp.
Qed.
Lemma elem_of_product {A} (ls : list (list A)) : forall q, q ∈ product ls <-> Forall2 (fun (x : A) (l : list A) => x ∈ l) q ls.
Proof.
  induction ls as [|l ls IH]; intros q; simpl.
  - rewrite elem_of_list_singleton. split; [by intros ->|]. intros H. by inversion H.
  - rewrite elem_of_list_bind. split.
    + intros (x & H & Hx). apply elem_of_list_fmap in H as (r & -> & Hr). constructor; [done|]. by apply IH.
    + intros H. inversion H as [|x l' r ls' Hx Hr]; subst. exists x. split; [|done]. apply elem_of_list_fmap. exists r. split; [done|]. by apply IH.
Qed.

Definition group_pairs (refs choice : list (list nat)) : list (nat * nat) := concat (zip_with zip refs choice).
Lemma fill_groups_flat ref refs choice : fill_groups ref refs choice =
  fold_left (fun l (e : nat * nat) => <[fst e := snd e]> l) (group_pairs refs choice) (replicate (size ref) 0).
Proof.
  unfold fill_groups, group_pairs. fold (size ref). generalize (replicate (size ref) 0). revert choice.
  induction refs as [|r refs IH]; intros [|c choice] l; simpl; try done. rewrite fold_left_app. apply IH.
Qed.

Lemma with_label_length labels l : length (with_label labels l) = occurrences l labels.
Proof.
  unfold with_label, occurrences, enumerate. rewrite map_length. generalize 0. induction labels as [|x labels IH]; intros k; simpl; [done|].
  destruct (bool_decide (x = l)); simpl; by rewrite IH.
Qed.

Section Pairs.
  Variables ref cand : cluster.
  Hypothesis Pr : proper ref.
  Hypothesis Pc : proper cand.
  Hypothesis Hperm : Permutation (cl_labels ref) (cl_labels cand).
  Local Notation wr := (with_label (cl_labels ref)).
  Local Notation wc := (with_label (cl_labels cand)).
  Definition ok_choice (ls : list label) (choice : list (list nat)) : Prop := Forall2 (fun c l => Permutation c (wc l)) choice ls.

  Lemma pairs_fst ls : forall choice, ok_choice ls choice -> map fst (group_pairs (map wr ls) choice) = ls ≫= wr.
  Proof.
    induction ls as [|l ls IH]; intros choice H; inversion H as [|c l' cs ls' Hc Hr]; subst; [done|].
    change ((l :: ls) ≫= wr) with (wr l ++ (ls ≫= wr)). unfold group_pairs. simpl. rewrite map_app. f_equal; [|by apply IH].
    change (map fst ?x) with (fst <$> x). apply fst_zip. rewrite Hc, !with_label_length. by rewrite (proj1 (occurrences_perm _ _) Hperm).
  Qed.
  Lemma pairs_snd ls : forall choice, ok_choice ls choice -> Permutation (map snd (group_pairs (map wr ls) choice)) (ls ≫= wc).
  Proof.
    induction ls as [|l ls IH]; intros choice H; inversion H as [|c l' cs ls' Hc Hr]; subst; [done|].
    change ((l :: ls) ≫= wc) with (wc l ++ (ls ≫= wc)). unfold group_pairs. simpl. rewrite map_app. apply Permutation_app; [|by apply IH].
    change (map snd ?x) with (snd <$> x). rewrite snd_zip; [done|]. rewrite Hc, !with_label_length. by rewrite (proj1 (occurrences_perm _ _) Hperm).
  Qed.
  Lemma pairs_labels ls : forall choice, ok_choice ls choice -> forall i v, (i, v) ∈ group_pairs (map wr ls) choice ->
    exists l, cl_labels ref !! i = Some l /\ cl_labels cand !! v = Some l.
  Proof using.
    induction ls as [|l ls IH]; intros choice H i v Hin; inversion H as [|c l' cs ls' Hc Hr]; subst; [by apply elem_of_nil in Hin|].
    unfold group_pairs in Hin. simpl in Hin. apply elem_of_app in Hin as [Hin|Hin]; [|by eapply IH].
    apply elem_of_zip_l in Hin as Hi. apply elem_of_zip_r in Hin as Hv. exists l. rewrite Hc in Hv. by rewrite <- !elem_of_with_label.
  Qed.
  Lemma NoDup_groups labels (ls : list label) : NoDup ls -> NoDup (ls ≫= with_label labels).
  Proof using.
    intros H. apply NoDup_bind_disjoint; [done|intros; apply NoDup_with_label|].
    intros x y z _ _ H1%elem_of_with_label H2%elem_of_with_label. congruence.
  Qed.

  Lemma NoDup_snd_inj (es : list (nat * nat)) i j v : NoDup (map snd es) -> (i, v) ∈ es -> (j, v) ∈ es -> i = j.
  Proof using.
    induction es as [|[a b] es IH]; intros Hn Hi Hj; [by apply elem_of_nil in Hi|]. simpl in Hn. apply NoDup_cons in Hn as [H1 H2].
    apply elem_of_cons in Hi as [Hi|Hi], Hj as [Hj|Hj].
    - congruence.
    - injection Hi as -> ->. destruct H1. apply elem_of_list_fmap. by exists (j, b).
    - injection Hj as -> ->. destruct H1. apply elem_of_list_fmap. by exists (i, b).
    - by apply IH.
  Qed.

  Variable ls : list label.
  Hypothesis Hls : NoDup ls.
  Hypothesis Hall : forall l, l ∈ ls <-> l ∈ cl_labels cand.

  Lemma fill_lookup choice i v : ok_choice ls choice -> (i, v) ∈ group_pairs (map wr ls) choice ->
    fill_groups ref (map wr ls) choice !! i = Some v.
  Proof.
    intros Hc Hin. rewrite fill_groups_flat. apply fold_insert_in; [|  |done].
    - rewrite pairs_fst by done. by apply NoDup_groups.
    - intros e He. rewrite replicate_length. destruct e as [a b]. destruct (pairs_labels _ _ Hc _ _ He) as (l & Hl & _).
      rewrite <- labels_length by done. by eapply lookup_lt_Some.
  Qed.
  Lemma pairs_total choice i : ok_choice ls choice -> i < size ref -> exists v, (i, v) ∈ group_pairs (map wr ls) choice.
  Proof.
    intros Hc Hi. rewrite <- labels_length in Hi by done. apply lookup_lt_is_Some in Hi as [l Hl].
    assert (Hin : i ∈ map fst (group_pairs (map wr ls) choice)).
    { rewrite pairs_fst by done. apply elem_of_list_bind. exists l. split; [by apply elem_of_with_label|].
      apply Hall. rewrite <- Hperm. by eapply elem_of_list_lookup_2. }
    apply elem_of_list_fmap in Hin as ([a v] & -> & Hin). by exists v.
  Qed.
  Lemma fill_length choice : length (fill_groups ref (map wr ls) choice) = size ref.
  Proof using. by rewrite fill_groups_flat, fold_insert_length, replicate_length. Qed.

  Lemma fill_preserving choice : ok_choice ls choice -> label_preserving ref cand (fill_groups ref (map wr ls) choice).
  Proof.
    intros Hc. set (p := fill_groups ref (map wr ls) choice).
    assert (Hpl : length p = size ref) by apply fill_length.
    assert (K : forall i v, p !! i = Some v -> (i, v) ∈ group_pairs (map wr ls) choice).
    { intros i v Hi. destruct (pairs_total choice i Hc) as [w Hw]; [rewrite <- Hpl; by eapply lookup_lt_Some|].
      pose proof (fill_lookup _ _ _ Hc Hw) as E. unfold p in Hi. rewrite Hi in E. by injection E as ->. }
    split; [done|]. split; [by apply same_size|]. split.
    - apply NoDup_alt. intros i j v Hi%K Hj%K. eapply NoDup_snd_inj; try done. rewrite pairs_snd by done. by apply NoDup_groups.
    - intros i c Hi%K. by eapply pairs_labels.
  Qed.

  Lemma preserving_fill p : label_preserving ref cand p ->
    exists choice, ok_choice ls choice /\ fill_groups ref (map wr ls) choice = p.
  Proof.
    intros Hp. pose proof Hp as (H1 & H2 & H3 & H4).
    set (at_ := fun i => match p !! i with Some c => c | None => 0 end).
    assert (A : forall i, i < size ref -> p !! i = Some (at_ i)).
    { intros i Hi. unfold at_. destruct (lookup_lt_is_Some_2 p i) as [c ->]; [lia|done]. }
    assert (W : forall l i, i ∈ wr l -> i < size ref).
    { intros l i Hi%elem_of_with_label. rewrite <- labels_length by done. by eapply lookup_lt_Some. }
    exists (map (fun l => map at_ (wr l)) ls).
    assert (Hok : ok_choice ls (map (fun l => map at_ (wr l)) ls)).
    { unfold ok_choice. clear Hls Hall. induction ls as [|l ls' IH]; constructor; [|done].
      apply NoDup_Permutation_bis.
      - apply NoDup_ListNoDup. change (map at_ (wr l)) with (at_ <$> wr l). apply NoDup_fmap_2_strong; [|apply NoDup_with_label].
        intros i j Hi%W Hj%W E. pose proof (A i Hi) as Ai. pose proof (A j Hj) as Aj. rewrite E in Ai. by eapply NoDup_lookup.
      - rewrite map_length, !with_label_length. rewrite (proj1 (occurrences_perm _ _) Hperm). done.
      - intros v Hv. apply elem_of_list_In in Hv. apply elem_of_list_In. apply elem_of_list_fmap in Hv as (i & -> & Hi).
        destruct (H4 i (at_ i)) as (l' & L1 & L2); [by apply A, (W l)|]. apply elem_of_with_label in Hi. apply elem_of_with_label. congruence. }
    split; [done|]. apply list_eq. intros i. destruct (decide (i < size ref)) as [Hi|Hi].
    - destruct (pairs_total _ i Hok Hi) as [v Hv]. rewrite (fill_lookup _ _ _ Hok Hv). rewrite A by done. f_equal.
      clear Hok. unfold group_pairs in Hv. apply elem_of_list_In, in_concat in Hv as (z & Hz & Hv). apply elem_of_list_In in Hv, Hz.
      assert (exists l, z = zip (wr l) (map at_ (wr l))) as [l ->].
      { clear - Hz. induction ls as [|l ls' IH]; simpl in Hz; [by apply elem_of_nil in Hz|].
        apply elem_of_cons in Hz as [->|Hz]; [by exists l|by apply IH]. }
      clear - Hv. induction (wr l) as [|j w IH]; simpl in Hv; [by apply elem_of_nil in Hv|].
      apply elem_of_cons in Hv as [[= -> ->]|Hv]; [done|by apply IH].
    - rewrite !lookup_ge_None_2; [done| |]; [lia|rewrite fill_length; lia].
  Qed.
End Pairs.

(* scores *)
Lemma error_row_fun ref cand p i x y : error_row ref cand p i x -> error_row ref cand p i y -> x = y.
Proof.
  intros (l & L1 & -> & L3) (k & K1 & -> & K3). f_equal. apply list_eq. intros j.
  destruct (l !! j) as [e|] eqn:E1, (k !! j) as [f|] eqn:E2; try done.
  - destruct (L3 j e E1) as (c & d & a & b & ? & ? & ? & ? & ->), (K3 j f E2) as (c' & d' & a' & b' & ? & ? & ? & ? & ->). congruence.
  - apply lookup_lt_Some in E1. apply lookup_ge_None in E2. lia.
  - apply lookup_lt_Some in E2. apply lookup_ge_None in E1. lia.
Qed.
Lemma total_error_fun ref cand p x y : total_error ref cand p x -> total_error ref cand p y -> x = y.
Proof.
  intros (l & L1 & -> & L3) (k & K1 & -> & K3). f_equal. apply list_eq. intros j.
  destruct (l !! j) as [e|] eqn:E1, (k !! j) as [f|] eqn:E2; try done.
  - f_equal. by apply (error_row_fun ref cand p j); auto.
  - apply lookup_lt_Some in E1. apply lookup_ge_None in E2. lia.
  - apply lookup_lt_Some in E2. apply lookup_ge_None in E1. lia.
Qed.

Lemma nearest_score_ok ref cand p : proper ref -> proper cand -> label_preserving ref cand p ->
  exists s, nearest_score ref cand p = Ok s /\ total_error ref cand p s.
Proof.
  intros Pr Pc Hp. pose proof Hp as (H1 & H2 & H3 & H4). unfold nearest_score.
  destruct (permuted_ok cand p Pc) as (m & Hm & M1 & M2 & M3); [intros; by eapply label_preserving_bound|].
  rewrite Hm. simpl. eexists. split; [done|]. unfold matrix_error, total_error, qsum.
  pose proof Pr as (_ & _ & R1 & R2).
  eexists. split; [|split; [done|]]; [rewrite zip_with_length; lia|].
  intros i e He. apply lookup_zip_with_Some in He as (r & s & -> & Hr & Hs). unfold error_row.
  pose proof (R2 i r Hr) as Lr. pose proof (M2 i s Hs) as Ls.
  eexists. split; [|split; [done|]]; [rewrite zip_with_length; lia|].
  intros j e He. apply lookup_zip_with_Some in He as (x & y & -> & Hx & Hy).
  destruct (lookup_lt_is_Some_2 p i) as [c Hc]; [rewrite <- M1; by eapply lookup_lt_Some|].
  destruct (lookup_lt_is_Some_2 p j) as [d Hd]; [rewrite <- Ls; by eapply lookup_lt_Some|].
  destruct (M3 i j c d Hc Hd) as (row & Hrow & Hd'). rewrite Hs in Hrow. injection Hrow as <-. rewrite Hy in Hd'. injection Hd' as ->.
  exists c, d, x, (D cand c d). do 2 (split; [done|]). split; [unfold dist_at; by rewrite Hr|]. split; [|done].
  apply dist_some; [done| |]; eapply label_preserving_bound; try done; by eapply elem_of_list_lookup_2.
Qed.

Definition better (F : list (list nat) -> list nat) (G : list (list nat) -> Q) (best : option (list nat * Q)) (ch : list (list nat)) : option (list nat * Q) :=
  match best with
  | Some (_, s') => if Qle_bool s' (G ch) then best else Some (F ch, G ch)
  | None => Some (F ch, G ch)
  end.
Lemma best_fold (F : list (list nat) -> list nat) (score : list nat -> result Q) (G : list (list nat) -> Q) (l : list (list (list nat))) :
  (forall ch, ch ∈ l -> score (F ch) = Ok (G ch)) -> forall best,
  rfold (fun best ch => let p := F ch in let* s := score p in
           Ok (match best with Some (_, s') => if Qle_bool s' s then best else Some (p, s) | None => Some (p, s) end)) best l =
  Ok (fold_left (better F G) l best).
Proof.
  induction l as [|c l IH]; intros H best; [done|]. cbn [rfold fold_left]. cbv zeta. rewrite H by (by left). cbn [rbind].
  rewrite IH by (intros; apply H; by right). done.
Qed.
Lemma best_fold_min (F : list (list nat) -> list nat) (G : list (list nat) -> Q) (l : list (list (list nat))) : forall best,
  match fold_left (better F G) l best with
  | None => best = None /\ l = []
  | Some (p, s) => (best = Some (p, s) \/ exists ch, ch ∈ l /\ p = F ch /\ s = G ch) /\
      (forall ch, ch ∈ l -> (s <= G ch)%Q) /\ (forall p' s', best = Some (p', s') -> (s <= s')%Q)
  end.
Proof.
  induction l as [|c l IH]; intros best; cbn [fold_left].
  - destruct best as [[p s]|]; [|done]. split; [by left|]. split; [by intros ? ?%elem_of_nil|]. intros ? ? [= -> ->]. apply Qle_refl.
  - specialize (IH (better F G best c)). destruct (fold_left (better F G) l (better F G best c)) as [[p s]|].
    + destruct IH as (I1 & I2 & I3). unfold better in I1, I3. destruct best as [[p0 s0]|].
      * destruct (Qle_bool s0 (G c)) eqn:E.
        -- apply Qle_bool_iff in E. split; [|split].
           ++ destruct I1 as [?|(ch & Hc & ? & ?)]; [by left|]. right. exists ch. split; [by right|done].
           ++ intros ch [->|Hc]%elem_of_cons; [|by apply I2]. eapply Qle_trans; [by apply (I3 p0 s0)|done].
           ++ done.
        -- assert (E' : ~ (s0 <= G c)%Q) by (intros H; apply Qle_bool_iff in H; congruence). apply Qnot_le_lt in E'.
           split; [|split].
           ++ destruct I1 as [[= <- <-]|(ch & Hc & ? & ?)]; right; [exists c|exists ch]; (split; [|done]); [by left|by right].
           ++ intros ch [->|Hc]%elem_of_cons; [by apply (I3 (F c) (G c))|by apply I2].
           ++ intros ? ? [= <- <-]. eapply Qle_trans; [by apply (I3 (F c) (G c))|]. by apply Qlt_le_weak.
      * split; [|split; [|done]].
        -- destruct I1 as [[= <- <-]|(ch & Hc & ? & ?)]; right; [exists c|exists ch]; (split; [|done]); [by left|by right].
        -- intros ch [->|Hc]%elem_of_cons; [by apply (I3 (F c) (G c))|by apply I2].
    + destruct IH as [H _]. unfold better in H. destruct best as [[? ?]|]; [|done]. by destruct (Qle_bool _ _).
Qed.

Lemma nearest_ok ref cand : proper ref -> proper cand -> Permutation (cl_labels ref) (cl_labels cand) ->
  exists p s, nearest_permutation ref cand = Ok (p, s) /\ label_preserving ref cand p /\ total_error ref cand p s /\
    forall p' s', label_preserving ref cand p' -> total_error ref cand p' s' -> (s <= s')%Q.
Proof.
  intros Pr Pc Hperm. unfold nearest_permutation. destruct (by_label_spec (cl_labels cand)) as [Bn Bg].
  set (ls := sorted label_leb (dkeys (by_label (cl_labels cand)))).
  assert (Hls : NoDup ls) by (unfold ls; by rewrite sorted_perm).
  assert (Hall : forall l, l ∈ ls <-> l ∈ cl_labels cand).
  { intros l. unfold ls. rewrite sorted_perm. split.
    - intros H. destruct (dget (by_label (cl_labels cand)) l) as [m|] eqn:E.
      + rewrite Bg in E. destruct (with_label (cl_labels cand) l) as [|i w] eqn:Ew; [done|].
        assert (Hi : i ∈ with_label (cl_labels cand) l) by (rewrite Ew; by left). apply elem_of_with_label in Hi. by eapply elem_of_list_lookup_2.
      + by apply dget_None in E.
    - intros H. apply elem_of_list_lookup in H as [i Hi]. apply elem_of_with_label in Hi.
      apply dget_in_keys. rewrite Bg. destruct (with_label (cl_labels cand) l); [by apply elem_of_nil in Hi|eauto]. }
  assert (Hm : rmapM (dgetitem (by_label (cl_labels cand))) ls = Ok (map (with_label (cl_labels cand)) ls)).
  { assert (G : forall k, (forall l, l ∈ k -> l ∈ cl_labels cand) -> rmapM (dgetitem (by_label (cl_labels cand))) k = Ok (map (with_label (cl_labels cand)) k)).
    { induction k as [|l k IH]; intros H; [done|]. simpl. assert (Hl : l ∈ cl_labels cand) by (apply H; by left).
      apply elem_of_list_lookup in Hl as [i Hi]. erewrite by_label_get by done. simpl. rewrite IH by (intros; apply H; by right). done. }
    apply G. intros l. by apply Hall. }
  rewrite Hm. cbn [rbind].
  change (map (reference_group ref) ls) with (map (with_label (cl_labels ref)) ls).
  set (choices := product (map permutations (map (with_label (cl_labels cand)) ls))).
  assert (Hch : forall ch, ch ∈ choices <-> ok_choice cand ls ch).
  { intros ch. unfold choices. rewrite elem_of_product, map_map. change (map ?f ls) with (f <$> ls). rewrite Forall2_fmap_r.
    unfold ok_choice. split; intros H; (eapply Forall2_impl; [exact H|]); intros x l; simpl; apply elem_of_permutations. }
  set (F := fill_groups ref (map (with_label (cl_labels ref)) ls)).
  set (G := fun ch => match nearest_score ref cand (F ch) with Ok s => s | Err _ => 0%Q end).
  assert (Hs : forall ch, ch ∈ choices -> nearest_score ref cand (F ch) = Ok (G ch) /\ total_error ref cand (F ch) (G ch)).
  { intros ch Hc%Hch. destruct (nearest_score_ok ref cand (F ch)) as (s & H1 & H2); [done|done|by apply fill_preserving|].
    unfold G. by rewrite H1. }
  rewrite (best_fold F (nearest_score ref cand) G) by (intros; by apply Hs). cbn [rbind].
  pose proof (best_fold_min F G choices None) as B. destruct (fold_left (better F G) choices None) as [[p s]|].
  - destruct B as ([?|(ch & Hc & -> & ->)] & B2 & _); [done|]. exists (F ch), (G ch). split; [done|].
    split; [by apply fill_preserving; try done; apply Hch|]. split; [by apply Hs|].
    intros p' s' Hp' Hs'. destruct (preserving_fill ref cand Pr Hperm ls Hls Hall p' Hp') as (ch' & C1 & C2).
    apply Hch in C1. destruct (Hs ch' C1) as [_ E]. fold F in C2. rewrite C2 in E. rewrite (total_error_fun _ _ _ _ _ Hs' E). by apply B2.
  - destruct B as [_ B]. exfalso. assert (Hin : map (with_label (cl_labels cand)) ls ∈ choices).
    { apply Hch. unfold ok_choice. clear. induction ls; constructor; done. }
    rewrite B in Hin. by apply elem_of_nil in Hin.
Qed.

(* ---------------- the whole matcher ---------------- *)
Section Whole.
  Variable round8 : Q -> Q.
  Variables rtol atol : Q.
  Variables ref cand : cluster.
  Hypothesis Pr : proper ref.
  Hypothesis Pc : proper cand.
  Local Notation matcher := (cluster_match round8 ref rtol atol).

  Lemma fits_labels p : fits rtol atol ref cand p -> Permutation (cl_labels ref) (cl_labels cand).
  Proof. intros [H _]. by eapply label_preserving_labels. Qed.
  Lemma match_no_labels ru fn : ~ Permutation (cl_labels ref) (cl_labels cand) -> matcher cand ru fn = Err ValueError.
  Proof using. intros H. unfold cluster_match. rewrite bool_decide_eq_false_2; [done|]. by rewrite signature_iff. Qed.

  Hypothesis Sr : symmetric ref.
  Hypothesis Sc : symmetric cand.
  Lemma match_cases ru fn : Permutation (cl_labels ref) (cl_labels cand) ->
    exists perms, NoDup perms /\ (forall p, p ∈ perms <-> fits rtol atol ref cand p) /\
      matcher cand ru fn =
        match perms with
        | [] => if fn then let* ps := nearest_permutation ref cand in build_match cand (fst ps) true (snd ps) else Err ValueError
        | p :: rest => if ru && match rest with [] => false | _ => true end then Err ValueError
                       else build_match cand p (match rest with [] => true | _ => false end) 0%Q
        end.
  Proof.
    intros H. destruct (perms_lemma round8 ref cand rtol atol Pr Pc H Sr Sc) as (perms & N & E & M).
    exists perms. do 2 (split; [done|]). unfold cluster_match. rewrite bool_decide_eq_true_2 by (by apply signature_iff).
    cbn [negb]. rewrite M. cbn [rbind]. destruct perms as [|p [|q rest]]; cbn [take length Nat.eqb negb andb]; try done.
  Qed.

  Lemma fits_perm p : fits rtol atol ref cand p -> Permutation p (seq 0 (size cand)).
  Proof. intros [H _]. by eapply label_preserving_perm. Qed.

  Lemma found_iff_lemma : (exists m, matcher cand false false = Ok m) <-> exists p, fits rtol atol ref cand p.
  Proof.
    split.
    - intros [m Hm]. destruct (decide (signature ref = signature cand)) as [Hs|Hs].
      + apply signature_iff in Hs. destruct (match_cases false false Hs) as (perms & _ & E & M). rewrite Hm in M.
        destruct perms as [|p rest]; [done|]. exists p. apply E. by left.
      + rewrite match_no_labels in Hm; [done|]. by rewrite <- signature_iff.
    - intros [p Hp]. destruct (match_cases false false (fits_labels p Hp)) as (perms & _ & E & M).
      apply E in Hp as Hin. destruct perms as [|q rest]; [by apply elem_of_nil in Hin|]. rewrite M. simpl.
      destruct (build_ok cand q (match rest with [] => true | _ => false end) 0%Q Pc) as (m & Hm & _); [|eauto].
      apply fits_perm, E. by left.
  Qed.

  Lemma found_lemma ru fn m : matcher cand ru fn = Ok m -> (exists p, fits rtol atol ref cand p) ->
    fits rtol atol ref cand (reference_to_candidate m) /\ score m = 0%Q /\
    (is_unique m = true <-> forall p, fits rtol atol ref cand p -> p = reference_to_candidate m).
  Proof.
    intros Hm [p Hp]. destruct (match_cases ru fn (fits_labels p Hp)) as (perms & N & E & M).
    apply E in Hp as Hin. destruct perms as [|q rest]; [by apply elem_of_nil in Hin|]. rewrite Hm in M.
    destruct (ru && _); [done|].
    destruct (build_ok cand q (match rest with [] => true | _ => false end) 0%Q Pc) as (m' & Hm' & H1 & H2 & H3 & _).
    { apply fits_perm, E. by left. }
    rewrite Hm' in M. injection M as ->. rewrite H1, H2, H3. split; [apply E; by left|]. split; [done|]. split.
    - destruct rest; [|done]. intros _ p' Hp'. apply E in Hp'. by apply elem_of_list_singleton in Hp'.
    - intros H. destruct rest as [|r rest]; [done|]. exfalso. apply NoDup_cons in N as [N _]. apply N.
      rewrite <- (H r); [by left|]. apply E. right. by left.
  Qed.

  Lemma unique_iff_lemma fn : (exists p, fits rtol atol ref cand p) ->
    (exists m, matcher cand true fn = Ok m) <-> exists p, forall p', fits rtol atol ref cand p' <-> p' = p.
  Proof.
    intros [p Hp]. destruct (match_cases true fn (fits_labels p Hp)) as (perms & N & E & M).
    apply E in Hp as Hin. destruct perms as [|q rest]; [by apply elem_of_nil in Hin|]. rewrite M. split.
    - intros [m Hm]. exists q. intros p'. rewrite <- E. destruct rest; [|done]. apply elem_of_list_singleton.
    - intros [r Hr]. destruct rest as [|q' rest].
      + simpl. destruct (build_ok cand q true 0%Q Pc) as (m' & Hm' & _); [|eauto]. apply fits_perm, E. by left.
      + exfalso. apply NoDup_cons in N as [N _]. apply N.
        assert (q = r) as -> by (apply Hr, E; by left). assert (q' = r) as -> by (apply Hr, E; right; by left). by left.
  Qed.

  Lemma nearest_result : Permutation (cl_labels ref) (cl_labels cand) -> (forall p, ~ fits rtol atol ref cand p) ->
    forall ru, exists m, matcher cand ru true = Ok m /\ label_preserving ref cand (reference_to_candidate m) /\
      total_error ref cand (reference_to_candidate m) (score m) /\
      (forall p x, label_preserving ref cand p -> total_error ref cand p x -> (score m <= x)%Q) /\
      inverse_of (reference_to_candidate m) (candidate_to_reference m) /\
      reordered cand (reference_to_candidate m) (ordered_candidate m) /\ is_unique m = true.
  Proof.
    intros Hl Hno ru. destruct (match_cases ru true Hl) as (perms & N & E & M).
    destruct perms as [|q rest]; [|exfalso; apply (Hno q), E; by left].
    destruct (nearest_ok ref cand Pr Pc Hl) as (p & s & Hn & P1 & P2 & P3). rewrite Hn in M. cbn [rbind fst snd] in M.
    destruct (build_ok cand p true s Pc) as (m & Hm & M1 & M2 & M3 & M4 & M5); [by eapply label_preserving_perm|].
    exists m. rewrite M, Hm, M1, M2, M3. repeat (split; [done|]). done.
  Qed.

  Lemma match_reports ru fn m : matcher cand ru fn = Ok m ->
    label_preserving ref cand (reference_to_candidate m) /\
    inverse_of (reference_to_candidate m) (candidate_to_reference m) /\
    reordered cand (reference_to_candidate m) (ordered_candidate m).
  Proof.
    intros Hm. destruct (decide (signature ref = signature cand)) as [Hs|Hs].
    2:{ rewrite match_no_labels in Hm; [done|]. by rewrite <- signature_iff. }
    apply signature_iff in Hs. destruct (match_cases ru fn Hs) as (perms & N & E & M).
    destruct perms as [|q rest].
    - destruct fn; [|congruence]. destruct (nearest_result Hs) with ru as (m' & Hm' & H1 & H2 & H3 & H4 & H5 & H6).
      { intros p Hp. apply E in Hp. by apply elem_of_nil in Hp. }
      rewrite Hm in Hm'. injection Hm' as ->. done.
    - rewrite Hm in M. destruct (ru && _); [done|].
      assert (Hq : fits rtol atol ref cand q) by (apply E; by left).
      destruct (build_ok cand q (match rest with [] => true | _ => false end) 0%Q Pc) as (m' & Hm' & H1 & H2 & H3 & H4 & H5); [by apply fits_perm|].
      rewrite Hm' in M. injection M as ->. rewrite H1. split; [apply Hq|]. done.
  Qed.

  Lemma match_error ru fn e : matcher cand ru fn = Err e -> e = ValueError.
  Proof.
    intros Hm. destruct (decide (signature ref = signature cand)) as [Hs|Hs].
    2:{ rewrite match_no_labels in Hm; [congruence|]. by rewrite <- signature_iff. }
    apply signature_iff in Hs. destruct (match_cases ru fn Hs) as (perms & N & E & M). destruct perms as [|q rest].
    - destruct fn; [|congruence]. destruct (nearest_result Hs) with ru as (m' & Hm' & _).
      { intros p Hp. apply E in Hp. by apply elem_of_nil in Hp. }
      congruence.
    - rewrite Hm in M. destruct (ru && _); [congruence|].
      destruct (build_ok cand q (match rest with [] => true | _ => false end) 0%Q Pc) as (m' & Hm' & _); [apply fits_perm, E; by left|congruence].
  Qed.
End Whole.

(* ---------------- order independence ---------------- *)
Lemma reordered_labels c s c' i k : proper c -> reordered c s c' -> s !! i = Some k -> cl_labels c' !! i = cl_labels c !! k.
Proof.
  intros Pc (Pc' & Hp & Hn & H) Hi. destruct (H i k Hi) as (_ & H1 & H2 & _).
  apply option_eq. intros [a b]. unfold cl_labels. rewrite !zip_lookup. by rewrite H1, H2.
Qed.
Lemma reordered_symmetric c s c' : reordered c s c' -> symmetric c -> symmetric c'.
Proof.
  intros (Pc' & Hp & Hn & H) Hs i j x y Hx Hy.
  assert (L : forall i j x, dist_at c' i j = Some x -> i < size c' /\ j < size c').
  { intros a b z Hz. unfold dist_at in Hz. destruct (cl_dist c' !! a) as [row|] eqn:E; [|done]. destruct Pc' as (_ & _ & P3 & P4).
    split; [rewrite <- P3; by eapply lookup_lt_Some|]. rewrite <- (P4 a row E). by eapply lookup_lt_Some. }
  destruct (L _ _ _ Hx) as [Hi Hj]. pose proof (Permutation_length Hp) as Hl. rewrite seq_length in Hl.
  destruct (lookup_lt_is_Some_2 s i) as [k Hk]; [lia|]. destruct (lookup_lt_is_Some_2 s j) as [l Hll]; [lia|].
  destruct (H i k Hk) as (_ & _ & _ & H1). destruct (H j l Hll) as (_ & _ & _ & H2).
  rewrite (H1 j l Hll) in Hx. rewrite (H2 i k Hk) in Hy. by apply (Hs k l).
Qed.

(** [q] over the reordered candidate corresponds to [p] over the original. *)
Definition compose (s q p : list nat) : Prop := length p = length q /\ forall i k, q !! i = Some k -> p !! i = s !! k.

Section Reorder.
  Variables rtol atol : Q.
  Variables ref cand cand' : cluster.
  Variable s : list nat.
  Hypothesis Pr : proper ref.
  Hypothesis Pc : proper cand.
  Hypothesis Hr : reordered cand s cand'.

  Lemma s_lookup k : k < size cand -> exists c, s !! k = Some c.
  Proof.
    destruct Hr as (_ & Hp & _). apply Permutation_length in Hp. rewrite seq_length in Hp. intros H. apply lookup_lt_is_Some_2. lia.
  Qed.
  Lemma s_NoDup : NoDup s.
  Proof. destruct Hr as (_ & Hp & _). rewrite Hp. apply NoDup_ListNoDup, seq_NoDup. Qed.

  Lemma to_original q : fits rtol atol ref cand' q -> exists p, fits rtol atol ref cand p /\ compose s q p.
  Proof.
    intros Hq. pose proof Hr as (Pc' & Hp & Hn & H). pose proof Hq as [(Q1 & Q2 & Q3 & Q4) Q5].
    assert (Hb : forall i k, q !! i = Some k -> k < size cand).
    { intros i k Hi. rewrite <- Hn. eapply label_preserving_bound; [done|apply Hq|by eapply elem_of_list_lookup_2]. }
    exists (map (fun k => match s !! k with Some c => c | None => 0 end) q).
    set (p := map (fun k => match s !! k with Some c => c | None => 0 end) q).
    assert (C : compose s q p).
    { split; [apply map_length|]. intros i k Hi. unfold p. change (map ?f q) with (f <$> q). rewrite list_lookup_fmap, Hi. simpl.
      destruct (s_lookup k) as [c ->]; [by eapply Hb|done]. }
    assert (K : forall i c, p !! i = Some c -> exists k, q !! i = Some k /\ s !! k = Some c).
    { intros i c Hi. destruct C as [C1 C2]. destruct (lookup_lt_is_Some_2 q i) as [k Hk]; [rewrite <- C1; by eapply lookup_lt_Some|].
      exists k. split; [done|]. by rewrite <- (C2 i k Hk). }
    split; [|done]. split.
    - split; [destruct C as [-> _]; done|]. split; [congruence|]. split.
      + apply NoDup_alt. intros i j c Hi Hj. apply K in Hi as (k & Hk & Hkc), Hj as (l & Hl & Hlc).
        assert (k = l) as -> by (eapply NoDup_lookup; [apply s_NoDup|done|done]). by eapply NoDup_lookup.
      + intros i c Hi. apply K in Hi as (k & Hk & Hkc). destruct (Q4 i k Hk) as (l & L1 & L2). exists l. split; [done|].
        by rewrite <- (reordered_labels cand s cand' k c Pc Hr Hkc).
    - intros i j c d a b Hij Hi Hj Ha Hb'. apply K in Hi as (k & Hk & Hkc), Hj as (l & Hl & Hlc).
      apply (Q5 i j k l a b); try done. destruct (H k c Hkc) as (_ & _ & _ & HD). by rewrite (HD l d Hlc).
  Qed.

  Lemma from_original p : fits rtol atol ref cand p -> exists q, fits rtol atol ref cand' q /\ compose s q p.
  Proof.
    intros Hq. pose proof Hr as (Pc' & Hp & Hn & H). pose proof Hq as [(Q1 & Q2 & Q3 & Q4) Q5].
    assert (Hb : forall i k, p !! i = Some k -> k < size cand).
    { intros i k Hi. eapply label_preserving_bound; [done|apply Hq|by eapply elem_of_list_lookup_2]. }
    assert (exists q, length q = length p /\ forall i c, p !! i = Some c -> exists k, q !! i = Some k /\ s !! k = Some c) as (q & L & K).
    { assert (G : forall l : list nat, (forall c, c ∈ l -> c < size cand) ->
        exists q, length q = length l /\ forall i c, l !! i = Some c -> exists k, q !! i = Some k /\ s !! k = Some c).
      { induction l as [|c l IH]; intros Hc; [exists []; split; [done|]; by intros|].
        destruct IH as (q & L & K); [intros; apply Hc; by right|].
        assert (Hin : c ∈ s) by (rewrite Hp, elem_of_seq; specialize (Hc c (elem_of_list_here _ _)); lia).
        apply elem_of_list_lookup in Hin as [k Hk]. exists (k :: q). split; [simpl; lia|].
        intros [|i] d Hd; simpl in *; [injection Hd as ->; eauto|by apply K]. }
      apply G. intros c Hc. apply elem_of_list_lookup in Hc as [i Hi]. by eapply Hb. }
    assert (C : compose s q p).
    { split; [done|]. intros i k Hi. destruct (lookup_lt_is_Some_2 p i) as [c Hc]; [rewrite <- L; by eapply lookup_lt_Some|].
      destruct (K i c Hc) as (k' & Hk' & Hs). rewrite Hi in Hk'. injection Hk' as <-. congruence. }
    assert (K' : forall i k, q !! i = Some k -> exists c, p !! i = Some c /\ s !! k = Some c).
    { intros i k Hi. destruct (lookup_lt_is_Some_2 p i) as [c Hc]; [rewrite <- L; by eapply lookup_lt_Some|]. exists c. split; [done|].
      destruct C as [_ C]. by rewrite <- (C i k Hi). }
    exists q. split; [|done]. split.
    - split; [congruence|]. split; [congruence|]. split.
      + apply NoDup_alt. intros i j k Hi Hj. apply K' in Hi as (c & Hc & Hkc), Hj as (d & Hd & Hkd). rewrite Hkc in Hkd. injection Hkd as <-.
        by eapply NoDup_lookup.
      + intros i k Hi. apply K' in Hi as (c & Hc & Hkc). destruct (Q4 i c Hc) as (l & L1 & L2). exists l. split; [done|].
        by rewrite (reordered_labels cand s cand' k c Pc Hr Hkc).
    - intros i j k l a b Hij Hi Hj Ha Hb'. apply K' in Hi as (c & Hc & Hkc), Hj as (d & Hd & Hld).
      apply (Q5 i j c d a b); try done. destruct (H k c Hkc) as (_ & _ & _ & HD). by rewrite <- (HD l d Hld).
  Qed.

  Lemma compose_fun q p p' : fits rtol atol ref cand' q -> compose s q p -> compose s q p' -> p = p'.
  Proof using.
    intros _ [L H] [L' H']. apply list_eq. intros i. destruct (q !! i) as [k|] eqn:E.
    - by rewrite (H i k E), (H' i k E).
    - apply lookup_ge_None in E. rewrite !lookup_ge_None_2; [done| |]; lia.
  Qed.
  Lemma compose_inj q q' p : fits rtol atol ref cand' q -> fits rtol atol ref cand' q' -> compose s q p -> compose s q' p -> q = q'.
  Proof.
    intros F F' [L H] [L' H']. apply list_eq. intros i. destruct (q !! i) as [k|] eqn:E.
    - destruct (lookup_lt_is_Some_2 q' i) as [k' Hk']; [rewrite <- L', L; by eapply lookup_lt_Some|]. rewrite Hk'. f_equal.
      pose proof Hr as (Pc' & _ & Hn & _).
      destruct (s_lookup k) as [c Hc].
      { rewrite <- Hn. eapply label_preserving_bound; [done|apply F|by eapply elem_of_list_lookup_2]. }
      eapply NoDup_lookup; [apply s_NoDup|done|]. by rewrite <- (H' i k' Hk'), (H i k E).
    - symmetry. apply lookup_ge_None. apply lookup_ge_None in E. lia.
  Qed.

  Lemma compose_reordered q p out : fits rtol atol ref cand' q -> compose s q p -> reordered cand' q out -> reordered cand p out.
  Proof.
    intros F C (Po & Ho & No & O). pose proof Hr as (Pc' & Hp & Hn & H).
    assert (K : forall i c, p !! i = Some c -> exists k, q !! i = Some k /\ s !! k = Some c).
    { intros i c Hi. destruct C as [C1 C2]. destruct (lookup_lt_is_Some_2 q i) as [k Hk]; [rewrite <- C1; by eapply lookup_lt_Some|].
      exists k. split; [done|]. by rewrite <- (C2 i k Hk). }
    split; [done|]. split.
    { destruct (to_original q F) as (p' & Fp & Cp). rewrite (compose_fun q p p' F C Cp). by eapply fits_perm. }
    split; [congruence|]. intros i c Hi. apply K in Hi as (k & Hk & Hkc).
    destruct (O i k Hk) as (O1 & O2 & O3 & O4), (H k c Hkc) as (H1 & H2 & H3 & H4).
    rewrite O1, O2, O3. do 3 (split; [done|]). intros j d Hj. apply K in Hj as (l & Hl & Hld).
    rewrite (O4 j l Hl). by apply H4.
  Qed.
End Reorder.

Lemma order_lemma round8 rtol atol ref cand s cand' m : proper ref -> proper cand -> symmetric ref -> symmetric cand ->
  reordered cand s cand' -> forall ru, cluster_match round8 ref rtol atol cand ru false = Ok m -> is_unique m = true ->
  exists m', cluster_match round8 ref rtol atol cand' ru false = Ok m' /\ ordered_candidate m' = ordered_candidate m /\ is_unique m' = true.
Proof.
  intros Pr Pc Sr Sc Hr ru Hm Hu. pose proof Hr as (Pc' & _). pose proof (reordered_symmetric _ _ _ Hr Sc) as Sc'.
  assert (Hex : exists p, fits rtol atol ref cand p).
  { apply (found_iff_lemma round8 rtol atol ref cand Pr Pc Sr Sc). destruct ru; [|eauto]. unfold cluster_match in *.
    destruct (negb _); [done|]. apply rbind_ok in Hm as (found & -> & Hm). cbn [rbind]. destruct found as [|p rest]; [done|].
    destruct (true && _); [done|]. cbn [andb]. eauto. }
  destruct (found_lemma round8 rtol atol ref cand Pr Pc Sr Sc ru false m Hm Hex) as (F & _ & U).
  pose proof (proj1 U Hu) as Huniq.
  destruct (from_original rtol atol ref cand cand' s Pc Hr _ F) as (q & Fq & Cq).
  assert (Hq : forall q', fits rtol atol ref cand' q' -> q' = q).
  { intros q' Fq'. destruct (to_original rtol atol ref cand cand' s Pc Hr q' Fq') as (p' & Fp' & Cp').
    apply Huniq in Fp' as ->. by eapply (compose_inj rtol atol ref cand cand' s Hr q' q (reference_to_candidate m)). }
  assert (exists m', cluster_match round8 ref rtol atol cand' ru false = Ok m') as [m' Hm'].
  { destruct ru.
    - apply (unique_iff_lemma round8 rtol atol ref cand' Pr Pc' Sr Sc' false); [eauto|]. exists q. intros p'. split; [apply Hq|by intros ->].
    - apply (found_iff_lemma round8 rtol atol ref cand' Pr Pc' Sr Sc'). eauto. }
  exists m'. split; [done|].
  destruct (found_lemma round8 rtol atol ref cand' Pr Pc' Sr Sc' ru false m' Hm') as (F' & _ & U'); [eauto|].
  destruct (match_reports round8 rtol atol ref cand Pr Pc Sr Sc ru false m Hm) as (_ & _ & R).
  destruct (match_reports round8 rtol atol ref cand' Pr Pc' Sr Sc' ru false m' Hm') as (_ & _ & R').
  split.
  - eapply reordered_unique; [|exact R]. apply Hq in F' as E. rewrite E in R'.
    by eapply (compose_reordered rtol atol ref cand cand' s Pc Hr q).
  - apply U'. intros p Hp. rewrite (Hq p Hp). symmetry. by apply Hq.
Qed.

Lemma order_found_lemma round8 rtol atol ref cand s cand' : proper ref -> proper cand -> symmetric ref -> symmetric cand ->
  reordered cand s cand' ->
  (exists m, cluster_match round8 ref rtol atol cand false false = Ok m) <-> (exists m, cluster_match round8 ref rtol atol cand' false false = Ok m).
Proof.
  intros Pr Pc Sr Sc Hr. pose proof Hr as (Pc' & _). pose proof (reordered_symmetric _ _ _ Hr Sc) as Sc'.
  rewrite !found_iff_lemma by done. split.
  - intros [p Hp]. destruct (from_original rtol atol ref cand cand' s Pc Hr _ Hp) as (q & ? & _). eauto.
  - intros [p Hp]. destruct (to_original rtol atol ref cand cand' s Pc Hr _ Hp) as (q & ? & _). eauto.
Qed.

(* ---------------- equality ---------------- *)
Lemma self_fits rtol atol c : (0 <= rtol)%Q -> (0 <= atol)%Q -> proper c -> fits rtol atol c c (seq 0 (size c)).
Proof.
  intros Hr Ha Pc. split.
  - split; [apply seq_length|]. split; [done|]. split; [apply NoDup_ListNoDup, seq_NoDup|].
    intros i k Hi. apply lookup_seq in Hi as [-> Hi]. destruct (lookup_lt_is_Some_2 (cl_labels c) i) as [l Hl]; [by rewrite labels_length|].
    exists l. done.
  - intros i j k l a b _ Hi Hj Ha' Hb. apply lookup_seq in Hi as [-> Hi]. apply lookup_seq in Hj as [-> Hj]. simpl in Hb.
    rewrite Ha' in Hb. injection Hb as <-. assert (E : (a - a == 0)%Q) by ring. rewrite E. simpl.
    pose proof (Qmult_le_0_compat _ _ Hr (Qabs_nonneg a)). change (Z.abs 0 # 1)%Q with 0%Q. lra.
Qed.

Lemma eq_iff_fits round8 a b : proper a -> proper b -> symmetric a -> symmetric b ->
  cluster_eq round8 a b = true <-> exists p, fits (1 # 1000) (1 # 1000) a b p.
Proof.
  intros Pa Pb Sa Sb. rewrite <- (found_iff_lemma round8) by done. unfold cluster_eq.
  destruct (Nat.eqb_spec (length (cl_indices a)) (length (cl_indices b))) as [E|E]; cbn [negb].
  - destruct (cluster_match _ _ _ _ _ _ _); split; try done; [eauto|]. by intros [? ?].
  - split; [done|]. intros H. apply found_iff_lemma in H as [p [(H1 & H2 & _) _]]; try done.
    destruct Pa as (A1 & _), Pb as (B1 & _). lia.
Qed.
Lemma eq_reordered_lemma round8 a s b : proper a -> symmetric a -> reordered a s b -> cluster_eq round8 a b = true /\ cluster_eq round8 b a = true.
Proof.
  intros Pa Sa Hr. pose proof Hr as (Pb & _). pose proof (reordered_symmetric _ _ _ Hr Sa) as Sb.
  split; apply eq_iff_fits; try done.
  - destruct (from_original (1#1000) (1#1000) a a b s Pa Hr (seq 0 (size a))) as (q & ? & _); [|eauto]. by apply self_fits.
  - destruct (to_original (1#1000) (1#1000) b a b s Pa Hr (seq 0 (size b))) as (q & ? & _); [|eauto]. by apply self_fits.
Qed.
Lemma proper_refl_reordered c : proper c -> reordered c (seq 0 (size c)) c.
Proof.
  intros Pc. split; [done|]. split; [done|]. split; [done|]. intros i k Hi. apply lookup_seq in Hi as [-> Hi].
  do 3 (split; [done|]). intros j l Hj. by apply lookup_seq in Hj as [-> Hj].
Qed.

(* ---------------- construction ---------------- *)
Lemma cluster_new_proper {P} (distance : P -> P -> Q) si sp co ro ma c : cluster_new distance si sp co ro ma = Ok c -> proper c.
Proof.
  unfold cluster_new. destruct (Nat.eqb_spec (length co) (length sp)) as [E1|]; [|done]. cbn [negb].
  set (indices := match si with Some l => l | None => _ end). destruct (Nat.eqb_spec (length indices) (length sp)) as [E2|]; [|done]. cbn [negb].
  set (roles := match ro with Some l => l | None => _ end). destruct (Nat.eqb_spec (length roles) (length sp)) as [E3|]; [|done]. cbn [negb].
  destruct ma as [m|].
  - destruct (Nat.eqb_spec (length m) (length sp)) as [E4|]; [|done]. cbn [andb]. destruct (forallb _ m) eqn:F; [|done].
    intros [= <-]. unfold proper, size. simpl. do 3 (split; [done|]). intros i row Hi. rewrite forallb_forall in F.
    apply Nat.eqb_eq, F, elem_of_list_In. by eapply elem_of_list_lookup_2.
  - intros [= <-]. unfold proper, size, build_distance_matrix. simpl. do 2 (split; [done|]). split; [by rewrite map_length|].
    intros i row Hi. change (map ?f co) with (f <$> co) in Hi. rewrite list_lookup_fmap in Hi. destruct (co !! i); [|done]. injection Hi as <-.
    by rewrite map_length.
Qed.
Lemma cluster_new_symmetric {P} (distance : P -> P -> Q) si sp co ro c : (forall x y, (distance x y == distance y x)%Q) ->
  cluster_new distance si sp co ro None = Ok c -> symmetric c.
Proof.
  intros Hd. unfold cluster_new. destruct (negb _); [done|]. destruct (negb _); [done|]. destruct (negb _); [done|]. intros [= <-].
  assert (G : forall i j x, dist_at (Cluster (match si with Some l => l | None => map Z.of_nat (seq 0 (length sp)) end) sp
    (match ro with Some l => l | None => replicate (length sp) ""%string end) (build_distance_matrix distance co)) i j = Some x ->
    exists p q, co !! i = Some p /\ co !! j = Some q /\ x = distance p q).
  { intros i j x H. unfold dist_at, build_distance_matrix in H. simpl in H.
    change (map (fun x0 => map (fun y0 => distance x0 y0) co) co) with ((fun x0 => map (fun y0 => distance x0 y0) co) <$> co) in H.
    rewrite list_lookup_fmap in H. destruct (co !! i) as [p|]; [|done]. simpl in H.
    change (map (fun y0 => distance p y0) co) with ((fun y0 => distance p y0) <$> co) in H. rewrite list_lookup_fmap in H.
    destruct (co !! j) as [q|]; [|done]. injection H as <-. eauto. }
  intros i j x y Hx Hy. apply G in Hx as (p & q & H1 & H2 & ->), Hy as (q' & p' & H3 & H4 & ->).
  rewrite H1 in H4. rewrite H2 in H3. injection H4 as <-. injection H3 as <-. apply Hd.
Qed.

Lemma labels_preserving ref cand : proper ref -> proper cand -> Permutation (cl_labels ref) (cl_labels cand) ->
  exists p, label_preserving ref cand p.
Proof. intros Pr Pc H. destruct (nearest_ok ref cand Pr Pc H) as (p & _ & _ & Hp & _). eauto. Qed.
Lemma nearest_fails_lemma round8 rtol atol ref cand : proper ref -> proper cand -> symmetric ref -> symmetric cand ->
  (cluster_match round8 ref rtol atol cand false true = Err ValueError <-> forall p, ~ label_preserving ref cand p).
Proof.
  intros Pr Pc Sr Sc. split.
  - intros H p Hp. pose proof (label_preserving_labels ref cand p Pr Pc Hp) as Hl.
    destruct (match_cases round8 rtol atol ref cand Pr Pc Sr Sc false true Hl) as (perms & _ & E & M).
    destruct perms as [|q rest].
    + destruct (nearest_result round8 rtol atol ref cand Pr Pc Sr Sc Hl) with false as (m & Hm & _); [|congruence].
      intros p' Hp'. apply E in Hp'. by apply elem_of_nil in Hp'.
    + rewrite H in M. cbn [andb] in M.
      destruct (build_ok cand q (match rest with [] => true | _ => false end) 0%Q Pc) as (m & Hm & _); [|congruence].
      eapply fits_perm; [done|]. apply E. by left.
  - intros H. apply match_no_labels. intros Hl. destruct (labels_preserving ref cand Pr Pc Hl) as [p Hp]. by apply (H p).
Qed.
