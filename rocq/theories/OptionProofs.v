(** Proofs about option values. *)
From Coq Require Import Ascii String.
From Verif Require Import Py PyLemmas Json CallbackModel CallbackSpec CallbackProofs LocalBarrierModel
  OptionModel OptionSpec.
Local Open Scope list_scope.
Local Open Scope nat_scope.

Section Options.
  Context (literal_eval : string -> evaluated) (text_of : value -> string).
  Notation parse_sequence := (parse_sequence literal_eval text_of).
  Notation parse_shape := (parse_supercell_shape literal_eval text_of).
  Notation lists := (lists literal_eval text_of).

  Lemma pieces_lemma s parts : pieces_of s parts <->
    parts = List.filter (fun x => negb (String.eqb x "")) (map py_strip (split_all ","%char s)).
  Proof using.
    split.
    - intros (pieces & H1 & H2 & <- & ->). rewrite split_all_joined by done. done.
    - intros ->. destruct (split_all_spec ","%char s) as (H1 & H2 & H3). by exists (split_all ","%char s).
  Qed.

  Lemma sequence_lemma v l : parse_sequence v = Parsed (Some l) <-> lists v l.
  Proof using.
    split.
    - destruct v as [|s|l0|l0|d|]; cbn; [done| |intros [= <-]; constructor|intros [= <-]; constructor| |].
      + destruct (literal_eval s) as [[| | | | |]| |] eqn:E; try done; intros [= <-].
        * by constructor 3.
        * by constructor 4.
        * apply lists_pieces; [done|]. by apply pieces_lemma.
      + intros [= <-]. apply lists_other; [right; by eexists|]. by apply pieces_lemma.
      + intros [= <-]. apply lists_other; [by left|]. by apply pieces_lemma.
    - intros []; cbn; try done.
      + by rewrite H.
      + by rewrite H.
      + rewrite H. apply pieces_lemma in H0. unfold comma_parts. by rewrite H0.
      + apply pieces_lemma in H0. unfold comma_parts.
        destruct H as [->|[d ->]]; cbn; by rewrite H0.
  Qed.

  Lemma int_item_lemma i z : int_item i = Parsed z <-> integer i z.
  Proof using.
    unfold integer. destruct i as [j| | |]; cbn.
    - destruct (py_int j) as [z'|] eqn:E; split.
      + intros [= <-]. by exists j.
      + intros (j' & [= <-] & H). congruence.
      + done.
      + intros (j' & [= <-] & H). congruence.
    - split; [done|]. by intros (? & ? & _).
    - split; [done|]. by intros (? & ? & _).
    - split; [done|]. by intros (? & ? & _).
  Qed.
  Lemma int_items_lemma l : forall zs, int_items l = Parsed zs <-> Forall2 integer l zs.
  Proof using.
    induction l as [|i l IH]; intros zs; cbn.
    - split; [intros [= <-]; constructor|]. by intros ->%Forall2_nil_inv_l.
    - destruct (int_item i) as [z|] eqn:E.
      + destruct (int_items l) as [zs'|] eqn:El; split.
        * intros [= <-]. constructor; [by apply int_item_lemma|by apply IH].
        * intros (z' & zs1 & Hi & Hl & ->)%Forall2_cons_inv_l.
          apply int_item_lemma in Hi. apply IH in Hl. congruence.
        * done.
        * intros (z' & zs1 & Hi & Hl & ->)%Forall2_cons_inv_l. apply IH in Hl. congruence.
      + split; [done|]. intros (z' & zs1 & Hi & Hl & ->)%Forall2_cons_inv_l.
        apply int_item_lemma in Hi. congruence.
  Qed.

  Lemma shape_lemma v zs :
    parse_shape v = Parsed (Some zs) <->
    exists a b c x y z, lists v [a; b; c] /\ zs = [x; y; z] /\ integer a x /\ integer b y /\ integer c z.
  Proof using.
    unfold parse_supercell_shape. split.
    - intros H. destruct (parse_sequence v) as [[l|]|] eqn:E; try done.
      apply sequence_lemma in E. destruct (int_items l) as [zs'|] eqn:El; [|done].
      destruct (Nat.eqb_spec (length zs') 3) as [Hn|]; [|done]. injection H as <-.
      apply int_items_lemma in El. destruct zs' as [|x [|y [|z [|]]]]; try done.
      apply Forall2_cons_inv_r in El as (a & l1 & Ha & El & ->).
      apply Forall2_cons_inv_r in El as (b & l2 & Hb & El & ->).
      apply Forall2_cons_inv_r in El as (c & l3 & Hc & El & ->).
      apply Forall2_nil_inv_r in El as ->. by exists a, b, c, x, y, z.
    - intros (a & b & c & x & y & z & Hl & -> & Ha & Hb & Hc).
      apply sequence_lemma in Hl as ->.
      rewrite (proj2 (int_items_lemma [a; b; c] [x; y; z])); [done|]. by repeat constructor.
  Qed.

  Lemma shape_none v : parse_shape v = Parsed None <-> v = VNone.
  Proof using.
    unfold parse_supercell_shape. split; [|by intros ->].
    destruct (parse_sequence v) as [[l|]|] eqn:E; try done.
    - destruct (int_items l) as [zs'|]; [|done]. by destruct (length zs' =? 3).
    - intros _. destruct v; cbn in E; try done.
      by destruct (literal_eval s) as [[]| |].
  Qed.

  Lemma int_items_back zs : int_items (map (fun z => Item (JInt z)) zs) = Parsed zs.
  Proof using. induction zs as [|z zs IH]; [done|]. cbn. by rewrite IH. Qed.

  Lemma twice_lemma s : cli_shape literal_eval text_of (Some s) = parse_shape (VText s).
  Proof using.
    unfold cli_shape. destruct (parse_shape (VText s)) as [[zs|]|] eqn:E; try done.
    unfold parse_supercell_shape at 1. cbn. rewrite int_items_back.
    apply shape_lemma in E as (a & b & c & x & y & z & _ & -> & _). done.
  Qed.

  Lemma int_item_other i f : int_item i = Failed f -> f <> EvalError /\ (f = OverflowError <-> i = Infinite).
  Proof using.
    destruct i as [j| | |]; cbn; [destruct (py_int j); [done|]| | |]; by intros [= <-].
  Qed.
  Lemma int_items_failed l : forall f, int_items l = Failed f -> f <> EvalError /\
    (f = OverflowError -> exists pre post, l = pre ++ Infinite :: post /\
       Forall (fun i => exists z, integer i z) pre).
  Proof using.
    induction l as [|i l IH]; intros f; cbn; [done|]. destruct (int_item i) as [z|f'] eqn:E.
    - destruct (int_items l) as [|f'] eqn:El; [done|]. intros [= <-].
      destruct (IH f' eq_refl) as [H1 H2]. split; [done|]. intros Hf.
      destruct (H2 Hf) as (pre & post & -> & Hp). exists (i :: pre), post. split; [done|].
      constructor; [|done]. exists z. by apply int_item_lemma.
    - intros [= <-]. destruct (int_item_other _ _ E) as [H1 H2]. split; [done|].
      intros Hf. apply H2 in Hf as ->. by exists [], l.
  Qed.
  Lemma int_items_infinite pre post : Forall (fun i => exists z, integer i z) pre ->
    int_items (pre ++ Infinite :: post) = Failed OverflowError.
  Proof using.
    induction 1 as [|i pre (z & Hz) _ IH]; [done|]. apply int_item_lemma in Hz. cbn. rewrite Hz.
    by rewrite IH.
  Qed.
  Lemma shape_failed_lemma v :
    (parse_shape v = Failed EvalError <-> exists s, v = VText s /\ literal_eval s = Escaped) /\
    (parse_shape v = Failed OverflowError <->
     exists pre post, lists v (pre ++ Infinite :: post) /\ Forall (fun i => exists z, integer i z) pre).
  Proof using.
    split; split.
    - unfold parse_supercell_shape. destruct (parse_sequence v) as [[l|]|f] eqn:E.
      + destruct (int_items l) as [zs|f] eqn:El; [by destruct (length zs =? 3)|].
        intros [= ->]. by destruct (int_items_failed _ _ El).
      + done.
      + intros [= ->]. destruct v; cbn in E; try done.
        exists s. split; [done|]. by destruct (literal_eval s) as [[]| |].
    - intros (s & -> & H). unfold parse_supercell_shape. cbn. by rewrite H.
    - unfold parse_supercell_shape. destruct (parse_sequence v) as [[l|]|f] eqn:E.
      + apply sequence_lemma in E.
        destruct (int_items l) as [zs|f] eqn:El; [by destruct (length zs =? 3)|].
        intros [= ->]. destruct (int_items_failed _ _ El) as [_ H].
        destruct (H eq_refl) as (pre & post & -> & Hp). by exists pre, post.
      + done.
      + intros [= ->]. destruct v; cbn in E; try done.
        by destruct (literal_eval s) as [[]| |].
    - intros (pre & post & Hl & Hp). apply sequence_lemma in Hl.
      unfold parse_supercell_shape. rewrite Hl. by rewrite int_items_infinite.
  Qed.

  Lemma mapping_lemma v :
    (forall d, parse_mapping literal_eval v = Parsed (Some d) <->
      v = VDict d \/ exists s, v = VText s /\ literal_eval s = Evaluated (VDict d)) /\
    (parse_mapping literal_eval v = Parsed None <-> v = VNone) /\
    (parse_mapping literal_eval v = Failed EvalError <-> exists s, v = VText s /\ literal_eval s = Escaped) /\
    parse_mapping literal_eval v <> Failed OverflowError.
  Proof using.
    split; [|split; [|split]].
    - intros d. split.
      + destruct v as [|s|l|l|d'|]; cbn; try done; [|intros [= <-]; by left].
        destruct (literal_eval s) as [[]| |] eqn:E; try done. intros [= <-]. right. by exists s.
      + intros [->|(s & -> & H)]; cbn; [done|]. by rewrite H.
    - split; [|by intros ->]. destruct v as [|s| | | |]; cbn; try done.
      by destruct (literal_eval s) as [[]| |].
    - split.
      + destruct v as [|s| | | |]; cbn; try done. intros H. exists s. split; [done|].
        by destruct (literal_eval s) as [[]| |].
      + intros (s & -> & H). cbn. by rewrite H.
    - destruct v as [|s| | | |]; cbn; try done. by destruct (literal_eval s) as [[]| |].
  Qed.
  Lemma mapping_twice s : cli_mapping literal_eval (Some s) = parse_mapping literal_eval (VText s).
  Proof using.
    unfold cli_mapping. by destruct (parse_mapping literal_eval (VText s)) as [[d|]|].
  Qed.
End Options.
