(** Proofs about model objects shared by several simulations. *)
From Coq Require Import Lia.
From Verif Require Import Py PyLemmas ActiveSiteModel EventModel StateModel HopModel KmcModel
  SiteEnergyModel   SharedModel SharedSpec.
Local Open Scope nat_scope.

Section SharedProofs.
  Context {T : Type}.
  Variable add : T -> T -> T.
  Context {M : Type}.
  Variable reinit : M -> list Z -> event_lib -> result M.
  Variable model_apply : M -> event -> list Z -> result M.
  Variable rate : M -> list Z -> event -> result T.
  Variable select : list T -> T -> T -> result (nat * T).
  Notation perform := (perform add reinit model_apply rate select).
  Notation performs := (performs add reinit model_apply rate select).
  Notation update := (update add model_apply rate).
  Notation propose := (propose select).

  Lemma performs_app s l1 l2 s' :
    performs s (l1 ++ l2) = Ok s' <->
    exists s1, performs s l1 = Ok s1 /\ performs s1 l2 = Ok s'.
  Proof.
    revert s. induction l1 as [|a l1 IH]; intros s; simpl.
    { split; [intros H; by exists s|]. by intros (s1 & [= ->] & H). }
    unfold SharedModel.performs in *. simpl. destruct (perform s a) as [s0|x]; simpl.
    - apply IH.
    - split; [done|]. by intros (? & ? & _).
  Qed.

  Lemma rmapM_ext {A B} (f g : A -> result B) l :
    (forall x, f x = g x) -> rmapM f l = rmapM g l.
  Proof. intros H. induction l as [|x l IH]; simpl; [done|]. by rewrite H, IH. Qed.
  Lemma rfold_ext {A S} (f g : S -> A -> result S) l : (forall s x, f s x = g s x) ->
    forall s, rfold f s l = rfold g s l.
  Proof.
    intros H. induction l as [|x l IH]; intros s; simpl; [done|]. rewrite H.
    by destruct (g s x); simpl.
  Qed.

  Section Forgetful.
    Hypothesis HF : forgetful reinit model_apply rate.

    Lemma construct_alone m m' lib lk st k :
      construct add (reinit m) rate lib lk st = Ok k ->
      exists k', construct add (reinit m') rate lib lk st = Ok k' /\ same_but_model k k'.
    Proof.
      destruct HF as (H1 & H2 & _). unfold construct. intros H.
      apply rbind_ok in H as (x & -> & H). cbn [rbind].
      apply rbind_ok in H as (m1 & _ & H). apply rbind_ok in H as (p & Hp & H).
      injection H as <-.
      destruct (H2 m' (occupations st) lib) as (m2 & ->). cbn [rbind].
      rewrite (rmapM_ext _ (rate m1 (occupations st))) by (intros; apply H1).
      rewrite Hp. cbn [rbind]. eexists. split; [reflexivity|]. by repeat split.
    Qed.

    Lemma update_alone k k0 e dt k1 :
      same_but_model k k0 -> update k e dt = Ok k1 ->
      exists k1', update k0 e dt = Ok k1' /\ same_but_model k1 k1'.
    Proof.
      destruct HF as (F1 & _ & F3). intros (H1&H2&H3&H4&H5) H.
      unfold KmcModel.update in *. rewrite <- H3, <- H1, <- H4.
      apply rbind_ok in H as (st & -> & H). cbn [rbind].
      apply rbind_ok in H as (m & _ & H). apply rbind_ok in H as (i & Hi & H).
      apply rbind_ok in H as (p & Hp & [= <-]).
      destruct (F3 (k_model k0) e (occupations st)) as (m2 & ->). cbn [rbind].
      rewrite Hi. cbn [rbind].
      rewrite (rfold_ext _ (refresh rate (k_lib k) m (occupations st))).
      2:{ intros s x. unfold refresh. destruct (py_get _ _); [|done]. cbn [rbind].
          by rewrite (F1 m2 m). }
      rewrite Hp. cbn [rbind]. eexists. split; [reflexivity|]. by repeat split.
    Qed.

    (** Before the object is made, and after it. *)
    Lemma alone_after i : forall l s s' m0 k0 k,
      performs s l = Ok s' -> snd s !! i = Some k -> same_but_model k k0 ->
      exists k' m1 k1, snd s' !! i = Some k' /\
        performs (m0, [k0]) (own i (length (snd s)) l) = Ok (m1, [k1]) /\ same_but_model k' k1.
    Proof.
      induction l as [|a l IH]; intros s s' m0 k0 k H Hk Hs.
      { injection H as <-. by exists k, m0, k0. }
      assert (Hi : i < length (snd s)) by (by eapply lookup_lt_Some).
      unfold SharedModel.performs in H. simpl in H. apply rbind_ok in H as (s1 & Ha & H).
      destruct a as [lib lk st|j u]; simpl in Ha.
      - apply rbind_ok in Ha as (kn & _ & [= <-]). simpl.
        assert ((i =? length (snd s)) = false) as -> by (apply Nat.eqb_neq; lia).
        replace (S (length (snd s))) with (length (snd (k_model kn, (snd s ++ [kn])%list)))
          by (simpl; rewrite app_length; simpl; lia).
        eapply IH; [exact H| |exact Hs]. simpl. by rewrite lookup_app_l.
      - destruct (snd s !! j) as [kj|] eqn:Ej; [|done].
        apply rbind_ok in Ha as ([e dt] & Hp & Ha). apply rbind_ok in Ha as (k' & Hu & [= <-]).
        simpl in Hu. simpl.
        assert (El : length (snd s) = length (snd (k_model k', <[j:=k']> (snd s))))
          by (simpl; by rewrite insert_length).
        destruct (Nat.eqb_spec i j) as [<-|Hij].
        + rewrite Hk in Ej. injection Ej as <-.
          assert (Hs' : same_but_model (with_model k (fst s)) (with_model k0 m0))
            by (destruct Hs as (?&?&?&?&?); by repeat split).
          destruct (update_alone _ _ _ _ _ Hs' Hu) as (k1 & Hu1 & Hs1).
          unfold SharedModel.performs. cbn [rfold]. simpl.
          assert (Hp1 : propose (with_model k0 m0) (fst u) (snd u) = Ok (e, dt)).
          { destruct Hs as (E1&_&_&_&E5). unfold KmcModel.propose in *. simpl in *.
            by rewrite <- E1, <- E5. }
          rewrite Hp1. cbn [rbind fst snd]. rewrite Hu1. cbn [rbind].
          rewrite El. eapply IH; [exact H| |exact Hs1]. simpl.
          by apply list_lookup_insert.
        + rewrite El. eapply IH; [exact H| |exact Hs]. simpl.
          by rewrite list_lookup_insert_ne.
    Qed.

    Lemma alone_lemma i : forall l s s' m0 k,
      performs s l = Ok s' -> length (snd s) <= i -> snd s' !! i = Some k ->
      exists m1 k1, performs (m0, []) (own i (length (snd s)) l) = Ok (m1, [k1]) /\
        same_but_model k k1.
    Proof.
      induction l as [|a l IH]; intros s s' m0 k H Hi Hk.
      { injection H as <-. apply lookup_lt_Some in Hk. lia. }
      unfold SharedModel.performs in H. simpl in H. apply rbind_ok in H as (s1 & Ha & H).
      destruct a as [lib lk st|j u]; simpl in Ha.
      - apply rbind_ok in Ha as (kn & Hc & [= <-]). simpl.
        assert (El : S (length (snd s)) = length (snd (k_model kn, (snd s ++ [kn])%list)))
          by (simpl; rewrite app_length; simpl; lia).
        destruct (Nat.eqb_spec i (length (snd s))) as [->|Hne].
        + destruct (construct_alone _ m0 _ _ _ _ Hc) as (k1 & Hc1 & Hs1).
          unfold SharedModel.performs. cbn [rfold]. simpl. rewrite Hc1. cbn [rbind].
          rewrite El. simpl.
          edestruct (alone_after (length (snd s)) l) as (k' & m1 & k2 & G1 & G2 & G3);
            [exact H| |exact Hs1|].
          { simpl. rewrite lookup_app_r by lia. by rewrite Nat.sub_diag. }
          simpl in G1, G2. rewrite Hk in G1. injection G1 as <-. by exists m1, k2.
        + rewrite El. eapply IH; [exact H|lia|exact Hk].
      - destruct (snd s !! j) as [kj|] eqn:Ej; [|done].
        apply rbind_ok in Ha as ([e dt] & Hp & Ha). apply rbind_ok in Ha as (k' & Hu & [= <-]).
        simpl. assert ((i =? j) = false) as ->.
        { apply Nat.eqb_neq. apply lookup_lt_Some in Ej. lia. }
        replace (length (snd s)) with (length (snd (k_model k', <[j:=k']> (snd s))))
          by (simpl; by rewrite insert_length).
        eapply IH; [exact H| |exact Hk]. simpl. by rewrite insert_length.
    Qed.
  End Forgetful.

  (** ** One after the other *)
  Lemma steps_last us : forall n s s' k,
    performs s (map (Step n) us) = Ok s' ->
    length (snd s) = S n -> snd s !! n = Some k ->
    exists m' k', performs (fst s, [k]) (map (Step 0) us) = Ok (m', [k']) /\
      m' = fst s' /\ snd s' !! n = Some k'.
  Proof.
    induction us as [|u us IH]; intros n s s' k H Hl Hk.
    { injection H as <-. by exists (fst s), k. }
    unfold SharedModel.performs in *. simpl in H. apply rbind_ok in H as (s1 & Ha & H).
    rewrite Hk in Ha. simpl.
    apply rbind_ok in Ha as (ed & Hp & Ha). rewrite Hp. cbn [rbind].
    apply rbind_ok in Ha as (k1 & Hu & [= <-]). rewrite Hu. cbn [rbind].
    destruct (IH n _ s' k1 H) as (m' & k' & G).
    - simpl. by rewrite insert_length.
    - simpl. apply list_lookup_insert. lia.
    - exists m', k'. exact G.
  Qed.

  Lemma performs_keep (P : M -> Prop) l : forall s s',
    (forall m occ lib m', P m -> reinit m occ lib = Ok m' -> P m') ->
    (forall m e occ m', P m -> model_apply m e occ = Ok m' -> P m') ->
    P (fst s) -> performs s l = Ok s' -> P (fst s').
  Proof.
    unfold SharedModel.performs. intros s s' H1 H2. revert s.
    induction l as [|a l IH]; intros s HP H; simpl in H; [by injection H as <-|].
    apply rbind_ok in H as (s1 & Ha & H). eapply IH; [|exact H].
    destruct a as [lib lk st|i u]; simpl in Ha.
    - apply rbind_ok in Ha as (k & Hc & [= <-]). simpl. unfold construct in Hc.
      apply rbind_ok in Hc as (x & _ & Hc). apply rbind_ok in Hc as (m & Hm & Hc).
      apply rbind_ok in Hc as (p & _ & [= <-]). simpl. by eapply H1.
    - destruct (snd s !! i) as [k|]; [|done].
      apply rbind_ok in Ha as (ed & _ & Ha). apply rbind_ok in Ha as (k' & Hu & [= <-]).
      simpl. unfold KmcModel.update in Hu. apply rbind_ok in Hu as (st & _ & Hu).
      apply rbind_ok in Hu as (m & Hm & Hu). apply rbind_ok in Hu as (j & _ & Hu).
      apply rbind_ok in Hu as (p & _ & [= <-]). simpl in *. by eapply H2.
  Qed.

  Lemma in_turn_lemma (P : M -> Prop) before lib lk st us m0 m s' :
    (forall m occ lib m', P m -> reinit m occ lib = Ok m' -> P m') ->
    (forall m e occ m', P m -> model_apply m e occ = Ok m' -> P m') ->
    (forall m m' occ lib, P m -> P m' -> reinit m occ lib = reinit m' occ lib) ->
    P m0 -> P m ->
    performs (m0, []) (before ++ Make lib lk st :: map (Step (length (List.filter
      (fun a => match a with Make _ _ _ => true | _ => false end) before))) us) = Ok s' ->
    exists m' k', last (snd s') = Some k' /\
      performs (m, []) (Make lib lk st :: map (Step 0) us) = Ok (m', [k']) /\ m' = fst s'.
  Proof.
    intros HP1 HP2 HR HP0 HPm H. apply performs_app in H as (s1 & H1 & H2).
    assert (HPs : P (fst s1)) by (eapply performs_keep; [exact HP1|exact HP2| |exact H1]; exact HP0).
    assert (Hn : length (List.filter (fun a : use T =>
      match a with Make _ _ _ => true | _ => false end) before) = length (snd s1)).
    { assert (G : forall l s, performs s l = Ok s1 ->
        length (snd s1) = length (snd s) + length (List.filter (fun a : use T =>
          match a with Make _ _ _ => true | _ => false end) l)).
      { unfold SharedModel.performs. induction l as [|a l IH]; intros s H; simpl in H.
        { injection H as <-. simpl. lia. }
        apply rbind_ok in H as (s2 & Ha & H). rewrite (IH _ H). destruct a; simpl in *.
        - apply rbind_ok in Ha as (kn & _ & [= <-]). simpl. rewrite app_length. simpl. lia.
        - destruct (snd s !! i) as [kj|]; [|done].
          apply rbind_ok in Ha as (ed & _ & Ha). apply rbind_ok in Ha as (k' & _ & [= <-]).
          simpl. by rewrite insert_length. }
      rewrite (G _ _ H1). done. }
    rewrite Hn in H2. unfold SharedModel.performs in H2. simpl in H2.
    apply rbind_ok in H2 as (s2 & Ha & H2). apply rbind_ok in Ha as (k & Hc & [= <-]).
    assert (Hc' : construct add (reinit m) rate lib lk st = Ok k).
    { unfold construct in *. by rewrite (HR m (fst s1)) by done. }
    edestruct (steps_last us (length (snd s1)) _ s' k H2) as (m' & k' & G1 & G2 & G3).
    { simpl. rewrite app_length. simpl. lia. }
    { simpl. rewrite lookup_app_r by lia. by rewrite Nat.sub_diag. }
    exists m', k'. split; [|split; [|done]].
    - assert (Hl : length (snd s') = S (length (snd s1))).
      { assert (G : forall us s, performs s (map (Step (length (snd s1))) us) = Ok s' ->
          length (snd s') = length (snd s)).
        { clear. unfold SharedModel.performs. induction us as [|u us IH]; intros s H; simpl in H.
          { by injection H as <-. }
          apply rbind_ok in H as (s2 & Ha & H). rewrite (IH _ H). simpl in Ha.
          destruct (snd s !! _) as [kj|]; [|done].
          apply rbind_ok in Ha as (ed & _ & Ha). apply rbind_ok in Ha as (k' & _ & [= <-]).
          simpl. by rewrite insert_length. }
        rewrite (G us _ H2). simpl. rewrite app_length. simpl. lia. }
      rewrite last_lookup, Hl. exact G3.
    - unfold SharedModel.performs. cbn [rfold]. simpl. rewrite Hc'. cbn [rbind]. exact G1.
  Qed.

  (** An object alone follows the run loop. *)
  Lemma steps_alone n (draws : nat -> T * T) : forall i (k : kmc T M),
    performs (k_model k, [k]) (map (fun j => Step 0 (draws j)) (seq i n)) =
    (let* kr := produce add model_apply rate select (fun (_ : unit) _ _ => Ok tt)
                  (fun _ _ => Ok tt) n i draws k tt in
     Ok (k_model (fst kr), [fst kr])).
  Proof.
    unfold SharedModel.performs. induction n as [|n IH]; intros i k; [done|].
    cbn [seq map rfold produce SharedModel.perform snd fst base.lookup list_lookup].
    assert (with_model k (k_model k) = k) as -> by (by destruct k).
    destruct (propose k (fst (draws i)) (snd (draws i))) as [ed|x]; cbn [rbind]; [|done].
    destruct (update k (fst ed) (snd ed)) as [k'|x]; cbn [rbind]; [|done].
    cbn [base.insert list_insert]. apply IH.
  Qed.
  Lemma object_alone_lemma m lib lk st n (draws : nat -> T * T) :
    performs (m, []) (Make lib lk st :: map (fun j => Step 0 (draws j)) (seq 0 n)) =
    (let* k := construct add (reinit m) rate lib lk st in
     let* kr := produce add model_apply rate select (fun (_ : unit) _ _ => Ok tt)
                  (fun _ _ => Ok tt) n 0 draws k tt in
     Ok (k_model (fst kr), [fst kr])).
  Proof.
    unfold SharedModel.performs. cbn [rfold SharedModel.perform snd fst app].
    destruct (construct add (reinit m) rate lib lk st) as [k|x]; cbn [rbind]; [|done].
    apply steps_alone.
  Qed.
End SharedProofs.

(** ** The evaluator *)
Lemma reinit_runtime {Rt} text parse_int parse_float cfg given (m m' : cache Rt) occ lib :
  se_reinitialize text parse_int parse_float cfg given m occ lib = Ok m' ->
  sc_runtime m' = sc_runtime m.
Proof.
  unfold se_reinitialize, initialize_state. intros H.
  apply rbind_ok in H as (c & _ & H). apply rbind_ok in H as (x & _ & H).
  apply rbind_ok in H as (l & _ & H). cbv zeta in H.
  apply rbind_ok in H as (da & _ & H). apply rbind_ok in H as (y & _ & H).
  by injection H as <-.
Qed.
Lemma apply_runtime {Rt} text parse_int parse_float (m m' : cache Rt) e occ :
  se_apply text parse_int parse_float None m e occ = Ok m' -> sc_runtime m' = sc_runtime m.
Proof.
  unfold se_apply. intros H. apply rbind_ok in H as (chs & _ & H).
  destruct chs; [by injection H as <-|]. cbn [rbind] in H.
  apply rbind_ok in H as (a & _ & H). by injection H as <-.
Qed.
