(** Proofs about pairs of runs. *)
From Coq Require Import Lia.
From Verif Require Import Py PyLemmas ActiveSiteModel EventModel StateModel HopModel KmcModel
  KmcSpec KmcProofs TrackerModel PropertyModel PropertySpec PropertyProofs RunModel RunProofs
  TrajectoryModel TrajectorySpec.
Local Open Scope nat_scope.

Section Pair.
  Context {T : Type}.
  Variable zero : T.
  Variable add : T -> T -> T.
  Context {M : Type}.
  Variable model_apply : M -> event -> list Z -> result M.
  Variable compute_probability : M -> list Z -> event -> result T.
  Variable select : list T -> T -> T -> result (nat * T).
  Notation update := (KmcModel.update add model_apply compute_probability).
  Notation propose := (propose select).
  Notation equilibrate := (equilibrate zero add model_apply compute_probability select).

  Lemma same_refl (k : kmc T M) : same_configuration k k.
  Proof. by repeat split. Qed.
  Lemma same_sym (k k' : kmc T M) : same_configuration k k' -> same_configuration k' k.
  Proof. intros (?&?&?&?&?&?). by repeat split. Qed.
  Lemma same_trans (k k' k'' : kmc T M) :
    same_configuration k k' -> same_configuration k' k'' -> same_configuration k k''.
  Proof. intros (?&?&?&?&?&?) (?&?&?&?&?&?). repeat split; congruence. Qed.

  Lemma same_full (k k' : kmc T M) :
    same_configuration k k' -> k_state k = k_state k' -> k = k'.
  Proof. destruct k, k'. intros (?&?&?&?&?&?) ?. simpl in *. by subst. Qed.

  Lemma propose_same (k k' : kmc T M) u1 u2 :
    same_configuration k k' -> propose k u1 u2 = propose k' u1 u2.
  Proof. intros (H1&_&_&_&_&H6). unfold KmcModel.propose. by rewrite H1, H6. Qed.

  Lemma update_same k k' e dt dt' k1 :
    same_configuration k k' -> update k e dt = Ok k1 ->
    exists k1', update k' e dt' = Ok k1' /\ same_configuration k1 k1' /\
      (step (k_state k) = step (k_state k') -> step (k_state k1) = step (k_state k1')) /\
      (k = k' -> dt = dt' -> k1 = k1').
  Proof.
    intros (H1&H2&H3&H4&H5&H6) H.
    unfold KmcModel.update in *.
    apply rbind_ok in H as (st & Hst & H).
    apply rbind_ok in H as (m & Hm & H). apply rbind_ok in H as (i & Hi & H).
    apply rbind_ok in H as (p & Hp & [= <-]).
    unfold apply_event in *. apply rbind_ok in Hst as (occ & Hocc & [= <-]).
    cbn [occupations] in *.
    rewrite <- H3, Hocc. cbn [rbind occupations].
    rewrite <- H4, Hm. cbn [rbind]. rewrite <- H1, Hi. cbn [rbind].
    rewrite <- H5, Hp. cbn [rbind].
    eexists. split; [reflexivity|]. split; [by repeat split|]. simpl. split; [congruence|].
    intros -> ->. done.
  Qed.

  Section Trackers.
    Context {R1 R2 : Type}.
    Variable upd1 : R1 -> state T -> event -> result R1.
    Variable upd2 : R2 -> state T -> event -> result R2.
    Variable sam1 : R1 -> state T -> result R1.
    Variable sam2 : R2 -> state T -> result R2.
    Variable Rel : R1 -> R2 -> Prop.

    (** Two runs that both finish. *)
    Lemma produce_both n :
      (forall r1 r2 st1 st2 e r1' r2', Rel r1 r2 -> occupations st1 = occupations st2 ->
        upd1 r1 st1 e = Ok r1' -> upd2 r2 st2 e = Ok r2' -> Rel r1' r2') ->
      (forall r1 r2 st1 st2 r1' r2', Rel r1 r2 -> sam1 r1 st1 = Ok r1' -> sam2 r2 st2 = Ok r2' ->
        Rel r1' r2') ->
      forall i j d1 d2 (k1 k2 : kmc T M) r1 r2 k1' k2' r1' r2',
      (forall m, d1 (i + m) = d2 (j + m)) ->
      same_configuration k1 k2 -> Rel r1 r2 ->
      produce add model_apply compute_probability select upd1 sam1 n i d1 k1 r1 = Ok (k1', r1') ->
      produce add model_apply compute_probability select upd2 sam2 n j d2 k2 r2 = Ok (k2', r2') ->
      same_configuration k1' k2' /\ Rel r1' r2' /\
      (step (k_state k1) = step (k_state k2) -> step (k_state k1') = step (k_state k2')) /\
      (k1 = k2 -> k1' = k2').
    Proof.
      intros Hupd Hsam.
      induction n as [|n IH]; intros i j d1 d2 k1 k2 r1 r2 k1' k2' r1' r2' Hd Hk Hr H1 H2.
      { cbn in H1, H2. injection H1 as <- <-. by injection H2 as <- <-. }
      cbn [produce] in H1, H2.
      apply rbind_ok in H1 as ([e dt] & Hp1 & H1). apply rbind_ok in H1 as (a1 & Hu1 & H1).
      apply rbind_ok in H1 as (ka & Hk1 & H1). apply rbind_ok in H1 as (b1 & Hs1 & H1).
      apply rbind_ok in H2 as ([e2 dt2] & Hp2 & H2). apply rbind_ok in H2 as (a2 & Hu2 & H2).
      apply rbind_ok in H2 as (kb & Hk2 & H2). apply rbind_ok in H2 as (b2 & Hs2 & H2).
      pose proof (Hd 0) as Hd0. rewrite !Nat.add_0_r in Hd0.
      rewrite (propose_same _ _ _ _ Hk), Hd0, Hp2 in Hp1.
      assert (e2 = e) as -> by congruence. assert (dt2 = dt) as -> by congruence.
      cbn [fst snd] in *.
      destruct (update_same _ _ _ _ dt _ Hk Hk1) as (kb' & Hkb & Hsame & Hst & Hfull).
      assert (kb' = kb) as -> by congruence.
      destruct (IH (S i) (S j) d1 d2 ka kb b1 b2 k1' k2' r1' r2') as (G1 & G2 & G3 & G4); try done.
      - intros m. specialize (Hd (S m)). by rewrite !Nat.add_succ_r in Hd.
      - eapply Hsam; [|done|done]. eapply (Hupd r1 r2); [done| |done|done]. by apply Hk.
      - split; [done|]. split; [done|]. split; [by intros E; apply G3, Hst|].
        intros E. by apply G4, Hfull.
    Qed.

    (** A run that finishes and another one that can follow it. *)
    Lemma produce_follows n :
      (forall r1 r2 st1 st2 e r1', Rel r1 r2 -> occupations st1 = occupations st2 ->
        upd1 r1 st1 e = Ok r1' -> exists r2', upd2 r2 st2 e = Ok r2' /\ Rel r1' r2') ->
      (forall r1 r2 st1 st2 r1', Rel r1 r2 -> sam1 r1 st1 = Ok r1' ->
        exists r2', sam2 r2 st2 = Ok r2' /\ Rel r1' r2') ->
      forall i j d1 d2 (k1 k2 : kmc T M) r1 r2 k1' r1',
      (forall m, d1 (i + m) = d2 (j + m)) ->
      same_configuration k1 k2 -> Rel r1 r2 ->
      produce add model_apply compute_probability select upd1 sam1 n i d1 k1 r1 = Ok (k1', r1') ->
      exists k2' r2',
      produce add model_apply compute_probability select upd2 sam2 n j d2 k2 r2 = Ok (k2', r2') /\
      same_configuration k1' k2' /\ Rel r1' r2' /\
      (step (k_state k1) = step (k_state k2) -> step (k_state k1') = step (k_state k2')) /\
      (k1 = k2 -> k1' = k2').
    Proof.
      intros Hupd Hsam.
      induction n as [|n IH]; intros i j d1 d2 k1 k2 r1 r2 k1' r1' Hd Hk Hr H1.
      { cbn in H1 |- *. injection H1 as <- <-. by exists k2, r2. }
      cbn [produce] in H1 |- *.
      apply rbind_ok in H1 as ([e dt] & Hp1 & H1). apply rbind_ok in H1 as (a1 & Hu1 & H1).
      apply rbind_ok in H1 as (ka & Hk1 & H1). apply rbind_ok in H1 as (b1 & Hs1 & H1).
      pose proof (Hd 0) as Hd0. rewrite !Nat.add_0_r in Hd0.
      rewrite (propose_same _ _ _ _ Hk), Hd0 in Hp1.
      cbn [fst snd] in *. rewrite Hp1. cbn [rbind fst snd].
      destruct (Hupd r1 r2 _ (k_state k2) _ _ Hr ltac:(by apply Hk) Hu1) as (a2 & -> & Hr1).
      cbn [rbind].
      destruct (update_same _ _ _ _ dt _ Hk Hk1) as (kb & -> & Hsame & Hst & Hfull).
      cbn [rbind].
      destruct (Hsam a1 a2 _ (k_state kb) _ Hr1 Hs1) as (b2 & -> & Hr2). cbn [rbind].
      destruct (IH (S i) (S j) d1 d2 ka kb b1 b2 k1' r1') as (k2' & r2' & G0 & G1 & G2 & G3 & G4);
        try done.
      { intros m. specialize (Hd (S m)). by rewrite !Nat.add_succ_r in Hd. }
      exists k2', r2'. split; [done|]. split; [done|]. split; [done|].
      split; [by intros E; apply G3, Hst|]. intros E. by apply G4, Hfull.
    Qed.
  End Trackers.

  (** Equilibration takes the steps production takes. *)
  Lemma equilibrate_produce {R} (upd : R -> state T -> event -> result R) sam n :
    forall i j d1 d2 (k1 k2 : kmc T M) r k1' k2' r',
    (forall m, d1 (i + m) = d2 (j + m)) ->
    same_configuration k1 k2 ->
    equilibrate n i d1 k1 = Ok k1' ->
    produce add model_apply compute_probability select upd sam n j d2 k2 r = Ok (k2', r') ->
    same_configuration k1' k2' /\
    (step (k_state k1) = step (k_state k2) -> step (k_state k1') = step (k_state k2')).
  Proof.
    induction n as [|n IH]; intros i j d1 d2 k1 k2 r k1' k2' r' Hd Hk H1 H2.
    { cbn in H1, H2. injection H1 as <-. by injection H2 as <- <-. }
    cbn [produce KmcModel.equilibrate] in H1, H2.
    apply rbind_ok in H1 as ([e dt] & Hp1 & H1). apply rbind_ok in H1 as (ka & Hk1 & H1).
    apply rbind_ok in H2 as ([e2 dt2] & Hp2 & H2). apply rbind_ok in H2 as (a2 & Hu2 & H2).
    apply rbind_ok in H2 as (kb & Hk2 & H2). apply rbind_ok in H2 as (b2 & Hs2 & H2).
    pose proof (Hd 0) as Hd0. rewrite !Nat.add_0_r in Hd0.
    rewrite (propose_same _ _ _ _ Hk), Hd0, Hp2 in Hp1.
    assert (e2 = e) as -> by congruence. cbn [fst snd] in *.
    destruct (update_same _ _ _ _ dt2 _ Hk Hk1) as (kb' & Hkb & Hsame & Hst & _).
    assert (kb' = kb) as -> by congruence.
    destruct (IH (S i) (S j) d1 d2 ka kb b2 k1' k2' r') as (G1 & G2); try done.
    - intros m. specialize (Hd (S m)). by rewrite !Nat.add_succ_r in Hd.
    - split; [done|]. intros E. by apply G2, Hst.
  Qed.

  Lemma equilibrate_same n :
    forall i j d1 d2 (k1 k2 : kmc T M) k1',
    (forall m, d1 (i + m) = d2 (j + m)) ->
    same_configuration k1 k2 ->
    equilibrate n i d1 k1 = Ok k1' ->
    exists k2', equilibrate n j d2 k2 = Ok k2' /\ same_configuration k1' k2' /\
    (step (k_state k1) = step (k_state k2) -> step (k_state k1') = step (k_state k2')) /\
    (k1 = k2 -> k1' = k2').
  Proof.
    induction n as [|n IH]; intros i j d1 d2 k1 k2 k1' Hd Hk H1.
    { cbn in H1 |- *. injection H1 as <-. by exists k2. }
    cbn [KmcModel.equilibrate] in H1 |- *.
    apply rbind_ok in H1 as ([e dt] & Hp1 & H1). apply rbind_ok in H1 as (ka & Hk1 & H1).
    pose proof (Hd 0) as Hd0. rewrite !Nat.add_0_r in Hd0.
    rewrite (propose_same _ _ _ _ Hk), Hd0 in Hp1. rewrite Hp1. cbn [rbind fst snd] in *.
    destruct (update_same _ _ _ _ zero _ Hk Hk1) as (kb & -> & Hsame & Hst & Hf). cbn [rbind].
    destruct (IH (S i) (S j) d1 d2 ka kb k1') as (k2' & G0 & G1 & G2 & G3); try done.
    - intros m. specialize (Hd (S m)). by rewrite !Nat.add_succ_r in Hd.
    - exists k2'. split; [done|]. split; [done|]. split; [by intros E; apply G2, Hst|].
      intros E. by apply G3, Hf.
  Qed.

  Lemma produce_split {R} (upd : R -> state T -> event -> result R) sam n m :
    forall i d (k : kmc T M) r k' r',
    produce add model_apply compute_probability select upd sam (n + m) i d k r = Ok (k', r') <->
    exists k1 r1,
      produce add model_apply compute_probability select upd sam n i d k r = Ok (k1, r1) /\
      produce add model_apply compute_probability select upd sam m (i + n) d k1 r1 = Ok (k', r').
  Proof.
    induction n as [|n IH]; intros i d k r k' r'.
    { rewrite Nat.add_0_r. simpl. split.
      - intros H. by exists k, r.
      - by intros (k1 & r1 & [= <- <-] & H). }
    cbn [Nat.add produce]. split.
    - intros H. apply rbind_ok in H as (ed & Hp & H). apply rbind_ok in H as (a & Hu & H).
      apply rbind_ok in H as (ka & Hk & H). apply rbind_ok in H as (b & Hs & H).
      apply IH in H as (k1 & r1 & H1 & H2). exists k1, r1.
      rewrite Hp. cbn [rbind]. rewrite Hu. cbn [rbind]. rewrite Hk. cbn [rbind].
      rewrite Hs. cbn [rbind]. split; [done|]. by rewrite Nat.add_succ_r.
    - intros (k1 & r1 & H & H2).
      apply rbind_ok in H as (ed & Hp & H). apply rbind_ok in H as (a & Hu & H).
      apply rbind_ok in H as (ka & Hk & H). apply rbind_ok in H as (b & Hs & H).
      rewrite Hp. cbn [rbind]. rewrite Hu. cbn [rbind]. rewrite Hk. cbn [rbind].
      rewrite Hs. cbn [rbind]. apply IH. exists k1, r1. split; [done|].
      by rewrite Nat.add_succ_r in H2.
  Qed.
End Pair.

(** ** The tracker's tables *)
Section Tables.
  Context {A B : Type}.

  Lemma update_tables str (t : tracker A) (t' : tracker B) occ e t1 :
    same_tables t t' -> update str t occ e = Ok t1 ->
    exists t1', update str t' occ e = Ok t1' /\ same_tables t1 t1' /\
      t_sampling t1' = t_sampling t'.
  Proof.
    intros (H1 & H2 & H3 & H4) H. unfold update, record_hop in *.
    rewrite <- H1, <- H2.
    apply rbind_ok in H as (codes & -> & H). cbn [rbind].
    apply rbind_ok in H as (d & -> & H). cbn [rbind].
    destruct (d =? 0)%Z.
    { injection H as <-. exists t'. by repeat split. }
    apply rbind_ok in H as (ft & -> & H). cbn [rbind].
    apply rbind_ok in H as (il & Hil & H).
    destruct (list_index _ _) as [i|]; [|done]. cbn [rbind].
    apply rbind_ok in H as (v & -> & H). cbn [rbind].
    injection Hil as <-. injection H as <-. eexists. split; [reflexivity|].
    split; [|done]. unfold same_tables. simpl. by rewrite H3, H4.
  Qed.

  Lemma create_tables str mobile (s : A) (s' : B) occ lk t :
    create str mobile s occ lk = Ok t ->
    exists t', create str mobile s' occ lk = Ok t' /\ same_tables t t' /\ t_sampling t' = s'.
  Proof.
    unfold create. intros H. apply rbind_ok in H as (mk & -> & H). cbn [rbind].
    apply rbind_ok in H as (x & -> & H). cbn [rbind]. injection H as <-.
    eexists. split; [reflexivity|]. by repeat split.
  Qed.

  (** Counting hops. *)
  Definition counts_ok (t : tracker A) : Prop := length (t_hops t) = length (t_locations t).
End Tables.

Lemma sum_alter_S l i : i < length l -> sum_list (alter S i l) = S (sum_list l).
Proof.
  revert i. induction l as [|x l IH]; intros i Hi; simpl in Hi; [lia|].
  destruct i as [|i]; simpl; [lia|]. specialize (IH i ltac:(lia)).
  unfold alter in IH. rewrite IH. lia.
Qed.

Lemma update_hops {A} str (t : tracker A) occ e t1 :
  counts_ok t -> update str t occ e = Ok t1 ->
  counts_ok t1 /\ t_lookup t1 = t_lookup t /\
  exists codes d, event_codes (t_lookup t) e = Ok codes /\ event_direction occ e codes = Ok d /\
    total_hops t1 = total_hops t + (if (d =? 0)%Z then 0 else 1).
Proof.
  intros Hc H. unfold update in H.
  apply rbind_ok in H as (codes & Hcodes & H). apply rbind_ok in H as (d & Hd & H).
  destruct (d =? 0)%Z eqn:E0.
  { injection H as <-. split; [done|]. split; [done|]. exists codes, d. split; [done|].
    split; [done|]. rewrite E0. lia. }
  apply rbind_ok in H as (ft & _ & H). apply rbind_ok in H as (il & Hil & H).
  apply rbind_ok in H as (v & _ & H). injection H as <-.
  unfold record_hop in Hil. destruct (list_index _ _) as [i|] eqn:Ei; [|done].
  injection Hil as <-. simpl. apply list_index_ok in Ei as [Ei _].
  apply lookup_lt_Some in Ei. unfold counts_ok in *. simpl. unfold modify.
  rewrite alter_length, insert_length. split; [done|]. split; [done|].
  exists codes, d. split; [done|]. split; [done|]. rewrite E0. unfold total_hops. simpl.
  rewrite sum_alter_S by lia. lia.
Qed.

Lemma sample_tables {T A B} (s1 : A -> list vec -> list nat -> state T -> result A)
    (s2 : B -> list vec -> list nat -> state T -> result B) t t' st st' t1 t1' :
  same_tables t t' ->
  TrackerModel.sample_properties s1 t st = Ok t1 ->
  TrackerModel.sample_properties s2 t' st' = Ok t1' -> same_tables t1 t1'.
Proof.
  unfold TrackerModel.sample_properties. intros (H1 & H2 & H3 & H4) H H'.
  apply rbind_ok in H as (? & _ & [= <-]). apply rbind_ok in H' as (? & _ & [= <-]).
  by repeat split.
Qed.

(** ** Whole runs *)
Section Runs.
  Context {T : Type}.
  Variable zero : T.
  Variable add : T -> T -> T.
  Context {M : Type}.
  Variable model_apply : M -> event -> list Z -> result M.
  Variable compute_probability : M -> list Z -> event -> result T.
  Variable select : list T -> T -> T -> result (nat * T).
  (** Two ways of measuring. *)
  Variable sub : T -> T -> T.
  Variable leb : T -> T -> bool.
  Variable fname : nat -> option string.
  Context {V : Type}.
  Variable call : nat -> state T -> Z -> T -> list (control T) * result V.
  Variable handle : nat -> exn -> state T -> Z -> T -> result bool.
  Variable transport : list vec * list nat -> T -> string -> option V.
  Variable sub2 : T -> T -> T.
  Variable leb2 : T -> T -> bool.
  Variable fname2 : nat -> option string.
  Context {V2 : Type}.
  Variable call2 : nat -> state T -> Z -> T -> list (control T) * result V2.
  Variable handle2 : nat -> exn -> state T -> Z -> T -> result bool.
  Variable transport2 : list vec * list nat -> T -> string -> option V2.
  Notation run1 := (run_simulation zero add sub leb model_apply compute_probability
    select fname call handle transport).
  Notation run2 := (run_simulation zero add sub2 leb2 model_apply compute_probability
    select fname2 call2 handle2 transport2).
  Notation produce := (produce add model_apply compute_probability select).
  Notation equilibrate := (equilibrate zero add model_apply compute_probability select).
  Notation take1 := (take_sample zero sub leb fname call handle transport).
  Notation take2 := (take_sample zero sub2 leb2 fname2 call2 handle2 transport2).

  Lemma open_tracker_inv str mobile (w : world T V) pl st lk tr :
    open_tracker zero sub leb fname call handle transport str mobile w pl st lk = Ok tr ->
    exists w', create str mobile w' (occupations st) lk = Ok tr.
  Proof. unfold open_tracker. intros (w' & _ & H)%rbind_ok. by exists w'. Qed.

  Lemma run_inv str mobile (w : world T V) eqp kp d (k k' : kmc T M) tr' :
    run1 str mobile w eqp kp d k = Ok (k', tr') ->
    let pl := pass_length (symbols str) mobile in
    exists k1 tr1, equilibrate (Z.to_nat eqp * pl) 0 d k = Ok k1 /\
      open_tracker zero sub leb fname call handle transport str mobile w pl (k_state k1)
        (k_lookup k1) = Ok tr1 /\
      produce (fun tr st e => update str tr (occupations st) e)
        (TrackerModel.sample_properties take1)
        (Z.to_nat kp * pl) (Z.to_nat eqp * pl) d k1 tr1 = Ok (k', tr').
  Proof.
    unfold run_simulation, KmcModel.run. intros (k1 & He & (tr1 & Hc & H)%rbind_ok)%rbind_ok.
    by exists k1, tr1.
  Qed.
End Runs.

Section Compare.
  Context {T : Type}.
  Variable zero : T.
  Variable add : T -> T -> T.
  Context {M : Type}.
  Variable model_apply : M -> event -> list Z -> result M.
  Variable compute_probability : M -> list Z -> event -> result T.
  Variable select : list T -> T -> T -> result (nat * T).
  Variable sub : T -> T -> T.
  Variable leb : T -> T -> bool.
  Variable fname : nat -> option string.
  Context {V : Type}.
  Variable call : nat -> state T -> Z -> T -> list (control T) * result V.
  Variable handle : nat -> exn -> state T -> Z -> T -> result bool.
  Variable transport : list vec * list nat -> T -> string -> option V.
  Variable sub2 : T -> T -> T.
  Variable leb2 : T -> T -> bool.
  Variable fname2 : nat -> option string.
  Context {V2 : Type}.
  Variable call2 : nat -> state T -> Z -> T -> list (control T) * result V2.
  Variable handle2 : nat -> exn -> state T -> Z -> T -> result bool.
  Variable transport2 : list vec * list nat -> T -> string -> option V2.
  Notation run1 := (run_simulation zero add sub leb model_apply compute_probability
    select fname call handle transport).
  Notation run2 := (run_simulation zero add sub2 leb2 model_apply compute_probability
    select fname2 call2 handle2 transport2).
  Notation produce := (produce add model_apply compute_probability select).
  Notation equilibrate := (equilibrate zero add model_apply compute_probability select).
  Notation take1 := (take_sample zero sub leb fname call handle transport).
  Notation take2 := (take_sample zero sub2 leb2 fname2 call2 handle2 transport2).

  Lemma runs_agree str mobile (w1 : world T V) (w2 : world T V2) eqp kp d (k1 k2 : kmc T M)
      k1' k2' t1 t2 :
    same_configuration k1 k2 ->
    run1 str mobile w1 eqp kp d k1 = Ok (k1', t1) ->
    run2 str mobile w2 eqp kp d k2 = Ok (k2', t2) ->
    same_configuration k1' k2' /\ same_tables t1 t2 /\
    (step (k_state k1) = step (k_state k2) -> step (k_state k1') = step (k_state k2')) /\
    (k1 = k2 -> k1' = k2').
  Proof.
    intros Hk (ka & ta & He1 & Ho1 & H1)%run_inv (kb & tb & He2 & Ho2 & H2)%run_inv.
    destruct (equilibrate_same _ _ _ _ _ _ 0 0 d d _ _ _ (fun m => eq_refl) Hk He1)
      as (kb' & Hb & Hs & Hst & Hf).
    assert (kb' = kb) as -> by congruence.
    apply open_tracker_inv in Ho1 as (w1' & Ho1). apply open_tracker_inv in Ho2 as (w2' & Ho2).
    destruct (create_tables _ _ _ w2' _ _ _ Ho1) as (tb' & Hb' & Ht & _).
    destruct Hs as (Hs1 & Hs2 & Hs3 & Hs4).
    assert (tb' = tb) as -> by (rewrite Hs2, Hs3 in Hb'; congruence).
    edestruct (produce_both add model_apply compute_probability select
      (fun tr st e => update str tr (occupations st) e)
      (fun tr st e => update str tr (occupations st) e)
      (TrackerModel.sample_properties take1) (TrackerModel.sample_properties take2) same_tables)
      as (G1 & G2 & G3 & G4); [| |intros m; reflexivity|..|exact H1|exact H2|].
    - intros r1 r2 st1 st2 e r1' r2' Hr Hocc Hu1 Hu2. rewrite Hocc in Hu1.
      destruct (update_tables _ _ _ _ _ _ Hr Hu1) as (r2'' & E & Hr' & _).
      by assert (r2'' = r2') as <- by congruence.
    - intros r1 r2 st1 st2 r1' r2' Hr Hu1 Hu2. by eapply sample_tables.
    - by split.
    - done.
    - split; [done|]. split; [done|]. split; [by intros E; apply G3, Hst|].
      intros E. by apply G4, Hf.
  Qed.

  (** A run without attachments follows any run. *)
  Definition idle (t : tracker (world T V2)) : Prop :=
    exists g, w_active (t_sampling t) = Some g /\ g_props g = [].

  Lemma take_idle (w : world T V2) g d h st :
    w_active w = Some g -> g_props g = [] ->
    exists w' g', take2 w d h st = Ok w' /\ w_active w' = Some g' /\ g_props g' = [].
  Proof.
    intros Hw Hg. unfold take_sample, act. rewrite Hw.
    unfold PropertyModel.sample_properties.
    assert (Hs : g_props (sample_summary sub2 leb2 transport2 g (d, h) (step st) (time st)) = []).
    { unfold sample_summary. by destruct (should_trigger _ _ _ _ _ _ _). }
    rewrite Hs. simpl. eexists _, _. split; [reflexivity|]. by split.
  Qed.

  Lemma unmeasured_follows str mobile (w1 : world T V) (w2 : world T V2) eqp kp d
      (k1 k1' : kmc T M) t1 :
    reachable zero sub2 leb2 fname2 call2 handle2 transport2 w2 ->
    p_attached (w_plan w2) = [] ->
    run1 str mobile w1 eqp kp d k1 = Ok (k1', t1) ->
    exists t2, run2 str mobile w2 eqp kp d k1 = Ok (k1', t2) /\ same_tables t1 t2.
  Proof.
    intros Hre Hno (ka & ta & He1 & Ho1 & H1)%run_inv.
    apply open_tracker_inv in Ho1 as (w1' & Ho1).
    destruct (reachable_inv _ _ _ _ _ _ _ _ Hre) as [Hp _].
    pose proof (tracker_for_run_ok zero leb2 fname2 _
      (pass_length (symbols str) mobile) Hp (V:=V2)) as E.
    rewrite Hno in E. simpl in E.
    match type of E with _ = Ok ?x => set (g0 := x) in * end.
    destruct (create_tables _ _ _ (World (w_plan w2) (Some g0)) _ _ _ Ho1) as (tb & Hb & Ht & Hts).
    edestruct (produce_follows add model_apply compute_probability select
      (fun tr st e => update str tr (occupations st) e)
      (fun tr st e => update str tr (occupations st) e)
      (TrackerModel.sample_properties take1) (TrackerModel.sample_properties take2)
      (fun a b => same_tables a b /\ idle b))
      as (k2' & r2' & G0 & G1 & (G2 & _) & _ & G4);
      [| |intros m; reflexivity|apply same_refl| |exact H1|].
    - intros r1 r2 st1 st2 e r1' [Hr Hi] Hocc Hu1. rewrite Hocc in Hu1.
      destruct (update_tables _ _ _ _ _ _ Hr Hu1) as (r2'' & E2 & Hr' & Hsm).
      exists r2''. split; [done|]. split; [done|]. unfold idle. by rewrite Hsm.
    - intros r1 r2 st1 st2 r1' [Hr (g & Hg & Hpr)] Hu1.
      destruct (take_idle _ _ (t_displacement r2) (t_hops r2) st2 Hg Hpr)
        as (w' & g' & Hw' & Hg' & Hpr').
      assert (Hs2 : TrackerModel.sample_properties take2 r2 st2 = Ok
        {| t_lookup := t_lookup r2; t_locations := t_locations r2;
           t_displacement := t_displacement r2; t_hops := t_hops r2; t_sampling := w' |}).
      { unfold TrackerModel.sample_properties. by rewrite Hw'. }
      eexists. split; [exact Hs2|]. split; [by eapply sample_tables|]. by exists g'.
    - split; [exact Ht|]. exists g0. by rewrite Hts.
    - exists r2'. split; [|done]. unfold run_simulation, KmcModel.run. rewrite He1. cbn [rbind].
      unfold open_tracker, act. rewrite E. cbn [done_with rbind]. rewrite Hb. cbn [rbind].
      rewrite G0. by rewrite (G4 eq_refl).
  Qed.

  (** Equilibration and production take the same steps. *)
  Lemma equilibration_agrees str mobile (w1 : world T V) (w2 : world T V2) eqp kp d
      (k k1 k2 : kmc T M) t1 t2 :
    (0 <= eqp)%Z -> (0 <= kp)%Z ->
    run1 str mobile w1 eqp kp d k = Ok (k1, t1) ->
    run2 str mobile w2 0 (eqp + kp) d k = Ok (k2, t2) ->
    same_configuration k1 k2 /\ step (k_state k1) = step (k_state k2).
  Proof.
    intros Hq Hp (ka & ta & He1 & Ho1 & H1)%run_inv (kb & tb & He2 & Ho2 & H2)%run_inv.
    cbn in He2. injection He2 as <-.
    rewrite Z2Nat.inj_add, Nat.mul_add_distr_r in H2 by done.
    apply produce_split in H2 as (kc & tc & H2 & H3).
    destruct (equilibrate_produce _ _ _ _ _ _ _ _ _ _ _ _ _ _ _ _ _ _
      (fun m => eq_refl) (same_refl _) He1 H2) as (G1 & G2).
    edestruct (produce_both add model_apply compute_probability select
      (fun tr st e => update str tr (occupations st) e)
      (fun tr st e => update str tr (occupations st) e)
      (TrackerModel.sample_properties take1) (TrackerModel.sample_properties take2)
      (fun _ _ => True))
      as (F1 & _ & F3 & _); [done|done| | | |exact H1|exact H3|].
    - intros m. reflexivity.
    - exact G1.
    - done.
    - split; [done|]. by apply F3, G2.
  Qed.
End Compare.

(** ** Tables and calls only grow *)
Section Grow.
  Context {T St Obs V : Type}.
  Variable zero : T.
  Variable sub : T -> T -> T.
  Variable leb : T -> T -> bool.
  Variable fname : nat -> option string.
  Variable call : nat -> St -> Z -> T -> list (control T) * result V.
  Variable handle : nat -> exn -> St -> Z -> T -> result bool.
  Variable transport : Obs -> T -> string -> option V.
  Notation sampling := (sampling T V).
  Notation world := (world T V).
  Notation kmc_control := (kmc_control zero leb fname (V:=V)).
  Notation kmc_controls := (kmc_controls zero leb fname (V:=V)).
  Notation sample_object := (PropertyModel.sample_object zero sub leb fname call handle).
  Notation sample_objects := (PropertyModel.sample_objects zero sub leb fname call handle).
  Notation sample_points := (PropertyModel.sample_points zero sub leb fname call handle transport).

  Definition same_calls (w w' : world) : Prop :=
    match w_active w, w_active w' with
    | Some g, Some g' => g_calls g' = g_calls g
    | None, None => True
    | _, _ => False
    end.
  Lemma on_active_calls w p (f : sampling -> result sampling) :
    (forall g g', f g = Ok g' -> g_calls g' = g_calls g) ->
    same_calls w (fst (on_active w p f)).
  Proof.
    intros Hf. unfold on_active, same_calls. destruct (w_active w) as [g|]; [|done].
    destruct (f g) as [g'|x] eqn:E; simpl; [by apply Hf|done].
  Qed.
  Lemma same_calls_refl w : same_calls w w.
  Proof. unfold same_calls. by destruct (w_active w). Qed.
  Lemma control_calls w c : same_calls w (fst (kmc_control w c)).
  Proof.
    destruct c as [i d|a|name| |name b]; simpl.
    - destruct (plan_frequency _ _ _ _ _); [|apply same_calls_refl].
      apply on_active_calls. intros g g'. unfold tracker_frequency.
      by intros (? & _ & [= <-])%rbind_ok.
    - destruct (plan_attach _ _ _ _ _) as [[p n]|]; [|apply same_calls_refl].
      apply on_active_calls. intros g g' ([g1 n1] & H & [= <-])%rbind_ok. simpl.
      unfold PropertyModel.tracker_attach in H. by apply rbind_ok in H as (? & _ & [= <- _]).
    - destruct (plan_detach _ _); [|apply same_calls_refl].
      apply on_active_calls. intros g g'. unfold tracker_detach.
      destruct (din _ _); [|done]. by intros [= <-].
    - apply on_active_calls. by intros g g' [= <-].
    - destruct (plan_enable _ _ _); [|apply same_calls_refl].
      apply on_active_calls. intros g g'. unfold tracker_enable.
      destruct (din _ _); [by intros [= <-]|]. destruct (dget _ _); [|done]. by intros [= <-].
  Qed.
  Lemma controls_calls cs w : same_calls w (fst (kmc_controls w cs)).
  Proof.
    revert w. induction cs as [|c cs IH]; intros w; simpl; [apply same_calls_refl|].
    pose proof (control_calls w c) as H. destruct (kmc_control w c) as [w1 [[]|x]]; [|done].
    specialize (IH w1). unfold same_calls in *. simpl in *.
    destruct (w_active w), (w_active w1), (w_active (kmc_controls w1 cs).1); try done. congruence.
  Qed.
  Lemma sample_object_calls p g o st step t :
    g_calls g `prefix_of` g_calls (sample_object p g o st step t).1.2.
  Proof.
    unfold PropertyModel.sample_object.
    destruct (g_objects g !! o) as [s|]; [|done].
    destruct (negb (s_enabled s)); [done|].
    destruct (negb (should_trigger _ _ _ _ _ _ _)); [done|].
    destruct (call (s_callback s) st step t) as [cs out].
    pose proof (controls_calls cs (World p (Some (log_call g o step t)))) as H.
    destruct (kmc_controls _ cs) as [w rc]. unfold same_calls in H. simpl in H.
    destruct (w_active w) as [g1|]; [|done].
    assert (Hpre : g_calls g `prefix_of` g_calls g1) by (rewrite H; by eexists).
    destruct (match rc with Ok _ => out | Err x => Err x end) as [v|x].
    - destruct (s_store s); [|done]. by destruct (dget (g_records g1) (s_name s)).
    - by destruct (survives _ _ _ _ _ _).
  Qed.
  Lemma sample_objects_calls os p g st step t :
    g_calls g `prefix_of` g_calls (sample_objects p g os st step t).1.2.
  Proof.
    revert p g. induction os as [|o os IH]; intros p g; simpl; [done|].
    pose proof (sample_object_calls p g o st step t) as H.
    destruct (sample_object p g o st step t) as [[p1 g1] [[]|x]]; simpl in *; [|done].
    by transitivity (g_calls g1).
  Qed.

  Lemma table_prefix_refl (r : results T V) : table_prefix r r.
  Proof. by repeat split. Qed.
  Lemma table_prefix_trans (r1 r2 r3 : results T V) :
    table_prefix r1 r2 -> table_prefix r2 r3 -> table_prefix r1 r3.
  Proof.
    intros (?&?&?&?&?&?&?) (?&?&?&?&?&?&?). repeat split; by etransitivity.
  Qed.

  Lemma points_grow pts : forall p g p' g' r,
    sample_points p g pts = ((p', g'), r) ->
    table_prefix (g_results g) (g_results g') /\ g_calls g `prefix_of` g_calls g'.
  Proof.
    induction pts as [|[[[o st] s] t] pts IH]; intros p g p' g' r H; simpl in H.
    { injection H as <- <- <-. split; [apply table_prefix_refl|done]. }
    destruct (PropertyModel.sample_properties zero sub leb fname call handle transport p g o st s t)
      as [[p1 g1] r1] eqn:E.
    assert (H1 : table_prefix (g_results g) (g_results g1) /\ g_calls g `prefix_of` g_calls g1).
    { split.
      - apply row_lemma in E as [(_ & ?&?&?&?&?&?&?)|(_ & ->)]; [|apply table_prefix_refl].
        repeat split; by eexists.
      - unfold PropertyModel.sample_properties in E.
        assert (Hs : g_calls (sample_summary sub leb transport g o s t) = g_calls g).
        { unfold sample_summary. by destruct (should_trigger _ _ _ _ _ _ _). }
        match type of E with sample_objects p ?g0 ?os _ _ _ = _ =>
          pose proof (sample_objects_calls os p g0 st s t) as H1 end.
        rewrite E, Hs in H1. exact H1. }
    destruct H1 as [H1 H2].
    destruct r1 as [[]|x].
    - destruct (IH _ _ _ _ _ H) as [H3 H4]. split; [by eapply table_prefix_trans|].
      by transitivity (g_calls g1).
    - by injection H as <- <- <-.
  Qed.
End Grow.

Section Continue.
  Context {T : Type}.
  Variable zero : T.
  Variable add sub : T -> T -> T.
  Variable leb : T -> T -> bool.
  Context {M : Type}.
  Variable model_apply : M -> event -> list Z -> result M.
  Variable compute_probability : M -> list Z -> event -> result T.
  Variable select : list T -> T -> T -> result (nat * T).
  Variable fname : nat -> option string.
  Context {V : Type}.
  Variable call : nat -> state T -> Z -> T -> list (control T) * result V.
  Variable handle : nat -> exn -> state T -> Z -> T -> result bool.
  Variable transport : list vec * list nat -> T -> string -> option V.
  Variable seeded : Z -> nat -> T * T.
  Notation run := (run_simulation zero add sub leb model_apply compute_probability
    select fname call handle transport).
  Notation run_call := (run_call zero add sub leb model_apply compute_probability
    select fname call handle transport seeded).
  Notation run_calls := (run_calls zero add sub leb model_apply compute_probability
    select fname call handle transport seeded).
  Notation produce := (produce add model_apply compute_probability select).
  Notation equilibrate := (equilibrate zero add model_apply compute_probability select).
  Notation take := (take_sample zero sub leb fname call handle transport).

  (** An invariant of the tracker. *)
  Lemma produce_invariant (P : tracker (world T V) -> Prop) str n i d (k k' : kmc T M) t t' :
    (forall t occ e t', P t -> update str t occ e = Ok t' -> P t') ->
    (forall t st t', P t -> TrackerModel.sample_properties take t st = Ok t' -> P t') ->
    P t ->
    produce (fun tr st e => update str tr (occupations st) e)
      (TrackerModel.sample_properties take) n i d k t = Ok (k', t') -> P t'.
  Proof.
    intros H1 H2 Ht H.
    edestruct (produce_both add model_apply compute_probability select
      (fun tr st e => update str tr (occupations st) e)
      (fun tr st e => update str tr (occupations st) e)
      (TrackerModel.sample_properties take) (TrackerModel.sample_properties take)
      (fun a _ => P a)) as (_ & G & _);
      [| |intros m; reflexivity|apply same_refl| |exact H|exact H|done].
    - intros r1 r2 st1 st2 e r1' r2' Hr _ Hu _. by eapply H1.
    - intros r1 r2 st1 st2 r1' r2' Hr Hu _. by eapply H2.
    - done.
  Qed.

  Lemma sample_keeps (t t' : tracker (world T V)) (st : state T) :
    TrackerModel.sample_properties take t st = Ok t' -> same_tables t t'.
  Proof.
    unfold TrackerModel.sample_properties. intros (? & _ & [= <-])%rbind_ok. by repeat split.
  Qed.

  Lemma create_counts {A} str mobile (s : A) occ lk t :
    create str mobile s occ lk = Ok t -> counts_ok t /\ t_lookup t = lk /\ total_hops t = 0.
  Proof.
    unfold create. intros (mk & _ & (x & _ & [= <-])%rbind_ok)%rbind_ok.
    unfold counts_ok, total_hops. simpl. rewrite !map_length. split; [done|]. split; [done|].
    by induction (where_true mk).
  Qed.

  Lemma open_active str mobile (w : world T V) pl st lk tr :
    open_tracker zero sub leb fname call handle transport str mobile w pl st lk = Ok tr ->
    exists g, w_active (t_sampling tr) = Some g.
  Proof.
    unfold open_tracker, act, create.
    destruct (tracker_for_run _ _ _ _ _) as [g|]; [|done]. cbn [done_with rbind].
    intros (mk & _ & (x & _ & [= <-])%rbind_ok)%rbind_ok. by exists g.
  Qed.

  (** A longer run passes through the shorter one. *)
  Lemma longer_lemma str mobile w eqp kp n d (k k' : kmc T M) t' :
    (0 <= kp)%Z -> (0 <= n)%Z ->
    run str mobile w eqp (kp + n) d k = Ok (k', t') ->
    exists k1 t1 g1 g', run str mobile w eqp kp d k = Ok (k1, t1) /\
      w_active (t_sampling t1) = Some g1 /\ w_active (t_sampling t') = Some g' /\
      table_prefix (g_results g1) (g_results g') /\
      g_calls g1 `prefix_of` g_calls g' /\
      step (k_state k') =
        (step (k_state k1) + n * Z.of_nat (pass_length (symbols str) mobile))%Z.
  Proof.
    intros Hk Hn (ka & ta & He & Ho & H)%run_inv.
    rewrite Z2Nat.inj_add, Nat.mul_add_distr_r in H by done.
    apply produce_split in H as (k1 & t1 & H1 & H2).
    destruct (open_active _ _ _ _ _ _ _ Ho) as (g0 & Hg0).
    destruct (produce_samples zero add sub leb model_apply compute_probability select fname call
      handle transport str _ _ _ _ _ _ _ g0 H1 Hg0) as (pts1 & g1 & Hg1 & _).
    destruct (produce_samples zero add sub leb model_apply compute_probability select fname call
      handle transport str _ _ _ _ _ _ _ g1 H2 Hg1) as (pts2 & g' & Hg' & Hp2 & _).
    destruct (points_grow _ _ _ _ _ _ _ _ _ _ _ _ _ Hp2) as [Hr Hc].
    exists k1, t1, g1, g'. split.
    { unfold run_simulation, KmcModel.run. rewrite He. cbn [rbind]. rewrite Ho. cbn [rbind].
      exact H1. }
    do 4 (split; [done|]).
    destruct (produce_walk _ _ _ _ _ _ _ _ _ _ _ _ _ H2) as (l & Hw & Hl).
    pose proof (conservation_lemma _ _ _ _ _ _ (walk_updates _ _ _ _ _ _ _ _ _ _ Hw))
      as (_ & Hs & _).
    rewrite map_length, Hl in Hs. rewrite Hs. lia.
  Qed.

  (** Two runs as one. *)
  Lemma joined_lemma str mobile w1 w2 w3 eqp kp1 kp2 d (k ka kb kc : kmc T M) ta tb tc :
    (0 <= kp1)%Z -> (0 <= kp2)%Z ->
    let pl := pass_length (symbols str) mobile in
    run str mobile w1 eqp kp1 d k = Ok (ka, ta) ->
    run str mobile w2 0 kp2
      (fun m => d (Z.to_nat eqp * pl + Z.to_nat kp1 * pl + m)) ka = Ok (kb, tb) ->
    run str mobile w3 eqp (kp1 + kp2) d k = Ok (kc, tc) ->
    kb = kc /\ total_hops tc = total_hops ta + total_hops tb.
  Proof.
    intros Hp1 Hp2 pl H1 H2 H3.
    apply run_inv in H3 as (k0 & t0 & He & Ho & H3). fold pl in He, Ho, H3.
    rewrite Z2Nat.inj_add, Nat.mul_add_distr_r in H3 by done.
    apply produce_split in H3 as (km & tm & H3 & H4).
    assert (Hr3 : run str mobile w3 eqp kp1 d k = Ok (km, tm)).
    { unfold run_simulation, KmcModel.run. fold pl. rewrite He. cbn [rbind]. rewrite Ho.
      cbn [rbind]. exact H3. }
    destruct (runs_agree _ _ _ _ _ _ _ _ _ _ _ _ _ _ _ _ _ _ _ _ _ _ _ _ _ _ _ _ _ _
      (same_refl _) H1 Hr3) as (_ & Ht & _ & Hk). specialize (Hk eq_refl). subst km.
    apply open_tracker_inv in Ho as (w' & Ho).
    apply run_inv in H2 as (k1 & t1 & He1 & Ho1 & H2). fold pl in He1, Ho1, H2.
    cbn in He1. injection He1 as <-.
    apply open_tracker_inv in Ho1 as (w1' & Ho1).
    destruct (create_counts _ _ _ _ _ _ Ho) as (C1 & C2 & C3).
    destruct (create_counts _ _ _ _ _ _ Ho1) as (D1 & D2 & D3).
    assert (Hmid : counts_ok tm /\ t_lookup tm = k_lookup k0).
    { eapply (produce_invariant (fun t => counts_ok t /\ t_lookup t = k_lookup k0));
        [| | |exact H3].
      - intros t occ e t'' [Ha Hb] (Hc & Hd & _)%update_hops; [|done]. by rewrite Hd.
      - intros t st t'' [Ha Hb] (S1 & S2 & S3 & S4)%sample_keeps. unfold counts_ok in *.
        by rewrite <- S1, <- S2, <- S4.
      - done. }
    assert (Hlk : k_lookup ka = k_lookup k0).
    { destruct (produce_walk _ _ _ _ _ _ _ _ _ _ _ _ _ H3) as (l & Hw & _).
      clear -Hw. induction Hw; [done|].
      match goal with Hu : KmcModel.update _ _ _ _ _ _ = Ok _ |- _ =>
        apply update_inv in Hu as (_ & Hu & _) end. congruence. }
    edestruct (produce_both add model_apply compute_probability select
      (fun tr st e => update str tr (occupations st) e)
      (fun tr st e => update str tr (occupations st) e)
      (TrackerModel.sample_properties take) (TrackerModel.sample_properties take)
      (fun a b => counts_ok a /\ counts_ok b /\ t_lookup a = t_lookup b /\
         total_hops a = total_hops tm + total_hops b))
      as (_ & (_ & _ & _ & G) & _ & G4);
      [| | |apply same_refl| |exact H4|exact H2|].
    - intros r1 r2 st1 st2 e r1' r2' (R1 & R2 & R3 & R4) Hocc
        (U1 & U2 & c1 & d1 & U3 & U4 & U5)%update_hops
        (W1 & W2 & c2 & d2 & W3 & W4 & W5)%update_hops; [|done|done].
      split; [done|]. split; [done|]. split; [congruence|].
      rewrite R3, W3 in U3. injection U3 as ->. rewrite Hocc, W4 in U4. injection U4 as ->. lia.
    - intros r1 r2 st1 st2 r1' r2' (R1 & R2 & R3 & R4) (S1 & S2 & S3 & S4)%sample_keeps
        (Q1 & Q2 & Q3 & Q4)%sample_keeps.
      unfold counts_ok, total_hops in *. rewrite <- S1, <- S2, <- S4, <- Q1, <- Q2, <- Q4. done.
    - intros m. simpl. done.
    - destruct Hmid as [M1 M2]. split; [done|]. split; [done|]. split; [congruence|]. lia.
    - split; [symmetry; by apply G4|]. rewrite G. destruct Ht as (_ & _ & _ & Ht).
      unfold total_hops. by rewrite Ht.
  Qed.

  (** Calls with the same seed. *)
  Lemma seeded_calls_lemma str mobile eqp kp s f1 f2 (k1 k2 : kmc T M) w1 w2 o1 o2 t1 t2 :
    same_configuration k1 k2 ->
    run_call str mobile eqp kp (Some s) f1 (k1, w1) = Ok (o1, t1) ->
    run_call str mobile eqp kp (Some s) f2 (k2, w2) = Ok (o2, t2) ->
    same_configuration (fst o1) (fst o2) /\ same_tables t1 t2.
  Proof.
    unfold TrajectoryModel.run_call. simpl.
    intros Hk ([ka ta] & H1 & E1)%rbind_ok ([kb tb] & H2 & E2)%rbind_ok.
    injection E1 as <- <-. injection E2 as <- <-. simpl.
    destruct (runs_agree _ _ _ _ _ _ _ _ _ _ _ _ _ _ _ _ _ _ _ _ _ _ _ _ _ _ _ _ _ _
      Hk H1 H2) as (G1 & G2 & _). done.
  Qed.

  Lemma cycle_lemma str mobile eqp kp s fresh f0 (k : kmc T M) w k1 w1 t1 o ts :
    run_call str mobile eqp kp (Some s) f0 (k, w) = Ok ((k1, w1), t1) ->
    same_configuration k k1 ->
    run_calls str mobile eqp kp (Some s) fresh (k1, w1) = Ok (o, ts) ->
    same_configuration k (fst o) /\ Forall (same_tables t1) ts.
  Proof.
    intros H Hk. 
    assert (G : forall fresh k2 w2 o ts, same_configuration k k2 ->
      run_calls str mobile eqp kp (Some s) fresh (k2, w2) = Ok (o, ts) ->
      same_configuration k (fst o) /\ Forall (same_tables t1) ts).
    { clear fresh o ts. induction fresh as [|f fresh IH]; intros k2 w2 o ts Hs Hr; simpl in Hr.
      { injection Hr as <- <-. by split. }
      apply rbind_ok in Hr as ([[k3 w3] t3] & H3 & Hr).
      apply rbind_ok in Hr as ([o4 ts4] & H4 & Hr). injection Hr as <- <-. simpl in *.
      destruct (seeded_calls_lemma _ _ _ _ _ _ _ _ _ _ _ _ _ _ _ Hs H H3) as [E1 E2].
      simpl in E1.
      destruct (IH _ _ _ _ (same_trans _ _ _ Hk E1) H4) as [E3 E4].
      split; [done|]. by constructor. }
    by apply G.
  Qed.
End Continue.

Section Joined.
  Context {T : Type}.
  Variable zero : T.
  Variable add sub : T -> T -> T.
  Variable leb : T -> T -> bool.
  Context {M : Type}.
  Variable model_apply : M -> event -> list Z -> result M.
  Variable compute_probability : M -> list Z -> event -> result T.
  Variable select : list T -> T -> T -> result (nat * T).
  Variable fname : nat -> option string.
  Context {V : Type}.
  Variable call : nat -> state T -> Z -> T -> list (control T) * result V.
  Variable handle : nat -> exn -> state T -> Z -> T -> result bool.
  Variable transport : list vec * list nat -> T -> string -> option V.
  Variable seeded : Z -> nat -> T * T.
  Notation run_call := (run_call zero add sub leb model_apply compute_probability
    select fname call handle transport seeded).

  Lemma joined_calls_lemma str mobile eqp kp1 kp2 f (k : kmc T M) w w' oa ob oc ta tb tc :
    (0 <= kp1)%Z -> (0 <= kp2)%Z ->
    let pl := pass_length (symbols str) mobile in
    run_call str mobile eqp kp1 None f (k, w) = Ok (oa, ta) ->
    run_call str mobile 0 kp2 None
      (fun m => f (Z.to_nat eqp * pl + Z.to_nat kp1 * pl + m)) oa = Ok (ob, tb) ->
    run_call str mobile eqp (kp1 + kp2) None f (k, w') = Ok (oc, tc) ->
    fst ob = fst oc /\ total_hops tc = total_hops ta + total_hops tb.
  Proof.
    unfold TrajectoryModel.run_call. simpl.
    intros H1 H2 ([ka xa] & Ha & Ea)%rbind_ok ([kb xb] & Hb & Eb)%rbind_ok
      ([kc xc] & Hc & Ec)%rbind_ok.
    injection Ea as <- <-. injection Eb as <- <-. injection Ec as <- <-. simpl in *.
    eapply joined_lemma; [exact H1|exact H2|exact Ha|exact Hb|exact Hc].
  Qed.
End Joined.
