(** Proofs about whole runs. *)
From Coq Require Import Lia.
From Verif Require Import Py PyLemmas ActiveSiteModel EventModel StateModel HopModel KmcModel
  KmcSpec KmcProofs TrackerModel PropertyModel PropertySpec PropertyProofs RunModel.
Local Open Scope nat_scope.

Section RunProofs.
  Context {T : Type}.
  Variable zero : T.
  Variable add sub : T -> T -> T.
  Variable leb : T -> T -> bool.
  Context {M : Type}.
  Variable model_apply : M -> event -> list Z -> result M.
  Variable compute_probability : M -> list Z -> event -> result T.
  Variable select : list T -> T -> T -> result (nat * T).
  Variable fname : nat -> option string.
  Context {V : Type}.
  Variable call : nat -> state T -> Z -> T -> list (control T) * result V.
  Variable handle : nat -> exn -> state T -> Z -> T -> result bool.
  Variable transport : list vec * list nat -> T -> string -> option V.
  Notation run_simulation := (run_simulation zero add sub leb model_apply compute_probability
    select fname call handle transport).
  Notation production := (production zero add sub leb model_apply compute_probability
    select fname call handle transport).
  Notation take_sample := (take_sample zero sub leb fname call handle transport).
  Notation sample_points := (PropertyModel.sample_points zero sub leb fname call handle transport).
  Notation equilibrate := (equilibrate zero add model_apply compute_probability select).
  Notation walk := (walk add model_apply compute_probability select).

  Lemma take_sample_ok w (g : sampling T V) d h st w' :
    w_active w = Some g -> take_sample w d h st = Ok w' ->
    exists g', w_active w' = Some g' /\
      sample_points (w_plan w) g [((d, h), st, step st, time st)] =
        ((w_plan w', g'), Ok tt).
  Proof.
    intros Hw H. unfold RunModel.take_sample, act in H. rewrite Hw in H. simpl.
    destruct (PropertyModel.sample_properties _ _ _ _ _ _ _ _ _ _ _ _ _)
      as [[p1 g1] [[]|x]] eqn:E; [|done].
    simpl in H. injection H as <-. exists g1. split; [done|]. done.
  Qed.
  Lemma sample_points_cons p (g : sampling T V) x l p1 g1 r :
    sample_points p g [x] = ((p1, g1), Ok tt) ->
    sample_points p1 g1 l = r ->
    sample_points p g (x :: l) = r.
  Proof.
    destruct x as [[[o st] s] t]. simpl. intros H1 H2.
    destruct (PropertyModel.sample_properties _ _ _ _ _ _ _ _ _ _ _ _ _)
      as [[p2 g2] [[]|x]]; [|done]. by injection H1 as -> ->.
  Qed.

  Lemma produce_samples str n : forall i draws k tr k' tr' (g : sampling T V),
    production str n i draws k tr = Ok (k', tr') ->
    w_active (t_sampling tr) = Some g ->
    exists pts g',
      w_active (t_sampling tr') = Some g' /\
      sample_points (w_plan (t_sampling tr)) g pts = ((w_plan (t_sampling tr'), g'), Ok tt) /\
      length pts = n /\
      forall j o st s t, pts !! j = Some (o, st, s, t) ->
        exists kj trj, production str (S j) i draws k tr = Ok (kj, trj) /\
          o = (t_displacement trj, t_hops trj) /\ st = k_state kj /\
          s = step (k_state kj) /\ t = time (k_state kj) /\
          s = (step (k_state k) + Z.of_nat (S j))%Z.
  Proof.
    unfold RunModel.production.
    induction n as [|n IH]; intros i draws k tr k' tr' g H Hw.
    { simpl in H. injection H as <- <-. exists [], g.
      do 3 (split; [done|]). intros j o st s t Hj. by rewrite lookup_nil in Hj. }
    cbn [produce] in H.
    apply rbind_ok in H as ([e dt] & Hp & H). apply rbind_ok in H as (r1 & Ht & H).
    apply rbind_ok in H as (k1 & Hu & H). apply rbind_ok in H as (r2 & Hs & H).
    assert (Hs' := Hs). unfold TrackerModel.sample_properties in Hs'.
    apply rbind_ok in Hs' as (w2 & Hw2 & Hr2). injection Hr2 as <-.
    assert (Hsame : t_sampling r1 = t_sampling tr).
    { unfold TrackerModel.update in Ht.
      apply rbind_ok in Ht as (codes & _ & Ht). apply rbind_ok in Ht as (d & _ & Ht).
      destruct (d =? 0)%Z; [by injection Ht as <-|].
      apply rbind_ok in Ht as (ft & _ & Ht). apply rbind_ok in Ht as (il & _ & Ht).
      apply rbind_ok in Ht as (dd & _ & Ht). by injection Ht as <-. }
    rewrite <- Hsame in Hw.
    destruct (take_sample_ok _ _ _ _ _ _ Hw Hw2) as (g1 & Hg1 & Hpt).
    destruct (IH _ _ _ _ _ _ g1 H Hg1) as (pts & g' & Hg' & Hpts & Hlen & Hall).
    eexists (_ :: pts), g'. split; [done|]. rewrite <- Hsame. split.
    { eapply sample_points_cons; [exact Hpt|]. exact Hpts. }
    split; [simpl; lia|].
    pose proof (update_inv _ _ _ _ _ _ _ Hu) as (_ & _ & _ & _ & Hst & _).
    intros j o st s t Hj. destruct j as [|j].
    - simpl in Hj. injection Hj as <- <- <- <-. eexists _, _. split.
      { cbn [produce]. rewrite Hp. cbn [rbind]. rewrite Ht. cbn [rbind].
        cbn [fst snd] in *. rewrite Hu. cbn [rbind]. rewrite Hs. cbn [rbind]. reflexivity. }
      cbn [t_displacement t_hops]. do 4 (split; [done|]). lia.
    - simpl in Hj. destruct (Hall j o st s t Hj) as (kj & trj & Hpr & Ho & Hst' & Hs1 & Ht1 & Hs2).
      exists kj, trj. split.
      { remember (S j) as m. cbn [produce]. rewrite Hp. cbn [rbind]. rewrite Ht. cbn [rbind].
        cbn [fst snd] in *. rewrite Hu. cbn [rbind]. rewrite Hs. cbn [rbind]. exact Hpr. }
      do 4 (split; [done|]). lia.
  Qed.

  Lemma run_samples_lemma str mobile w eqp kp draws k k' tr' :
    reachable zero sub leb fname call handle transport w ->
    run_simulation str mobile w eqp kp draws k = Ok (k', tr') ->
    let pl := pass_length (symbols str) mobile in
    let n_eq := Z.to_nat eqp * pl in
    exists k1 tr1 g0 g pts,
      equilibrate n_eq 0 draws k = Ok k1 /\
      step (k_state k1) = (step (k_state k) + Z.of_nat n_eq)%Z /\
      tracker_for_run zero leb fname (w_plan w) pl = Ok g0 /\
      t_sampling tr1 = World (w_plan w) (Some g0) /\
      create str mobile (t_sampling tr1) (occupations (k_state k1)) (k_lookup k1) = Ok tr1 /\
      production str (Z.to_nat kp * pl) n_eq draws k1 tr1 = Ok (k', tr') /\
      w_active (t_sampling tr') = Some g /\
      sample_points (w_plan w) g0 pts = ((w_plan (t_sampling tr'), g), Ok tt) /\
      length pts = Z.to_nat kp * pl /\
      forall j o st s t, pts !! j = Some (o, st, s, t) ->
        exists kj trj, production str (S j) n_eq draws k1 tr1 = Ok (kj, trj) /\
          o = (t_displacement trj, t_hops trj) /\ st = k_state kj /\
          s = step (k_state kj) /\ t = time (k_state kj) /\
          s = (step (k_state k) + Z.of_nat (n_eq + S j))%Z.
  Proof.
    intros Hre H. cbn zeta. unfold RunModel.run_simulation, run in H.
    set (pl := pass_length (symbols str) mobile) in *.
    apply rbind_ok in H as (k1 & He & H). apply rbind_ok in H as (tr1 & Hc & H).
    destruct (reachable_inv _ _ _ _ _ _ _ _ Hre) as [Hp _].
    unfold open_tracker in Hc. apply rbind_ok in Hc as (w1 & Hw1 & Hc).
    unfold act in Hw1. pose proof (tracker_for_run_ok zero leb fname _ pl Hp (V:=V)) as E.
    destruct (tracker_for_run zero leb fname (w_plan w) pl) as [g0|] eqn:E0; [|done].
    simpl in Hw1. injection Hw1 as <-.
    assert (Hts : t_sampling tr1 = World (w_plan w) (Some g0)).
    { unfold create in Hc. apply rbind_ok in Hc as (mk & _ & Hc).
      apply rbind_ok in Hc as (? & _ & Hc). by injection Hc as <-. }
    edestruct (produce_samples str (Z.to_nat kp * pl) (Z.to_nat eqp * pl) draws k1 tr1 k' tr')
      as (pts & g & Hg & Hpts & Hlen & Hall); [exact H|by rewrite Hts|].
    assert (Hs1 : step (k_state k1) = (step (k_state k) + Z.of_nat (Z.to_nat eqp * pl))%Z).
    { destruct (equilibrate_walk _ _ _ _ _ _ _ _ _ _ He) as (l & Hw & Hl).
      pose proof (conservation_lemma _ _ _ _ _ _ (walk_updates _ _ _ _ _ _ _ _ _ _ Hw)) as (_ & Hs & _).
      rewrite map_length, Hl in Hs. done. }
    exists k1, tr1, g0, g, pts. split; [done|]. split; [done|]. split; [done|].
    split; [done|]. split; [by rewrite Hts|]. split; [done|]. split; [done|].
    rewrite Hts in Hpts. split; [exact Hpts|]. split; [done|].
    intros j o st s t Hj. destruct (Hall j o st s t Hj) as (kj & trj & H1 & H2 & H3 & H4 & H5 & H6).
    exists kj, trj. do 5 (split; [done|]). rewrite H6, Hs1. lia.
  Qed.

  Lemma run_quiet (w : world T V) pl (g0 : sampling T V) :
    pinv zero leb fname (w_plan w) -> tracker_for_run zero leb fname (w_plan w) pl = Ok g0 ->
    (forall name s, (name, s) ∈ p_attached (w_plan w) -> quiet call (s_callback s)) ->
    quiet_attachments call g0.
  Proof.
    intros Hp Hg0 Hq.
    pose proof (tracker_for_run_ok zero leb fname _ pl Hp (V:=V)) as E.
    rewrite Hg0 in E. injection E as E.
    intros name o s [_ Ho]. rewrite E in Ho. simpl in Ho. rewrite list_lookup_fmap in Ho.
    destruct (dvalues (p_attached (w_plan w)) !! o) as [s0|] eqn:Eo; [|done].
    injection Ho as <-. apply elem_of_list_lookup_2 in Eo. unfold dvalues in Eo.
    apply elem_of_list_fmap in Eo as ([nm s1] & -> & Hin). apply (Hq nm s1 Hin).
  Qed.

  Lemma run_exact_lemma str mobile w eqp kp draws k k' tr' :
    reachable zero sub leb fname call handle transport w ->
    (forall name s, (name, s) ∈ p_attached (w_plan w) -> quiet call (s_callback s)) ->
    run_simulation str mobile w eqp kp draws k = Ok (k', tr') ->
    let pl := pass_length (symbols str) mobile in
    let n_eq := Z.to_nat eqp * pl in
    exists k1 tr1 g0 g pts,
      equilibrate n_eq 0 draws k = Ok k1 /\
      tracker_for_run zero leb fname (w_plan w) pl = Ok g0 /\
      create str mobile (World (w_plan w) (Some g0)) (occupations (k_state k1)) (k_lookup k1)
        = Ok tr1 /\
      production str (Z.to_nat kp * pl) n_eq draws k1 tr1 = Ok (k', tr') /\
      w_active (t_sampling tr') = Some g /\ w_plan (t_sampling tr') = w_plan w /\
      length pts = Z.to_nat kp * pl /\
      (forall j o st s t, pts !! j = Some (o, st, s, t) ->
        exists kj trj, production str (S j) n_eq draws k1 tr1 = Ok (kj, trj) /\
          o = (t_displacement trj, t_hops trj) /\ st = k_state kj /\
          s = step (k_state kj) /\ t = time (k_state kj) /\
          s = (step (k_state k) + Z.of_nat (n_eq + S j))%Z) /\
      (exists out,
        sampled sub leb (g_interval g0) (g_time g0) None (summary_points pts) out /\
        more_rows (Results [] [] [] [] [] [] []) (g_results g) out
          (field_value transport (p_builtin (w_plan w)))) /\
      (forall name o s, attached g0 name o s -> s_enabled s = true ->
        exists out,
          sampled sub leb (own_or_global (s_interval s) (g_interval g0))
            (own_or_global (s_time_interval s) (g_time g0)) None
            (callback_points pts) out /\
          calls_of g o = map (fun x => (x.1.2, x.2)) out).
  Proof.
    intros Hre Hq H. cbn zeta.
    destruct (run_samples_lemma _ _ _ _ _ _ _ _ _ Hre H)
      as (k1 & tr1 & g0 & g & pts & He & _ & Hg0 & Hts & Hc & Hpr & Hg & Hpts & Hlen & Hall).
    destruct (reachable_inv _ _ _ _ _ _ _ _ Hre) as [Hp _].
    pose proof (tracker_for_run_inv _ _ _ _ _ _ Hp Hg0) as HI.
    pose proof (run_quiet _ _ _ Hp Hg0 Hq) as Hq0.
    set (pl := pass_length (symbols str) mobile) in *.
    destruct (points_lemma _ _ _ _ _ _ _ _ _ _ _ _ Hp HI Hq0 Hpts)
      as (Hplan & _ & _ & Hsum & Hatt).
    pose proof (tracker_for_run_ok zero leb fname _ pl Hp (V:=V)) as E.
    rewrite Hg0 in E. injection E as E.
    exists k1, tr1, g0, g, pts. rewrite Hts in Hc.
    do 7 (split; [done|]). split; [done|]. split.
    { destruct Hsum as (out & H1 & H2). exists out. rewrite E in H1, H2 |- *. done. }
    intros name o s Ha Hen. destruct (Hatt name o s Ha) as (s' & _ & _ & Hs).
    rewrite Hen in Hs. destruct Hs as (out & H1 & H2 & _).
    assert (Hlast : s_last_time s = None).
    { destruct Ha as [_ Ho]. rewrite E in Ho. simpl in Ho. rewrite list_lookup_fmap in Ho.
      destruct (_ !! o); [|done]. by injection Ho as <-. }
    rewrite Hlast in H1. exists out. split; [done|].
    rewrite H2. unfold calls_of at 1. rewrite E. done.
  Qed.

  (** ** One row per pass *)
  (** With an interval of [n] steps and no time interval, [m * n] consecutive steps
      contain exactly [m] due ones. *)
  Lemma sampled_step_det {A} n : forall prev (pts out : list (A * Z * T)),
    sampled sub leb (Some n) None prev pts out ->
    out = List.filter (fun x => (0 <? x.1.2)%Z && (x.1.2 mod n =? 0)%Z) pts \/ (n <= 0)%Z.
  Proof.
    intros prev pts out H. destruct (Z.le_gt_cases n 0) as [|Hn]; [by right|]. left.
    assert (Hd : forall prev step t, due sub leb (Some n) None prev step t <->
      ((0 <? step)%Z && (step mod n =? 0)%Z) = true).
    { intros pr s t. unfold due. rewrite andb_true_iff, Z.ltb_lt, Z.eqb_eq. split.
      - intros [(m & [= <-] & H1 & H2)|(d & [=] & _)]. split; [done|].
        by apply Z.mod_divide; [lia|].
      - intros [H1 H2]. left. exists n. split; [done|]. split; [done|].
        by apply Z.mod_divide; [lia|]. }
    induction H as [|prev a s t pts out H _ IH|prev a s t pts out H _ IH]; [done| |].
    - apply Hd in H. simpl. rewrite H. by rewrite IH.
    - rewrite Hd in H. simpl. destruct (_ && _); [done|]. done.
  Qed.

  Lemma filter_window (n : nat) (f : Z -> bool) s0 :
    n > 0 -> (0 <= s0)%Z ->
    (forall s, f s = (0 <? s)%Z && (s mod Z.of_nat n =? 0)%Z) ->
    forall m, length (List.filter (fun j => f (s0 + Z.of_nat (S j))%Z) (seq 0 (m * n))) = m.
  Proof.
    intros Hn Hs0 Hf.
    (* count of multiples in (s0, s0 + N] is floor((s0+N)/n) - floor(s0/n) *)
    assert (Hcount : forall N,
      Z.of_nat (length (List.filter (fun j => f (s0 + Z.of_nat (S j))%Z) (seq 0 N)))
      = ((s0 + Z.of_nat N) / Z.of_nat n - s0 / Z.of_nat n)%Z).
    { induction N as [|N IH].
      - simpl. rewrite Z.add_0_r. lia.
      - rewrite seq_S, List.filter_app, app_length, Nat2Z.inj_add, IH. simpl.
        rewrite Hf. assert (0 <? s0 + Z.of_nat (S N) = true)%Z as -> by (apply Z.ltb_lt; lia).
        rewrite andb_true_l.
        set (a := (s0 + Z.of_nat N)%Z).
        replace (s0 + Z.of_nat (S N))%Z with (a + 1)%Z by lia.
        assert (Hnz : (0 < Z.of_nat n)%Z) by lia. set (z := Z.of_nat n) in *.
        pose proof (Z.div_mod a z ltac:(lia)) as E1. pose proof (Z.mod_pos_bound a z Hnz) as B1.
        pose proof (Z.div_mod (a + 1) z ltac:(lia)) as E2.
        pose proof (Z.mod_pos_bound (a + 1) z Hnz) as B2.
        destruct (Z.eqb_spec ((a + 1) mod z) 0) as [H0|H0]; simpl.
        + assert ((a + 1) / z = a / z + 1)%Z by nia. lia.
        + assert ((a + 1) / z = a / z)%Z by nia. lia. }
    intros m. specialize (Hcount (m * n)).
    rewrite Nat2Z.inj_mul, Z.div_add in Hcount by lia. lia.
  Qed.

  Lemma filter_map_length {A B} (f : A -> B) (p : B -> bool) l :
    length (List.filter p (map f l)) = length (List.filter (fun x => p (f x)) l).
  Proof. induction l as [|x l IH]; [done|]. simpl. destruct (p (f x)); simpl; lia. Qed.

  Lemma one_row_per_pass_lemma str mobile w eqp kp draws k k' tr' :
    reachable zero sub leb fname call handle transport w ->
    p_interval (w_plan w) = None -> p_time (w_plan w) = None ->
    (forall name s, (name, s) ∈ p_attached (w_plan w) -> quiet call (s_callback s)) ->
    (0 <= step (k_state k))%Z ->
    run_simulation str mobile w eqp kp draws k = Ok (k', tr') ->
    exists g, w_active (t_sampling tr') = Some g /\
      length (c_time (g_results g)) =
        if bool_decide (pass_length (symbols str) mobile = 0) then 0 else Z.to_nat kp.
  Proof.
    intros Hre Hi Ht Hq Hs H.
    destruct (run_samples_lemma _ _ _ _ _ _ _ _ _ Hre H)
      as (k1 & tr1 & g0 & g & pts & _ & _ & Hg0 & _ & _ & _ & Hg & Hpts & Hlen & Hall).
    destruct (reachable_inv _ _ _ _ _ _ _ _ Hre) as [Hp _].
    pose proof (tracker_for_run_inv _ _ _ _ _ _ Hp Hg0) as HI.
    set (pl := pass_length (symbols str) mobile) in *.
    pose proof (tracker_for_run_ok zero leb fname _ pl Hp (V:=V)) as E.
    rewrite Hg0 in E. injection E as E.
    pose proof (run_quiet _ _ _ Hp Hg0 Hq) as Hq0.
    destruct (points_lemma _ _ _ _ _ _ _ _ _ _ _ _ Hp HI Hq0 Hpts)
      as (_ & _ & _ & (out & Hsam & Hrows) & _).
    exists g. split; [done|]. destruct Hrows as [Hc _].
    rewrite Hc, E, app_length, map_length. cbn [g_results c_time length]. rewrite Nat.add_0_l.
    rewrite E in Hsam. cbn [g_interval g_time g_last_summary] in Hsam.
    unfold run_schedule in Hsam. rewrite Hi, Ht in Hsam.
    destruct (sampled_step_det _ _ _ _ Hsam) as [->|]; [|lia].
    unfold summary_points. rewrite filter_map_length. simpl.
    destruct (bool_decide_reflect (pl = 0)) as [Hz|Hz].
    { rewrite Hz, Nat.mul_0_r in Hlen. by destruct pts. }
    replace (Z.max (Z.of_nat pl) 1) with (Z.of_nat pl) by lia.
    set (f := fun s : Z => ((0 <? s)%Z && (s mod Z.of_nat pl =? 0)%Z)).
    assert (Hmap : map (fun x : (list vec * list nat) * state T * Z * T => x.1.2) pts =
      map (fun j => (step (k_state k) + Z.of_nat (Z.to_nat eqp * pl) + Z.of_nat (S j))%Z)
        (seq 0 (length pts))).
    { apply list_eq. intros j. rewrite !list_lookup_fmap.
      destruct (pts !! j) as [[[[o st] s] t]|] eqn:Ej.
      - rewrite lookup_seq_lt by (by eapply lookup_lt_Some). simpl.
        destruct (Hall j o st s t Ej) as (kj & trj & _ & _ & _ & _ & _ & ->). f_equal. lia.
      - apply lookup_ge_None in Ej. rewrite lookup_seq_ge by done. done. }
    transitivity (length (List.filter f (map (fun x : (list vec * list nat) * state T * Z * T => x.1.2) pts))).
    { by rewrite filter_map_length. }
    rewrite Hmap, filter_map_length, Hlen.
    apply (filter_window pl f (step (k_state k) + Z.of_nat (Z.to_nat eqp * pl)));
      [lia|lia|done].
  Qed.
End RunProofs.
