(** Proofs about property plans, schedules and sampling. *)
From Verif Require Import Py PyLemmas PropertyModel PropertySpec.
Local Open Scope nat_scope.

Arguments property_name : simpl never.

Section PropertyProofs.
  Context {T : Type}.
  Variable zero : T.
  Variable sub : T -> T -> T.
  Variable leb : T -> T -> bool.
  Variable fname : nat -> option string.
  Context {V St Obs : Type}.
  Variable call : nat -> St -> Z -> T -> list (control T) * result V.
  Variable handle : nat -> exn -> St -> Z -> T -> result bool.
  Variable transport : Obs -> T -> string -> option V.

  Notation sampling := (sampling T V).
  Notation world := (world T V).
  Notation validate_schedule := (validate_schedule zero leb).
  Notation make_property_spec := (make_property_spec zero leb fname).
  Notation kmc_control := (kmc_control zero leb fname (V:=V)).
  Notation kmc_controls := (kmc_controls zero leb fname (V:=V)).
  Notation tracker_attach := (tracker_attach zero leb fname (V:=V)).
  Notation sample_object := (sample_object zero sub leb fname call handle).
  Notation sample_objects := (sample_objects zero sub leb fname call handle).
  Notation sample_properties := (sample_properties zero sub leb fname call handle transport).
  Notation sample_points := (sample_points zero sub leb fname call handle transport).
  Notation due := (due sub leb).

  (** ** Schedules *)
  Lemma should_trigger_due step t i d l :
    should_trigger sub leb step t i d l = true <-> due i d l step t.
  Proof.
    unfold should_trigger, due. rewrite orb_true_iff. split.
    - intros [H|H].
      + left. destruct i as [n|]; [|done]. exists n. split; [done|].
        apply andb_true_iff in H as [H1 H2]. apply Z.ltb_lt in H1. apply Z.eqb_eq in H2.
        split; [done|].
        destruct (decide (n = 0%Z)) as [->|Hn].
        * rewrite Zmod_0_r in H2. lia.
        * by apply Z.mod_divide.
      + right. destruct d as [d|]; [|done]. exists d. split; [done|]. by destruct l.
    - intros [(n & -> & H1 & H2)|(d' & -> & H)].
      + left. apply andb_true_iff. split; [by apply Z.ltb_lt|]. apply Z.eqb_eq.
        destruct (decide (n = 0%Z)) as [->|Hn].
        * apply Z.divide_0_l in H2. lia.
        * by apply Z.mod_divide.
      + right. by destruct l.
  Qed.
  Lemma should_trigger_not_due step t i d l :
    should_trigger sub leb step t i d l = false <-> ~ due i d l step t.
  Proof. rewrite <- should_trigger_due. by rewrite not_true_iff_false. Qed.

  (** ** Specs *)
  Definition valid_schedule (i : option Z) (d : option T) : Prop :=
    match i with Some z => (0 < z)%Z | None => True end /\
    match d with Some d => leb d zero = false | None => True end.
  Lemma validate_schedule_ok i d i' :
    validate_schedule i d = Ok i' -> i = option_map IntArg i' /\ valid_schedule i' d.
  Proof.
    unfold PropertyModel.validate_schedule, valid_schedule.
    destruct i as [[z|]|]; simpl; [destruct (Z.leb_spec z 0)| |]; try done;
      simpl; (destruct d as [d|]; [destruct (leb d zero)|]); intros [= <-]; done.
  Qed.
  Lemma validate_schedule_valid i d :
    valid_schedule i d -> validate_schedule (option_map IntArg i) d = Ok i.
  Proof.
    intros [Hi Hd]. unfold PropertyModel.validate_schedule.
    destruct i as [z|]; simpl.
    - destruct (Z.leb_spec z 0); [lia|]. simpl. destruct d as [d|]; [by rewrite Hd|done].
    - destruct d as [d|]; [by rewrite Hd|done].
  Qed.
  Definition valid_max (m : option Z) : Prop :=
    match m with Some z => (0 < z)%Z | None => True end.
  Lemma validate_max_ok m m' :
    validate_max_records m = Ok m' -> m = option_map IntArg m' /\ valid_max m'.
  Proof.
    unfold validate_max_records.
    destruct m as [[z|]|]; simpl; [destruct (Z.leb_spec z 0)| |]; try done;
      intros [= <-]; done.
  Qed.
  Lemma validate_max_valid m : valid_max m -> validate_max_records (option_map IntArg m) = Ok m.
  Proof.
    unfold valid_max, validate_max_records. destruct m as [z|]; simpl; [|done].
    intros. destruct (Z.leb_spec z 0); [lia|done].
  Qed.

  Record valid_spec (name : string) (s : spec T) : Prop := {
    vs_name : s_name s = name;
    vs_reserved : name ∉ builtin_fields;
    vs_stable : property_name fname (Some name) (s_callback s) = name;
    vs_schedule : valid_schedule (s_interval s) (s_time_interval s);
    vs_max : valid_max (s_max s);
  }.

  Lemma property_name_stable nm cb :
    property_name fname (Some (property_name fname nm cb)) cb = property_name fname nm cb.
  Proof.
    unfold property_name at 1.
    destruct (String.eqb_spec (property_name fname nm cb) "") as [E|E]; [|done].
    rewrite E. unfold property_name in E.
    destruct nm as [n|]; [|done].
    destruct (String.eqb_spec n "") as [->|Hn]; done.
  Qed.

  (** Field projections of a spec rebuilt from arguments. *)
  Lemma make_property_spec_ok a ex s :
    make_property_spec a ex = Ok s ->
    valid_spec (s_name s) s /\ s_name s ∉ ex /\ s_last_step s = 0%Z /\ s_last_time s = None /\
    (forall ex', s_name s ∉ ex' -> make_property_spec (renamed a (s_name s)) ex' = Ok s) /\
    s_callback s = match a_func a with Func cb => cb | NotCallable => 0 end /\
    a_interval a = option_map IntArg (s_interval s) /\ s_time_interval s = a_time a /\
    s_store s = a_store a /\ a_max a = option_map IntArg (s_max s) /\
    s_enabled s = a_enabled a /\ s_on_error s = a_on_error a.
  Proof.
    unfold PropertyModel.make_property_spec. destruct (a_func a) as [cb|] eqn:Ef; [|done].
    intros (i & Hi & H)%rbind_ok. apply rbind_ok in H as (m & Hm & H).
    case_bool_decide as Hr; [done|]. case_bool_decide as He; [done|].
    injection H as <-. simpl.
    destruct (validate_schedule_ok _ _ _ Hi) as [Ei Vi].
    destruct (validate_max_ok _ _ Hm) as [Em Vm].
    split; [|split; [done|split; [done|split; [done|split; [|done]]]]].
    - split; simpl; try done. apply property_name_stable.
    - intros ex' Hex. rewrite Ef, Hi. simpl. rewrite Hm. simpl.
      rewrite property_name_stable.
      rewrite bool_decide_eq_false_2 by done. rewrite bool_decide_eq_false_2 by done. done.
  Qed.

  Definition reset (s : spec T) : spec T :=
    Spec (s_name s) (s_callback s) (s_interval s) (s_time_interval s) (s_store s)
      (s_max s) (s_enabled s) (s_on_error s) 0%Z None.
  Lemma make_from_spec name s ex :
    valid_spec name s -> name ∉ ex -> make_property_spec (spec_args (reset s)) ex = Ok (reset s).
  Proof.
    intros [Hn Hr Hs Hsch Hm] Hex. unfold PropertyModel.make_property_spec, spec_args. simpl.
    rewrite validate_schedule_valid by done. simpl. rewrite validate_max_valid by done. simpl.
    rewrite Hn, Hs.
    rewrite bool_decide_eq_false_2 by done. rewrite bool_decide_eq_false_2 by done.
    unfold reset. by rewrite Hn.
  Qed.

  (** ** The invariant *)
  Record pinv (p : plan T) : Prop := {
    pi_nodup : NoDup (dkeys (p_attached p));
    pi_specs : forall name s, (name, s) ∈ p_attached p -> valid_spec name s;
    pi_builtin : dkeys (p_builtin p) = builtin_fields;
    pi_schedule : valid_schedule (p_interval p) (p_time p);
  }.
  Record ginv (p : plan T) (g : sampling) : Prop := {
    gi_agree : agree p g;
    gi_objects : NoDup (dvalues (g_props g));
    gi_records : dkeys (g_records g) = dkeys (g_props g);
    gi_rect : rectangular (g_results g);
    gi_time : g_time g = p_time p;
    gi_interval : g_interval g = p_interval p \/ (p_interval p = None /\ p_time p = None);
  }.

  Lemma agree_keys p (g : sampling) : agree p g -> dkeys (g_props g) = dkeys (p_attached p).
  Proof.
    intros [_ H]. unfold dkeys. induction H as [|[n s] [n' o] l k [Hn _] _ IH]; [done|].
    simpl in *. by rewrite Hn, IH.
  Qed.
  Lemma agree_attached p (g : sampling) name o :
    agree p g -> (name, o) ∈ g_props g ->
    exists s s', (name, s) ∈ p_attached p /\ g_objects g !! o = Some s' /\ same_settings s s'.
  Proof.
    intros [_ H] Hin.
    apply elem_of_list_lookup in Hin as [k Hk].
    destruct (Forall2_lookup_r _ _ _ _ _ H Hk) as ([n s] & Hl & Hn & s' & Hs & Hss).
    simpl in *. subst. exists s, s'. split; [|done]. by eapply elem_of_list_lookup_2.
  Qed.
  Lemma agree_lt p (g : sampling) o : agree p g -> o ∈ dvalues (g_props g) -> o < length (g_objects g).
  Proof.
    intros HA Hin. unfold dvalues in Hin. apply elem_of_list_fmap in Hin as ([n o'] & -> & Hin).
    destruct (agree_attached _ _ _ _ HA Hin) as (? & s' & _ & Hs & _).
    by eapply lookup_lt_Some.
  Qed.
  Lemma same_settings_refl (s : spec T) : same_settings s s.
  Proof. by unfold same_settings. Qed.
  Lemma same_settings_trans (s1 s2 s3 : spec T) :
    same_settings s1 s2 -> same_settings s2 s3 -> same_settings s1 s3.
  Proof. unfold same_settings. intuition congruence. Qed.
  Lemma same_settings_sym (s1 s2 : spec T) : same_settings s1 s2 -> same_settings s2 s1.
  Proof. unfold same_settings. intuition congruence. Qed.

  (** Replacing the objects by ones with the same settings keeps the agreement. *)
  Lemma agree_objects p (g : sampling) (objs' : list (spec T)) :
    agree p g ->
    (forall o s, o ∈ dvalues (g_props g) -> g_objects g !! o = Some s ->
       exists s', objs' !! o = Some s' /\ same_settings s s') ->
    forall i d r l (res : results T V) c, agree p (Sampling i d (g_builtin g) objs' (g_props g) r l res c).
  Proof.
    intros [Hb H] Ho i d r l res c. split; [done|]. simpl.
    assert (Hin : forall no, no ∈ g_props g -> no.2 ∈ dvalues (g_props g)).
    { intros no Hno. unfold dvalues. apply elem_of_list_fmap. by exists no. }
    clear Hb. revert Hin Ho. generalize (dvalues (g_props g)) as D. intros D Hin Ho.
    induction H as [|ns no l1 l2 [Hn (s & Hs & Hss)] _ IH]; constructor.
    - split; [done|]. destruct (Ho _ _ (Hin no (elem_of_list_here _ _)) Hs) as (s' & Hs' & Hss').
      exists s'. split; [done|]. by eapply same_settings_trans.
    - apply IH. intros no' Hno'. apply Hin. by constructor.
  Qed.

  (** Growing a list of objects keeps the old ones. *)
  Lemma lookup_snoc_old {A} (l : list A) x o y : l !! o = Some y -> (l ++ [x]) !! o = Some y.
  Proof. intros H. rewrite lookup_app_l; [done|]. by eapply lookup_lt_Some. Qed.

  Lemma frequency_inv p g i d p' :
    pinv p -> plan_frequency zero leb p i d = Ok p' ->
    pinv p' /\ (ginv p g -> exists g', tracker_frequency zero leb g i d = Ok g' /\ ginv p' g').
  Proof.
    intros [H1 H2 H3 H4]. unfold plan_frequency. intros (i' & Hi & [= <-])%rbind_ok.
    destruct (validate_schedule_ok _ _ _ Hi) as [-> Hv].
    split; [by split|].
    intros [Ha Ho Hr Hre Ht Hin]. unfold tracker_frequency.
    rewrite validate_schedule_valid by done. simpl. eexists. split; [done|].
    destruct Ha as [Hb Hf]. split; simpl; try done. by left.
  Qed.

  Lemma attach_inv p g a p' name :
    pinv p -> plan_attach zero leb fname p a = Ok (p', name) ->
    pinv p' /\
    (ginv p g -> exists g', tracker_attach g (renamed a name) = Ok (g', name) /\ ginv p' g').
  Proof.
    intros [H1 H2 H3 H4]. unfold plan_attach. intros (s & Hs & [= <- <-])%rbind_ok.
    destruct (make_property_spec_ok _ _ _ Hs) as (Hv & Hnew & _ & _ & Hren & _).
    assert (Hset : dset (p_attached p) (s_name s) s = p_attached p ++ [(s_name s, s)])
      by (by apply dkeys_dset_notin).
    split.
    { split; simpl; try done.
      - by apply NoDup_dkeys_dset.
      - intros n s0. rewrite Hset, elem_of_app, elem_of_list_singleton.
        intros [Hin|[= -> ->]]; [by apply H2|done]. }
    intros [Ha Ho Hr Hre Ht Hin].
    pose proof (agree_keys _ _ Ha) as Hk.
    unfold PropertyModel.tracker_attach. rewrite Hren by (by rewrite Hk). simpl.
    eexists. split; [done|].
    assert (Hset' : dset (g_props g) (s_name s) (length (g_objects g))
                    = g_props g ++ [(s_name s, length (g_objects g))]).
    { apply dkeys_dset_notin. by rewrite Hk. }
    split; simpl; try done.
    - destruct Ha as [Hb Hf]. split; [done|]. simpl. rewrite Hset, Hset'.
      apply Forall2_app.
      + eapply Forall2_impl; [exact Hf|]. intros ns no (Hn & s0 & Hs0 & Hss).
        split; [done|]. exists s0. split; [|done]. by apply lookup_snoc_old.
      + repeat constructor. exists s. simpl. split; [|apply same_settings_refl].
        by rewrite lookup_app_r, Nat.sub_diag.
    - rewrite Hset'. unfold dvalues in *. rewrite map_app. simpl.
      apply NoDup_app. split; [done|]. split; [|apply NoDup_singleton].
      intros o Hin' ->%elem_of_list_singleton.
      apply (agree_lt _ _ _ Ha) in Hin'. lia.
    - rewrite Hset'. rewrite dkeys_dset_notin by (by rewrite Hr, Hk).
      unfold dkeys in *. rewrite !map_app. by rewrite Hr.
  Qed.

  Lemma ddel_Forall2 {A B} (R : string * A -> string * B -> Prop)
      (d : dict string A) (d' : dict string B) name :
    (forall x y, R x y -> x.1 = y.1) -> Forall2 R d d' ->
    Forall2 R (ddel d name) (ddel d' name).
  Proof.
    intros HR. induction 1 as [|[n a] [n' b] l k H Hlk IH]; [constructor|].
    simpl. pose proof (HR _ _ H) as E. simpl in E. subst n'.
    destruct (decide (name = n)); [done|]. by constructor.
  Qed.
  Lemma dkeys_ddel_eq {A B} (d : dict string A) (d' : dict string B) name :
    dkeys d = dkeys d' -> dkeys (ddel d name) = dkeys (ddel d' name).
  Proof.
    revert d'. induction d as [|[n a] d IH]; intros [|[n' b] d']; simpl; try done.
    intros [= -> E]. destruct (decide (name = n')); [done|].
    unfold dkeys in *. simpl. f_equal. by apply IH.
  Qed.
  Lemma din_keys {A} (d : dict string A) name : din d name = true <-> name ∈ dkeys d.
  Proof.
    unfold din. rewrite <- dget_in_keys. destruct (dget d name); split; try done; eauto.
    by intros [? ?].
  Qed.
  Lemma din_keys_false {A} (d : dict string A) name : din d name = false <-> name ∉ dkeys d.
  Proof. rewrite <- din_keys. by rewrite not_true_iff_false. Qed.

  Lemma sublist_map {A B} (f : A -> B) l k : sublist l k -> sublist (map f l) (map f k).
  Proof. induction 1; simpl; by constructor. Qed.

  Lemma detach_inv p g name p' :
    pinv p -> plan_detach p name = Ok p' ->
    pinv p' /\ (ginv p g -> exists g', tracker_detach g name = Ok g' /\ ginv p' g').
  Proof.
    intros [H1 H2 H3 H4]. unfold plan_detach. destruct (din _ _) eqn:Hd; [|done].
    intros [= <-]. split.
    { split; simpl; try done.
      - by apply NoDup_dkeys_ddel.
      - intros n s Hin. apply H2.
        eapply elem_of_submseteq; [exact Hin|]. apply sublist_submseteq, ddel_sublist. }
    intros [Ha Ho Hr Hre Ht Hin]. pose proof (agree_keys _ _ Ha) as Hk.
    unfold tracker_detach.
    assert (Hd' : din (g_props g) name = true).
    { apply din_keys. rewrite Hk. by apply din_keys. }
    rewrite Hd'. eexists. split; [done|].
    split; simpl; try done.
    - destruct Ha as [Hb Hf]. split; [done|]. simpl. apply ddel_Forall2; [|done].
      by intros x y [? _].
    - eapply sublist_NoDup; [|exact Ho]. unfold dvalues. apply sublist_map, ddel_sublist.
    - by apply dkeys_ddel_eq.
  Qed.

  Lemma clear_inv p g : pinv p -> pinv (plan_clear p) /\
    (ginv p g -> ginv (plan_clear p) (tracker_clear g)).
  Proof.
    intros [H1 H2 H3 H4]. split.
    - split; simpl; try done; [constructor|]. by intros n s Hin%elem_of_nil.
    - intros [Ha Ho Hr Hre Ht Hin]. split; simpl; try done; [|constructor].
      destruct Ha as [Hb _]. split; [done|constructor].
  Qed.

  Lemma dset_Forall2_alter (R : string * spec T -> string * nat -> Prop) d d' name s :
    NoDup (dkeys d) -> dget d name = Some s ->
    Forall2 R d d' -> (forall x y, R x y -> x.1 = y.1) ->
    exists o, dget d' name = Some o /\ R (name, s) (name, o) .
  Proof.
    intros Hnd Hs Hf HR. induction Hf as [|[n a] [n' o] l k H _ IH]; [done|].
    pose proof (HR _ _ H) as E. simpl in E. subst n'. simpl in *.
    destruct (decide (name = n)) as [->|Hne].
    - injection Hs as ->. eauto.
    - apply IH; [|done]. unfold dkeys in Hnd. simpl in Hnd. by apply NoDup_cons in Hnd as [_ ?].
  Qed.

  Lemma enable_Forall2 (d : dict string (spec T)) (d' : dict string nat) (objs : list (spec T)) name s o b :
    NoDup (dkeys d) -> NoDup (dvalues d') ->
    Forall2 (fun ns no => ns.1 = no.1 /\
               exists s, objs !! no.2 = Some s /\ same_settings ns.2 s) d d' ->
    dget d name = Some s -> dget d' name = Some o ->
    Forall2 (fun ns no => ns.1 = no.1 /\
               exists s0, alter (fun s => with_enabled s b) o objs !! no.2 = Some s0
                          /\ same_settings ns.2 s0)
      (dset d name (with_enabled s b)) d'.
  Proof.
    intros Hk Hv Hf. induction Hf as [|[n a] [n' o'] l k [E (s0 & Hs0 & Hss)] Hf IH]; [done|].
    simpl in E. subst n'. unfold dkeys, dvalues in *. simpl in *.
    apply NoDup_cons in Hk as [Hk1 Hk2]. apply NoDup_cons in Hv as [Hv1 Hv2].
    destruct (decide (name = n)) as [->|Hne].
    - intros [= ->] [= ->]. constructor.
      + split; [done|]. simpl in *. rewrite list_lookup_alter, Hs0. simpl.
        eexists. split; [done|]. unfold same_settings in *. simpl. naive_solver.
      + clear IH. apply Forall2_same_length_lookup. split; [by eapply Forall2_length|].
        intros i [n1 s1] [n2 o2] L1 L2.
        destruct (Forall2_lookup_lr _ _ _ _ _ _ Hf L1 L2) as [E2 H2]. simpl in *.
        split; [done|]. rewrite list_lookup_alter_ne; [done|].
        intros ->. apply Hv1. apply elem_of_list_fmap. exists (n2, o2).
        split; [done|]. by eapply elem_of_list_lookup_2.
    - intros Hs Ho. constructor.
      + split; [done|]. simpl in *. rewrite list_lookup_alter_ne.
        * exists s0. done.
        * intros ->. apply Hv1. apply dget_Some_in in Ho. apply elem_of_list_fmap.
          by exists (name, o').
      + by apply IH.
  Qed.

  Lemma enable_inv p g name b p' :
    pinv p -> plan_enable p name b = Ok p' ->
    pinv p' /\ (ginv p g -> exists g', tracker_enable g name b = Ok g' /\ ginv p' g').
  Proof.
    intros [H1 H2 H3 H4]. unfold plan_enable. destruct (din (p_builtin p) name) eqn:Hd.
    - intros [= <-]. split.
      { split; simpl; try done. rewrite dkeys_dset_in; [done|]. by apply din_keys. }
      intros [Ha Ho Hr Hre Ht Hin]. unfold tracker_enable.
      destruct Ha as [Hb Hf]. rewrite <- Hb, Hd. eexists. split; [done|].
      split; simpl; try done.
    - destruct (dget (p_attached p) name) as [s|] eqn:Hs; [|done]. intros [= <-]. split.
      { split; simpl; try done.
        - by apply NoDup_dkeys_dset.
        - intros n s0 Hin. apply dget_in in Hin; [|by apply NoDup_dkeys_dset].
          rewrite dget_dset in Hin. destruct (decide (name = n)) as [->|Hne].
          + rewrite decide_True in Hin by done. injection Hin as <-.
            destruct (H2 n s) as [? ? ? ? ?]; [by apply dget_Some_in|].
            by split.
          + rewrite decide_False in Hin by done. apply H2. by apply dget_Some_in. }
      intros [Ha Ho Hr Hre Ht Hin]. unfold tracker_enable.
      destruct Ha as [Hb Hf]. rewrite <- Hb, Hd.
      destruct (dset_Forall2_alter _ _ _ _ _ H1 Hs Hf) as (o & Ho' & _); [by intros ?? [? _]|].
      rewrite Ho'. eexists. split; [done|].
      split; simpl; try done.
      split; [done|]. simpl. eapply enable_Forall2; done.
  Qed.

  (** ** Control calls *)
  Definition winv (w : world) : Prop :=
    pinv (w_plan w) /\ match w_active w with Some g => ginv (w_plan w) g | None => True end.

  Lemma on_active_inv w p' (f : sampling -> result sampling) :
    pinv p' ->
    (forall g, w_active w = Some g -> exists g', f g = Ok g' /\ ginv p' g') ->
    exists w', on_active w p' f = (w', Ok tt) /\ winv w' /\ w_plan w' = p' /\
      match w_active w with
      | Some g => exists g', f g = Ok g' /\ w_active w' = Some g'
      | None => w_active w' = None
      end.
  Proof.
    intros Hp Hf. unfold on_active. destruct (w_active w) as [g|].
    - destruct (Hf g) as (g' & -> & Hg); [done|]. eexists. split; [done|].
      split; [by split|]. split; [done|]. eauto.
    - eexists. split; [done|]. simpl. by split.
  Qed.

  (** A call is either rejected without any effect, or accepted by the plan and by the
      active tracker. *)
  Lemma control_inv w c w' r :
    winv w -> kmc_control w c = (w', r) ->
    winv w' /\ (w_active w' = None <-> w_active w = None) /\
    (r = Ok tt \/ ((exists x, r = Err x) /\ w' = w)).
  Proof.
    intros [Hp Hw] Hc. destruct c as [i d|a|name| |name b]; simpl in Hc.
    - destruct (plan_frequency _ _ _ _ _) as [p'|x] eqn:Hpf.
      + destruct (on_active_inv w p' (fun g => tracker_frequency zero leb g i d))
          as (w1 & E & Hi & _ & Ha); [by eapply (frequency_inv _ new_sampling)|..].
        { intros g Hg. rewrite Hg in Hw. by eapply frequency_inv. }
        rewrite E in Hc. injection Hc as <- <-. split; [done|]. split; [|by left].
        destruct (w_active w); [destruct Ha as (? & _ & ->)|rewrite Ha]; done.
      + injection Hc as <- <-. split; [done|]. split; [done|]. right. eauto.
    - destruct (plan_attach _ _ _ _ _) as [[p' name]|x] eqn:Hpf.
      + destruct (on_active_inv w p' (fun g =>
          let* gn := tracker_attach g (renamed a name) in Ok (fst gn)))
          as (w1 & E & Hi & _ & Ha); [by eapply (attach_inv _ new_sampling)|..].
        { intros g Hg. rewrite Hg in Hw.
          destruct (attach_inv _ g _ _ _ Hp Hpf) as [_ H]. destruct (H Hw) as (g' & -> & ?).
          simpl. eauto. }
        rewrite E in Hc. injection Hc as <- <-. split; [done|]. split; [|by left].
        destruct (w_active w); [destruct Ha as (? & _ & ->)|rewrite Ha]; done.
      + injection Hc as <- <-. split; [done|]. split; [done|]. right. eauto.
    - destruct (plan_detach _ _) as [p'|x] eqn:Hpf.
      + destruct (on_active_inv w p' (fun g => tracker_detach g name))
          as (w1 & E & Hi & _ & Ha); [by eapply (detach_inv _ new_sampling)|..].
        { intros g Hg. rewrite Hg in Hw. by eapply detach_inv. }
        rewrite E in Hc. injection Hc as <- <-. split; [done|]. split; [|by left].
        destruct (w_active w); [destruct Ha as (? & _ & ->)|rewrite Ha]; done.
      + injection Hc as <- <-. split; [done|]. split; [done|]. right. eauto.
    - destruct (on_active_inv w (plan_clear (w_plan w)) (fun g => Ok (tracker_clear g)))
          as (w1 & E & Hi & _ & Ha); [by apply (clear_inv _ new_sampling)|..].
      { intros g Hg. rewrite Hg in Hw. eexists. split; [done|]. by apply clear_inv. }
      rewrite E in Hc. injection Hc as <- <-. split; [done|]. split; [|by left].
      destruct (w_active w); [destruct Ha as (? & _ & ->)|rewrite Ha]; done.
    - destruct (plan_enable _ _ _) as [p'|x] eqn:Hpf.
      + destruct (on_active_inv w p' (fun g => tracker_enable g name b))
          as (w1 & E & Hi & _ & Ha); [by eapply (enable_inv _ new_sampling)|..].
        { intros g Hg. rewrite Hg in Hw. by eapply enable_inv. }
        rewrite E in Hc. injection Hc as <- <-. split; [done|]. split; [|by left].
        destruct (w_active w); [destruct Ha as (? & _ & ->)|rewrite Ha]; done.
      + injection Hc as <- <-. split; [done|]. split; [done|]. right. eauto.
  Qed.

  Lemma controls_inv cs w w' r :
    winv w -> kmc_controls w cs = (w', r) ->
    winv w' /\ (w_active w' = None <-> w_active w = None).
  Proof.
    revert w. induction cs as [|c cs IH]; intros w Hw Hc; simpl in Hc.
    - by injection Hc as <- <-.
    - destruct (kmc_control w c) as [w1 r1] eqn:E.
      destruct (control_inv _ _ _ _ Hw E) as (H1 & H2 & _).
      destruct r1 as [[]|x].
      + destruct (IH _ H1 Hc) as [H3 H4]. split; [done|]. by rewrite H4.
      + injection Hc as <- <-. done.
  Qed.

  (** ** Sampling keeps the invariant *)
  Lemma alter_settings (objs : list (spec T)) o (f : spec T -> spec T) o' s :
    (forall s, same_settings s (f s)) -> objs !! o' = Some s ->
    exists s', alter f o objs !! o' = Some s' /\ same_settings s s'.
  Proof.
    intros Hf Hs. destruct (decide (o = o')) as [->|Hne].
    - rewrite list_lookup_alter, Hs. simpl. eauto.
    - rewrite list_lookup_alter_ne by done. exists s. split; [done|]. apply same_settings_refl.
  Qed.
  Lemma mark_inv p g o step t : ginv p g -> ginv p (mark g o step t).
  Proof.
    intros [Ha Ho Hr Hre Ht Hin]. split; simpl; try done.
    unfold mark. apply agree_objects; [done|].
    intros o' s _ Hs. by apply alter_settings.
  Qed.
  Lemma log_call_inv p g o step t : ginv p g -> ginv p (log_call g o step t).
  Proof. intros [Ha Ho Hr Hre Ht Hin]. by split. Qed.
  Lemma set_records_inv p g r :
    ginv p g -> dkeys r = dkeys (g_records g) -> ginv p (set_records g r).
  Proof. intros [Ha Ho Hr Hre Ht Hin] E. split; try done. simpl. by rewrite E. Qed.

  Lemma sample_object_inv p g o st step t p' g' r :
    pinv p -> ginv p g -> sample_object p g o st step t = ((p', g'), r) ->
    pinv p' /\ ginv p' g'.
  Proof.
    intros Hp Hg. unfold PropertyModel.sample_object.
    destruct (g_objects g !! o) as [s|]; [|by intros [= <- <- <-]].
    destruct (negb (s_enabled s)); [by intros [= <- <- <-]|].
    destruct (negb (should_trigger _ _ _ _ _ _ _)); [by intros [= <- <- <-]|].
    destruct (call (s_callback s) st step t) as [cs out].
    destruct (kmc_controls _ cs) as [w rc] eqn:Ec.
    assert (Hw : winv (World p (Some (log_call g o step t))))
      by (split; simpl; [done|by apply log_call_inv]).
    destruct (controls_inv _ _ _ _ Hw Ec) as [[Hp' Hg'] Hact].
    destruct (w_active w) as [g1|]; [|by pose proof (proj1 Hact eq_refl)].
    destruct (match rc with Ok _ => out | Err x => Err x end) as [v|x].
    - destruct (s_store s).
      + destruct (dget (g_records g1) (s_name s)) as [l|] eqn:El.
        * intros [= <- <- <-]. split; [done|]. apply mark_inv, set_records_inv; [done|].
          apply dkeys_dset_in. apply dget_in_keys. eauto.
        * by intros [= <- <- <-].
      + intros [= <- <- <-]. split; [done|]. by apply mark_inv.
    - destruct (survives _ _ _ _ _ _); intros [= <- <- <-]; split; try done. by apply mark_inv.
  Qed.
  Lemma sample_objects_inv os p g st step t p' g' r :
    pinv p -> ginv p g -> sample_objects p g os st step t = ((p', g'), r) ->
    pinv p' /\ ginv p' g'.
  Proof.
    revert p g. induction os as [|o os IH]; intros p g Hp Hg; simpl.
    - by intros [= <- <- <-].
    - destruct (sample_object p g o st step t) as [[p1 g1] [[]|x]] eqn:E;
        destruct (sample_object_inv _ _ _ _ _ _ _ _ _ Hp Hg E) as [H1 H2].
      + by apply IH.
      + by intros [= <- <- <-].
  Qed.
  Lemma sample_summary_inv p g o step t :
    ginv p g -> ginv p (sample_summary sub leb transport g o step t).
  Proof.
    intros [Ha Ho Hr Hre Ht Hin]. unfold sample_summary.
    destruct (should_trigger _ _ _ _ _ _ _); split; simpl; try done.
    unfold rectangular in *. simpl. rewrite !app_length. simpl. lia.
  Qed.
  Lemma sample_properties_inv p g o st step t p' g' r :
    pinv p -> ginv p g -> sample_properties p g o st step t = ((p', g'), r) ->
    pinv p' /\ ginv p' g'.
  Proof.
    intros Hp Hg. unfold PropertyModel.sample_properties. apply sample_objects_inv; [done|].
    by apply sample_summary_inv.
  Qed.

  (** ** The tracker of a run *)
  Lemma dset_app_notin {A} (pre d : dict string A) n b0 b :
    n ∉ dkeys pre -> dset (pre ++ (n, b0) :: d) n b = pre ++ (n, b) :: d.
  Proof.
    induction pre as [|[m c] pre IH]; simpl; intros Hn.
    - by rewrite decide_True.
    - unfold dkeys in Hn. simpl in Hn. apply not_elem_of_cons in Hn as [H1 H2].
      rewrite decide_False by done. f_equal. by apply IH.
  Qed.
  Lemma enable_all (d pre d0 : dict string bool) i dt ob pr re ls res (cl : list (nat * Z * T)) :
    dkeys d0 = dkeys d -> NoDup (dkeys (pre ++ d)) ->
    rfold (fun g nb => tracker_enable g (fst nb) (snd nb))
      (Sampling i dt (pre ++ d0) ob pr re ls res cl : sampling) d
    = Ok (Sampling i dt (pre ++ d) ob pr re ls res cl).
  Proof.
    revert pre d0. induction d as [|[n b] d IH]; intros pre d0 Hk Hnd.
    - by destruct d0.
    - destruct d0 as [|[n' b0] d0]; [done|]. unfold dkeys in Hk. simpl in Hk.
      injection Hk as -> Hk. simpl. unfold tracker_enable at 1. simpl.
      assert (Hpre : n ∉ dkeys pre).
      { unfold dkeys in *. rewrite map_app in Hnd. apply NoDup_app in Hnd as (_ & H & _).
        intros Hin. apply (H _ Hin). simpl. constructor. }
      assert (Hd : din (pre ++ (n, b0) :: d0) n = true).
      { apply din_keys. unfold dkeys. rewrite map_app. simpl. apply elem_of_app. right.
        constructor. }
      rewrite Hd. simpl. rewrite dset_app_notin by done.
      replace (pre ++ (n, b) :: d0) with ((pre ++ [(n, b)]) ++ d0) by (by rewrite <- app_assoc).
      rewrite IH; [|done|]; rewrite <- app_assoc; done.
  Qed.

  Definition named_from (k : nat) (specs : list (spec T)) : dict string nat :=
    map (fun is => (s_name (snd is), fst is)) (enum_from k specs).
  Lemma named_from_keys k specs : dkeys (named_from k specs) = map s_name specs.
  Proof.
    unfold dkeys, named_from. revert k. induction specs as [|s l IH]; intros k; [done|].
    simpl. by rewrite IH.
  Qed.
  Lemma attach_all (specs : list (spec T)) i dt b ob pr re ls res (cl : list (nat * Z * T)) :
    Forall (fun s => valid_spec (s_name s) s) specs ->
    NoDup (dkeys pr ++ map s_name specs) -> dkeys re = dkeys pr ->
    rfold (fun g s => let* gn := tracker_attach g (spec_args s) in Ok (fst gn))
      (Sampling i dt b ob pr re ls res cl : sampling) (map reset specs)
    = Ok (Sampling i dt b (ob ++ map reset specs) (pr ++ named_from (length ob) specs)
            (re ++ map (fun s => (s_name s, [])) specs) ls res cl).
  Proof.
    revert ob pr re. induction specs as [|s specs IH]; intros ob pr re Hv Hnd Hk.
    - simpl. by rewrite !app_nil_r.
    - apply Forall_cons in Hv as [Hs Hv]. cbn [map rfold].
      assert (Hnew : s_name s ∉ dkeys pr).
      { apply NoDup_app in Hnd as (_ & H & _). intros Hin. apply (H _ Hin). constructor. }
      unfold PropertyModel.tracker_attach at 1. cbn [g_props].
      rewrite (make_from_spec (s_name s)) by done.
      cbn [rbind fst g_interval g_time g_builtin g_objects g_props g_records g_last_summary
             g_results g_calls].
      replace (s_name (reset s)) with (s_name s) by done.
      rewrite (dkeys_dset_notin pr) by done.
      rewrite (dkeys_dset_notin re) by (by rewrite Hk).
      rewrite IH; [|done|..].
      + f_equal. f_equal.
        * by rewrite <- app_assoc.
        * rewrite <- app_assoc. f_equal. unfold named_from. rewrite app_length. simpl.
          by rewrite Nat.add_1_r.
        * by rewrite <- app_assoc.
      + unfold dkeys in *. rewrite map_app. simpl. by rewrite <- app_assoc.
      + unfold dkeys in *. rewrite !map_app. by rewrite Hk.
  Qed.

  Lemma plan_names p : pinv p -> map s_name (dvalues (p_attached p)) = dkeys (p_attached p).
  Proof.
    intros [_ H _ _]. unfold dvalues, dkeys. rewrite map_map.
    apply map_ext_in. intros [n s] Hin. simpl. apply elem_of_list_In in Hin.
    by destruct (H _ _ Hin).
  Qed.
  Lemma builtin_nodup : NoDup builtin_fields.
  Proof. apply (bool_decide_unpack _). by vm_compute. Qed.

  Definition run_schedule (p : plan T) (n : nat) : option Z :=
    match p_interval p, p_time p with
    | None, None => Some (Z.max (Z.of_nat n) 1)
    | i, _ => i
    end.

  Lemma tracker_for_run_ok p n :
    pinv p ->
    tracker_for_run zero leb fname p n =
      Ok (Sampling (run_schedule p n) (p_time p) (p_builtin p)
            (map reset (dvalues (p_attached p))) (named_from 0 (dvalues (p_attached p)))
            (map (fun s => (s_name s, [])) (dvalues (p_attached p))) None
            (Results [] [] [] [] [] [] []) [] : sampling).
  Proof.
    intros Hp. pose proof (plan_names _ Hp) as Hnames. destruct Hp as [H1 H2 H3 H4].
    unfold tracker_for_run, apply_plan, tracker_frequency.
    assert (Hs : valid_schedule (run_schedule p n) (p_time p)).
    { unfold run_schedule. destruct H4 as [H4 H5]. unfold valid_schedule.
      destruct (p_interval p) as [z|]; [done|]. destruct (p_time p); [done|].
      split; [lia|done]. }
    replace (match p_interval p with
             | Some _ => p_interval p
             | None => match p_time p with
                       | Some _ => p_interval p
                       | None => Some (Z.max (Z.of_nat n) 1)
                       end end) with (run_schedule p n)
      by (unfold run_schedule; by destruct (p_interval p), (p_time p)).
    rewrite validate_schedule_valid by done. simpl.
    change all_enabled with ([] ++ all_enabled).
    rewrite (enable_all (p_builtin p) [] all_enabled).
    2:{ by rewrite H3. }
    2:{ simpl. rewrite H3. apply builtin_nodup. }
    simpl. change (fresh_specs p) with (map reset (dvalues (p_attached p))).
    rewrite (attach_all (dvalues (p_attached p))); simpl; try done.
    - apply Forall_forall. intros s Hin. unfold dvalues in Hin.
      apply elem_of_list_fmap in Hin as ([nm s'] & -> & Hin). simpl.
      pose proof (H2 _ _ Hin) as Hv. by rewrite (vs_name _ _ Hv).
    - by rewrite Hnames.
  Qed.

  Lemma named_from_snd k specs : dvalues (named_from k specs) = seq k (length specs).
  Proof.
    unfold dvalues, named_from. rewrite map_map. simpl. apply enum_from_fst.
  Qed.
  Lemma reset_settings (s : spec T) : same_settings s (reset s).
  Proof. by unfold same_settings. Qed.

  Lemma fresh_agree (d : dict string (spec T)) k pre :
    (forall name s, (name, s) ∈ d -> s_name s = name) -> length pre = k ->
    Forall2 (fun ns no => ns.1 = no.1 /\
               exists s, (pre ++ map reset (dvalues d)) !! no.2 = Some s /\ same_settings ns.2 s)
      d (named_from k (dvalues d)).
  Proof.
    revert k pre. induction d as [|[n s] d IH]; intros k pre Hn Hl; [constructor|].
    unfold dvalues, named_from. simpl. constructor.
    - simpl. split; [symmetry; apply Hn; constructor|].
      exists (reset s). split; [|apply reset_settings].
      rewrite lookup_app_r by lia. by rewrite Hl, Nat.sub_diag.
    - specialize (IH (S k) (pre ++ [reset s])). rewrite <- app_assoc in IH. simpl in IH.
      apply IH; [|rewrite app_length; simpl; lia].
      intros nm s' Hin. apply Hn. by constructor.
  Qed.

  Lemma tracker_for_run_inv p n g :
    pinv p -> tracker_for_run zero leb fname p n = Ok g -> ginv p g.
  Proof.
    intros Hp. rewrite (tracker_for_run_ok _ _ Hp). intros [= <-].
    pose proof (plan_names _ Hp) as Hnames. destruct Hp as [H1 H2 H3 H4].
    split; simpl; try done.
    - split; [done|]. simpl. apply (fresh_agree _ 0 []); [|done].
      intros name s Hin. by destruct (H2 _ _ Hin).
    - rewrite named_from_snd. apply NoDup_seq.
    - rewrite named_from_keys. unfold dkeys. rewrite map_map. done.
    - unfold run_schedule. destruct (p_interval p); [by left|]. destruct (p_time p); [by left|].
      by right.
  Qed.

  Lemma act_inv w a : winv w -> winv (fst (act zero sub leb fname call handle transport w a)).
  Proof.
    intros Hw. destruct a as [c|n|o st step t]; simpl.
    - destruct (kmc_control w c) as [w' r] eqn:E. by destruct (control_inv _ _ _ _ Hw E).
    - destruct (tracker_for_run _ _ _ _ _) as [g|x] eqn:E; [|done].
      destruct Hw as [Hp _]. split; [done|]. simpl. by eapply tracker_for_run_inv.
    - destruct (w_active w) as [g|] eqn:Hg; [|done].
      destruct (sample_properties _ _ _ _ _ _) as [[p' g'] r] eqn:E.
      destruct Hw as [Hp Hgi]. rewrite Hg in Hgi.
      by destruct (sample_properties_inv _ _ _ _ _ _ _ _ _ Hp Hgi E).
  Qed.
  Lemma pinv_empty : pinv empty_plan.
  Proof.
    split; simpl; try done; [constructor|]. by intros ?? ?%elem_of_nil.
  Qed.
  Lemma reachable_inv w : reachable zero sub leb fname call handle transport w -> winv w.
  Proof.
    intros [l ->]. assert (H : winv new_world) by (split; [apply pinv_empty|done]).
    revert H. generalize (new_world (T:=T) (V:=V)) as w0. unfold acts.
    induction l as [|a l IH]; intros w0 H; simpl; [done|]. apply IH. by apply act_inv.
  Qed.

  Lemma fresh_run_lemma w n :
    reachable zero sub leb fname call handle transport w ->
    exists g : sampling, tracker_for_run zero leb fname (w_plan w) n = Ok g /\
      agree (w_plan w) g /\
      (forall name o s, attached g name o s -> s_last_step s = 0%Z /\ s_last_time s = None) /\
      dkeys (g_records g) = dkeys (p_attached (w_plan w)) /\
      (forall name l, dget (g_records g) name = Some l -> l = []) /\
      g_last_summary g = None /\ g_results g = Results [] [] [] [] [] [] [] /\
      g_calls g = [] /\ g_time g = p_time (w_plan w) /\
      g_interval g = (if bool_decide (p_interval (w_plan w) = None) &&
                         match p_time (w_plan w) with None => true | Some _ => false end
                      then Some (Z.max (Z.of_nat n) 1) else p_interval (w_plan w)).
  Proof.
    intros [Hp _]%reachable_inv.
    pose proof (tracker_for_run_ok _ n Hp) as E. eexists. split; [exact E|].
    pose proof (tracker_for_run_inv _ _ _ Hp E) as HI.
    split; [apply HI|].
    split.
    { intros name o s [_ Ho]. simpl in Ho. rewrite list_lookup_fmap in Ho.
      destruct (dvalues _ !! o) as [s0|]; [|done]. injection Ho as <-. done. }
    split.
    { rewrite (gi_records _ _ HI). apply agree_keys, HI. }
    split.
    { intros name l Hl. apply dget_Some_in in Hl. simpl in Hl.
      apply elem_of_list_fmap in Hl as (s0 & [= _ ->] & _). done. }
    do 4 (split; [done|]). simpl. unfold run_schedule.
    destruct (p_interval (w_plan w)); [done|]. by destruct (p_time (w_plan w)).
  Qed.

  (** ** One sampling point *)
  Notation happens := (happens sub leb call handle).

  Lemma append_record_recent (l : list (record T V)) max r :
    most_recent max (l ++ [r]) (append_record l max r).
  Proof.
    unfold most_recent, append_record. destruct max as [m|]; [|by exists []].
    destruct (Z.ltb_spec m (Z.of_nat (length (l ++ [r])))).
    - exists (take (length (l ++ [r]) - Z.to_nat m) (l ++ [r])).
      split; [by rewrite take_drop|]. rewrite drop_length. lia.
    - exists []. split; [done|]. lia.
  Qed.
  Lemma recent_snoc {A} max (l0 l l' : list A) x :
    most_recent max l0 l -> most_recent max (l ++ [x]) l' -> most_recent max (l0 ++ [x]) l'.
  Proof.
    intros (d & -> & H1) (d' & E & H2). exists (d ++ d'). split.
    - rewrite <- !app_assoc. f_equal. by rewrite <- E.
    - destruct max as [m|]; [|by subst].
      rewrite !app_length in *. simpl in *. lia.
  Qed.

  Lemma survives_iff s x st step t :
    survives handle s x st step t = true <->
    exists h, s_on_error s = Some h /\ handle h x st step t = Ok true.
  Proof.
    unfold survives. destruct (s_on_error s) as [h|].
    - destruct (handle h x st step t) as [b|e] eqn:E.
      + split; [intros ->; eauto|]. intros (h' & [= <-] & H). congruence.
      + split; [done|]. intros (h' & [= <-] & H). congruence.
    - split; [done|]. by intros (h' & ? & _).
  Qed.

  Lemma calls_of_log (g : sampling) o step t o' :
    calls_of (log_call g o step t) o' =
    calls_of g o' ++ (if decide (o = o') then [(step, t)] else []).
  Proof.
    unfold calls_of. simpl. rewrite List.filter_app, map_app. f_equal. simpl.
    destruct (decide (o = o')) as [->|Hne].
    - by rewrite Nat.eqb_refl.
    - by rewrite (proj2 (Nat.eqb_neq o o')) by done.
  Qed.

  (** What sampling callbacks never changes. *)
  Definition frame (g g' : sampling) : Prop :=
    g_interval g' = g_interval g /\ g_time g' = g_time g /\ g_builtin g' = g_builtin g /\
    g_props g' = g_props g /\ g_results g' = g_results g /\
    g_last_summary g' = g_last_summary g.
  Lemma frame_refl (g : sampling) : frame g g.
  Proof. by unfold frame. Qed.
  Lemma frame_trans g1 g2 g3 : frame g1 g2 -> frame g2 g3 -> frame g1 g3.
  Proof. unfold frame. intuition congruence. Qed.
  Lemma happens_frame (g g' : sampling) s st step t out :
    g_interval g' = g_interval g -> g_time g' = g_time g ->
    happens g s st step t out -> happens g' s st step t out.
  Proof.
    intros E1 E2. inversion 1; subst; [by apply happens_disabled|..].
    - apply happens_not_due. by rewrite E1, E2.
    - apply happens_value; [done| |done]. by rewrite E1, E2.
    - eapply happens_survived; eauto. by rewrite E1, E2.
    - eapply happens_stopped; eauto. by rewrite E1, E2.
  Qed.

  Lemma untouched_refl (g : sampling) name o : untouched g g name o.
  Proof. done. Qed.
  Lemma untouched_trans (g1 g2 g3 : sampling) name o :
    untouched g1 g2 name o -> untouched g2 g3 name o -> untouched g1 g3 name o.
  Proof. unfold untouched. intuition congruence. Qed.
  Lemma effect_untouched_r (g g1 g' : sampling) name o s step t (out : outcome) :
    effect g g1 name o s step t out -> untouched g1 g' name o ->
    effect (V:=V) g g' name o s step t out.
  Proof.
    intros (H1 & H2 & s' & Hs & H3) (U1 & U2 & U3). split; [by rewrite U1|]. split.
    - destruct out as [|v| |]; [by rewrite U2| |by rewrite U2..].
      destruct (s_store s); [|by rewrite U2].
      destruct H2 as (l & l' & ? & ? & ?). exists l, l'. by rewrite U2.
    - exists s'. by rewrite U3.
  Qed.
  Lemma effect_untouched_l (g g1 g' : sampling) name o s step t (out : outcome) :
    untouched g g1 name o -> effect g1 g' name o s step t out ->
    effect (V:=V) g g' name o s step t out.
  Proof.
    intros (U1 & U2 & U3) (H1 & H2 & s' & Hs & H3). split; [by rewrite H1, U1|]. split.
    - destruct out as [|v| |]; [by rewrite <- U2| |by rewrite <- U2..].
      destruct (s_store s); [|by rewrite <- U2].
      destruct H2 as (l & l' & ? & ? & ?). exists l, l'. by rewrite <- U2.
    - exists s'. done.
  Qed.

  Lemma sample_object_quiet p (g : sampling) name o s st step t :
    dget (g_records g) name <> None -> s_name s = name ->
    g_objects g !! o = Some s -> quiet call (s_callback s) ->
    exists out g1 r, happens g s st step t out /\
      sample_object p g o st step t = ((p, g1), r) /\
      ((out <> Stopped /\ r = Ok tt) \/ (out = Stopped /\ r = Err CallbackExecutionError)) /\
      frame g g1 /\ effect g g1 name o s step t out /\ dkeys (g_records g1) = dkeys (g_records g) /\
      (forall name' o', name' <> name -> o' <> o -> untouched g g1 name' o').
  Proof.
    intros Hrec Hname Hs Hq. unfold PropertyModel.sample_object. rewrite Hs.
    assert (Hidle : effect g g name o s step t (Idle (V:=V))).
    { split; [by rewrite app_nil_r|]. split; [done|]. exists s. split; [done|].
      split; [apply same_settings_refl|done]. }
    destruct (s_enabled s) eqn:Hen; simpl.
    2:{ exists Idle, g, (Ok tt). split; [by apply happens_disabled|]. split; [done|].
        split; [by left|]. split; [apply frame_refl|]. done. }
    destruct (should_trigger _ _ _ _ _ _ _) eqn:Htr; simpl.
    2:{ exists Idle, g, (Ok tt). split; [apply happens_not_due; by apply should_trigger_not_due|].
        split; [done|]. split; [by left|]. split; [apply frame_refl|]. done. }
    apply should_trigger_due in Htr.
    destruct (call (s_callback s) st step t) as [cs out] eqn:Ecall.
    assert (cs = []) as ->.
    { pose proof (Hq st step t) as E. by rewrite Ecall in E. }
    simpl.
    assert (Hcalls : forall o', calls_of (log_call g o step t) o' =
              calls_of g o' ++ if decide (o = o') then [(step, t)] else [])
      by apply calls_of_log.
    assert (Hmark : forall g' : sampling, g_objects g' = g_objects g ->
      exists s', g_objects (mark g' o step t) !! o = Some s' /\ same_settings s s' /\
        (s_last_step s', s_last_time s') = (step, Some t)).
    { intros g' Hg'. simpl. rewrite Hg', list_lookup_alter, Hs. simpl. eexists.
      split; [done|]. by split. }
    destruct out as [v|x].
    - destruct (s_store s) eqn:Hst.
      + destruct (dget (g_records g) (s_name s)) as [l|] eqn:El;
          [|by rewrite Hname in El].
        eexists (Returned v), _, _. split.
        { apply happens_value; [done|done|by rewrite Ecall]. }
        split; [done|]. split; [by left|]. split; [done|].
        split; [|split].
        * split; [|split].
          -- etransitivity; [apply (Hcalls o)|]. by rewrite decide_True.
          -- rewrite Hst. eexists _, _. split; [by rewrite <- Hname|].
             split; [simpl; rewrite <- Hname; apply dget_dset_eq|].
             rewrite Hname. apply append_record_recent.
          -- by apply Hmark.
        * simpl. apply dkeys_dset_in, dget_in_keys. eauto.
        * intros name' o' Hn Ho. split; [|split].
          -- etransitivity; [apply (Hcalls o')|]. rewrite decide_False by done.
             apply app_nil_r.
          -- simpl. apply dget_dset_ne. congruence.
          -- simpl. by apply list_lookup_alter_ne.
      + eexists (Returned v), _, _. split.
        { apply happens_value; [done|done|by rewrite Ecall]. }
        split; [done|]. split; [by left|]. split; [done|].
        split; [|split; [done|]].
        * split; [|split].
          -- etransitivity; [apply (Hcalls o)|]. by rewrite decide_True.
          -- by rewrite Hst.
          -- by apply Hmark.
        * intros name' o' Hn Ho. split; [|split; [done|]].
          -- etransitivity; [apply (Hcalls o')|]. rewrite decide_False by done.
             apply app_nil_r.
          -- simpl. by apply list_lookup_alter_ne.
    - destruct (survives handle s x st step t) eqn:Hsv.
      + apply survives_iff in Hsv as (h & Hh & Hx).
        eexists Survived, _, _. split.
        { eapply happens_survived; [done|done|by rewrite Ecall|done|done]. }
        split; [done|]. split; [by left|]. split; [done|].
        split; [|split; [done|]].
        * split; [|split; [done|]].
          -- etransitivity; [apply (Hcalls o)|]. by rewrite decide_True.
          -- by apply Hmark.
        * intros name' o' Hn Ho. split; [|split; [done|]].
          -- etransitivity; [apply (Hcalls o')|]. rewrite decide_False by done.
             apply app_nil_r.
          -- simpl. by apply list_lookup_alter_ne.
      + eexists Stopped, _, _. split.
        { eapply happens_stopped; [done|done|by rewrite Ecall|].
          rewrite <- survives_iff. by rewrite Hsv. }
        split; [done|]. split; [by right|]. split; [done|].
        split; [|split; [done|]].
        * split; [|split; [done|]].
          -- etransitivity; [apply (Hcalls o)|]. by rewrite decide_True.
          -- exists s. split; [done|]. split; [apply same_settings_refl|done].
        * intros name' o' Hn Ho. split; [|done].
          etransitivity; [apply (Hcalls o')|]. rewrite decide_False by done. apply app_nil_r.
  Qed.

  (** The loop over the attachments [l]. *)
  Definition handled (g g' : sampling) st step t (l : dict string nat) : Prop :=
    forall name o s, (name, o) ∈ l -> g_objects g !! o = Some s ->
    exists out, happens g s st step t out /\ out <> Stopped /\ effect g g' name o s step t out.

  Lemma sample_objects_quiet p st step t l : forall g : sampling,
    NoDup (dkeys l) -> NoDup (dvalues l) ->
    (forall name o, (name, o) ∈ l -> dget (g_records g) name <> None /\
       exists s, g_objects g !! o = Some s /\ s_name s = name /\ quiet call (s_callback s)) ->
    exists g' r, sample_objects p g (dvalues l) st step t = ((p, g'), r) /\ frame g g' /\
      dkeys (g_records g') = dkeys (g_records g) /\
      (forall name o, name ∉ dkeys l -> o ∉ dvalues l -> untouched g g' name o) /\
      ((r = Ok tt /\ handled g g' st step t l) \/
       (r = Err CallbackExecutionError /\ exists before name o s after,
          l = before ++ (name, o) :: after /\ handled g g' st step t before /\
          g_objects g !! o = Some s /\ happens g s st step t Stopped /\
          effect g g' name o s step t Stopped /\
          (forall name' o', (name', o') ∈ after -> untouched g g' name' o'))).
  Proof.
    induction l as [|[name o] l IH]; intros g Hk Hv Hl.
    - exists g, (Ok tt). split; [done|]. split; [apply frame_refl|]. split; [done|].
      split; [done|]. left. split; [done|]. by intros ??? ?%elem_of_nil.
    - unfold dkeys, dvalues in Hk, Hv. simpl in Hk, Hv.
      apply NoDup_cons in Hk as [Hk1 Hk2]. apply NoDup_cons in Hv as [Hv1 Hv2].
      destruct (Hl name o) as (Hrec & s & Hs & Hn & Hq); [constructor|].
      destruct (sample_object_quiet p g name o s st step t Hrec Hn Hs Hq)
        as (out & g1 & r1 & Hh & E & Hr & Hf & He & Hrk & Hu).
      assert (Hother : forall name' o', (name', o') ∈ l -> name' <> name /\ o' <> o).
      { intros name' o' Hin. split.
        - intros ->. apply Hk1. apply elem_of_list_fmap. by exists (name, o').
        - intros ->. apply Hv1. apply elem_of_list_fmap. by exists (name', o). }
      unfold dvalues. cbn [map snd PropertyModel.sample_objects]. rewrite E.
      destruct Hr as [[Hns ->]|[-> ->]].
      + destruct (IH g1) as (g' & r & E' & Hf' & Hrk' & Hu' & Hcase); [done|done|..].
        { intros name' o' Hin. destruct (Hother _ _ Hin) as [Hn' Ho'].
          destruct (Hu _ _ Hn' Ho') as (_ & U2 & U3). rewrite U2, U3.
          apply Hl. by constructor. }
        exists g', r. split; [exact E'|]. split; [by eapply frame_trans|].
        split; [by rewrite Hrk'|].
        assert (Hhd : untouched g1 g' name o).
        { apply Hu'; unfold dkeys, dvalues; done. }
        assert (Htl : forall l0, (forall x, x ∈ l0 -> x ∈ l) ->
          handled g1 g' st step t l0 -> handled g g' st step t l0).
        { intros l0 Hsub H name' o' s' Hin Hs'.
          destruct (Hother _ _ (Hsub _ Hin)) as [Hn' Ho'].
          pose proof (Hu _ _ Hn' Ho') as U. pose proof U as (_ & _ & U3).
          destruct (H name' o' s' Hin) as (out' & Hh' & Hns' & He'); [by rewrite U3|].
          exists out'. split; [|split; [done|by eapply effect_untouched_l]].
          destruct Hf as (F1 & F2 & _). eapply happens_frame; [| |exact Hh']; done. }
        assert (Hhead : handled g g' st step t [(name, o)]).
        { intros name' o' s' [= -> ->]%elem_of_list_singleton Hs'.
          rewrite Hs in Hs'. injection Hs' as <-.
          exists out. split; [done|]. split; [done|]. by eapply effect_untouched_r. }
        split.
        { intros name' o' Hn' Ho'. unfold dkeys, dvalues in Hn', Ho'. simpl in Hn', Ho'.
          apply not_elem_of_cons in Hn' as [? ?]. apply not_elem_of_cons in Ho' as [? ?].
          eapply untouched_trans; [by apply Hu|by apply Hu']. }
        destruct Hcase as [[-> HH]|(-> & before & n2 & o2 & s2 & after & -> & HB & Hs2 & Hst & Hef & Haf)].
        * left. split; [done|]. intros name' o' s' [Hin|Hin]%elem_of_cons Hs'.
          -- apply Hhead; [|done]. rewrite Hin. constructor.
          -- apply Htl with l; done.
        * right. split; [done|]. exists ((name, o) :: before), n2, o2, s2, after.
          destruct (Hother n2 o2) as [Hn' Ho']; [apply elem_of_app; right; constructor|].
          pose proof (Hu _ _ Hn' Ho') as U. pose proof U as (_ & _ & U3).
          split; [done|]. split; [|split; [|split; [|split]]].
          -- intros name' o' s' [Hin|Hin]%elem_of_cons Hs'.
             ++ apply Hhead; [|done]. rewrite Hin. constructor.
             ++ eapply Htl; [|exact HB|done|done]. intros x Hx. apply elem_of_app. by left.
          -- by rewrite <- U3.
          -- destruct Hf as (F1 & F2 & _). eapply happens_frame; [| |exact Hst]; done.
          -- by eapply effect_untouched_l.
          -- intros name' o' Hin. destruct (Hother name' o') as [? ?].
             { apply elem_of_app. right. by constructor. }
             eapply untouched_trans; [by apply Hu|by apply Haf].
      + exists g1, (Err CallbackExecutionError). split; [done|]. split; [done|].
        split; [done|]. split.
        { intros name' o' Hn' Ho'. unfold dkeys, dvalues in Hn', Ho'. simpl in Hn', Ho'.
          apply not_elem_of_cons in Hn' as [? ?]. apply not_elem_of_cons in Ho' as [? ?].
          by apply Hu. }
        right. split; [done|]. exists [], name, o, s, l. split; [done|].
        split; [by intros ??? ?%elem_of_nil|]. do 3 (split; [done|]).
        intros name' o' Hin. destruct (Hother _ _ Hin). by apply Hu.
  Qed.

  (** The summary row of a sampling point. *)
  Lemma reported_value (g : sampling) o t name :
    reported transport g o t name = field_value (V:=V) transport (g_builtin g) o t name.
  Proof.
    unfold reported, field_value.
    destruct (dget (g_builtin g) name) as [[]|]; simpl; try done.
  Qed.
  Lemma sample_summary_row (g : sampling) o step t :
    let g' := sample_summary sub leb transport g o step t in
    (due (g_interval g) (g_time g) (g_last_summary g) step t /\
     more_rows (g_results g) (g_results g') [(o, step, t)] (field_value transport (g_builtin g)) /\
     g_last_summary g' = Some t) \/
    (~ due (g_interval g) (g_time g) (g_last_summary g) step t /\ g' = g).
  Proof.
    simpl. unfold sample_summary. destruct (should_trigger _ _ _ _ _ _ _) eqn:E.
    - left. apply should_trigger_due in E. split; [done|]. split; [|done].
      unfold more_rows, append_row. simpl. rewrite !reported_value. done.
    - right. by apply should_trigger_not_due in E.
  Qed.
  Lemma sample_summary_frame (g : sampling) o step t :
    let g' := sample_summary sub leb transport g o step t in
    g_interval g' = g_interval g /\ g_time g' = g_time g /\ g_builtin g' = g_builtin g /\
    g_props g' = g_props g /\ g_objects g' = g_objects g /\ g_records g' = g_records g /\
    g_calls g' = g_calls g.
  Proof. simpl. unfold sample_summary. by destruct (should_trigger _ _ _ _ _ _ _). Qed.

  Definition point_ok (g g' : sampling) (st : St) step t (r : result unit) : Prop :=
    (r = Ok tt /\ handled g g' st step t (g_props g)) \/
    (r = Err CallbackExecutionError /\ exists before name o s after,
       g_props g = before ++ (name, o) :: after /\ handled g g' st step t before /\
       g_objects g !! o = Some s /\ happens g s st step t Stopped /\
       effect g g' name o s step t Stopped /\
       (forall name' o', (name', o') ∈ after -> untouched g g' name' o')).

  Lemma point_lemma p (g : sampling) o st step t :
    pinv p -> ginv p g -> quiet_attachments call g ->
    exists g' r, sample_properties p g o st step t = ((p, g'), r) /\
      g_interval g' = g_interval g /\ g_time g' = g_time g /\ g_builtin g' = g_builtin g /\
      g_props g' = g_props g /\ dkeys (g_records g') = dkeys (g_records g) /\
      g_results g' = g_results (sample_summary sub leb transport g o step t) /\
      g_last_summary g' = g_last_summary (sample_summary sub leb transport g o step t) /\
      point_ok g g' st step t r.
  Proof.
    intros Hp Hg Hq. unfold PropertyModel.sample_properties.
    destruct (sample_summary_frame g o step t) as (S1 & S2 & S3 & S4 & S5 & S6 & S7).
    set (g0 := sample_summary sub leb transport g o step t) in *.
    assert (Hk : dkeys (g_props g) = dkeys (p_attached p)) by apply agree_keys, Hg.
    destruct (sample_objects_quiet p st step t (g_props g) g0) as
      (g' & r & E & (F1 & F2 & F3 & F4 & F5 & F6) & Hrk & _ & Hcase).
    - rewrite Hk. apply Hp.
    - apply Hg.
    - intros name ob Hin. rewrite S5, S6. split.
      + rewrite dget_None, (gi_records _ _ Hg). intros H. apply H. unfold dkeys.
        apply elem_of_list_fmap. by exists (name, ob).
      + destruct (agree_attached _ _ _ _ (gi_agree _ _ Hg) Hin) as (s & s' & Hs & Hs' & Hss).
        exists s'. split; [done|]. split.
        * destruct Hss as [<- _]. apply (vs_name name). by apply (pi_specs _ Hp).
        * apply (Hq name ob). by split.
    - rewrite S4. rewrite S4 in F4.
      exists g', r. split; [exact E|]. split; [congruence|]. split; [congruence|].
      split; [congruence|]. split; [done|]. split; [congruence|]. split; [done|]. split; [done|].
      assert (HU : forall name ob, untouched g g0 name ob).
      { intros. unfold untouched, calls_of. by rewrite S5, S6, S7. }
      assert (HH : forall l, handled g0 g' st step t l -> handled g g' st step t l).
      { intros l H name ob s Hin Hs. destruct (H name ob s Hin) as (out & H1 & H2 & H3).
        { by rewrite S5. }
        exists out. split; [by eapply happens_frame|]. split; [done|].
        eapply effect_untouched_l; [apply HU|done]. }
      destruct Hcase as [[-> H]|(-> & before & n & ob & s & after & El & HB & Hs & Hst & Hef & Haf)].
      + left. split; [done|]. by apply HH.
      + right. split; [done|]. exists before, n, ob, s, after. split; [done|].
        split; [by apply HH|]. split; [by rewrite <- S5|].
        split; [by eapply happens_frame|]. split; [by eapply effect_untouched_l|].
        intros n' o' Hin. eapply untouched_trans; [apply HU|by apply Haf].
  Qed.

  (** ** A sequence of sampling points *)
  Lemma quiet_preserved p (g g' : sampling) :
    pinv p -> ginv p g -> ginv p g' -> quiet_attachments call g -> g_props g' = g_props g ->
    quiet_attachments call g'.
  Proof.
    intros Hp Hg Hg' Hq E name o s [Hin Hs].
    destruct (agree_attached _ _ _ _ (gi_agree _ _ Hg') Hin) as (s1 & s1' & H1 & H1' & Hss1).
    rewrite E in Hin.
    destruct (agree_attached _ _ _ _ (gi_agree _ _ Hg) Hin) as (s2 & s2' & H2 & H2' & Hss2).
    assert (s1 = s2) as ->.
    { apply dget_in in H1, H2; [|apply Hp..]. congruence. }
    rewrite Hs in H1'. injection H1' as <-.
    assert (E' : s_callback s = s_callback s2').
    { destruct Hss1 as (_ & <- & _), Hss2 as (_ & <- & _). done. }
    rewrite E'. by apply (Hq name o).
  Qed.

  Lemma points_lemma pts : forall p (g : sampling) p' g',
    pinv p -> ginv p g -> quiet_attachments call g ->
    sample_points p g pts = ((p', g'), Ok tt) ->
    p' = p /\ g_props g' = g_props g /\ ginv p g' /\
    (exists out, sampled sub leb (g_interval g) (g_time g) (g_last_summary g)
                   (summary_points pts) out /\
       more_rows (g_results g) (g_results g') out (field_value transport (g_builtin g))) /\
    (forall name o s, attached g name o s ->
       exists s', g_objects g' !! o = Some s' /\ same_settings s s' /\
       if s_enabled s then
         exists out,
           sampled sub leb (own_or_global (s_interval s) (g_interval g))
             (own_or_global (s_time_interval s) (g_time g)) (s_last_time s)
             (callback_points pts) out /\
           calls_of g' o = calls_of g o ++ map (fun x => (x.1.2, x.2)) out /\
           (s_store s = true -> forall l0 l, dget (g_records g) name = Some l ->
              most_recent (s_max s) l0 l ->
              exists l', dget (g_records g') name = Some l' /\
                most_recent (s_max s) (l0 ++ successes call name (s_callback s) out) l') /\
           (s_store s = false -> dget (g_records g') name = dget (g_records g) name)
       else calls_of g' o = calls_of g o /\
            dget (g_records g') name = dget (g_records g) name).
  Proof.
    induction pts as [|[[[ob st] step] t] pts IH]; intros p g p' g' Hp Hg Hq E.
    - simpl in E. injection E as <- <-. split; [done|]. split; [done|]. split; [done|]. split.
      { exists []. split; [constructor|]. unfold more_rows. simpl. by rewrite !app_nil_r. }
      intros name o s [Hin Hs]. exists s. split; [done|]. split; [apply same_settings_refl|].
      destruct (s_enabled s); [|done]. exists []. split; [constructor|].
      simpl. rewrite app_nil_r. split; [done|]. split; [|done].
      intros _ l0 l Hl Hr. exists l. by rewrite app_nil_r.
    - simpl in E. destruct (point_lemma p g ob st step t Hp Hg Hq) as
        (g1 & r & E1 & S1 & S2 & S3 & S4 & _ & S6 & S7 & Hpt).
      rewrite E1 in E. destruct r as [[]|x]; [|done].
      destruct Hpt as [[_ Hh]|[? _]]; [|done].
      destruct (sample_properties_inv _ _ _ _ _ _ _ _ _ Hp Hg E1) as [_ Hg1].
      assert (Hq1 : quiet_attachments call g1) by (eapply (quiet_preserved p g); done).
      destruct (IH p g1 p' g' Hp Hg1 Hq1 E) as (-> & Hprops & Hg' & Hsum & Hatt).
      split; [done|]. split; [congruence|]. split; [done|]. split.
      + destruct Hsum as (out & Hsam & Hrows). rewrite S1, S2, S7 in Hsam.
        rewrite S6, S3 in Hrows.
        destruct (sample_summary_row g ob step t) as [(Hd & Hrow & Hlast)|(Hd & Hsame)].
        * exists ((ob, step, t) :: out). split.
          { simpl. constructor; [done|]. by rewrite <- Hlast. }
          unfold more_rows in *. simpl in *.
          destruct Hrow as (R1 & R2 & R3 & R4 & R5 & R6 & R7).
          rewrite R1, R2, R3, R4, R5, R6, R7, <- !app_assoc in Hrows. done.
        * exists out. rewrite Hsame in Hsam, Hrows. split; [|done].
          simpl. by apply sampled_not.
      + intros name o s [Hin Hs].
        destruct (Hh name o s Hin Hs) as (oc & Hhap & Hns & Hcalls & Hrec & s1 & Hs1 & Hss1 & Hlast).
        destruct (Hatt name o s1) as (s' & Hs' & Hss' & Hrest).
        { split; [by rewrite S4|done]. }
        exists s'. split; [done|]. split; [by eapply same_settings_trans|].
        destruct Hss1 as (E1' & E2' & E3' & E4' & E5' & E6' & E7' & E8').
        rewrite <- E7' in Hrest. destruct (s_enabled s) eqn:Hen.
        * destruct Hrest as (out & Hsam & Hc & Hst & Hnst).
          rewrite <- E3', <- E4', S1, S2 in Hsam. rewrite <- E2', <- E6', <- E5' in *.
          inversion Hhap as [Hdis|Hnd|v He Hd Hv|x h He Hd Hx Hh1 Hh2|]; subst oc; try done.
          -- by rewrite Hen in Hdis.
          -- injection Hlast as _ Hlt. rewrite Hlt in Hsam. exists out.
             split; [simpl; by apply sampled_not|]. rewrite app_nil_r in Hcalls.
             split; [by rewrite Hc, Hcalls|]. rewrite Hrec in *. done.
          -- injection Hlast as _ Hlt. rewrite Hlt in Hsam. exists ((st, step, t) :: out).
             split; [simpl; by constructor|].
             split; [simpl; by rewrite Hc, Hcalls, <- app_assoc|].
             split.
             ++ intros Hstore l0 l Hl Hr. rewrite Hstore in Hrec.
                destruct Hrec as (l1 & l2 & Hl1 & Hl2 & Hr2). rewrite Hl in Hl1.
                injection Hl1 as <-.
                destruct (Hst Hstore (l0 ++ [PRecord name step t v]) l2 Hl2) as (l' & Hl' & Hr').
                { by eapply recent_snoc. }
                exists l'. split; [done|]. simpl. rewrite Hv. by rewrite <- app_assoc in Hr'.
             ++ intros Hstore. rewrite Hstore in Hrec. rewrite <- Hrec. by apply Hnst.
          -- injection Hlast as _ Hlt. rewrite Hlt in Hsam. exists ((st, step, t) :: out).
             split; [simpl; by constructor|].
             split; [simpl; by rewrite Hc, Hcalls, <- app_assoc|].
             rewrite Hrec in *. split; [|done].
             intros Hstore l0 l Hl Hr. destruct (Hst Hstore l0 l Hl Hr) as (l' & Hl' & Hr').
             exists l'. split; [done|]. simpl. by rewrite Hx.
        * destruct Hrest as [Hc Hr].
          inversion Hhap; subst; try congruence; simpl in *; rewrite app_nil_r in Hcalls;
            by rewrite Hc, Hr.
  Qed.

  Lemma sampled_spacing {A} d prev (pts out : list (A * Z * T)) :
    sampled sub leb None (Some d) prev pts out ->
    (forall i a1 s1 t1 a2 s2 t2, out !! i = Some (a1, s1, t1) -> out !! S i = Some (a2, s2, t2) ->
       leb d (sub t2 t1) = true) /\
    (forall a s t, head out = Some (a, s, t) ->
       match prev with Some l => leb d (sub t l) = true | None => leb d t = true end).
  Proof.
    intros H. remember None as I. remember (Some d) as D.
    induction H as [prev|prev a step t pts out Hd Hs IH|prev a step t pts out Hd Hs IH]; subst.
    - done.
    - destruct IH as [IH1 IH2]. split.
      + intros [|i] a1 s1 t1 a2 s2 t2; simpl.
        * intros [= -> -> ->] H2. destruct out as [|x out]; [done|].
          injection H2 as ->. by apply (IH2 a2 s2 t2).
        * apply IH1.
      + intros a' s' t' [= <- <- <-]. destruct Hd as [(n & ? & _)|(d' & [= <-] & Hd)]; done.
    - by apply IH.
  Qed.

  (** ** The result table, whatever callbacks do *)
  Definition same_results (w w' : world) : Prop :=
    match w_active w, w_active w' with
    | Some g, Some g' => g_results g' = g_results g
    | None, None => True
    | _, _ => False
    end.
  Lemma on_active_results w p (f : sampling -> result sampling) :
    (forall g g', f g = Ok g' -> g_results g' = g_results g) ->
    same_results w (fst (on_active w p f)).
  Proof.
    intros Hf. unfold on_active, same_results. destruct (w_active w) as [g|]; [|done].
    destruct (f g) as [g'|x] eqn:E; simpl; [by apply Hf|done].
  Qed.
  Lemma same_results_refl w : same_results w w.
  Proof. unfold same_results. by destruct (w_active w). Qed.
  Lemma control_results w c : same_results w (fst (kmc_control w c)).
  Proof.
    destruct c as [i d|a|name| |name b]; simpl.
    - destruct (plan_frequency _ _ _ _ _); [|apply same_results_refl].
      apply on_active_results. intros g g'. unfold tracker_frequency.
      by intros (? & _ & [= <-])%rbind_ok.
    - destruct (plan_attach _ _ _ _ _) as [[p n]|]; [|apply same_results_refl].
      apply on_active_results. intros g g' ([g1 n1] & H & [= <-])%rbind_ok. simpl.
      unfold PropertyModel.tracker_attach in H. by apply rbind_ok in H as (? & _ & [= <- _]).
    - destruct (plan_detach _ _); [|apply same_results_refl].
      apply on_active_results. intros g g'. unfold tracker_detach.
      destruct (din _ _); [|done]. by intros [= <-].
    - apply on_active_results. by intros g g' [= <-].
    - destruct (plan_enable _ _ _); [|apply same_results_refl].
      apply on_active_results. intros g g'. unfold tracker_enable.
      destruct (din _ _); [by intros [= <-]|]. destruct (dget _ _); [|done]. by intros [= <-].
  Qed.
  Lemma controls_results cs w : same_results w (fst (kmc_controls w cs)).
  Proof.
    revert w. induction cs as [|c cs IH]; intros w; simpl; [apply same_results_refl|].
    pose proof (control_results w c) as H. destruct (kmc_control w c) as [w1 [[]|x]]; [|done].
    specialize (IH w1). unfold same_results in *. simpl in *.
    destruct (w_active w), (w_active w1), (w_active (kmc_controls w1 cs).1); try done. congruence.
  Qed.
  Lemma sample_object_results p g o st step t :
    g_results (sample_object p g o st step t).1.2 = g_results g.
  Proof.
    unfold PropertyModel.sample_object.
    destruct (g_objects g !! o) as [s|]; [|done].
    destruct (negb (s_enabled s)); [done|].
    destruct (negb (should_trigger _ _ _ _ _ _ _)); [done|].
    destruct (call (s_callback s) st step t) as [cs out].
    pose proof (controls_results cs (World p (Some (log_call g o step t)))) as H.
    destruct (kmc_controls _ cs) as [w rc]. unfold same_results in H. simpl in H.
    destruct (w_active w) as [g1|]; [|done].
    destruct (match rc with Ok _ => out | Err x => Err x end) as [v|x].
    - destruct (s_store s); [|done]. by destruct (dget (g_records g1) (s_name s)).
    - by destruct (survives _ _ _ _ _ _).
  Qed.
  Lemma sample_objects_results os p g st step t :
    g_results (sample_objects p g os st step t).1.2 = g_results g.
  Proof.
    revert p g. induction os as [|o os IH]; intros p g; simpl; [done|].
    pose proof (sample_object_results p g o st step t) as H.
    destruct (sample_object p g o st step t) as [[p1 g1] [[]|x]]; simpl in *; [|done].
    by rewrite IH.
  Qed.
  Lemma row_lemma p g o st step t p' g' r :
    sample_properties p g o st step t = ((p', g'), r) ->
    (due (g_interval g) (g_time g) (g_last_summary g) step t /\
     more_rows (g_results g) (g_results g') [(o, step, t)] (field_value transport (g_builtin g)))
    \/ (~ due (g_interval g) (g_time g) (g_last_summary g) step t /\
        g_results g' = g_results g).
  Proof.
    unfold PropertyModel.sample_properties. intros E.
    pose proof (sample_objects_results (dvalues (g_props (sample_summary sub leb transport g o step t)))
      p (sample_summary sub leb transport g o step t) st step t) as H.
    rewrite E in H. simpl in H. rewrite H.
    destruct (sample_summary_row g o step t) as [(H1 & H2 & _)|(H1 & ->)]; [by left|by right].
  Qed.

  (** ** What an accepted call does, and when [attach] is accepted *)
  Lemma attach_effect_lemma w a w' :
    winv w -> kmc_control w (DoAttach a) = (w', Ok tt) ->
    exists name s cb, a_func a = Func cb /\
      p_attached (w_plan w') = p_attached (w_plan w) ++ [(name, s)] /\
      s_name s = name /\ s_callback s = cb /\
      a_interval a = option_map IntArg (s_interval s) /\ s_time_interval s = a_time a /\
      s_store s = a_store a /\ a_max a = option_map IntArg (s_max s) /\
      s_enabled s = a_enabled a /\ s_on_error s = a_on_error a.
  Proof.
    intros [Hp Hw] H. simpl in H. destruct (plan_attach _ _ _ _ _) as [[p' name]|] eqn:E; [|done].
    assert (Hpl : w_plan w' = p').
    { unfold on_active in H. destruct (w_active w) as [g|]; [|by injection H as <-].
      destruct (rbind _ _); [by injection H as <-|done]. }
    unfold plan_attach in E. apply rbind_ok in E as (s & Hs & [= <- <-]).
    destruct (make_property_spec_ok _ _ _ Hs) as
      (_ & Hnew & _ & _ & _ & H1 & H2 & H3 & H4 & H5 & H6 & H7).
    assert (Hf : exists cb, a_func a = Func cb).
    { unfold PropertyModel.make_property_spec in Hs. destruct (a_func a); [eauto|done]. }
    destruct Hf as [cb Hf]. rewrite Hf in H1.
    exists (s_name s), s, cb. rewrite Hpl. simpl. rewrite dkeys_dset_notin by done. done.
  Qed.
  Lemma attach_accepted_lemma w a :
    winv w ->
    (exists w', kmc_control w (DoAttach a) = (w', Ok tt)) <->
    exists cb, a_func a = Func cb /\
      (a_interval a = None \/ exists n, a_interval a = Some (IntArg n) /\ (0 < n)%Z) /\
      (forall d, a_time a = Some d -> leb d zero = false) /\
      (a_max a = None \/ exists n, a_max a = Some (IntArg n) /\ (0 < n)%Z) /\
      let name := property_name fname (a_name a) cb in
      name ∉ builtin_fields /\ name ∉ dkeys (p_attached (w_plan w)).
  Proof.
    intros Hw. split.
    - intros [w' H].
      simpl in H. destruct (plan_attach _ _ _ _ _) as [[p' name]|] eqn:E; [|done].
      unfold plan_attach in E. apply rbind_ok in E as (s & Hs & _). clear H.
      unfold PropertyModel.make_property_spec in Hs.
      destruct (a_func a) as [cb|]; [|done]. exists cb. split; [done|].
      apply rbind_ok in Hs as (i & Hi & Hs). apply rbind_ok in Hs as (m & Hm & Hs).
      case_bool_decide; [done|]. case_bool_decide; [done|].
      destruct (validate_schedule_ok _ _ _ Hi) as [-> [Vi Vd]].
      destruct (validate_max_ok _ _ Hm) as [-> Vm].
      split; [destruct i; simpl; eauto|]. split; [intros d Hd; by rewrite Hd in Vd|].
      split; [destruct m; simpl; eauto|]. done.
    - intros (cb & Hf & Hi & Hd & Hm & Hr & Hn).
      assert (Hok : exists s, make_property_spec a (dkeys (p_attached (w_plan w))) = Ok s).
      { unfold PropertyModel.make_property_spec. rewrite Hf.
        assert (Hi' : exists i, a_interval a = option_map IntArg i /\ valid_schedule i (a_time a)).
        { destruct Hi as [->|(n & -> & ?)]; [exists None|exists (Some n)]; (split; [done|]);
            (split; [done|]); (destruct (a_time a); [by apply Hd|done]). }
        destruct Hi' as (i & -> & Hv). rewrite validate_schedule_valid by done. simpl.
        assert (Hm' : exists m, a_max a = option_map IntArg m /\ valid_max m).
        { destruct Hm as [->|(n & -> & ?)]; [by exists None|by exists (Some n)]. }
        destruct Hm' as (m & -> & Hv'). rewrite validate_max_valid by done. simpl.
        rewrite bool_decide_eq_false_2 by done. rewrite bool_decide_eq_false_2 by done.
        eauto. }
      destruct Hok as [s Hs].
      destruct (kmc_control w (DoAttach a)) as [w' r] eqn:E. exists w'.
      destruct (control_inv _ _ _ _ Hw E) as (_ & _ & [->|((x & ->) & _)]); [done|].
      exfalso. simpl in E. unfold plan_attach in E. rewrite Hs in E. simpl in E.
      unfold on_active in E. destruct (w_active w) as [g|] eqn:Hg; [|done].
      destruct Hw as [Hp Hgi]. rewrite Hg in Hgi.
      edestruct (attach_inv (w_plan w) g a) as [_ H]; [done|unfold plan_attach; by rewrite Hs|].
      destruct (H Hgi) as (g' & Hg' & _). rewrite Hg' in E. done.
  Qed.
  Lemma plan_changed w p (f : sampling -> result sampling) w' :
    on_active w p f = (w', Ok tt) -> w_plan w' = p.
  Proof.
    unfold on_active. destruct (w_active w) as [g|]; [|by intros [= <-]].
    destruct (f g); by intros [= <-].
  Qed.
  Lemma other_effects_lemma w c w' :
    winv w -> kmc_control w c = (w', Ok tt) ->
    let p := w_plan w in let p' := w_plan w' in
    match c with
    | SetFrequency i d =>
        i = option_map IntArg (p_interval p') /\ p_time p' = d /\
        p_builtin p' = p_builtin p /\ p_attached p' = p_attached p
    | DoAttach _ => p_interval p' = p_interval p /\ p_time p' = p_time p /\
        p_builtin p' = p_builtin p
    | Detach name =>
        p_interval p' = p_interval p /\ p_time p' = p_time p /\ p_builtin p' = p_builtin p /\
        name ∈ dkeys (p_attached p) /\
        p_attached p' = List.filter (fun ns => negb (bool_decide (fst ns = name))) (p_attached p)
    | ClearAttachments =>
        p_interval p' = p_interval p /\ p_time p' = p_time p /\ p_builtin p' = p_builtin p /\
        p_attached p' = []
    | SetEnabled name b =>
        p_interval p' = p_interval p /\ p_time p' = p_time p /\
        (if bool_decide (name ∈ builtin_fields)
         then p_builtin p' = map (fun nb => if bool_decide (fst nb = name) then (fst nb, b) else nb)
                               (p_builtin p) /\ p_attached p' = p_attached p
         else p_builtin p' = p_builtin p /\ name ∈ dkeys (p_attached p) /\
              p_attached p' = map (fun ns => if bool_decide (fst ns = name)
                                             then (fst ns, with_enabled (snd ns) b) else ns)
                                (p_attached p))
    end.
  Proof.
    intros [[H1 H2 H3 H4] _] H. destruct c as [i d|a|name| |name b]; simpl in *.
    - destruct (plan_frequency _ _ _ _ _) as [p|] eqn:E; [|done].
      apply plan_changed in H as ->. unfold plan_frequency in E.
      apply rbind_ok in E as (i' & Hi & [= <-]). simpl.
      by destruct (validate_schedule_ok _ _ _ Hi) as [-> _].
    - destruct (plan_attach _ _ _ _ _) as [[p n]|] eqn:E; [|done].
      apply plan_changed in H as ->. unfold plan_attach in E.
      by apply rbind_ok in E as (? & _ & [= <- _]).
    - destruct (plan_detach _ _) as [p|] eqn:E; [|done].
      apply plan_changed in H as ->. unfold plan_detach in E.
      destruct (din _ _) eqn:Hd; [|done]. injection E as <-. simpl.
      apply din_keys in Hd. do 4 (split; [done|]).
      clear H2 Hd. revert H1. generalize (p_attached (w_plan w)) as l.
      induction l as [|[n s] l IH]; [done|]. unfold dkeys. simpl. intros Hnd.
      apply NoDup_cons in Hnd as [Hn1 Hn2].
      destruct (decide (name = n)) as [->|Hne].
      + rewrite bool_decide_eq_true_2 by done. simpl.
        clear IH Hn2. induction l as [|[m s'] l IHl]; [done|]. simpl in *.
        apply not_elem_of_cons in Hn1 as [Hnm Hn1].
        rewrite bool_decide_eq_false_2 by done. simpl. f_equal. by apply IHl.
      + rewrite bool_decide_eq_false_2 by done. simpl. f_equal. by apply IH.
    - by apply plan_changed in H as ->.
    - destruct (plan_enable _ _ _) as [p|] eqn:E; [|done].
      apply plan_changed in H as ->. unfold plan_enable in E.
      assert (Hset : forall {A} (f : A -> A) (l : dict string A) x,
        NoDup (dkeys l) -> dget l name = Some x ->
        dset l name (f x) =
        map (fun nx => if bool_decide (fst nx = name) then (fst nx, f (snd nx)) else nx) l).
      { intros A f. clear. induction l as [|[n y] l IH]; intros x Hnd; [done|].
        unfold dkeys in Hnd. simpl in *. apply NoDup_cons in Hnd as [Hn1 Hn2].
        destruct (decide (name = n)) as [->|Hne].
        - intros [= ->]. rewrite bool_decide_eq_true_2 by done. f_equal.
          symmetry. rewrite <- (map_id l) at 2. apply map_ext_in. intros [m z] Hin.
          rewrite bool_decide_eq_false_2; [done|]. simpl. intros ->. apply Hn1.
          apply elem_of_list_fmap. exists (n, z). split; [done|]. by apply elem_of_list_In.
        - intros Hx. rewrite bool_decide_eq_false_2 by done. f_equal. by apply IH. }
      destruct (din (p_builtin (w_plan w)) name) eqn:Hd.
      + injection E as <-. simpl. apply din_keys in Hd. rewrite H3 in Hd.
        do 2 (split; [done|]). rewrite bool_decide_eq_true_2 by done. split; [|done].
        rewrite <- H3 in Hd. apply dget_in_keys in Hd as [x Hx].
        apply (Hset _ (fun _ => b) _ x); [|done]. rewrite H3. apply builtin_nodup.
      + apply din_keys_false in Hd. rewrite H3 in Hd.
        destruct (dget (p_attached (w_plan w)) name) as [s|] eqn:Hs; [|done].
        injection E as <-. simpl. do 2 (split; [done|]).
        rewrite bool_decide_eq_false_2 by done. split; [done|].
        split; [apply dget_in_keys; eauto|].
        by apply (Hset _ (fun s => with_enabled s b) _ s).
  Qed.
End PropertyProofs.
