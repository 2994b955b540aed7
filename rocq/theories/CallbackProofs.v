(** Proofs about references to functions, configured properties and calls with keywords. *)
From Coq Require Import QArith Ascii.
From Verif Require Import Py PyLemmas Json PropertyModel ConfigModel CallbackModel CallbackSpec.
Local Open Scope string_scope.

(** ** Text *)
Lemma without_nil c : without c "".
Proof. intros H. by apply elem_of_nil in H. Qed.
Lemma without_cons c x s : without c (String x s) <-> x <> c /\ without c s.
Proof. unfold without. cbn [list_ascii_of_string]. rewrite not_elem_of_cons. split; intros [H1 H2]; split; congruence || done. Qed.
Lemma split_first_some c s a b : split_first c s = Some (a, b) -> s = a ++ String c b /\ without c a.
Proof.
  revert a b. induction s as [|x s IH]; intros a b; cbn [split_first]; [done|]. destruct (Ascii.eqb_spec x c) as [->|Hne].
  - intros [= <- <-]. split; [done|apply without_nil].
  - destruct (split_first c s) as [[a' b']|]; [|done]. intros [= <- <-]. destruct (IH _ _ eq_refl) as [-> Hw]. split; [done|]. by apply without_cons.
Qed.
Lemma split_first_none c s : split_first c s = None -> without c s.
Proof.
  induction s as [|x s IH]; cbn [split_first]; [intros _; apply without_nil|]. destruct (Ascii.eqb_spec x c) as [->|Hne]; [done|].
  destruct (split_first c s) as [[a' b']|]; [done|]. intros _. apply without_cons. split; [done|by apply IH].
Qed.
Lemma split_first_app c a b : without c a -> split_first c (a ++ String c b) = Some (a, b).
Proof.
  induction a as [|x a IH]; intros H.
  - change ("" ++ String c b) with (String c b). cbn [split_first]. by destruct (Ascii.eqb_spec c c).
  - apply without_cons in H as [Hne H]. change (String x a ++ String c b) with (String x (a ++ String c b)). cbn [split_first].
    destruct (Ascii.eqb_spec x c); [done|]. by rewrite IH.
Qed.
Lemma split_first_without c s : without c s -> split_first c s = None.
Proof.
  induction s as [|x s IH]; intros H; cbn [split_first]; [done|]. apply without_cons in H as [Hne H]. destruct (Ascii.eqb_spec x c); [done|]. by rewrite IH.
Qed.
Lemma split_last_without c s : without c s -> split_last c s = None.
Proof.
  induction s as [|x s IH]; intros H; cbn [split_last]; [done|]. apply without_cons in H as [Hne H]. rewrite IH by done. by destruct (Ascii.eqb_spec x c).
Qed.
Lemma split_last_none c s : split_last c s = None -> without c s.
Proof.
  induction s as [|x s IH]; cbn [split_last]; [intros _; apply without_nil|]. destruct (split_last c s) as [[]|]; [done|]. destruct (Ascii.eqb_spec x c); [done|].
  intros _. apply without_cons. split; [done|by apply IH].
Qed.
Lemma split_last_some c s a b : split_last c s = Some (a, b) -> s = a ++ String c b /\ without c b.
Proof.
  revert a b. induction s as [|x s IH]; intros a b; cbn [split_last]; [done|]. destruct (split_last c s) as [[a' b']|] eqn:E.
  - intros [= <- <-]. destruct (IH _ _ eq_refl) as [-> Hw]. done.
  - destruct (Ascii.eqb_spec x c) as [->|]; [|done]. intros [= <- <-]. split; [done|]. by apply split_last_none.
Qed.
Lemma split_last_app c a b : without c b -> split_last c (a ++ String c b) = Some (a, b).
Proof.
  intros H. induction a as [|x a IH].
  - change ("" ++ String c b) with (String c b). cbn [split_last]. rewrite split_last_without by done. by destruct (Ascii.eqb_spec c c).
  - change (String x a ++ String c b) with (String x (a ++ String c b)). cbn [split_last]. by rewrite IH.
Qed.
Lemma split_all_spec c s : split_all c s <> [] /\ Forall (without c) (split_all c s) /\ joined (String c "") (split_all c s) = s.
Proof.
  induction s as [|x s (H1 & H2 & H3)]; cbn [split_all].
  - split; [done|]. split; [|done]. constructor; [apply without_nil|constructor].
  - destruct (Ascii.eqb_spec x c) as [->|Hne].
    + split; [done|]. split; [constructor; [apply without_nil|done]|]. destruct (split_all c s) as [|h t]; [done|]. change (joined (String c "") ("" :: h :: t)) with (String c (joined (String c "") (h :: t))). by rewrite H3.
    + destruct (split_all c s) as [|h t]; [done|]. apply Forall_cons in H2 as [Hh Ht]. split; [done|]. split; [constructor; [by apply without_cons|done]|].
      rewrite <-H3. by destruct t.
Qed.
Lemma split_all_app c h s : without c h -> split_all c (h ++ String c s) = h :: split_all c s.
Proof.
  induction h as [|x h IH]; intros H.
  - change ("" ++ String c s) with (String c s). cbn [split_all]. by destruct (Ascii.eqb_spec c c).
  - apply without_cons in H as [Hne H]. change (String x h ++ String c s) with (String x (h ++ String c s)). cbn [split_all]. destruct (Ascii.eqb_spec x c); [done|]. by rewrite IH.
Qed.
Lemma split_all_one c h : without c h -> split_all c h = [h].
Proof. induction h as [|x h IH]; intros H; [done|]. apply without_cons in H as [Hne H]. cbn [split_all]. destruct (Ascii.eqb_spec x c); [done|]. by rewrite IH. Qed.
Lemma split_all_joined c l : l <> [] -> Forall (without c) l -> split_all c (joined (String c "") l) = l.
Proof.
  induction l as [|h t IH]; intros Hne H; [done|]. apply Forall_cons in H as [Hh Ht]. destruct t as [|h' t].
  - by apply split_all_one.
  - change (joined (String c "") (h :: h' :: t)) with (h ++ String c (joined (String c "") (h' :: t))). rewrite split_all_app by done. by rewrite IH.
Qed.
Lemma without_app c a b : without c (a ++ b) <-> without c a /\ without c b.
Proof.
  induction a as [|x a IH]; [split; [intros H; split; [apply without_nil|done]|by intros [_ ?]]|].
  change (String x a ++ b) with (String x (a ++ b)). rewrite !without_cons, IH. naive_solver.
Qed.

(** ** References *)
Lemma names_unique ref m l m' l' : names ref m l -> names ref m' l' -> m = m' /\ l = l'.
Proof.
  intros [(W & Hne & Hall & E)|(W & Hm & a & Wa & -> & E)] [(W' & Hne' & Hall' & E')|(W' & Hm' & a' & Wa' & -> & E')].
  - pose proof (split_first_app ":" m (joined "." l) W) as S1. pose proof (split_first_app ":" m' (joined "." l') W') as S2.
    change (m ++ String ":" (joined "." l)) with (m ++ ":" ++ joined "." l) in S1. change (m' ++ String ":" (joined "." l')) with (m' ++ ":" ++ joined "." l') in S2.
    rewrite <-E in S1. rewrite <-E', S1 in S2. injection S2 as -> Ej. split; [done|]. rewrite <-(split_all_joined "." l), <-(split_all_joined "." l') by done. by rewrite Ej.
  - exfalso. rewrite E in W'. apply without_app in W' as [_ H]. by apply without_cons in H as [H _].
  - exfalso. rewrite E' in W. apply without_app in W as [_ H]. by apply without_cons in H as [H _].
  - pose proof (split_last_app "." m a Wa) as S1. pose proof (split_last_app "." m' a' Wa') as S2.
    change (m ++ String "." a) with (m ++ "." ++ a) in S1. change (m' ++ String "." a') with (m' ++ "." ++ a') in S2. rewrite <-E in S1. rewrite <-E', S1 in S2. injection S2 as -> ->. done.
Qed.

Section References.
  Context {Obj : Type}.
  Variable import_module : string -> result Obj.
  Variable getattr : Obj -> string -> result Obj.
  Variable callable : Obj -> bool.
  Notation resolve := (resolve_callback_reference import_module getattr callable).
  Notation resolve' := (resolve_callable_reference import_module getattr callable).
  Notation refers := (refers import_module getattr callable).

  Lemma leads_iff l o o' : rfold getattr o l = Ok o' <-> leads getattr o l o'.
  Proof.
    revert o. induction l as [|a l IH]; intros o; cbn [rfold].
    - split; [intros [= <-]; constructor|]. intros H. by inversion H; subst.
    - split.
      + destruct (getattr o a) as [o1|] eqn:E; cbn [rbind]; [|done]. intros H. econstructor; [exact E|by apply IH].
      + intros H. inversion H; subst. rewrite H3. cbn [rbind]. by apply IH.
  Qed.
  Lemma load_ok m a o : load import_module getattr callable m a = Ok o <->
    exists root, import_module m = Ok root /\ leads getattr root (split_all "." a) o /\ callable o = true.
  Proof.
    unfold load. split.
    - destruct (import_module m) as [root|]; cbn [rbind]; [|done]. destruct (rfold _ _ _) as [o'|] eqn:E; cbn [rbind]; [|done]. destruct (callable o') eqn:Ec; [|done].
      intros [= <-]. exists root. split; [done|]. split; [by apply leads_iff|done].
    - intros (root & -> & H & Hc). cbn [rbind]. apply leads_iff in H as ->. cbn [rbind]. by rewrite Hc.
  Qed.
  Lemma names_colon m a : without ":" m -> names (m ++ String ":" a) m (split_all "." a).
  Proof. intros W. left. destruct (split_all_spec "." a) as (H1 & H2 & H3). repeat split; try done. rewrite H3. done. Qed.
  Lemma names_dot m a : without ":" (m ++ String "." a) -> m <> "" -> without "." a -> names (m ++ String "." a) m (split_all "." a).
  Proof. intros W Hm Wa. right. rewrite split_all_one by done. split; [done|]. split; [done|]. by exists a. Qed.
  Lemma resolve_iff ref o : resolve ref = Ok o <-> refers ref o.
  Proof.
    unfold resolve_callback_reference, CallbackSpec.refers. destruct (split_first ":" ref) as [[m a]|] eqn:E.
    - apply split_first_some in E as [-> W]. rewrite load_ok. split.
      + intros (root & H1 & H2 & H3). exists m, (split_all "." a), root. split; [by apply names_colon|done].
      + intros (m' & attrs & root & Hn & H). destruct (names_unique _ _ _ _ _ Hn (names_colon m a W)) as [-> ->]. by exists root.
    - apply split_first_none in E. destruct (split_last "." ref) as [[m a]|] eqn:E'.
      + apply split_last_some in E' as [-> W]. destruct (String.eqb_spec m "") as [->|Hm].
        * split; [done|]. intros (m' & attrs & root & [(W' & Hne & Hall & Er)|(W' & Hm & a' & Wa & -> & Er)] & _).
          -- exfalso. rewrite Er in E. apply without_app in E as [_ H]. by apply without_cons in H as [H _].
          -- exfalso. pose proof (split_last_app "." m' a' Wa) as S1. change (m' ++ String "." a') with (m' ++ "." ++ a') in S1. rewrite <-Er, split_last_app in S1 by done. injection S1 as <- <-. done.
        * rewrite load_ok. split.
          -- intros (root & H1 & H2 & H3). exists m, (split_all "." a), root. split; [by apply names_dot|done].
          -- intros (m' & attrs & root & Hn & H). destruct (names_unique _ _ _ _ _ Hn (names_dot m a E Hm W)) as [-> ->]. by exists root.
      + split; [done|]. intros (m' & attrs & root & [(W' & Hne & Hall & Er)|(W' & Hm & a' & Wa & -> & Er)] & _).
        * exfalso. rewrite Er in E. apply without_app in E as [_ H]. by apply without_cons in H as [H _].
        * exfalso. apply split_last_none in E'. rewrite Er in E'. apply without_app in E' as [_ H]. by apply without_cons in H as [H _].
  Qed.
  Lemma resolve_site_iff ref o : resolve' ref = Ok o <-> refers ref o /\ forall m attrs, names ref m attrs -> m <> "" /\ attrs <> [""].
  Proof.
    assert (Hone : forall a, split_all "." a = [""] -> a = "").
    { intros a H. destruct (split_all_spec "." a) as (_ & _ & E). rewrite H in E. done. }
    rewrite <-resolve_iff. unfold resolve_callable_reference, resolve_callback_reference. destruct (split_first ":" ref) as [[m a]|] eqn:E.
    - apply split_first_some in E as [-> W]. destruct (String.eqb_spec m "") as [->|Hm]; cbn [orb].
      + split; [done|]. intros [_ H]. by destruct (H _ _ (names_colon "" a W)).
      + destruct (String.eqb_spec a "") as [->|Ha]; cbn [orb].
        * split; [done|]. intros [_ H]. by destruct (H _ _ (names_colon m "" W)).
        * split; [|by intros [H _]]. intros H. split; [done|]. intros m' attrs Hn. destruct (names_unique _ _ _ _ _ Hn (names_colon m a W)) as [-> ->]. split; [done|]. intros Hs. by apply Ha, Hone.
    - apply split_first_none in E. destruct (split_last "." ref) as [[m a]|] eqn:E'; [|by cbn [String.eqb orb]; split; [|intros [? _]]].
      apply split_last_some in E' as [-> W]. destruct (String.eqb_spec m "") as [->|Hm]; cbn [orb]; [by split; [|intros [? _]]|].
      destruct (String.eqb_spec a "") as [->|Ha]; cbn [orb].
      + split; [done|]. intros [_ H]. by destruct (H _ _ (names_dot m "" E Hm W)).
      + split; [|by intros [H _]]. intros H. split; [done|]. intros m' attrs Hn. destruct (names_unique _ _ _ _ _ Hn (names_dot m a E Hm W)) as [-> ->]. split; [done|]. intros Hs. by apply Ha, Hone.
  Qed.
  Lemma resolve_same m f : without ":" m -> without ":" f -> without "." f -> m <> "" -> resolve (m ++ ":" ++ f) = resolve (m ++ "." ++ f).
  Proof.
    intros Wm Wf Wd Hm. unfold resolve_callback_reference. change (m ++ ":" ++ f) with (m ++ String ":" f). change (m ++ "." ++ f) with (m ++ String "." f).
    rewrite split_first_app by done. rewrite (split_first_without ":" (m ++ String "." f)).
    - rewrite split_last_app by done. by destruct (String.eqb_spec m "").
    - apply without_app. split; [done|]. apply without_cons. done.
  Qed.

  (** ** Configured properties *)
  Variable identity : Obj -> nat.
  Variable fname : nat -> option string.
  Notation asks_for := (asks_for import_module getattr callable identity fname).
  Notation configured := (configured import_module getattr callable identity fname).
  Notation configure_callback := (configure_callback import_module getattr callable identity fname).
  Notation configure_properties := (configure_properties import_module getattr callable identity fname).

  Lemma integer_unique j i i' : integer_given j i -> integer_given j i' -> i = i'.
  Proof. destruct j; cbn; intros ??; done || congruence. Qed.
  Lemma time_unique j t t' : time_given j t -> time_given j t' -> t = t'.
  Proof. destruct j; cbn; intros ??; done || congruence. Qed.
  Lemma flag_unique l k b b' : flag_given l k b -> flag_given l k b' -> b = b'.
  Proof. unfold flag_given. destruct (dget l k); congruence. Qed.
  Lemma positive_int j : (if is_none (V j) then Ok tt else if negb (is_int (V j)) then Err TypeError else let* b := le_zero (V j) in if b then Err ValueError else Ok tt) = Ok tt ->
    (int_arg_of (V j) = None /\ integer_given j None) \/ exists z, int_arg_of (V j) = Some (IntArg z) /\ (z <=? 0)%Z = false /\ integer_given j (Some z).
  Proof.
    destruct j as [|b|z|q|s|l|l]; cbn; try done; [by left|..].
    - destruct b; [|done]. intros _. right. by exists 1%Z.
    - destruct (Qle_bool (inject_Z z) 0) eqn:E; [done|]. intros _. right. exists z. split; [done|]. split; [|done]. apply Z.leb_gt. apply Z.lt_nge. intros H.
      assert (Qle_bool (inject_Z z) 0 = true); [|congruence]. apply Qle_bool_iff. change 0%Q with (inject_Z 0). by rewrite <-Zle_Qle.
  Qed.
  Lemma positive_time j : (if is_none (V j) then Ok tt else let* b := le_zero (V j) in if b then Err ValueError else Ok tt) = Ok tt ->
    exists t, time_of (V j) = Ok t /\ time_given j t /\ match t with Some d => Qle_bool d 0 = false | None => True end.
  Proof.
    unfold time_of, le_zero. destruct j as [|b|z|q|s|l|l]; cbn [is_none number rbind]; try done.
    - intros _. by exists None.
    - destruct b; [|done]. intros _. by exists (Some 1%Q).
    - destruct (Qle_bool (inject_Z z) 0) eqn:E; [done|]. intros _. by exists (Some (inject_Z z)).
    - destruct (Qle_bool q 0) eqn:E; [done|]. intros _. by exists (Some q).
  Qed.
  Lemma schedule_ok i t : check_schedule (V i) (V t) = Ok tt ->
    exists iz tq, time_of (V t) = Ok tq /\ validate_schedule 0%Q Qle_bool (int_arg_of (V i)) tq = Ok iz /\ integer_given i iz /\ time_given t tq.
  Proof.
    unfold check_schedule. intros H. apply rbind_ok in H as ([] & Hi & Ht). destruct (positive_time _ Ht) as (tq & E & Hg & Hpos). unfold validate_schedule.
    destruct (positive_int _ Hi) as [[Ei Hii]|(z & Ei & Hz & Hii)]; rewrite Ei; cbn [rbind].
    - exists None, tq. split; [done|]. split; [destruct tq; [by rewrite Hpos|done]|done].
    - rewrite Hz. cbn [rbind]. exists (Some z), tq. split; [done|]. split; [destruct tq; [by rewrite Hpos|done]|done].
  Qed.
  Lemma max_ok m : (if is_none (V m) then Ok tt else if negb (is_int (V m)) then Err TypeError else let* b := le_zero (V m) in if b then Err ValueError else Ok tt) = Ok tt ->
    exists mz, validate_max_records (int_arg_of (V m)) = Ok mz /\ integer_given m mz.
  Proof.
    intros H. unfold validate_max_records. destruct (positive_int _ H) as [[-> Hg]|(z & -> & Hz & Hg)]; [by exists None|]. rewrite Hz. by exists (Some z).
  Qed.
  Lemma flag_ok l k : check_bool_key l k = Ok tt -> exists b, flag_of l k = Ok b /\ flag_given l k b.
  Proof. unfold check_bool_key, flag_of, flag_given. destruct (dget l k) as [[]|]; try done; eauto. Qed.

  (** What one callback entry does. *)
  Lemma callback_cases j : validate_callback j = Ok tt ->
    (exists s, (forall s', asks_for j s' <-> s' = s) /\ forall p, configure_callback p j =
        if bool_decide (s_name s ∈ builtin_fields) then Err ValueError
        else if bool_decide (s_name s ∈ dkeys (p_attached p)) then Err ValueError
        else Ok (Plan (p_interval p) (p_time p) (p_builtin p) (dset (p_attached p) (s_name s) s)))
    \/ ((forall s, ~ asks_for j s) /\ exists e, forall p, configure_callback p j = Err e).
  Proof.
    destruct j as [| | | | | |l]; try done. unfold validate_callback. destruct (negb _); [done|]. intros H. apply rbind_ok in H as ([] & Hc & H).
    destruct (dget l "callable") as [[| | | |ref| |]|] eqn:Ecal; try done. clear Hc. apply rbind_ok in H as ([] & Hsch & H). apply rbind_ok in H as ([] & Hm & H). apply rbind_ok in H as ([] & Hst & Hen).
    destruct (schedule_ok _ _ Hsch) as (iz & tq & Et & Ev & Hgi & Hgt). destruct (max_ok _ Hm) as (mz & Emz & Hgm). destruct (flag_ok _ _ Hst) as (bs & Ebs & Hgs). destruct (flag_ok _ _ Hen) as (be & Ebe & Hge).
    assert (Hcal : given l "callable" = JStr ref) by (unfold given; by rewrite Ecal).
    change (match dget l "time_interval" with Some j => j | None => JNull end) with (given l "time_interval") in *.
    change (match dget l "interval" with Some j => j | None => JNull end) with (given l "interval") in *.
    change (match dget l "max_records" with Some j => j | None => JNull end) with (given l "max_records") in *.
    unfold CallbackModel.configure_callback. rewrite Ecal.
    destruct (resolve ref) as [o|e] eqn:Er.
    2:{ right. split; [|exists e; done]. intros s (l' & ref' & o & [= <-] & E & Href & _). rewrite Hcal in E. injection E as <-. apply resolve_iff in Href. congruence. }
    assert (Hu : forall o', refers ref o' -> o' = o) by (intros o' H'; apply resolve_iff in H'; congruence).
    change (jget l "time_interval") with (V (given l "time_interval")). change (jget l "interval") with (V (given l "interval")). change (jget l "max_records") with (V (given l "max_records")). change (jget l "name") with (V (given l "name")).
    cbn [rbind]. rewrite Et. cbn [rbind].
    assert (Hname : (exists n, named identity fname (given l "name") o n /\ (forall n', named identity fname (given l "name") o n' -> n' = n) /\ exists nm, name_of (V (given l "name")) = Ok nm /\ property_name fname nm (identity o) = n)
      \/ ((forall n, ~ named identity fname (given l "name") o n) /\ name_of (V (given l "name")) = Err TypeError)).
    { unfold named, name_of, property_name. destruct (given l "name") as [| | | |t| |]; try (right; split; [by intros n []|done]); left.
      - eexists. split; [reflexivity|]. split; [by intros n' ->|]. by exists None.
      - destruct (String.eqb t "") eqn:E; eexists; (split; [reflexivity|]); (split; [by intros n' ->|]); exists (Some t); (split; [done|]); by rewrite E. }
    destruct Hname as [(n & Hn & Hnu & nm & En & Ep)|[Hno En]]; rewrite En; cbn [rbind].
    2:{ right. split; [|by exists TypeError]. intros s (l' & ref' & o' & [= <-] & E & Href & _ & Hn & _). rewrite Hcal in E. injection E as <-. rewrite (Hu _ Href) in Hn. by apply Hno in Hn. }
    rewrite Ebs, Ebe. cbn [rbind]. left. exists (Spec n (identity o) iz tq bs mz be None 0%Z None). split.
    - intros s. split.
      + intros (l' & ref' & o' & [= <-] & E & Href & G1 & G2 & G3 & G4 & G5 & G6 & G7 & G8 & G9 & G10). rewrite Hcal in E. injection E as <-. rewrite (Hu _ Href) in G1, G2.
        destruct s as [sn sc si st ss sm se so sl slt]. cbn [s_name s_callback s_interval s_time_interval s_store s_max s_enabled s_on_error s_last_step s_last_time] in *.
        f_equal; try done; [by apply Hnu|by eapply integer_unique|by eapply time_unique|by eapply flag_unique|by eapply integer_unique|by eapply flag_unique].
      + intros ->. exists l, ref, o. split; [done|]. split; [done|]. split; [by apply resolve_iff|]. cbn. by repeat split.
    - intros p. unfold plan_attach, make_property_spec. cbn [a_func a_interval a_time a_name a_store a_max a_on_error a_enabled]. rewrite Ev. cbn [rbind]. rewrite Emz. cbn [rbind]. rewrite Ep. cbn [s_name].
      destruct (bool_decide (n ∈ builtin_fields)); [done|]. destruct (bool_decide (n ∈ _)); done.
  Qed.
  Lemma dset_new {A} (d : dict string A) k v : k ∉ dkeys d -> dset d k v = (d ++ [(k, v)])%list.
  Proof. apply dkeys_dset_notin. Qed.
  Definition attached_of (specs : list (spec Q)) : dict string (spec Q) := map (fun s => (s_name s, s)) specs.
  Lemma attached_keys specs : dkeys (attached_of specs) = map s_name specs.
  Proof. unfold dkeys, attached_of. rewrite map_map. done. Qed.
  Lemma callbacks_iff cs : Forall (fun j => validate_callback j = Ok tt) cs -> forall i t b specs0 p',
    NoDup (map s_name specs0) ->
    rfold configure_callback (Plan i t b (attached_of specs0)) cs = Ok p'
    <-> exists specs, Forall2 asks_for cs specs /\ NoDup (map s_name (specs0 ++ specs)) /\ Forall (fun s => s_name s ∉ builtin_fields) specs /\ p' = Plan i t b (attached_of (specs0 ++ specs)).
  Proof.
    induction 1 as [|j cs Hj _ IH]; intros i t b specs0 p' Hnd; cbn [rfold].
    - split.
      + intros [= <-]. exists []. rewrite app_nil_r. repeat split; [constructor|done|constructor].
      + intros (specs & H & _ & _ & ->). apply Forall2_nil_inv_l in H as ->. by rewrite app_nil_r.
    - destruct (callback_cases j Hj) as [(s & Hs & Hp)|[Hno (e & He)]].
      2:{ rewrite He. cbn [rbind]. split; [done|]. intros (specs & H & _). apply Forall2_cons_inv_l in H as (s & specs' & Ha & _). by apply Hno in Ha. }
      rewrite Hp. cbn [p_attached p_interval p_time p_builtin]. rewrite attached_keys. destruct (bool_decide_reflect (s_name s ∈ builtin_fields)) as [Hb|Hb]; cbn [rbind].
      + split; [done|]. intros (specs & H & _ & Hf & _). apply Forall2_cons_inv_l in H as (s' & specs' & Ha & _ & ->). apply Hs in Ha as ->. by apply Forall_cons in Hf as [Hf _].
      + destruct (bool_decide_reflect (s_name s ∈ map s_name specs0)) as [Hin|Hin]; cbn [rbind].
        * split; [done|]. intros (specs & H & Hnd' & _). apply Forall2_cons_inv_l in H as (s' & specs' & Ha & _ & ->). apply Hs in Ha as ->.
          rewrite map_app in Hnd'. apply NoDup_app in Hnd' as (_ & Hd & _). exfalso. apply (Hd _ Hin). by left.
        * rewrite dset_new by (by rewrite attached_keys). assert (E : (attached_of specs0 ++ [(s_name s, s)])%list = attached_of (specs0 ++ [s])) by (unfold attached_of; by rewrite map_app).
          rewrite E. rewrite IH.
          -- split.
             ++ intros (specs & H1 & H2 & H3 & ->). exists (s :: specs). rewrite <-app_assoc in H2 |- *. split; [constructor; [by apply Hs|done]|]. split; [done|]. split; [by constructor|done].
             ++ intros (specs & H1 & H2 & H3 & ->). apply Forall2_cons_inv_l in H1 as (s' & specs' & Ha & H1 & ->). apply Hs in Ha as ->. apply Forall_cons in H3 as [_ H3].
                exists specs'. rewrite <-app_assoc. done.
          -- rewrite map_app. apply NoDup_app. split; [done|]. split; [|cbn; apply NoDup_singleton]. intros x Hx Hx'. cbn in Hx'. apply elem_of_list_singleton in Hx' as ->. done.
  Qed.
  Lemma validated_all {A} (f : A -> result unit) l : rfold (fun _ c => f c) tt l = Ok tt -> Forall (fun c => f c = Ok tt) l.
  Proof. induction l as [|c l IH]; cbn [rfold]; [constructor|]. destruct (f c) as [[]|] eqn:E; cbn [rbind]; [|done]. intros H. constructor; [done|by apply IH]. Qed.
  Lemma dget_snoc {A} (d : dict string A) k v k' : dget (d ++ [(k, v)])%list k' = match dget d k' with Some x => Some x | None => if decide (k' = k) then Some v else None end.
  Proof. induction d as [|[a b] d IH]; cbn [app dget]; [by destruct (decide (k' = k))|]. by destruct (decide (k' = a)). Qed.
  Lemma enabling l : Forall (fun kv : string * json => fst kv ∈ builtin_fields /\ exists b, snd kv = JBool b) l -> forall i (t : option Q) b (a : dict string (spec Q)), dkeys b = builtin_fields ->
    exists b', rfold (fun (p : plan Q) kv => match snd kv with JBool x => plan_enable p (fst kv) x | _ => Err TypeError end) (Plan i t b a) l = Ok (Plan i t b' a)
      /\ dkeys b' = builtin_fields /\ forall k, dget b' k = match dget (rev l) k with Some (JBool x) => Some x | _ => dget b k end.
  Proof.
    induction 1 as [|[k j] l [Hk (x & Hx)] Hl IH]; intros i t b a Hb; cbn [rfold].
    - by exists b.
    - cbn [fst snd] in *. subst j. 
      assert (Hd : din b k = true). { unfold din. rewrite <-Hb in Hk. apply dget_in_keys in Hk as (v & ->). done. }
      assert (He : plan_enable (Plan i t b a) k x = Ok (Plan i t (dset b k x) a)) by (unfold plan_enable; cbn [p_builtin p_interval p_time p_attached]; by rewrite Hd).
      rewrite He. cbn [rbind]. destruct (IH i t (dset b k x) a) as (b' & E & Hb' & Hg); [rewrite dkeys_dset_in; [done|by rewrite Hb]|].
      exists b'. split; [exact E|]. split; [done|]. intros k'. rewrite Hg. cbn [rev]. rewrite dget_snoc. destruct (dget (rev l) k') as [j|] eqn:Ej.
      + destruct j as [| y | | | | |]; try done; exfalso.
        all: apply dget_Some_in in Ej; apply elem_of_list_In, in_rev, elem_of_list_In in Ej; rewrite Forall_forall in Hl; destruct (Hl _ Ej) as [_ (zz & Hz)]; done.
      + rewrite dget_dset. by destruct (decide (k' = k)).
  Qed.
  Lemma builtin_valid be : validate_builtin_property_enabled be = Ok tt -> exists l, be = V (JObj l) /\ Forall (fun kv : string * json => fst kv ∈ builtin_fields /\ exists b, snd kv = JBool b) l.
  Proof.
    destruct be as [[| | | | | |l]|]; try done. cbn [validate_builtin_property_enabled]. intros H. exists l. split; [done|].
    apply (validated_all (fun kv : string * json => if negb (bool_decide (fst kv ∈ builtin_property_fields)) then Err ValueError else match snd kv with JBool _ => Ok tt | _ => Err TypeError end)) in H.
    eapply Forall_impl; [exact H|]. intros [k j]. cbn [fst snd]. destruct (bool_decide_reflect (k ∈ builtin_property_fields)) as [Hk|]; [|done]. cbn [negb]. destruct j; try done. intros _. split; [exact Hk|by eexists].
  Qed.
  Lemma schedule_values i t : check_schedule i t = Ok tt -> exists ji jt, i = V ji /\ t = V jt.
  Proof.
    unfold check_schedule. destruct i as [ji|li]; [|done]. intros H. apply rbind_ok in H as ([] & _ & H). destruct t as [jt|lt]; [by eauto|]. done.
  Qed.
  Lemma configure_iff d p : runtime_post_init d = Ok tt -> configure_properties d empty_plan = Ok p <-> configured d p.
  Proof.
    unfold runtime_post_init. intros H. apply rbind_ok in H as (? & _ & H). apply rbind_ok in H as (b1 & _ & H). destruct b1; [done|].
    apply rbind_ok in H as (? & _ & H). apply rbind_ok in H as (b2 & _ & H). destruct b2; [done|].
    apply rbind_ok in H as (? & _ & H). apply rbind_ok in H as (b3 & _ & H). destruct b3; [done|].
    apply rbind_ok in H as (? & _ & H). apply rbind_ok in H as (b4 & _ & H). destruct b4; [done|].
    apply rbind_ok in H as (i & Hi & H). apply rbind_ok in H as (ti & Hti & H). apply rbind_ok in H as ([] & Hs & H).
    apply rbind_ok in H as (be & Hbe & H). apply rbind_ok in H as ([] & Hv & H). apply rbind_ok in H as (cs & Hcs & H).
    destruct cs as [[| | | | |cs|]|]; try done. apply validated_all in H. destruct (builtin_valid _ Hv) as (l & -> & Hl). destruct (schedule_values _ _ Hs) as (ji & jt & -> & ->).
    destruct (schedule_ok _ _ Hs) as (iz & tq & Et & Ev & Hgi & Hgt).
    unfold CallbackModel.configure_properties. rewrite Hi, Hti. cbn [rbind].
    assert (Hfreq : (if is_none (V ji) && is_none (V jt) then Ok empty_plan else let* t := time_of (V jt) in plan_frequency 0%Q Qle_bool empty_plan (int_arg_of (V ji)) t) = Ok (Plan iz tq all_enabled [])).
    { destruct (is_none (V ji) && is_none (V jt)) eqn:En.
      - apply andb_true_iff in En as [E1 E2]. destruct ji; try done. destruct jt; try done. cbn in Hgi, Hgt. by rewrite Hgi, Hgt.
      - rewrite Et. cbn [rbind]. unfold plan_frequency. rewrite Ev. done. }
    rewrite Hfreq. cbn [rbind]. rewrite Hbe. cbn [rbind]. destruct (enabling l Hl iz tq all_enabled []) as (b' & -> & Hb' & Hg); [done|]. cbn [rbind]. rewrite Hcs. cbn [rbind].
    change (@nil (string * spec Q)) with (attached_of []). rewrite callbacks_iff; [|done|constructor]. unfold attr in *.
    assert (Hat : forall k v, (match dget d k with Some v => Ok v | None => Err AttributeError end) = Ok v -> dget d k = Some v) by (intros k v; destruct (dget d k); congruence).
    apply Hat in Hi, Hti, Hbe, Hcs.
    assert (Hall : forall k, k ∈ builtin_fields -> dget b' k = Some (match dget (rev l) k with Some (JBool x) => x | _ => true end)).
    { intros k Hk. rewrite Hg. assert (Ha : dget all_enabled k = Some true).
      { unfold builtin_fields in Hk. repeat (apply elem_of_cons in Hk as [->|Hk]; [done|]). by apply elem_of_nil in Hk. }
      rewrite Ha. by destruct (dget (rev l) k) as [[]|]. }
    split.
    - intros (specs & H1 & H2 & H3 & ->). exists ji, jt, l, cs, specs. cbn [p_interval p_time p_builtin p_attached]. by repeat split.
    - intros (ji' & jt' & l' & cs' & specs & E1 & E2 & E3 & E4 & G1 & G2 & G3 & G4 & G5 & G6 & G7 & G8).
      rewrite Hi in E1. injection E1 as <-. rewrite Hti in E2. injection E2 as <-. rewrite Hbe in E3. injection E3 as <-. rewrite Hcs in E4. injection E4 as <-.
      exists specs. split; [done|]. split; [done|]. split; [done|]. destruct p as [pi pt pb pa]. cbn [p_interval p_time p_builtin p_attached] in *. rewrite G8.
      rewrite (integer_unique _ _ _ G1 Hgi), (time_unique _ _ _ G2 Hgt). f_equal.
      assert (Hext : forall x y : dict string bool, dkeys x = dkeys y -> NoDup (dkeys x) -> (forall k, k ∈ dkeys x -> dget x k = dget y k) -> x = y).
      { clear. induction x as [|[k v] x IH]; intros [|[k' v'] y] Hk Hnd Hg; try done. cbn [dkeys map fst] in Hk. injection Hk as <- Hk. apply NoDup_cons in Hnd as [Hn Hnd].
        pose proof (Hg k ltac:(by left)) as E. cbn [dget] in E. rewrite !decide_True in E by done. injection E as <-. f_equal. apply IH; [done|done|]. intros j Hj.
        pose proof (Hg j ltac:(by right)) as E. cbn [dget] in E. rewrite !decide_False in E by (intros ->; done). done. }
      apply Hext; [congruence|rewrite G3; repeat constructor; set_solver|]. intros k Hk. rewrite G3 in Hk. by rewrite G4, Hall.
  Qed.
End References.

(** ** Keywords *)
Section Keywords.
  Context {A : Type}.
  Implicit Types (d std user : dict string A) (sig : list param).
  Lemma takes_any_spec sig : takes_any sig = true <-> exists p, p ∈ sig /\ p_kind p = VarKeyword.
  Proof.
    unfold takes_any. rewrite existsb_exists. split.
    - intros (p & Hp & E). exists p. split; [by apply elem_of_list_In|]. by destruct (p_kind p).
    - intros (p & Hp & E). exists p. split; [by apply elem_of_list_In|]. by rewrite E.
  Qed.
  Lemma accepted_spec sig k : k ∈ accepted sig <-> exists p, p ∈ sig /\ p_name p = k /\ (p_kind p = PositionalOrKeyword \/ p_kind p = KeywordOnly).
  Proof.
    unfold accepted. rewrite elem_of_list_In, in_map_iff. split.
    - intros (p & <- & Hp). apply filter_In in Hp as [Hp E]. exists p. split; [by apply elem_of_list_In|]. split; [done|]. destruct (p_kind p); auto; done.
    - intros (p & Hp & <- & E). exists p. split; [done|]. apply filter_In. split; [by apply elem_of_list_In|]. by destruct E as [-> | ->].
  Qed.
  Lemma takes_spec sig k : takes sig k <-> takes_any sig = true \/ k ∈ accepted sig.
  Proof. unfold takes. rewrite takes_any_spec, accepted_spec. naive_solver. Qed.
  Lemma py_call_ok sig d r : py_call sig d = Ok r <-> r = d /\ (forall k, k ∈ dkeys d -> takes sig k) /\ callable_by_keyword sig /\ (forall n, required sig n -> n ∈ dkeys d).
  Proof.
    unfold py_call.
    assert (H1 : negb (takes_any sig) && negb (forallb (fun k => bool_decide (k ∈ accepted sig)) (dkeys d)) = false <-> forall k, k ∈ dkeys d -> takes sig k).
    { rewrite andb_false_iff, !negb_false_iff, forallb_forall. split.
      - intros [H|H] k Hk; apply takes_spec; [by left|right]. apply elem_of_list_In, H in Hk. by apply bool_decide_eq_true in Hk.
      - intros H. destruct (takes_any sig) eqn:E; [by left|right]. intros k Hk. apply elem_of_list_In, H, takes_spec in Hk as [?|Hk]; [congruence|]. by apply bool_decide_eq_true. }
    assert (H2 : forallb (fun p => match p_kind p with PositionalOnly => p_default p | PositionalOrKeyword | KeywordOnly => p_default p || bool_decide (p_name p ∈ dkeys d) | VarPositional | VarKeyword => true end) sig = true
      <-> callable_by_keyword sig /\ forall n, required sig n -> n ∈ dkeys d).
    { rewrite forallb_forall. split.
      - intros H. split.
        + intros p Hp E. apply elem_of_list_In, H in Hp. by rewrite E in Hp.
        + intros n (p & Hp & <- & Hd & E). apply elem_of_list_In, H in Hp. assert (p_default p || bool_decide (p_name p ∈ dkeys d) = true) as Ho by (by destruct E as [E|E]; rewrite E in Hp).
          rewrite Hd in Ho. by apply bool_decide_eq_true in Ho.
      - intros [Hc Hr] p Hp. apply elem_of_list_In in Hp. destruct (p_kind p) eqn:E; try done; [by apply Hc|..];
          (destruct (p_default p) eqn:Ed; [done|]; cbn [orb]; apply bool_decide_eq_true, Hr; exists p; auto). }
    destruct (negb (takes_any sig) && _) eqn:E1.
    - split; [done|]. intros (_ & H & _). apply H1 in H. congruence.
    - destruct (forallb _ sig) eqn:E2.
      + split; [intros [= <-]; split; [done|]; split; [by apply H1|]; by apply H2|]. by intros (-> & _).
      + split; [done|]. intros (_ & _ & Hc & Hr). by pose proof (proj2 H2 (conj Hc Hr)).
  Qed.
  Definition merged std user : dict string A := fold_left (fun d kv => dset d (fst kv) (snd kv)) user std.
  Lemma merged_get std user k : dget (merged std user) k = match dget (rev user) k with Some v => Some v | None => dget std k end.
  Proof.
    unfold merged. revert std. induction user as [|[k0 v0] user IH]; intros std; cbn [fold_left rev]; [done|]. rewrite IH, dget_snoc, dget_dset. cbn [fst snd].
    destruct (dget (rev user) k); [done|]. by destruct (decide (k = k0)).
  Qed.
  Lemma merged_keys std user k : k ∈ dkeys (merged std user) <-> k ∈ dkeys std \/ k ∈ dkeys user.
  Proof.
    unfold merged. revert std. induction user as [|[k0 v0] user IH]; intros std; cbn [fold_left].
    - split; [by left|]. intros [H|H]; [done|]. by apply elem_of_nil in H.
    - rewrite IH, elem_of_dkeys_dset. cbn [dkeys map fst]. rewrite elem_of_cons. fold (dkeys user). naive_solver.
  Qed.
  Lemma dget_filter d (P : string -> bool) k : dget (List.filter (fun kv => P (fst kv)) d) k = if P k then dget d k else None.
  Proof.
    induction d as [|[k0 v0] d IH]; cbn [List.filter dget fst]; [by destruct (P k)|]. destruct (P k0) eqn:E; cbn [dget]; destruct (decide (k = k0)) as [->|]; rewrite ?IH, ?E; try done.
  Qed.
  Lemma dkeys_filter d (P : string -> bool) k : k ∈ dkeys (List.filter (fun kv => P (fst kv)) d) <-> P k = true /\ k ∈ dkeys d.
  Proof.
    rewrite <-!dget_in_keys, dget_filter. destruct (P k); [naive_solver|]. split; [by intros (v & ?)|by intros [? _]].
  Qed.
  Lemma dkeys_accepted sig d k : k ∈ dkeys (List.filter (fun kv => bool_decide (fst kv ∈ accepted sig)) d) <-> k ∈ accepted sig /\ k ∈ dkeys d.
  Proof. pose proof (dkeys_filter d (fun k => bool_decide (k ∈ accepted sig)) k) as H. cbn beta in H. by rewrite H, bool_decide_eq_true. Qed.
  Lemma compute_ok sig std user args : call_compute sig std user = Ok args ->
    (forall k v, dget args k = Some v <-> takes sig k /\ match dget (rev user) k with Some w => v = w | None => dget std k = Some v end).
  Proof.
    unfold call_compute, call_with_supported_keywords. fold (merged std user). destruct (takes_any sig) eqn:Et.
    - intros H. apply py_call_ok in H as (-> & _). intros k v. rewrite merged_get, takes_spec. destruct (dget (rev user) k); naive_solver.
    - destruct (existsb _ _) eqn:Ee; [done|]. intros H. apply py_call_ok in H as (-> & _). intros k v.
      pose proof (dget_filter (merged std user) (fun k => bool_decide (k ∈ accepted sig)) k) as Ef. cbn beta in Ef. rewrite Ef, merged_get, takes_spec.
      destruct (bool_decide_reflect (k ∈ accepted sig)) as [Hk|Hk]; [destruct (dget (rev user) k); naive_solver|]. split; [done|]. intros [[?|?] _]; [congruence|done].
  Qed.
  Lemma compute_iff sig std user : (exists args, call_compute sig std user = Ok args)
    <-> callable_by_keyword sig /\ (forall k, k ∈ dkeys user -> takes sig k) /\ (forall n, required sig n -> n ∈ dkeys std \/ n ∈ dkeys user).
  Proof.
    unfold call_compute, call_with_supported_keywords. fold (merged std user). destruct (takes_any sig) eqn:Et.
    - assert (Ht : forall k, takes sig k) by (intros k; apply takes_spec; by left). split.
      + intros (args & H). apply py_call_ok in H as (_ & _ & Hc & Hr). split; [done|]. split; [by auto|]. intros n Hn. by apply merged_keys, Hr.
      + intros (Hc & _ & Hr). exists (merged std user). apply py_call_ok. split; [done|]. split; [by auto|]. split; [done|]. intros n Hn. by apply merged_keys, Hr.
    - assert (He : existsb (fun k => negb (bool_decide (k ∈ accepted sig))) (dkeys user) = false <-> forall k, k ∈ dkeys user -> takes sig k).
      { rewrite <-not_true_iff_false, existsb_exists. split.
        - intros H k Hk. apply takes_spec. right. destruct (decide (k ∈ accepted sig)) as [|Hn]; [done|]. destruct H. exists k. split; [by apply elem_of_list_In|]. by rewrite bool_decide_eq_false_2.
        - intros H (k & Hk & Hb). apply elem_of_list_In, H, takes_spec in Hk as [?|Hk]; [congruence|]. by rewrite bool_decide_eq_true_2 in Hb. }
      destruct (existsb _ _).
      + split; [by intros (args & ?)|]. intros (_ & Hu & _). by apply He in Hu.
      + assert (Hu := proj1 He eq_refl). split.
        * intros (args & H). apply py_call_ok in H as (_ & _ & Hc & Hr). split; [done|]. split; [done|]. intros n Hn. apply Hr in Hn. apply dkeys_accepted in Hn as [_ Hn]. by apply merged_keys.
        * intros (Hc & _ & Hr). eexists. apply py_call_ok. split; [reflexivity|]. split; [|split; [done|]].
          -- intros k Hk. apply dkeys_accepted in Hk as [Hk _]. apply takes_spec. by right.
          -- intros n Hn. apply dkeys_accepted. split; [|by apply merged_keys, Hr]. apply accepted_spec. destruct Hn as (p & Hp & E & _ & Hk). by exists p.
  Qed.
  Lemma apply_iff sig std user args : call_apply sig std user = Ok args
    <-> args = (std ++ user)%list /\ callable_by_keyword sig /\ (forall k, k ∈ dkeys user -> k ∉ dkeys std) /\ (forall k, k ∈ dkeys std \/ k ∈ dkeys user -> takes sig k)
      /\ (forall n, required sig n -> n ∈ dkeys std \/ n ∈ dkeys user).
  Proof.
    unfold call_apply.
    assert (He : existsb (fun k => bool_decide (k ∈ dkeys std)) (dkeys user) = false <-> forall k, k ∈ dkeys user -> k ∉ dkeys std).
    { rewrite <-not_true_iff_false, existsb_exists. split.
      - intros H k Hk Hs. apply H. exists k. split; [by apply elem_of_list_In|]. by apply bool_decide_eq_true.
      - intros H (k & Hk & Hb). apply bool_decide_eq_true in Hb. apply elem_of_list_In in Hk. by apply (H k). }
    assert (Hk : forall k, k ∈ dkeys (std ++ user)%list <-> k ∈ dkeys std \/ k ∈ dkeys user) by (intros k; unfold dkeys; by rewrite map_app, elem_of_app).
    destruct (existsb _ _).
    - split; [done|]. intros (_ & _ & H & _). by apply He in H.
    - assert (Hd := proj1 He eq_refl). rewrite py_call_ok. setoid_rewrite Hk. naive_solver.
  Qed.
End Keywords.
