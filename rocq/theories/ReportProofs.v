(** Proofs about the report after a pass. *)
From Verif Require Import Py PyLemmas PropertyModel PropertySpec PropertyProofs PropertyProps
  ListingModel ListingProofs ReportModel.
Local Open Scope nat_scope.

Lemma fold_dset_fresh {A} (f : string -> A) ks : forall d, NoDup (dkeys d ++ ks) ->
  fold_left (fun d n => dset d n (f n)) ks d = d ++ map (fun n => (n, f n)) ks.
Proof.
  induction ks as [|k ks IH]; intros d Hd; cbn [fold_left map]; [by rewrite app_nil_r|].
  assert (Hk : k ∉ dkeys d).
  { intros Hin. apply NoDup_app in Hd as (_ & H & _). apply (H k Hin). by left. }
  rewrite (dkeys_dset_notin d k _ Hk), IH, <- app_assoc; [done|].
  unfold dkeys. rewrite map_app. cbn. by rewrite <- app_assoc.
Qed.

Lemma last_map {A B} (f : A -> B) l x : last l = Some x -> last_item (map f l) = Ok (f x).
Proof.
  intros H. apply last_Some in H as [l' ->]. rewrite map_app. cbn. apply last_item_snoc.
Qed.

Lemma recent_last {A} m (l l' : list A) : valid_max m -> most_recent m l l' -> last l' = last l.
Proof.
  intros Hm (dropped & -> & H). destruct l' as [|x l'].
  - destruct m as [m|]; [|by rewrite H]. cbn in Hm, H. rewrite app_nil_r in *.
    destruct dropped; [done|]. cbn in H. lia.
  - rewrite last_app. destruct (last (x :: l')) eqn:E; [done|]. by apply last_None in E.
Qed.

Lemma sampled_exists {T A} (sub : T -> T -> T) leb i d (pts : list (A * Z * T)) : forall prev,
  exists out, sampled sub leb i d prev pts out.
Proof.
  induction pts as [|[[a step] t] pts IH]; intros prev; [eexists; constructor|].
  destruct (should_trigger sub leb step t i d prev) eqn:E.
  - destruct (IH (Some t)) as [out H]. exists ((a, step, t) :: out). constructor; [|done].
    by apply should_trigger_due.
  - destruct (IH prev) as [out H]. exists out. constructor; [|done].
    by apply should_trigger_not_due.
Qed.

Section Report.
  Context {T : Type} (zero : T) (sub : T -> T -> T) (leb : T -> T -> bool)
    (fname : nat -> option string) {V St Obs : Type}
    (call : nat -> St -> Z -> T -> list (control T) * result V)
    (handle : nat -> exn -> St -> Z -> T -> result bool)
    (transport : Obs -> T -> string -> option V).
  Notation reachable := (reachable zero sub leb fname call handle transport).

  Lemma show_lemma p (g : sampling T V) pass :
    pinv zero leb fname p -> ginv p g ->
    (c_time (g_results g) = [] -> show_current_info pass g = Ok None) /\
    (c_time (g_results g) <> [] ->
     exists t m j d c h f,
       last (c_time (g_results g)) = Some t /\ last (c_msd (g_results g)) = Some m /\
       last (c_jump (g_results g)) = Some j /\ last (c_tracer (g_results g)) = Some d /\
       last (c_conductivity (g_results g)) = Some c /\ last (c_havens (g_results g)) = Some h /\
       last (c_correlation (g_results g)) = Some f /\
       show_current_info pass g = Ok (Some
         ([("pass", PassCell pass, ""); ("time", TimeCell t, "s");
           ("msd", ValueCell m, "Angstrom^2"); ("jump_diffusivity", ValueCell j, "cm^2/s");
           ("tracer_diffusivity", ValueCell d, "cm^2/s"); ("conductivity", ValueCell c, "mS/cm");
           ("havens_ratio", ValueCell h, "dimensionless");
           ("correlation_factor", ValueCell f, "dimensionless")]%string ++
          map (fun n => (n, ValueCell (latest_value g n), "user-defined"%string))
            (dkeys (p_attached p))))).
  Proof using.
    intros Hp Hg. split; [intros E; unfold show_current_info; by rewrite E|]. intros Hn.
    destruct (gi_rect _ _ Hg) as (H1 & H2 & H3 & H4 & H5 & H6).
    assert (HL : forall A (l : list A), length l = length (c_time (g_results g)) ->
      exists x, last l = Some x).
    { intros A l Hl. destruct (last l) eqn:E; [by eexists|]. apply last_None in E. subst l.
      by destruct (c_time (g_results g)). }
    destruct (HL _ _ eq_refl) as [t E0]. destruct (HL _ _ H6) as [m E1].
    destruct (HL _ _ H1) as [j E2]. destruct (HL _ _ H2) as [d E3]. destruct (HL _ _ H3) as [c E4].
    destruct (HL _ _ H5) as [h E5]. destruct (HL _ _ H4) as [f E6].
    exists t, m, j, d, c, h, f. do 7 (split; [done|]).
    unfold show_current_info.
    assert (Hk : dkeys (g_props g) = dkeys (p_attached p)) by apply agree_keys, Hg.
    rewrite Hk, (fold_dset_fresh (fun n => ValueCell (latest_value g n)) _ []) by apply Hp.
    destruct result_units as [units|] eqn:Eu; [|by vm_compute in Eu].
    vm_compute in Eu. injection Eu as <-. cbn [rbind].
    destruct (c_time (g_results g)) as [|t0 ts] eqn:Et; [done|]. rewrite <- Et in *.
    unfold format_tracker_summary, summary_fields. cbn [rmapM].
    replace (dgetitem (result_columns (g_results g)) "time")
      with (Ok (map (@TimeCell T V) (c_time (g_results g)))) by reflexivity.
    replace (dgetitem (result_columns (g_results g)) "msd")
      with (Ok (map (@ValueCell T V) (c_msd (g_results g)))) by reflexivity.
    replace (dgetitem (result_columns (g_results g)) "jump_diffusivity")
      with (Ok (map (@ValueCell T V) (c_jump (g_results g)))) by reflexivity.
    replace (dgetitem (result_columns (g_results g)) "tracer_diffusivity")
      with (Ok (map (@ValueCell T V) (c_tracer (g_results g)))) by reflexivity.
    replace (dgetitem (result_columns (g_results g)) "conductivity")
      with (Ok (map (@ValueCell T V) (c_conductivity (g_results g)))) by reflexivity.
    replace (dgetitem (result_columns (g_results g)) "havens_ratio")
      with (Ok (map (@ValueCell T V) (c_havens (g_results g)))) by reflexivity.
    replace (dgetitem (result_columns (g_results g)) "correlation_factor")
      with (Ok (map (@ValueCell T V) (c_correlation (g_results g)))) by reflexivity.
    cbn [rbind].
    rewrite (last_map _ _ _ E0), (last_map _ _ _ E1), (last_map _ _ _ E2), (last_map _ _ _ E3),
      (last_map _ _ _ E4), (last_map _ _ _ E5), (last_map _ _ _ E6).
    cbn [rbind app]. rewrite map_map. done.
  Qed.

  Lemma report_lemma (w : world T V) g pass :
    reachable w -> w_active w = Some g ->
    (c_time (g_results g) = [] -> show_current_info pass g = Ok None) /\
    (c_time (g_results g) <> [] ->
     exists t m j d c h f,
       last (c_time (g_results g)) = Some t /\ last (c_msd (g_results g)) = Some m /\
       last (c_jump (g_results g)) = Some j /\ last (c_tracer (g_results g)) = Some d /\
       last (c_conductivity (g_results g)) = Some c /\ last (c_havens (g_results g)) = Some h /\
       last (c_correlation (g_results g)) = Some f /\
       show_current_info pass g = Ok (Some
         ([("pass", PassCell pass, ""); ("time", TimeCell t, "s");
           ("msd", ValueCell m, "Angstrom^2"); ("jump_diffusivity", ValueCell j, "cm^2/s");
           ("tracer_diffusivity", ValueCell d, "cm^2/s"); ("conductivity", ValueCell c, "mS/cm");
           ("havens_ratio", ValueCell h, "dimensionless");
           ("correlation_factor", ValueCell f, "dimensionless")]%string ++
          map (fun n => (n, ValueCell (latest_value g n), "user-defined"%string))
            (dkeys (p_attached (w_plan w)))))).
  Proof using.
    intros [Hp Hg]%reachable_inv Ha. rewrite Ha in Hg. by apply show_lemma.
  Qed.

  Lemma shown_lemma p (g : sampling T V) pass rows name :
    pinv zero leb fname p -> ginv p g -> name ∈ dkeys (p_attached p) ->
    show_current_info pass g = Ok (Some rows) ->
    forall c u, (name, c, u) ∈ drop 8 rows <-> c = ValueCell (latest_value g name) /\ u = "user-defined"%string.
  Proof using.
    intros Hp Hg Hin Hs. destruct (show_lemma p g pass Hp Hg) as [H1 H2].
    destruct (decide (c_time (g_results g) = [])) as [E|E]; [rewrite (H1 E) in Hs; done|].
    destruct (H2 E) as (t & m & j & d & c0 & h & f & _ & _ & _ & _ & _ & _ & _ & H).
    rewrite H in Hs. clear H. revert Hs. generalize (dkeys (p_attached p)) as ks, Hin. intros ks.
    set (tail := map _ ks). intros Hin' [= <-] c u.
    match goal with |- context [drop 8 ?k] => change (drop 8 k) with tail end.
    subst tail. rewrite elem_of_list_In, in_map_iff. split.
    - by intros (n & [= -> <- <-] & _).
    - intros [-> ->]. exists name. split; [done|]. by apply elem_of_list_In.
  Qed.

  Lemma points_shown_lemma (w : world T V) g pts p' g' name o s l0 l pass rows :
    reachable w -> w_active w = Some g -> quiet_attachments call g ->
    sample_points zero sub leb fname call handle transport (w_plan w) g pts = ((p', g'), Ok tt) ->
    attached g name o s ->
    get_property_records g name = Ok l -> most_recent (s_max s) l0 l ->
    show_current_info pass g' = Ok (Some rows) ->
    exists out,
      sampled sub leb (own_or_global (s_interval s) (g_interval g))
        (own_or_global (s_time_interval s) (g_time g)) (s_last_time s)
        (callback_points pts) out /\
      forall c u, (name, c, u) ∈ drop 8 rows <->
        u = "user-defined"%string /\
        c = ValueCell (option_map r_value (last
              (if s_enabled s && s_store s
               then l0 ++ successes call name (s_callback s) out else l0))).
  Proof using.
    intros Hw Ha Hq E Hatt Hl Hr Hs. pose proof (reachable_inv _ _ _ _ _ _ _ _ Hw) as [Hp Hg].
    rewrite Ha in Hg.
    destruct (points_lemma zero sub leb fname call handle transport _ _ _ _ _ Hp Hg Hq E)
      as (-> & _ & Hg' & _ & H).
    destruct (H name o s Hatt) as (s' & _ & _ & H').
    destruct Hatt as [Hin Ho].
    destruct (agree_attached _ _ _ _ (gi_agree _ _ Hg) Hin) as (s1 & s2 & Hs1 & Hs2 & Hss).
    rewrite Ho in Hs2. injection Hs2 as <-.
    assert (Hm : valid_max (s_max s)).
    { destruct Hss as (_ & _ & _ & _ & _ & <- & _).
      exact (vs_max _ _ _ _ _ (pi_specs _ _ _ _ Hp name s1 Hs1)). }
    assert (Hk : name ∈ dkeys (p_attached (w_plan w))).
    { unfold dkeys. apply elem_of_list_fmap. by exists (name, s1). }
    pose proof (shown_lemma _ _ _ _ _ Hp Hg' Hk Hs) as Hshow.
    assert (HV : forall h l', dget (g_records g') name = Some l' -> most_recent (s_max s) h l' ->
      latest_value g' name = option_map r_value (last h)).
    { intros h l' E1 E2. unfold latest_value. rewrite E1, (recent_last _ _ _ Hm E2). by destruct (last h). }
    unfold get_property_records in Hl. destruct (dget (g_records g) name) as [l1|] eqn:El; [|done].
    injection Hl as ->.
    destruct (sampled_exists sub leb (own_or_global (s_interval s) (g_interval g))
        (own_or_global (s_time_interval s) (g_time g)) (callback_points pts) (s_last_time s)) as [out0 Hout0].
    destruct (s_enabled s); cbn [andb].
    - destruct H' as (out & Hsam & _ & Hst & Hns). exists out. split; [done|]. intros c u.
      rewrite Hshow. destruct (s_store s).
      + destruct (Hst eq_refl l0 l eq_refl Hr) as (l' & Hl' & Hr'). rewrite (HV _ _ Hl' Hr'). tauto.
      + rewrite (HV l0 l); [tauto| |done]. by rewrite Hns.
    - destruct H' as [_ Hrec]. exists out0. split; [done|]. intros c u. rewrite Hshow.
      rewrite (HV l0 l); [tauto| |done]. done.
  Qed.
End Report.
