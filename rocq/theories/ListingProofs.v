(** Proofs about the list of calculations. *)
From Verif Require Import Py PyLemmas PropertyModel PropertySpec PropertyProofs PropertyProps ListingModel ListingSpec.
Local Open Scope nat_scope.

Lemma filter_split {A} (f : A -> bool) l :
  List.filter f l ++ List.filter (fun x => negb (f x)) l ≡ₚ l.
Proof.
  induction l as [|x l IH]; [done|]. simpl. destruct (f x); simpl; [by rewrite IH|].
  by rewrite <- Permutation_middle, IH.
Qed.
Lemma elem_filter {A} (f : A -> bool) l x : x ∈ List.filter f l <-> x ∈ l /\ f x = true.
Proof. rewrite !elem_of_list_In. apply filter_In. Qed.

Lemma describe_partition b a :
  built_in_enabled (describe b a) ++ built_in_disabled (describe b a) ≡ₚ builtin_fields /\
  attached_enabled (describe b a) ++ attached_disabled (describe b a) ≡ₚ dkeys a.
Proof.
  split; [apply filter_split|]. cbn. rewrite <- map_app. unfold dkeys.
  apply Permutation_map, filter_split.
Qed.

Lemma describe_listed b a name f : dkeys b = builtin_fields ->
  (listed (describe b a) name f <-> (name, f) ∈ b \/ (name, f) ∈ a).
Proof.
  intros Hb.
  assert (NoDup (dkeys b)) as Hnb by (rewrite Hb; unfold builtin_fields; repeat constructor; set_solver).
  assert (Hon : forall f', name ∈ builtin_fields /\
      (match dget b name with Some v => v | None => true end) = f' <-> (name, f') ∈ b).
  { intros f'. rewrite <- Hb. split.
    - intros [Hin Hv]. apply dget_in_keys in Hin as [v E]. rewrite E in Hv. subst v.
      by apply dget_Some_in.
    - intros Hin. split; [by apply (elem_of_list_fmap_1 fst) in Hin|].
      by rewrite (dget_in _ _ _ Hnb Hin). }
  assert (Ha : forall g : string * bool -> bool, name ∈ map fst (List.filter g a) <->
      exists v, (name, v) ∈ a /\ g (name, v) = true).
  { intros g. rewrite elem_of_list_fmap. split.
    - intros ([n v] & -> & Hin). apply elem_filter in Hin. by exists v.
    - intros (v & H). exists (name, v). split; [done|]. by apply elem_filter. }
  destruct f; cbn [listed describe built_in_enabled attached_enabled built_in_disabled attached_disabled].
  - rewrite elem_filter, Ha, <- (Hon true). split.
    + intros [H|([] & H1 & H2)]; [by left|by right|done].
    + intros [H|H]; [by left|right; by exists true].
  - rewrite elem_filter, Ha, <- (Hon false). split.
    + intros [[H1 H2]|([] & H1 & H2)]; [left|done|by right]. split; [done|].
      by destruct (match dget b name with Some v => v | None => true end).
    + intros [[H1 H2]|H]; [left|right; by exists false]. split; [done|]. by rewrite H2.
Qed.

Section Listing.
  Context {T : Type} (zero : T) (sub : T -> T -> T) (leb : T -> T -> bool)
    (fname : nat -> option string) {V St Obs : Type}
    (call : nat -> St -> Z -> T -> list (control T) * result V)
    (handle : nat -> exn -> St -> Z -> T -> result bool)
    (transport : Obs -> T -> string -> option V).
  Notation reachable := (reachable zero sub leb fname call handle transport).

  Lemma tracker_listing_lemma (w : world T V) g : reachable w -> w_active w = Some g ->
    tracker_listing g = Ok (plan_listing (w_plan w)).
  Proof using.
    intros [_ Hg]%reachable_inv Ha. rewrite Ha in Hg. destruct (gi_agree _ _ Hg) as [Hb Hf].
    unfold tracker_listing, plan_listing. rewrite Hb.
    assert (E : rmapM (fun no => match g_objects g !! (snd no) with
                                 | Some s => Ok (fst no, s_enabled s)
                                 | None => Err RuntimeError
                                 end) (g_props g)
                = Ok (map (fun ns => (fst ns, s_enabled (snd ns))) (p_attached (w_plan w)))).
    { clear Hb Hg Ha. induction Hf as [|[n s] [n' o] l k [Hn (s' & Hs & Hsame)] _ IH]; [done|].
      cbn [rmapM fst snd map] in *. rewrite Hs. cbn [rbind]. rewrite IH. cbn [rbind].
      destruct Hsame as (_ & _ & _ & _ & _ & _ & -> & _). by rewrite Hn. }
    by rewrite E.
  Qed.

  Lemma plan_listed (w : world T V) name f : reachable w ->
    (listed (plan_listing (w_plan w)) name f <->
     (name, f) ∈ p_builtin (w_plan w) \/
     exists s, (name, s) ∈ p_attached (w_plan w) /\ s_enabled s = f).
  Proof using.
    intros [Hp _]%reachable_inv. unfold plan_listing. rewrite describe_listed by apply Hp.
    enough ((name, f) ∈ map (fun ns => (fst ns, s_enabled (snd ns))) (p_attached (w_plan w)) <->
            exists s, (name, s) ∈ p_attached (w_plan w) /\ s_enabled s = f) as -> by done.
    rewrite elem_of_list_fmap. split.
    - intros ([n s] & [= -> ->] & Hin). by exists s.
    - intros (s & Hin & <-). by exists (name, s).
  Qed.

  Lemma listing_partition_lemma (w : world T V) : reachable w ->
    let l := plan_listing (w_plan w) in
    (built_in_enabled l ++ built_in_disabled l ≡ₚ builtin_fields) /\
    (attached_enabled l ++ attached_disabled l ≡ₚ dkeys (p_attached (w_plan w))) /\
    NoDup (built_in_enabled l ++ built_in_disabled l ++ attached_enabled l ++ attached_disabled l).
  Proof using.
    intros Hw. pose proof (reachable_inv _ _ _ _ _ _ _ _ Hw) as [Hp _]. cbv zeta.
    destruct (describe_partition (p_builtin (w_plan w))
      (map (fun ns => (fst ns, s_enabled (snd ns))) (p_attached (w_plan w)))) as [H1 H2].
    change (describe (p_builtin (w_plan w))
      (map (fun ns => (fst ns, s_enabled (snd ns))) (p_attached (w_plan w))))
      with (plan_listing (w_plan w)) in *.
    assert (Hk : dkeys (map (fun ns => (fst ns, s_enabled (snd ns))) (p_attached (w_plan w)))
                 = dkeys (p_attached (w_plan w))).
    { unfold dkeys. rewrite map_map. done. }
    rewrite Hk in H2. split; [done|]. split; [done|].
    rewrite app_assoc, H1, H2. apply NoDup_app. split; [|split].
    - unfold builtin_fields. repeat constructor; set_solver.
    - intros x Hx Hin. apply elem_of_list_fmap in Hin as ([n s] & -> & Hin).
      exact (vs_reserved _ _ _ _ _ (pi_specs _ _ _ _ Hp n s Hin) Hx).
    - apply Hp.
  Qed.

  Lemma enabling_lemma (w : world T V) name b w' :
    reachable w -> kmc_control zero leb fname w (SetEnabled name b) = (w', Ok tt) ->
    listed (plan_listing (w_plan w')) name b /\
    forall n f, n <> name ->
      (listed (plan_listing (w_plan w')) n f <-> listed (plan_listing (w_plan w)) n f).
  Proof using.
    intros Hw Hc.
    assert (Hw' : reachable w').
    { destruct Hw as [l ->]. exists (l ++ [Control (SetEnabled name b)]).
      unfold acts in *. rewrite fold_left_app. cbn [fold_left act]. by rewrite Hc. }
    pose proof (other_effects_lemma zero leb fname w (SetEnabled name b) w'
      (reachable_inv _ _ _ _ _ _ _ _ Hw) Hc) as H. cbv zeta in H. destruct H as (_ & _ & H).
    pose proof (reachable_inv _ _ _ _ _ _ _ _ Hw) as [Hp _].
    split.
    - apply plan_listed; [done|]. case_bool_decide as Hin.
      + destruct H as [Hb _]. left. rewrite Hb. rewrite <- (pi_builtin _ _ _ _ Hp) in Hin.
        apply elem_of_list_fmap in Hin as ([n v] & -> & Hin). apply elem_of_list_fmap.
        exists (n, v). split; [|done]. cbn. by rewrite bool_decide_true.
      + destruct H as (_ & Hin' & Ha). right. rewrite Ha.
        apply elem_of_list_fmap in Hin' as ([n s] & -> & Hin'). exists (with_enabled s b).
        split; [|done]. apply elem_of_list_fmap. exists (n, s). split; [|done]. cbn.
        by rewrite bool_decide_true.
    - intros n f Hn. rewrite !plan_listed by done. case_bool_decide as Hin.
      + destruct H as [-> ->].
        enough ((n, f) ∈ map (fun nb => if bool_decide (fst nb = name) then (fst nb, b) else nb)
                  (p_builtin (w_plan w)) <-> (n, f) ∈ p_builtin (w_plan w)) as -> by done.
        rewrite elem_of_list_fmap. split.
        * intros ([n' v] & E & Hi). cbn in E. case_bool_decide; [|by rewrite E]. congruence.
        * intros Hi. exists (n, f). split; [|done]. cbn. by rewrite bool_decide_false.
      + destruct H as (-> & _ & ->).
        enough (forall s, (n, s) ∈ map (fun ns => if bool_decide (fst ns = name)
                   then (fst ns, with_enabled (snd ns) b) else ns) (p_attached (w_plan w)) <->
                   (n, s) ∈ p_attached (w_plan w)) as He by (by setoid_rewrite He).
        intros s. rewrite elem_of_list_fmap. split.
        * intros ([n' v] & E & Hi). cbn in E. case_bool_decide; [|by rewrite E]. congruence.
        * intros Hi. exists (n, s). split; [|done]. cbn. by rewrite bool_decide_false.
  Qed.

  Lemma column_rows (r r' : results T V) rows value name : name ∈ builtin_fields ->
    more_rows (Obs:=Obs) r r' rows value ->
    column r' name = column r name ++ map (fun x => value x.1.1 x.2 name) rows.
  Proof using.
    intros Hin (_ & H1 & H2 & H3 & H4 & H5 & H6). unfold builtin_fields in Hin.
    repeat (apply elem_of_cons in Hin as [->|Hin]; [by cbn|]). by apply elem_of_nil in Hin.
  Qed.

  Lemma listing_lemma (w : world T V) g pts p' g' :
    reachable w -> w_active w = Some g -> quiet_attachments call g ->
    sample_points zero sub leb fname call handle transport (w_plan w) g pts = ((p', g'), Ok tt) ->
    let l := plan_listing (w_plan w) in
    (forall name, name ∈ attached_enabled l -> exists o s out, attached g name o s /\
       sampled sub leb (own_or_global (s_interval s) (g_interval g))
         (own_or_global (s_time_interval s) (g_time g)) (s_last_time s) (callback_points pts) out /\
       calls_of g' o = calls_of g o ++ map (fun x => (x.1.2, x.2)) out) /\
    (forall name, name ∈ attached_disabled l ->
       exists o s, attached g name o s /\ calls_of g' o = calls_of g o) /\
    exists rows,
      sampled sub leb (g_interval g) (g_time g) (g_last_summary g) (summary_points pts) rows /\
      (forall name, name ∈ built_in_enabled l ->
         column (g_results g') name =
         column (g_results g) name ++ map (fun x => transport x.1.1 x.2 name) rows) /\
      (forall name, name ∈ built_in_disabled l ->
         column (g_results g') name = column (g_results g) name ++ map (fun _ => None) rows).
  Proof using.
    intros Hw Ha Hq Hs. cbv zeta.
    pose proof (reachable_inv _ _ _ _ _ _ _ _ Hw) as [Hp Hg]. rewrite Ha in Hg.
    destruct (gi_agree _ _ Hg) as [Hb Hf].
    assert (Hatt : forall name f (h : spec T -> bool), 
      name ∈ map fst (List.filter (fun nb : string * bool => Bool.eqb (snd nb) f)
        (map (fun ns => (fst ns, s_enabled (snd ns))) (p_attached (w_plan w)))) ->
      exists o s, attached g name o s /\ s_enabled s = f).
    { intros name f _ Hin. apply elem_of_list_fmap in Hin as ([n v] & -> & Hin).
      apply elem_filter in Hin as [Hin Hv]. cbn in Hv. apply Bool.eqb_prop in Hv as ->.
      apply elem_of_list_fmap in Hin as ([n' s] & [= -> ->] & Hin).
      apply elem_of_list_lookup in Hin as [i Hi].
      destruct (Forall2_lookup_l _ _ _ _ _ Hf Hi) as ([n2 o] & Hi2 & Hn & s' & Hs' & Hsame).
      cbn in *. subst n2. exists o, s'. split; [split; [by apply elem_of_list_lookup; exists i|done]|].
      symmetry. apply Hsame. }
    split; [|split].
    - intros name Hin. destruct (Hatt name true (fun _ => true)) as (o & s & Hat & He).
      { cbn in Hin. erewrite filter_ext; [exact Hin|]. by intros [? []]. }
      destruct (property_schedule_exact zero sub leb fname call handle transport w g pts p' g'
        Hw Ha Hq Hs name o s Hat) as [H _]. destruct (H He) as (out & H1 & H2). by exists o, s, out.
    - intros name Hin. destruct (Hatt name false (fun _ => true)) as (o & s & Hat & He).
      { cbn in Hin. erewrite filter_ext; [exact Hin|]. by intros [? []]. }
      destruct (property_schedule_exact zero sub leb fname call handle transport w g pts p' g'
        Hw Ha Hq Hs name o s Hat) as [_ H]. exists o, s. by rewrite (H He).
    - destruct (result_rows_exact zero sub leb fname call handle transport w g pts p' g' Hw Ha Hq Hs)
        as (rows & H1 & H2). exists rows. split; [done|].
      assert (Hnb : NoDup (dkeys (p_builtin (w_plan w)))).
      { rewrite (pi_builtin _ _ _ _ Hp). unfold builtin_fields. repeat constructor; set_solver. }
      split; intros name Hin.
      + unfold plan_listing, describe in Hin; cbn [built_in_enabled built_in_disabled] in Hin. apply elem_filter in Hin as [Hin Hv].
        rewrite (column_rows _ _ _ _ _ Hin H2). f_equal. apply map_ext. intros x. unfold field_value.
        rewrite <- Hb. rewrite bool_decide_false; [done|]. intros E. by rewrite E in Hv.
      + unfold plan_listing, describe in Hin; cbn [built_in_enabled built_in_disabled] in Hin. apply elem_filter in Hin as [Hin Hv].
        rewrite (column_rows _ _ _ _ _ Hin H2). f_equal. apply map_ext. intros x. unfold field_value.
        rewrite <- Hb. rewrite bool_decide_true; [done|].
        destruct (dget (p_builtin (w_plan w)) name) as [[]|]; done.
  Qed.

  Lemma last_item_snoc {A} (l : list A) x : last_item (l ++ [x]) = Ok x.
  Proof using. unfold last_item. by rewrite last_snoc. Qed.
  Lemma last_item_some {A B} (l : list A) (k : list B) : length l = length k -> k <> [] ->
    exists x, last_item l = Ok x.
  Proof using.
    intros Hl Hk. unfold last_item. destruct (last l) eqn:E; [by eexists|].
    apply last_None in E. subst l. by destruct k.
  Qed.

  Lemma current_lemma (w : world T V) g :
    reachable w -> w_active w = Some g ->
    (c_time (g_results g) = [] -> current_info g = Err ValueError) /\
    (c_time (g_results g) <> [] -> exists v, current_info g = Ok v) /\
    forall o st step t p' g' r,
      sample_properties zero sub leb fname call handle transport (w_plan w) g o st step t = ((p', g'), r) ->
      due sub leb (g_interval g) (g_time g) (g_last_summary g) step t ->
      current_info g' =
        Ok (t, field_value transport (g_builtin g) o t "msd",
            field_value transport (g_builtin g) o t "jump_diffusivity",
            field_value transport (g_builtin g) o t "tracer_diffusivity",
            field_value transport (g_builtin g) o t "conductivity",
            field_value transport (g_builtin g) o t "havens_ratio",
            field_value transport (g_builtin g) o t "correlation_factor").
  Proof using.
    intros Hw Ha. pose proof (reachable_inv _ _ _ _ _ _ _ _ Hw) as [Hp Hg]. rewrite Ha in Hg.
    split; [|split].
    - intros E. unfold current_info. by rewrite E.
    - intros Hn. destruct (gi_rect _ _ Hg) as (H1 & H2 & H3 & H4 & H5 & H6).
      destruct (last_item_some (c_time (g_results g)) _ eq_refl Hn) as [x0 E0].
      destruct (last_item_some _ _ H1 Hn) as [x1 E1]. destruct (last_item_some _ _ H2 Hn) as [x2 E2].
      destruct (last_item_some _ _ H3 Hn) as [x3 E3]. destruct (last_item_some _ _ H4 Hn) as [x4 E4].
      destruct (last_item_some _ _ H5 Hn) as [x5 E5]. destruct (last_item_some _ _ H6 Hn) as [x6 E6].
      unfold current_info. rewrite E0, E1, E2, E3, E4, E5, E6. cbn [rbind].
      destruct (c_time (g_results g)); [done|]. by eexists.
    - intros o st step t p' g' r Hs Hd.
      destruct (result_row_exact zero sub leb fname call handle transport _ _ _ _ _ _ _ _ _ Hs)
        as [[_ (H0 & H1 & H2 & H3 & H4 & H5 & H6)]|[Hn _]]; [|done].
      cbn in H0, H1, H2, H3, H4, H5, H6. unfold current_info.
      rewrite H0, H1, H2, H3, H4, H5, H6, !last_item_snoc. cbn [rbind].
      by destruct (c_time (g_results g)).
  Qed.
End Listing.
