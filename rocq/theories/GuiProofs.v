(** Proofs about the graphical interface. *)
From Coq Require Import QArith Ascii.
From Verif Require Import Py PyLemmas Json ConfigModel ConfigSpec ConfigProofs CallbackModel CallbackSpec CallbackProofs InitModel GuiModel GuiSpec.
Local Open Scope string_scope.

Definition params (a : kmc_args) (shape : list Z) (m : value) : fields :=
  config_params (namespace a (String.eqb (g_convert a) "yes") shape m).
Lemma params_eq a shape m : params a shape m =
  let base := [("model_file", V (JStr (g_lce_fname a))); ("structure_file", V (JStr (g_prim_fname a))); ("event_file", V (JStr (g_event_fname a)));
    ("initial_state_file", V (JStr (g_initial_state a)))] in
  let rest := [("supercell_shape", V (JList (map JInt shape))); ("convert_to_primitive_cell", V (JBool (String.eqb (g_convert a) "yes")));
    ("attempt_frequency", V (JFloat (g_attempt_frequency a))); ("kmc_passes", V (JInt (g_kmc_pass a))); ("temperature", V (JInt (g_T a)));
    ("mobile_ion_charge", V (JFloat (g_q a))); ("elementary_hop_distance", V (JFloat (g_elem_hop_distance a)));
    ("dimension", V (JInt (g_dimension a))); ("random_seed", V (JInt (g_random_seed a))); ("equilibration_passes", V (JInt (g_equilibriation_pass a)))] in
  (base ++ (if is_none m then [] else [("site_mapping", m)]) ++ rest)%list.
Proof. unfold params. destruct m as [[]|]; reflexivity. Qed.
Lemma params_known a shape m k : k ∈ dkeys (params a shape m) -> k ∈ system_field_names \/ k ∈ runtime_field_names.
Proof.
  assert (H : forall l k, forallb (fun k => bool_decide (k ∈ (system_field_names ++ runtime_field_names)%list)) l = true -> k ∈ l -> k ∈ system_field_names \/ k ∈ runtime_field_names).
  { intros l x Hl Hx. rewrite <-elem_of_app. rewrite forallb_forall in Hl. apply elem_of_list_In, Hl in Hx. by apply bool_decide_eq_true_1 in Hx. }
  apply H. rewrite params_eq. destruct (is_none m); reflexivity.
Qed.
Lemma params_entered a shape m kv : kv ∈ entered a shape m -> choose (params a shape m) (system_defaults ++ runtime_defaults)%list (fst kv) = Some (snd kv).
Proof.
  intros H. rewrite params_eq. destruct (is_none m) eqn:E.
  - assert (m = V JNull) as -> by (destruct m as [[]|]; done). revert kv H. apply Forall_forall. repeat (constructor; [reflexivity|]). constructor.
  - revert kv H. apply Forall_forall. repeat (constructor; [reflexivity|]). constructor.
Qed.
Lemma params_default a shape m kv : kv ∈ not_entered -> choose (params a shape m) (system_defaults ++ runtime_defaults)%list (fst kv) = Some (snd kv).
Proof. intros H. rewrite params_eq. destruct (is_none m); revert kv H; apply Forall_forall; repeat (constructor; [reflexivity|]); constructor. Qed.
Lemma choose_both given k : (k ∈ system_field_names -> choose given system_defaults k = choose given (system_defaults ++ runtime_defaults)%list k)
  /\ (k ∈ runtime_field_names -> choose given runtime_defaults k = choose given (system_defaults ++ runtime_defaults)%list k).
Proof.
  assert (H1 : Forall (fun k => dget system_defaults k = dget (system_defaults ++ runtime_defaults)%list k) system_field_names) by (repeat (constructor; [reflexivity|]); constructor).
  assert (H2 : Forall (fun k => dget runtime_defaults k = dget (system_defaults ++ runtime_defaults)%list k) runtime_field_names) by (repeat (constructor; [reflexivity|]); constructor).
  rewrite Forall_forall in H1, H2. unfold choose. split; intros Hk; destruct (dget given k); (done || by apply H1 || by apply H2).
Qed.
Lemma all_fields a shape m k : k ∈ system_field_names \/ k ∈ runtime_field_names -> exists v, (k, v) ∈ (entered a shape m ++ not_entered)%list.
Proof.
  rewrite <-elem_of_app. intros H. assert (Hk : k ∈ dkeys (entered a shape m ++ not_entered)%list).
  { revert k H. apply Forall_forall. apply (bool_decide_eq_true_1 (Forall _ _)). vm_compute. reflexivity. }
  unfold dkeys in Hk. apply elem_of_list_fmap in Hk as ([k' v] & -> & Hv). by exists v.
Qed.
Lemma kmc_fields a shape m c : configuration_new None None (params a shape m) = Ok c -> forall k v, (k, v) ∈ (entered a shape m ++ not_entered)%list -> get_field c k = Ok v.
Proof.
  intros H k v Hk. assert (Hc : choose (params a shape m) (system_defaults ++ runtime_defaults)%list k = Some v).
  { apply elem_of_app in Hk as [Hk|Hk]; [exact (params_entered a shape m (k, v) Hk)|exact (params_default a shape m (k, v) Hk)]. }
  assert (Hf : k ∈ system_field_names \/ k ∈ runtime_field_names).
  { rewrite <-elem_of_app. assert (Hk' : k ∈ dkeys (entered a shape m ++ not_entered)%list) by (unfold dkeys; apply elem_of_list_fmap; by exists (k, v)).
    clear Hk Hc. revert k Hk'. apply Forall_forall. apply (bool_decide_eq_true_1 (Forall _ _)). vm_compute. reflexivity. }
  apply (access_lemma None None (defaults Sys) (defaults Run) _ _ k v ltac:(by left) ltac:(by left) H).
  destruct Hf as [Hf|Hf]; [left|right]; (split; [done|]); cbn [defaults].
  - by rewrite (proj1 (choose_both _ k) Hf).
  - by rewrite (proj2 (choose_both _ k) Hf).
Qed.
Lemma kmc_accepted a shape m : (exists c, configuration_new None None (params a shape m) = Ok c) <-> length shape = 3%nat /\ acceptable a.
Proof.
  rewrite (accepted_lemma None None (defaults Sys) (defaults Run)) by (by left).
  assert (He : forall k v, (k, v) ∈ (entered a shape m ++ not_entered)%list -> choose (params a shape m) (system_defaults ++ runtime_defaults)%list k = Some v).
  { intros k v Hk. apply elem_of_app in Hk as [Hk|Hk]; [exact (params_entered a shape m (k, v) Hk)|exact (params_default a shape m (k, v) Hk)]. }
  rewrite (valid_ext Sys _ (choose (params a shape m) (system_defaults ++ runtime_defaults)%list)) by (intros k Hk; by apply (choose_both _ k)).
  rewrite (valid_ext Run _ (choose (params a shape m) (system_defaults ++ runtime_defaults)%list)) by (intros k Hk; by apply (choose_both _ k)).
  unfold valid_section, valid_system, valid_runtime.
  rewrite (He "dimension" (V (JInt (g_dimension a)))), (He "supercell_shape" (V (JList (map JInt shape)))), (He "temperature" (V (JInt (g_T a)))),
    (He "attempt_frequency" (V (JFloat (g_attempt_frequency a)))), (He "equilibration_passes" (V (JInt (g_equilibriation_pass a)))), (He "kmc_passes" (V (JInt (g_kmc_pass a)))),
    (He "property_sampling_interval" (V JNull)), (He "property_sampling_time_interval" (V JNull)), (He "builtin_property_enabled" (V (JObj []))), (He "property_callbacks" (V (JList [])))
    by (unfold entered, not_entered; cbn [app]; repeat first [apply elem_of_list_here|apply elem_of_list_further]).
  assert (Hn : forall P z, number_with P (V (JInt z)) <-> P (inject_Z z)) by (intros P z; unfold number_with; cbn; split; [by intros (q & [= <-] & ?)|intros ?; by eexists]).
  assert (Hq : forall P q, number_with P (V (JFloat q)) <-> P q) by (intros P q; unfold number_with; cbn; split; [by intros (q' & [= <-] & ?)|intros ?; by eexists]).
  assert (Hs : forall (Q : value -> Prop) v, (exists v', Some v = Some v' /\ Q v') <-> Q v) by (intros Q v; split; [by intros (v' & [= <-] & ?)|intros ?; by eexists]).
  rewrite !Hs. unfold above_zero, not_negative. rewrite !Hn, Hq. cbn [three_entries]. rewrite map_length. unfold acceptable.
  change 0%Q with (inject_Z 0). rewrite <-!Zlt_Qlt, <-Zle_Qle.
  assert (Hd : (inject_Z (g_dimension a) == 1 \/ inject_Z (g_dimension a) == 2 \/ inject_Z (g_dimension a) == 3)%Q <-> (1 <= g_dimension a <= 3)%Z).
  { change 1%Q with (inject_Z 1). change 2%Q with (inject_Z 2). change 3%Q with (inject_Z 3). unfold Qeq. cbn. lia. }
  rewrite Hd. split.
  - intros (_ & _ & [H1 H2] & H3 & H4 & H5 & H6 & _). done.
  - intros (H1 & H2 & H3 & H4 & H5 & H6). split; [right; right; rewrite params_eq; done|]. split; [intros k Hk; by apply (params_known a shape m)|].
    split; [done|]. split; [done|]. split; [done|]. split; [done|]. split; [done|]. split; [|split].
    + exists (V JNull), (V JNull). split; [done|]. split; [done|]. split; by left.
    + exists []. split; [done|]. intros k j Hk. by apply not_elem_of_nil in Hk.
    + exists []. split; [done|]. intros j Hj. by apply not_elem_of_nil in Hj.
Qed.
Lemma shape_text_ok (parse_int : string -> result Z) text shape : shape_of parse_int text = Ok shape <-> shape_text parse_int text shape.
Proof.
  unfold shape_of, shape_text. rewrite rmapM_ok. split.
  - intros H. destruct (split_all_spec "," text) as (H1 & H2 & H3). exists (split_all "," text). by rewrite H3.
  - intros (parts & H1 & H2 & -> & H3). by rewrite split_all_joined.
Qed.

Lemma starts_spec c s : starts c s = true <-> exists rest, s = String c rest.
Proof. destruct s as [|x s]; cbn; [split; [done|by intros [? ?]]|]. rewrite Ascii.eqb_eq. split; [intros ->; by eexists|by intros [r [= -> ->]]]. Qed.
Lemma slash_spec s : ends_with_slash s = true <-> exists d, s = d ++ "/".
Proof.
  induction s as [|x s IH]; [split; [done|intros [[|? ?] ?]; done]|]. destruct s as [|y s].
  - cbn. rewrite Ascii.eqb_eq. split; [intros ->; by exists ""|]. intros [d E]. destruct d as [|z d]; [by injection E|]. injection E as -> E. by destruct d.
  - cbn [ends_with_slash]. rewrite IH. split.
    + intros [d E]. exists (String x d). by rewrite E.
    + intros [d E]. destruct d as [|z d]; [done|]. injection E as -> E. by exists d.
Qed.
Lemma join_spec a b : file_in a b (os_path_join a b).
Proof.
  unfold file_in, os_path_join. destruct (starts "/" b) eqn:E; [left; split; [by apply starts_spec|done]|]. right. split; [rewrite <-starts_spec; by rewrite E|].
  destruct (String.eqb_spec a "") as [->|Hne]; [by left|]. cbn [orb]. right. destruct (ends_with_slash a) eqn:Es; [left; split; [by apply slash_spec|done]|].
  right. split; [done|]. split; [rewrite <-slash_spec; by rewrite Es|done].
Qed.
Lemma find_spec o : find_nearest_of o = true <-> exists s, o = Some s /\ lower_text s ∈ ["1"; "true"; "yes"; "y"].
Proof.
  destruct o as [s|]; cbn [find_nearest_of]; [|split; [done|by intros (? & ? & _)]]. rewrite existsb_exists. split.
  - intros (x & Hx & E). apply String.eqb_eq in E. subst x. exists s. split; [done|]. by apply elem_of_list_In.
  - intros (s' & [= <-] & H). exists (lower_text s). split; [by apply elem_of_list_In|apply String.eqb_refl].
Qed.

Section Gui.
  Variable parse_int : string -> result Z.
  Variable parse_float : string -> result Q.
  Variable literal_eval : string -> result value.
  Variable chdir : string -> result unit.
  Variable generate : generation -> result unit.
  Variable simulate : configuration -> result unit.
  Notation main := (gui_main parse_int parse_float literal_eval chdir generate simulate).
  Notation shape_text := (shape_text parse_int).

  Lemma kmc_cases a : (exists e, fst (main true (KmcCommand a)) = [] /\ snd (main true (KmcCommand a)) = Err e /\ ~ exists shape m, shape_text (g_supercell_shape a) shape /\ literal_eval (g_site_mapping a) = Ok m)
    \/ exists shape m, shape_text (g_supercell_shape a) shape /\ literal_eval (g_site_mapping a) = Ok m /\ main true (KmcCommand a)
      = then_do (chdir (g_work_dir a)) (Chdir (g_work_dir a)) (match configuration_new None None (params a shape m) with
           | Err e => ([], Err e) | Ok c => then_do (simulate c) (Simulate c) ([], Ok tt) end).
  Proof.
    cbn [gui_main negb]. unfold gui_simulation. destruct (shape_of parse_int (g_supercell_shape a)) as [shape|e] eqn:Es; cbn [rbind].
    2:{ left. exists e. split; [done|]. split; [done|]. intros (shape & m & H & _). apply shape_text_ok in H. congruence. }
    destruct (literal_eval (g_site_mapping a)) as [m|e]; cbn [rbind].
    2:{ left. exists e. split; [done|]. split; [done|]. by intros (? & ? & _ & ?). }
    right. exists shape, m. split; [by apply shape_text_ok|]. done.
  Qed.
  Lemma simulated a acts r c : main true (KmcCommand a) = (acts, r) -> Simulate c ∈ acts ->
    exists shape m, shape_text (g_supercell_shape a) shape /\ literal_eval (g_site_mapping a) = Ok m /\ chdir (g_work_dir a) = Ok tt
      /\ acts = [Chdir (g_work_dir a); Simulate c] /\ r = simulate c /\ forall k v, (k, v) ∈ (entered a shape m ++ not_entered)%list -> get_field c k = Ok v.
  Proof.
    intros H Hc. destruct (kmc_cases a) as [(e & E1 & _)|(shape & m & Hs & Hm & E)].
    { rewrite H in E1. cbn in E1. subst. by apply not_elem_of_nil in Hc. }
    exists shape, m. split; [done|]. split; [done|]. rewrite E in H. clear E. unfold then_do in H.
    remember (configuration_new None None (params a shape m)) as cfg eqn:En. symmetry in En. destruct (chdir (g_work_dir a)) as [[]|e].
    2:{ injection H as <- <-. rewrite elem_of_list_singleton in Hc. done. }
    split; [done|]. destruct cfg as [c'|e].
    2:{ cbn in H. injection H as <- <-. rewrite elem_of_list_singleton in Hc. done. }
    assert (acts = [Chdir (g_work_dir a); Simulate c'] /\ r = simulate c') as [-> ->].
    { destruct (simulate c') as [[]|e]; cbn in H; by injection H as <- <-. }
    rewrite !elem_of_cons, elem_of_nil in Hc. destruct Hc as [?|[[= ->]|[]]]; [done|]. split; [done|]. split; [done|]. by apply kmc_fields.
  Qed.
  Lemma simulates_iff a : (exists c, Simulate c ∈ fst (main true (KmcCommand a))) <->
    chdir (g_work_dir a) = Ok tt /\ acceptable a /\ exists shape m, shape_text (g_supercell_shape a) shape /\ literal_eval (g_site_mapping a) = Ok m /\ length shape = 3%nat.
  Proof.
    split.
    - intros [c Hc]. destruct (main true (KmcCommand a)) as [acts r] eqn:E. destruct (kmc_cases a) as [(e & E1 & _)|(shape & m & Hs & Hm & E')].
      { rewrite E in E1. cbn in *. subst. by apply not_elem_of_nil in Hc. }
      destruct (simulated a acts r c E Hc) as (_ & _ & _ & _ & Hd & _). rewrite E' in E. rewrite Hd in E. cbn [then_do] in E.
      destruct (configuration_new None None (params a shape m)) as [c'|e] eqn:En.
      2:{ cbn in E. injection E as <- <-. cbn in Hc. rewrite elem_of_list_singleton in Hc. done. }
      destruct (proj1 (kmc_accepted a shape m)) as [H1 H2]; [by eexists|]. split; [done|]. split; [done|]. by exists shape, m.
    - intros (Hd & Ha & shape0 & m0 & Hs0 & Hm0 & Hl). destruct (kmc_cases a) as [(e & _ & _ & Hn)|(shape & m & Hs & Hm & E)].
      { exfalso. apply Hn. by exists shape0, m0. }
      assert (shape = shape0) as -> by (apply shape_text_ok in Hs, Hs0; congruence). destruct (proj2 (kmc_accepted a shape0 m) (conj Hl Ha)) as [c Hc].
      exists c. rewrite E, Hd, Hc. cbn [then_do]. destruct (simulate c); cbn [fst snd]; apply elem_of_list_further, elem_of_list_here.
  Qed.
  Lemma params_same a b shape m : (forall shape mapping, entered a shape mapping = entered b shape mapping) -> params a shape m = params b shape m.
  Proof. intros H. specialize (H shape m). rewrite !params_eq. unfold entered in H. injection H. intros. cbv zeta. congruence. Qed.
  Lemma irrelevant a b : same_relevant a b -> main true (KmcCommand a) = main true (KmcCommand b).
  Proof.
    intros (H1 & H2 & H3 & H4). cbn [gui_main negb]. unfold gui_simulation. rewrite H1, H2, H3. destruct (rbind _ _) as [[shape m]|e]; [|done].
    pose proof (params_same a b shape m H4) as Hp. unfold params in Hp. by rewrite Hp.
  Qed.
  Lemma unavailable h c : h = false \/ (forall a, c <> EventsCommand a) /\ (forall a, c <> KmcCommand a) -> exists e, main h c = ([], Err e).
  Proof.
    intros H. unfold gui_main. destruct h; cbn [negb]; [|by eexists]. destruct H as [?|[H1 H2]]; [done|].
    destruct c as [|a|a|a|a]; try (by eexists); try (by edestruct H1); try (by edestruct H2). unfold gui_expansion. destruct (literal_eval _); by eexists.
  Qed.

  Lemma split_joined3 a b t : without "," a -> without "," b -> without "," t -> split_all "," (a ++ "," ++ b ++ "," ++ t) = [a; b; t].
  Proof.
    intros Ha Hb Ht. pose proof (split_all_joined "," [a; b; t] ltac:(done)) as H. apply H. by repeat constructor.
  Qed.
  Lemma entry_of d s e : cutoff_text parse_float s e -> cutoff_entry parse_float d s = Ok (dset d (fst e) (snd e)).
  Proof.
    intros (a & b & t & He & -> & Ht & Hw). apply Forall_cons in Hw as [[Ha _] Hw]. apply Forall_cons in Hw as [[Hb _] Hw]. apply Forall_cons in Hw as [[Hc _] _].
    unfold cutoff_entry. rewrite split_joined3 by done. cbn. rewrite Ht. cbn. by rewrite He.
  Qed.
  Lemma entries_of parts entries : Forall2 (cutoff_text parse_float) parts entries -> forall d,
    rfold (cutoff_entry parse_float) d parts = Ok (fold_left (fun d e => dset d (fst e) (snd e)) entries d).
  Proof. intros H. induction H as [|s e parts entries He _ IH]; intros d; [done|]. cbn [rfold fold_left]. rewrite (entry_of d s e He). cbn [rbind]. apply IH. Qed.
  Lemma get_app (d1 d2 : dict (string * string) Q) k : dget (d1 ++ d2)%list k = match dget d1 k with Some q => Some q | None => dget d2 k end.
  Proof. induction d1 as [|[k' q] d1 IH]; [done|]. cbn. destruct (decide (k = k')); [done|]. exact IH. Qed.
  Lemma last_entry (entries : list ((string * string) * Q)) : forall d k,
    dget (fold_left (fun d e => dset d (fst e) (snd e)) entries d) k = match dget (rev entries) k with Some q => Some q | None => dget d k end.
  Proof.
    induction entries as [|e entries IH]; intros d k; [done|]. cbn [fold_left rev]. rewrite IH, get_app. destruct (dget (rev entries) k) as [q|] eqn:E; [done|].
    destruct e as [k' q]. cbn. rewrite dget_dset. by destruct (decide (k = k')).
  Qed.
  Lemma part_without s e : cutoff_text parse_float s e -> without ";" s.
  Proof.
    intros (a & b & t & _ & -> & _ & Hw). apply Forall_cons in Hw as [[_ Ha] Hw]. apply Forall_cons in Hw as [[_ Hb] Hw]. apply Forall_cons in Hw as [[_ Hc] _].
    assert (without ";" ",") by (unfold without; apply (bool_decide_eq_true_1 (_ ∉ _)); vm_compute; reflexivity).
    apply without_app; split; [done|]. apply without_app; split; [done|]. apply without_app; split; [done|]. by apply without_app.
  Qed.
  Lemma cutoffs_read text entries : cutoffs_text parse_float text entries -> exists d, cutoff_dict parse_float text = Ok d /\ forall k, dget d k = dget (rev entries) k.
  Proof.
    intros (parts & Hne & -> & H). unfold cutoff_dict. rewrite split_all_joined; [|done|].
    2:{ clear Hne. induction H; constructor; [by eapply part_without|done]. }
    rewrite (entries_of _ _ H). eexists. split; [reflexivity|]. intros k. rewrite last_entry. by destruct (dget (rev entries) k).
  Qed.
  Lemma generated a acts r g : main true (EventsCommand a) = (acts, r) -> Generate g ∈ acts ->
    acts = [Generate g] /\ r = generate g /\ gen_structure_file g = e_prim_cif_name a /\ gen_convert g = String.eqb (e_convert a) "yes"
    /\ cutoff_dict parse_float (e_cutoffs a) = Ok (gen_cutoffs g) /\ gen_identifiers g = (e_ion a, e_ion_2 a) /\ literal_eval (e_site_mapping a) = Ok (gen_site_mapping g)
    /\ gen_rtol g = e_rtol a /\ gen_atol g = e_atol a /\ gen_find_nearest g = find_nearest_of (e_find_nearest a) /\ gen_export g = e_export a
    /\ shape_text (e_supercell_shape a) (gen_supercell_shape g) /\ gen_event_file g = os_path_join (e_output_dir a) (e_event_fname a).
  Proof.
    intros H Hg. cbn [gui_main negb] in H. unfold gui_events in H.
    destruct (literal_eval (e_site_mapping a)) as [m|e]; cbn [rbind] in H; [|injection H as <- <-; by apply not_elem_of_nil in Hg].
    destruct (cutoff_dict parse_float (e_cutoffs a)) as [d|e]; cbn [rbind] in H; [|injection H as <- <-; by apply not_elem_of_nil in Hg].
    destruct (shape_of parse_int (e_supercell_shape a)) as [s|e] eqn:Es; cbn [rbind] in H; [|injection H as <- <-; by apply not_elem_of_nil in Hg].
    match type of H with then_do (generate ?g0) _ _ = _ => set (g' := g0) in H end.
    assert (acts = [Generate g'] /\ r = generate g') as [-> ->] by (destruct (generate g') as [[]|e]; cbn in H; by injection H as <- <-).
    apply elem_of_list_singleton in Hg as [= ->]. apply shape_text_ok in Es. subst g'. cbn. done.
  Qed.
  Lemma generated_spec a acts r g : main true (EventsCommand a) = (acts, r) -> Generate g ∈ acts ->
    acts = [Generate g] /\ r = generate g /\ gen_structure_file g = e_prim_cif_name a /\ (gen_convert g = true <-> e_convert a = "yes")
    /\ gen_identifiers g = (e_ion a, e_ion_2 a) /\ literal_eval (e_site_mapping a) = Ok (gen_site_mapping g) /\ gen_rtol g = e_rtol a /\ gen_atol g = e_atol a /\ gen_export g = e_export a
    /\ (gen_find_nearest g = true <-> exists s, e_find_nearest a = Some s /\ lower_text s ∈ ["1"; "true"; "yes"; "y"])
    /\ shape_text (e_supercell_shape a) (gen_supercell_shape g) /\ file_in (e_output_dir a) (e_event_fname a) (gen_event_file g)
    /\ forall entries, cutoffs_text parse_float (e_cutoffs a) entries -> forall k, dget (gen_cutoffs g) k = dget (rev entries) k.
  Proof.
    intros H Hg. destruct (generated a acts r g H Hg) as (H1 & H2 & H3 & H4 & H5 & H6 & H7 & H8 & H9 & H10 & H11 & H12 & H13).
    rewrite H4, H10, H13. split; [done|]. split; [done|]. split; [done|]. split; [apply String.eqb_eq|]. split; [done|]. split; [done|]. split; [done|]. split; [done|]. split; [done|].
    split; [apply find_spec|]. split; [done|]. split; [apply join_spec|]. intros entries He k. destruct (cutoffs_read _ _ He) as (d & Hd & Hk). rewrite H5 in Hd. injection Hd as ->. apply Hk.
  Qed.
  Lemma generates a m entries shape : literal_eval (e_site_mapping a) = Ok m -> cutoffs_text parse_float (e_cutoffs a) entries -> shape_text (e_supercell_shape a) shape ->
    exists g, Generate g ∈ fst (main true (EventsCommand a)).
  Proof.
    intros Hm Hc Hs. destruct (cutoffs_read _ _ Hc) as (d & Hd & _). apply shape_text_ok in Hs. cbn [gui_main negb]. unfold gui_events. rewrite Hm. cbn [rbind]. rewrite Hd. cbn [rbind]. rewrite Hs. cbn [rbind].
    eexists. match goal with |- context[then_do (generate ?g)] => destruct (generate g) end; cbn [then_do fst]; apply elem_of_list_here.
  Qed.
End Gui.
