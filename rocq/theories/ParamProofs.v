(** Proofs about parameter records and their files. *)
From Coq Require Import QArith.
From Verif Require Import Py PyLemmas Json StateModel MatcherModel MatcherProofs LceModel ParamModel ParamSpec.
Local Open Scope string_scope.

Lemma is_h5_spec p : is_h5 p = true <-> h5_path p.
Proof. unfold is_h5, h5_path, ext_h5. by rewrite bool_decide_eq_true. Qed.
Lemma not_h5 p : ~ h5_path p -> is_h5 p = false.
Proof. intros H. destruct (is_h5 p) eqn:E; [|done]. by apply is_h5_spec in E. Qed.

(** ** Dictionaries *)
Lemma dget_filter {V} (P : string -> bool) (d : dict string V) k :
  dget (List.filter (fun kv => P (fst kv)) d) k = if P k then dget d k else None.
Proof.
  induction d as [|[k' v] d IH]; cbn [List.filter dget fst]; [by destruct (P k)|].
  destruct (P k') eqn:E; cbn [dget].
  - destruct (decide (k = k')) as [->|N]; [by rewrite E|]. done.
  - rewrite IH. destruct (decide (k = k')) as [->|N]; [by rewrite E|]. done.
Qed.
Lemma params_round r : params_from_dict (params_as_dict r) = forget r.
Proof.
  destruct r as [v1 v2 v3 v4 v5 v6 v7 v8 v9 v10 v11 v12 v13 nm]. unfold params_as_dict, forget. cbn [p_keci p_empty_cluster p_cluster_site_indices p_weight p_alpha
    p_time_stamp p_time p_rmse p_loocv p_normalize p_orbit_fingerprints p_local_environment_hash].
  destruct (is_none v11) eqn:E1, (is_none v12) eqn:E2.
  - destruct v11 as [[]|]; try done. destruct v12 as [[]|]; try done.
  - destruct v11 as [[]|]; try done.
  - destruct v12 as [[]|]; try done.
  - done.
Qed.

(** ** JSON *)
Lemma dump_plain d : Forall (fun kv => exists j, snd kv = PJson j) d -> exists l, dump d = Ok (JObj l) /\ of_object l = d.
Proof.
  intros H. unfold dump. assert (G : exists l, rmapM (fun kv => let* j := plain_json (snd kv) in Ok (fst kv, j)) d = Ok l /\ of_object l = d).
  { induction H as [|[k v] d [j Hj] _ (l & IH & E)]; [by exists []|]. cbn [snd] in Hj. subst v. exists ((k, j) :: l).
    cbn. rewrite IH. cbn. split; [done|]. by rewrite <-E. }
  destruct G as (l & -> & E). by exists l.
Qed.
Lemma json_record_dict r : json_record r -> Forall (fun kv => exists j, snd kv = PJson j) (params_as_dict r).
Proof.
  unfold json_record, fields, params_as_dict. rewrite !Forall_cons. intros (H1 & H2 & H3 & H4 & H5 & H6 & H7 & H8 & H9 & H10 & H11 & H12 & _).
  apply Forall_app. split.
  { repeat (constructor; [cbn [snd]; eauto|]). constructor. }
  apply Forall_app. split; [destruct (is_none (p_orbit_fingerprints r))|destruct (is_none (p_local_environment_hash r))]; repeat constructor; done.
Qed.
Lemma dump_record r : json_record r -> exists l, dump (params_as_dict r) = Ok (JObj l) /\ params_from_json (JObj l) = Ok (forget r).
Proof.
  intros H. destruct (dump_plain _ (json_record_dict r H)) as (l & E1 & E2). exists l. split; [done|].
  unfold params_from_json. rewrite E2. by rewrite params_round.
Qed.
Theorem json_reload p r fs : ~ h5_path p -> json_record r ->
  exists fs', params_to p r fs = (fs', Ok tt) /\ params_from_file p fs' = Ok (forget r) /\ forall q, q <> p -> dget fs' q = dget fs q.
Proof.
  intros Hp Hr. destruct (dump_record r Hr) as (l & E1 & E2). unfold params_to, params_from_file. rewrite (not_h5 p Hp), E1. cbn [dumpfn].
  eexists. split; [done|]. split; [unfold loadfn; rewrite dget_dset_eq; cbn [rbind]; exact E2|]. intros q Hq. by apply dget_dset_ne.
Qed.
Lemma forget_json r : json_record r -> json_record (forget r).
Proof. done. Qed.
Lemma forget_forget r : forget (forget r) = forget r.
Proof. done. Qed.

Lemma history_dump h : Forall json_record h -> exists j, history_json h = Ok j /\ history_from_json j = Ok (map forget h).
Proof.
  intros H. unfold history_json.
  assert (G : exists l, rmapM (fun r => dump (params_as_dict r)) h = Ok l /\ rmapM params_from_json l = Ok (map forget h)).
  { induction H as [|r h Hr _ (l & IH1 & IH2)]; [by exists []|]. destruct (dump_record r Hr) as (o & E1 & E2).
    exists (JObj o :: l). cbn [rmapM]. rewrite E1, E2, IH1, IH2. done. }
  destruct G as (l & -> & E). cbn [rbind]. eexists. split; [done|]. cbn. done.
Qed.
Theorem json_history_reload p h fs : ~ h5_path p -> Forall json_record h ->
  exists fs', history_to p h fs = (fs', Ok tt) /\ history_from_file p fs' = Ok (map forget h) /\ forall q, q <> p -> dget fs' q = dget fs q.
Proof.
  intros Hp Hr. destruct (history_dump h Hr) as (j & E1 & E2). unfold history_to, history_from_file. rewrite (not_h5 p Hp), E1. cbn [dumpfn].
  eexists. split; [done|]. split; [unfold loadfn; rewrite dget_dset_eq; cbn [rbind]; exact E2|]. intros q Hq. by apply dget_dset_ne.
Qed.

(** ** HDF5 *)
Lemma leaves_flat (f : json -> json) {A} (g : A -> json) (l : list A) : (forall a, leaves (g a) = [g a]) -> leaves (JList (map g l)) = map g l.
Proof.
  intros H. cbn [leaves]. induction l as [|a l IH]; [done|]. cbn [map flat_map]. by rewrite H, IH.
Qed.
Lemma flat_shape {A} (g : A -> json) (l : list A) : (forall a, array_shape (g a) = Some []) -> array_shape (JList (map g l)) = Some [length l].
Proof.
  intros H. cbn [array_shape]. rewrite map_map. destruct l as [|a l]; [done|]. cbn [map]. rewrite H.
  assert (forallb (fun o => bool_decide (o = Some [])) (map (fun x => array_shape (g x)) l) = true) as ->.
  { apply forallb_forall. intros o Ho. apply in_map_iff in Ho as (x & <- & _). rewrite H. by apply bool_decide_eq_true. }
  cbn [length]. by rewrite map_length.
Qed.
Lemma forallb_map_true {A} (g : A -> json) (P : json -> bool) l : (forall a, P (g a) = true) -> forallb P (map g l) = true.
Proof. intros H. apply forallb_forall. intros x Hx. apply in_map_iff in Hx as (a & <- & _). apply H. Qed.
Lemma store_floats l : store (PJson (JList (map JFloat l))) = Ok (PJson (JList (map JFloat l))).
Proof.
  unfold store, store_array. rewrite (flat_shape JFloat) by done. rewrite (leaves_flat id JFloat) by done.
  assert (F : forallb is_number (map JFloat l) = true) by (by apply forallb_map_true).
  assert (forall m, as_floats (JList (map JFloat m)) = JList (map JFloat m)) as Fl.
  { intros m. cbn [as_floats]. f_equal. rewrite map_map. apply map_ext. done. }
  rewrite F, Fl. destruct l as [|q l]; done.
Qed.
Lemma store_ints z l : store (PJson (JList (map JInt (z :: l)))) = Ok (PJson (JList (map JInt (z :: l)))).
Proof.
  unfold store, store_array. rewrite (flat_shape JInt) by done. rewrite (leaves_flat id JInt) by done.
  assert (F : forallb is_integer (map JInt (z :: l)) = true) by (by apply forallb_map_true).
  assert (as_ints (JList (map JInt (z :: l))) = JList (map JInt (z :: l))) as ->.
  { cbn [as_ints]. f_equal. rewrite map_map. apply map_ext. done. }
  rewrite F. done.
Qed.
Lemma store_texts s l : store (PJson (text_array (s :: l))) = Ok (PBytes (text_array (s :: l))).
Proof.
  unfold text_array, store, store_array. rewrite (flat_shape JStr) by done. rewrite (leaves_flat id JStr) by done.
  assert (F : forallb is_text (map JStr (s :: l)) = true) by (by apply forallb_map_true). rewrite F. done.
Qed.
Lemma store_table z row rows : Forall (fun r => length r = length (z :: row)) rows ->
  store (PJson (JList (map (fun r => JList (map JInt r)) ((z :: row) :: rows)))) = Ok (PJson (JList (map (fun r => JList (map JInt r)) ((z :: row) :: rows)))).
Proof.
  intros H. set (g := fun r : list Z => JList (map JInt r)).
  assert (Sh : array_shape (JList (map g ((z :: row) :: rows))) = Some [length ((z :: row) :: rows); length (z :: row)]).
  { assert (S1 : forall r, array_shape (g r) = Some [length r]) by (intros r; by apply (flat_shape JInt)).
    cbn [array_shape]. rewrite map_map. cbn [map]. rewrite S1.
    assert (forallb (fun o => bool_decide (o = Some [length (z :: row)])) (map (fun x => array_shape (g x)) rows) = true) as ->.
    { apply forallb_forall. intros o Ho. apply in_map_iff in Ho as (x & <- & Hx). rewrite S1. apply bool_decide_eq_true.
      rewrite Forall_forall in H. rewrite H by (by apply elem_of_list_In). done. }
    cbn [length]. by rewrite map_length. }
  assert (Lv : forall rs, forallb is_integer (leaves (JList (map g rs))) = true).
  { intros rs. cbn [leaves]. induction rs as [|r rs IH]; [done|]. cbn [map flat_map]. rewrite forallb_app, IH.
    unfold g at 1. rewrite (leaves_flat id JInt) by done. by rewrite forallb_map_true. }
  assert (Ai : as_ints (JList (map g ((z :: row) :: rows))) = JList (map g ((z :: row) :: rows))).
  { cbn [as_ints]. f_equal. rewrite map_map. apply map_ext. intros r. unfold g. cbn [as_ints]. f_equal. rewrite map_map. apply map_ext. done. }
  assert (Tx : exists a b, leaves (JList (map g ((z :: row) :: rows))) = JInt a :: b).
  { eexists _, _. unfold g. cbn. done. }
  destruct Tx as (a & b & Tx). specialize (Lv ((z :: row) :: rows)).
  change (store (PJson (JList (map g ((z :: row) :: rows))))) with (store_array (JList (map g ((z :: row) :: rows)))).
  unfold store_array. rewrite Sh, Ai. rewrite Tx in *. cbn [length Nat.eqb negb andb forallb is_text is_bool is_integer] in Lv |- *.
  by rewrite Lv.
Qed.
Lemma kept_store v : kept v -> store v = Ok v.
Proof. intros [| | | |l|z l|z row rows H]; try done; [apply store_floats|apply store_ints|by apply store_table]. Qed.
Lemma kept_some v : kept v -> is_none v = false.
Proof. by intros []. Qed.

(** What a group holds: [img] is what each value becomes. *)
Definition group_of (img : pyval -> pyval) (d : dict string pyval) : dict string pyval :=
  map (fun kv => (fst kv, img (snd kv))) (List.filter (fun kv => negb (private (fst kv) || is_none (snd kv))) d).
Lemma write_group_ok img d g : (forall k v, (k, v) ∈ d -> private k = false -> is_none v = false -> store v = Ok (img v)) ->
  NoDup (dkeys d) -> (forall k, k ∈ dkeys d -> k ∉ dkeys g) ->
  write_group d g = ((g ++ group_of img d)%list, Ok tt).
Proof.
  revert g. induction d as [|[k v] d IH]; intros g H Hn Hd; [unfold group_of; cbn; by rewrite app_nil_r|].
  cbn [write_group]. unfold group_of. cbn [List.filter fst snd]. cbn [dkeys map fst] in Hn, Hd. apply NoDup_cons in Hn as [Hk Hn].
  destruct (private k || is_none v) eqn:E; cbn [negb].
  - apply IH; [intros k' v' Hin; apply H; by right|done|]. intros k' Hk'. apply Hd. by right.
  - apply orb_false_iff in E as [E1 E2]. rewrite (H k v) by (try done; left). 
    rewrite dkeys_dset_notin by (apply Hd; left). rewrite IH.
    + cbn [map fst snd]. unfold group_of. by rewrite <-app_assoc.
    + intros k' v' Hin. apply H. by right.
    + done.
    + intros k' Hk'. unfold dkeys. rewrite map_app. rewrite elem_of_app. intros [Hc|Hc]; [eapply Hd; [right; exact Hk'|exact Hc]|].
      cbn in Hc. apply elem_of_list_singleton in Hc. subst k'. done.
Qed.
Lemma dget_group img d k : private k = false -> NoDup (dkeys d) ->
  dget (group_of img d) k = match dget d k with Some v => if is_none v then None else Some (img v) | None => None end.
Proof.
  intros Hk. unfold group_of. induction d as [|[k' v] d IH]; intros Hn; [done|]. cbn [List.filter fst snd]. cbn [dkeys map fst] in Hn. apply NoDup_cons in Hn as [Hk' Hn].
  cbn [dget]. destruct (decide (k = k')) as [<-|N].
  - rewrite Hk. cbn [orb]. destruct (is_none v) eqn:E; cbn [negb].
    + rewrite IH by done. destruct (dget d k) as [w|] eqn:G; [|done]. exfalso. apply Hk'. apply dget_in_keys. eauto.
    + cbn [map fst snd dget]. by rewrite decide_True.
  - destruct (private k' || is_none v); cbn [negb]; [by apply IH|]. cbn [map fst snd dget]. rewrite decide_False by done. by apply IH.
Qed.
Lemma params_keys r : NoDup (dkeys (params_as_dict r)).
Proof.
  unfold params_as_dict. destruct (is_none (p_orbit_fingerprints r)), (is_none (p_local_environment_hash r));
    cbn [app dkeys map fst]; apply (bool_decide_eq_true_1 _); vm_compute; reflexivity.
Qed.
Lemma read_datasets d : read_group (datasets d) = Ok d.
Proof. unfold read_group, datasets. induction d as [|[k v] d IH]; [done|]. cbn. by rewrite IH. Qed.

(** A record whose values are stored as [img] says; those that are not None come back as that. *)
Definition image (img : pyval -> pyval) (r : params) : params :=
  Params (img (p_keci r)) (img (p_empty_cluster r)) (img (p_cluster_site_indices r)) (img (p_weight r)) (img (p_alpha r))
    (img (p_time_stamp r)) (img (p_time r)) (img (p_rmse r)) (img (p_loocv r)) (img (p_normalize r))
    (if is_none (p_orbit_fingerprints r) then none else img (p_orbit_fingerprints r))
    (if is_none (p_local_environment_hash r) then none else img (p_local_environment_hash r)) none "LCEModelParameters".
Definition storable (img : pyval -> pyval) (r : params) : Prop :=
  Forall (fun v => is_none v = false /\ store v = Ok (img v)) (take 10 (fields r))
  /\ Forall (fun v => is_none v = true \/ store v = Ok (img v)) (drop 10 (fields r)).
Lemma storable_dict img r : storable img r -> forall k v, (k, v) ∈ params_as_dict r -> private k = false -> is_none v = false -> store v = Ok (img v).
Proof.
  unfold storable, fields. cbn [take drop]. rewrite !Forall_cons. intros [(A1 & A2 & A3 & A4 & A5 & A6 & A7 & A8 & A9 & A10 & _) (B1 & B2 & _)] k v Hin Hp Hn.
  unfold params_as_dict in Hin. rewrite !elem_of_app in Hin. destruct Hin as [Hin|[Hin|Hin]].
  - rewrite !elem_of_cons in Hin. repeat (destruct Hin as [Hin|Hin]; [injection Hin as -> ->; first [done|tauto]|]). by apply elem_of_nil in Hin.
  - destruct (is_none (p_orbit_fingerprints r)) eqn:E; [by apply elem_of_nil in Hin|]. apply elem_of_list_singleton in Hin. injection Hin as -> ->. destruct B1; congruence.
  - destruct (is_none (p_local_environment_hash r)) eqn:E; [by apply elem_of_nil in Hin|]. apply elem_of_list_singleton in Hin. injection Hin as -> ->. destruct B2; congruence.
Qed.
Lemma group_record img r : storable img r ->
  write_group (params_as_dict r) [] = (group_of img (params_as_dict r), Ok tt) /\ params_from_dict (group_of img (params_as_dict r)) = image img r.
Proof.
  intros H. split; [apply (write_group_ok img _ [] (storable_dict img r H) (params_keys r)); intros k _ Hk; by apply elem_of_nil in Hk|].
  pose proof (fun k Hk => dget_group img (params_as_dict r) k Hk (params_keys r)) as G.
  unfold params_from_dict. rewrite !(dget_filter (fun k => negb (private k) && negb (String.eqb k "name"))).
  rewrite !G by done. cbn [private String.prefix negb andb String.eqb].
  destruct H as [H _]. unfold fields in H. cbn [take] in H. rewrite !Forall_cons in H. destruct H as ([A1 _] & [A2 _] & [A3 _] & [A4 _] & [A5 _] & [A6 _] & [A7 _] & [A8 _] & [A9 _] & [A10 _] & _).
  assert (D11 : dget (params_as_dict r) "orbit_fingerprints" = if is_none (p_orbit_fingerprints r) then None else Some (p_orbit_fingerprints r)).
  { unfold params_as_dict. destruct (is_none (p_orbit_fingerprints r)), (is_none (p_local_environment_hash r)); reflexivity. }
  assert (D12 : dget (params_as_dict r) "local_environment_hash" = if is_none (p_local_environment_hash r) then None else Some (p_local_environment_hash r)).
  { unfold params_as_dict. destruct (is_none (p_orbit_fingerprints r)), (is_none (p_local_environment_hash r)); reflexivity. }
  assert (D13 : dget (params_as_dict r) "local_site_order" = None).
  { unfold params_as_dict. destruct (is_none (p_orbit_fingerprints r)), (is_none (p_local_environment_hash r)); reflexivity. }
  rewrite D11, D12, D13.
  change (dget (params_as_dict r) "keci") with (Some (p_keci r)).
  change (dget (params_as_dict r) "empty_cluster") with (Some (p_empty_cluster r)).
  change (dget (params_as_dict r) "cluster_site_indices") with (Some (p_cluster_site_indices r)).
  change (dget (params_as_dict r) "weight") with (Some (p_weight r)).
  change (dget (params_as_dict r) "alpha") with (Some (p_alpha r)).
  change (dget (params_as_dict r) "time_stamp") with (Some (p_time_stamp r)).
  change (dget (params_as_dict r) "time") with (Some (p_time r)).
  change (dget (params_as_dict r) "rmse") with (Some (p_rmse r)).
  change (dget (params_as_dict r) "loocv") with (Some (p_loocv r)).
  change (dget (params_as_dict r) "normalize") with (Some (p_normalize r)).
  cbv iota beta. rewrite A1, A2, A3, A4, A5, A6, A7, A8, A9, A10. unfold image.
  destruct (is_none (p_orbit_fingerprints r)) eqn:E1, (is_none (p_local_environment_hash r)) eqn:E2; rewrite ?E1, ?E2; reflexivity.
Qed.
Theorem h5_reload img p r fs : h5_path p -> storable img r ->
  exists fs', params_to p r fs = (fs', Ok tt) /\ params_from_file p fs' = Ok (image img r) /\ forall q, q <> p -> dget fs' q = dget fs q.
Proof.
  intros Hp Hr. apply is_h5_spec in Hp. destruct (group_record img r Hr) as [E1 E2]. unfold params_to, params_from_file. rewrite Hp, E1.
  eexists. split; [done|]. split; [|intros q Hq; by apply dget_dset_ne].
  unfold open_h5. rewrite dget_dset_eq. cbn [rbind]. rewrite read_datasets. cbn [rbind]. by rewrite E2.
Qed.
Lemma kept_storable r : kept_record r -> storable (fun v => v) r /\ image (fun v => v) r = forget r.
Proof.
  intros [H1 H2 H3]. split.
  - split; [eapply Forall_impl; [exact H1|]; intros v Hv; split; [by apply kept_some|by apply kept_store]|].
    unfold fields. cbn [drop]. rewrite H2. destruct H3 as [->|[s ->]]; repeat constructor; by (left + right).
  - unfold image, forget. rewrite H2. destruct H3 as [->|[s ->]]; done.
Qed.

(** With fingerprints. *)
Definition bytes_of (v : pyval) : pyval := match v with PJson (JList (JStr s :: l)) => PBytes (JList (JStr s :: l)) | v => v end.
Lemma bytes_of_kept v : kept v -> bytes_of v = v.
Proof. intros [| | | |l|z l|z row rows H]; try done. by destruct l. Qed.
Lemma fingerprints_storable r s l : kept_record r -> storable bytes_of (with_fingerprints r (PJson (text_array (s :: l))))
  /\ image bytes_of (with_fingerprints r (PJson (text_array (s :: l)))) = forget (with_fingerprints r (PBytes (text_array (s :: l)))).
Proof.
  intros [H1 H2 H3]. unfold fields in H1. cbn [take] in H1. split.
  - split.
    + unfold with_fingerprints, fields. cbn [take p_keci p_empty_cluster p_cluster_site_indices p_weight p_alpha p_time_stamp p_time p_rmse p_loocv p_normalize].
      eapply Forall_impl; [exact H1|]. intros v Hv. split; [by apply kept_some|]. rewrite bytes_of_kept by done. by apply kept_store.
    + unfold with_fingerprints, fields. cbn [drop p_orbit_fingerprints p_local_environment_hash].
      constructor; [right; apply store_texts|]. constructor; [|constructor]. destruct H3 as [->|[t ->]]; [by left|by right].
  - unfold image, forget, with_fingerprints. cbn [p_keci p_empty_cluster p_cluster_site_indices p_weight p_alpha p_time_stamp p_time p_rmse p_loocv p_normalize p_orbit_fingerprints p_local_environment_hash].
    rewrite !Forall_cons in H1. destruct H1 as (A1 & A2 & A3 & A4 & A5 & A6 & A7 & A8 & A9 & A10 & _).
    rewrite !bytes_of_kept by done. destruct H3 as [->|[t ->]]; done.
Qed.
Lemma texts_rmapM l : rmapM py_text (map JStr l) = Ok l.
Proof. induction l as [|s l IH]; [done|]. cbn. by rewrite IH. Qed.
Theorem bytes_refused r s l args m : p_orbit_fingerprints r = PBytes (text_array (s :: l)) ->
  record_for_expansion r = Ok args -> Forall (fun f => String.prefix "b'" f = false) (l_features m) ->
  set_parameters m args = (m, Err ValueError).
Proof.
  intros Hf H Hm. unfold record_for_expansion in H. destruct (p_keci r) as [[]|], (p_empty_cluster r) as [e|]; try done.
  apply rbind_ok in H as (keci & _ & H). apply rbind_ok in H as (empty & _ & H). rewrite Hf in H. unfold text_array in H. cbn [fingerprint_texts] in H.
  rewrite texts_rmapM in H. cbn [rbind] in H.
  assert (G : exists hash, args = ParamObject keci empty (Some (map bytes_str (s :: l))) hash).
  { destruct (p_local_environment_hash r) as [[]|]; try done; injection H as <-; eauto. }
  destruct G as (hash & ->). unfold set_parameters. cbn [read_parameters].
  assert (V : validate_parameter_orbits m keci (Some (map bytes_str (s :: l))) hash = Err ValueError); [|by rewrite V].
  unfold validate_parameter_orbits. destruct (_ && _); [done|]. destruct (_ && _); [done|]. destruct (negb _); [done|].
  rewrite bool_decide_eq_false_2; [done|]. intros E. rewrite <-E in Hm. cbn [map] in Hm. apply Forall_inv in Hm. clear -Hm. destruct s; vm_compute in Hm; discriminate Hm.
Qed.

(** ** HDF5 histories *)
Lemma set_name_inj i j : set_name i = set_name j -> i = j.
Proof.
  unfold set_name. intros H. assert (P : forall a b c, (a ++ b = a ++ c)%string -> b = c).
  { induction a as [|x a IH]; intros b c E; [done|]. injection E as E. by apply IH. }
  apply P, py_str_int_inj in H. lia.
Qed.
Definition set_entry (img : pyval -> pyval) (ir : nat * params) : string * node :=
  (set_name (fst ir), Group (group_of img (params_as_dict (snd ir)))).
Lemma write_sets_ok img i h d : Forall (storable img) h -> (forall j, i <= j -> set_name j ∉ dkeys d) ->
  write_sets i h d = ((d ++ map (set_entry img) (zip (seq i (length h)) h))%list, Ok tt).
Proof.
  intros H. revert i d. induction H as [|r h Hr _ IH]; intros i d Hd; [cbn; by rewrite app_nil_r|].
  cbn [write_sets]. destruct (group_record img r Hr) as [-> _]. rewrite dkeys_dset_notin by (by apply Hd). rewrite IH.
  - cbn [length seq zip zip_with map]. by rewrite <-app_assoc.
  - intros j Hj. unfold dkeys. rewrite map_app, elem_of_app. intros [Hc|Hc]; [eapply Hd; [|exact Hc]; lia|].
    cbn in Hc. apply elem_of_list_singleton in Hc. apply set_name_inj in Hc. lia.
Qed.
Lemma dkeys_sets img i h : dkeys (map (set_entry img) (zip (seq i (length h)) h)) = map set_name (seq i (length h)).
Proof. revert i. induction h as [|r h IH]; intros i; [done|]. cbn [length seq zip zip_with map dkeys]. unfold dkeys in IH. by rewrite IH. Qed.
Lemma dget_sets img h k r : h !! k = Some r ->
  dget (map (set_entry img) (zip (seq 0 (length h)) h)) (set_name k) = Some (Group (group_of img (params_as_dict r))).
Proof.
  intros H. apply dget_in.
  - rewrite dkeys_sets. apply NoDup_fmap_2_strong; [|apply NoDup_ListNoDup, seq_NoDup]. intros x y _ _. apply set_name_inj.
  - apply elem_of_list_fmap. exists (k, r). split; [done|]. apply elem_of_list_lookup. exists k.
    apply lookup_zip_with_Some. exists k, r. split_and!; try done. apply lookup_seq. split; [lia|]. by eapply lookup_lt_Some.
Qed.
Lemma read_sets img h ks : Forall (fun k => k < length h) ks ->
  rmapM (fun key => let* n := dgetitem (map (set_entry img) (zip (seq 0 (length h)) h)) key in read_node n) (map set_name ks)
  = Ok (omap (fun k => (fun r => group_of img (params_as_dict r)) <$> h !! k) ks).
Proof.
  induction 1 as [|k ks Hk _ IH]; [done|]. cbn [map rmapM]. destruct (lookup_lt_is_Some_2 h k Hk) as [r Hr].
  unfold dgetitem at 1. rewrite (dget_sets img h k r Hr). cbn [rbind read_node]. rewrite IH. cbn [rbind omap list_omap].
  change (list_lookup k h) with (h !! k). by rewrite Hr.
Qed.
Theorem h5_history img p h fs : h5_path p -> Forall (storable img) h ->
  exists fs' ks, history_to p h fs = (fs', Ok tt) /\ (forall q, q <> p -> dget fs' q = dget fs q)
    /\ map set_name ks = sorted String.leb (map set_name (seq 0 (length h))) /\ Permutation ks (seq 0 (length h))
    /\ history_from_file p fs' = Ok (omap (fun k => image img <$> h !! k) ks).
Proof.
  intros Hp H. apply is_h5_spec in Hp. unfold history_to, history_from_file. rewrite Hp.
  rewrite (write_sets_ok img 0 h [] H) by (intros j _ Hj; by apply elem_of_nil in Hj). cbn [app].
  assert (exists ks, map set_name ks = sorted String.leb (map set_name (seq 0 (length h))) /\ Permutation ks (seq 0 (length h))) as (ks & E & P).
  { destruct (Permutation_map_inv set_name (seq 0 (length h)) (sorted_perm String.leb (map set_name (seq 0 (length h))))) as (ks & E & P).
    exists ks. split; [by rewrite E|]. by symmetry. }
  exists (dset fs p (CH5 (map (set_entry img) (zip (seq 0 (length h)) h)))), ks. split; [done|]. split; [intros q Hq; by apply dget_dset_ne|].
  split; [done|]. split; [done|]. unfold open_h5. rewrite dget_dset_eq. cbn [rbind]. rewrite dkeys_sets, <-E.
  rewrite read_sets.
  - cbn [rbind]. f_equal. clear E P. induction ks as [|k ks IH]; [done|]. cbn [omap list_omap]. destruct (h !! k) as [r|] eqn:Hr; cbn [fmap option_fmap option_map]; [|exact IH].
    cbn [map]. rewrite <-IH. f_equal. apply group_record. rewrite Forall_forall in H. apply H. by eapply elem_of_list_lookup_2.
  - apply Forall_forall. intros k Hk. rewrite P in Hk. apply elem_of_seq in Hk. lia.
Qed.
Lemma few_sets_sorted n : n <= 10 -> sorted String.leb (map set_name (seq 0 n)) = map set_name (seq 0 n).
Proof. intros H. do 11 (destruct n as [|n]; [vm_compute; reflexivity|]). lia. Qed.
Lemma set_names_inj ks ks' : map set_name ks = map set_name ks' -> ks = ks'.
Proof. revert ks'. induction ks as [|k ks IH]; intros [|k' ks'] E; try done. cbn [map] in E. assert (E1 := f_equal (fun l => hd_error l) E). assert (E2 := f_equal (fun l => tail l) E). cbn [hd_error tail] in E1, E2. rewrite (IH _ E2). f_equal. apply set_name_inj. congruence. Qed.
Lemma omap_seq {B} (f : params -> B) (h : list params) : omap (fun k => f <$> h !! k) (seq 0 (length h)) = map f h.
Proof.
  assert (G : forall pre, omap (fun k => f <$> (pre ++ h)%list !! k) (seq (length pre) (length h)) = map f h).
  { induction h as [|r h IH]; intros pre; [done|]. cbn [length seq omap list_omap].
    rewrite list_lookup_middle by done. cbn [fmap option_fmap option_map map]. f_equal.
    specialize (IH (pre ++ [r])%list). rewrite app_length in IH. cbn [length] in IH. rewrite Nat.add_1_r in IH. rewrite <-app_assoc in IH. exact IH. }
  exact (G []).
Qed.
Theorem h5_history_reload p h fs : h5_path p -> Forall kept_record h ->
  exists fs' h', history_to p h fs = (fs', Ok tt) /\ (forall q, q <> p -> dget fs' q = dget fs q)
    /\ history_from_file p fs' = Ok (map forget h') /\ Permutation h' h /\ (length h <= 10 -> h' = h).
Proof.
  intros Hp H. assert (Hs : Forall (storable (fun v => v)) h) by (eapply Forall_impl; [exact H|]; intros r Hr; by apply kept_storable).
  destruct (h5_history (fun v => v) p h fs Hp Hs) as (fs' & ks & E1 & E2 & E3 & P & E4).
  exists fs', (omap (fun k => h !! k) ks). split; [done|]. split; [done|]. split_and!.
  - rewrite E4. f_equal. clear E3 P E4. induction ks as [|k ks IH]; [done|]. cbn [omap list_omap].
    destruct (h !! k) as [r|] eqn:Hr; cbn [fmap option_fmap option_map map]; [|exact IH]. rewrite IH. f_equal.
    apply kept_storable. rewrite Forall_forall in H. apply H. by eapply elem_of_list_lookup_2.
  - rewrite P. assert (omap (fun k => h !! k) (seq 0 (length h)) = h) as ->; [|done].
    pose proof (omap_seq (fun r => r) h) as O. rewrite map_id in O. rewrite <-O at 2. apply list_omap_ext. apply Forall2_same_length_lookup_2; [done|].
    intros i x y Hx Hy. rewrite Hx in Hy. injection Hy as ->. by destruct (h !! y).
  - intros L. rewrite few_sets_sorted in E3 by done. apply set_names_inj in E3. subst ks.
    pose proof (omap_seq (fun r => r) h) as O. rewrite map_id in O. rewrite <-O at 2. apply list_omap_ext. apply Forall2_same_length_lookup_2; [done|].
    intros i x y Hx Hy. rewrite Hx in Hy. injection Hy as ->. by destruct (h !! y).
Qed.
