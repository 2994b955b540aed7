(** Proofs about saved site-energy models. *)
From Coq Require Import Reals QArith.
From Verif Require Import Py PyLemmas Json ActiveSiteModel EventModel EventProofs StateModel MatcherModel MatcherProofs SiteEnergyModel
  SiteEnergySpec SiteEnergyProofs ParamModel SiteFileModel SiteFileSpec.
From Verif Require LocalBarrierModel.
Local Open Scope string_scope.

(** ** Stripping text *)
Local Arguments LocalBarrierModel.is_blank : simpl never.
Lemma rstrip_rstrip s : LocalBarrierModel.rstrip (LocalBarrierModel.rstrip s) = LocalBarrierModel.rstrip s.
Proof.
  induction s as [|a s IH]; [done|]. cbn [LocalBarrierModel.rstrip]. destruct (LocalBarrierModel.rstrip s) as [|b t] eqn:E.
  - destruct (LocalBarrierModel.is_blank a) eqn:Ea; [done|]. cbn. by rewrite Ea.
  - cbn [LocalBarrierModel.rstrip] in IH |- *. by rewrite IH.
Qed.
Lemma lstrip_first s : LocalBarrierModel.lstrip s = "" \/ exists a t, LocalBarrierModel.lstrip s = String a t /\ LocalBarrierModel.is_blank a = false.
Proof.
  induction s as [|a s IH]; [by left|]. cbn. destruct (LocalBarrierModel.is_blank a) eqn:E; [done|]. right. by exists a, s.
Qed.
Lemma strip_strip s : LocalBarrierModel.py_strip (LocalBarrierModel.py_strip s) = LocalBarrierModel.py_strip s.
Proof.
  unfold LocalBarrierModel.py_strip. destruct (lstrip_first s) as [->|(a & t & -> & Ha)]; [done|].
  cbn [LocalBarrierModel.rstrip]. destruct (LocalBarrierModel.rstrip t) as [|b u] eqn:E.
  - rewrite Ha. cbn [LocalBarrierModel.lstrip]. rewrite Ha. cbn [LocalBarrierModel.rstrip]. by rewrite Ha.
  - cbn [LocalBarrierModel.lstrip]. rewrite Ha. cbn [LocalBarrierModel.rstrip].
    pose proof (rstrip_rstrip t) as R. rewrite E in R. cbn [LocalBarrierModel.rstrip] in R. by rewrite R.
Qed.
Lemma optional_ref_plain j s : optional_ref j = Ok (Some s) -> plain s.
Proof.
  destruct j; try done. cbn. intros H. destruct (String.eqb_spec (LocalBarrierModel.py_strip s0) "") as [|Hn]; [done|].
  injection H as <-. split; [apply strip_strip|done].
Qed.
Lemma optional_ref_round o : (forall s, o = Some s -> plain s) -> optional_ref (or_null JStr o) = Ok o.
Proof.
  destruct o as [s|]; [|done]. intros H. destruct (H s eq_refl) as [H1 H2]. cbn. rewrite H1. destruct (String.eqb_spec s ""); done.
Qed.

(** ** Mappings *)
Lemma ext_round v : json_ext (ext_json v) = Ok v.
Proof. by destruct v. Qed.
Lemma exts_round l : rmapM json_ext (map ext_json l) = Ok l.
Proof. rewrite rmapM_map. rewrite (rmapM_id _ Datatypes.id); [by rewrite map_id|]. intros v _. apply ext_round. Qed.
Lemma mapping_round {A} (f : json -> result A) {B} (g : B -> json) (h : B -> A) (d : dict Z B) : (forall b, f (g b) = Ok (h b)) ->
  mapping_of f (int_object g d) = Ok (Some (ByKey (map (fun kv => (JStr (py_str_int (fst kv)), h (snd kv))) d))).
Proof.
  intros H. unfold int_object. cbn [mapping_of]. rewrite rmapM_map.
  rewrite (rmapM_id _ (fun kv => (JStr (py_str_int (fst kv)), h (snd kv)))); [done|]. intros [k b] _. cbn [fst snd]. by rewrite H.
Qed.
Lemma sites_round (d : dict Z Z) : NoDup (dkeys d) ->
  normalize_site_mapping (Some (ByKey (map (fun kv => (JStr (py_str_int (fst kv)), JInt (snd kv))) d))) = Ok (Some d).
Proof.
  intros H. cbn [normalize_site_mapping]. rewrite rmapM_map. rewrite (rmapM_id _ Datatypes.id).
  - cbn [rbind]. rewrite map_id, dof_pairs_NoDup; done.
  - intros [k v] _. cbn [fst snd py_int]. by rewrite py_int_str_of_int.
Qed.
Lemma states_round (d : dict Z ext_value) : NoDup (dkeys d) ->
  normalize_state_mapping (Some (ByKey (map (fun kv => (JStr (py_str_int (fst kv)), snd kv)) d))) = Ok (Some d).
Proof.
  intros H. cbn [normalize_state_mapping]. unfold int_keys. rewrite rmapM_map. rewrite (rmapM_id _ Datatypes.id).
  - cbn [rbind]. rewrite map_id, dof_pairs_NoDup; done.
  - intros [k v] _. cbn [fst snd py_int]. by rewrite py_int_str_of_int.
Qed.
Lemma by_site_round (d : dict Z (dict Z ext_value)) : NoDup (dkeys d) -> Forall (fun kv => NoDup (dkeys (snd kv))) d ->
  normalize_by_site (Some (ByKey (map (fun kv => (JStr (py_str_int (fst kv)),
     Some (ByKey (map (fun kv => (JStr (py_str_int (fst kv)), snd kv)) (snd kv))))) d))) = Ok (Some d).
Proof.
  intros H Hf. cbn [normalize_by_site]. rewrite rmapM_map. rewrite (rmapM_id _ Datatypes.id).
  - cbn [rbind]. rewrite map_id, dof_pairs_NoDup; done.
  - intros [k v] Hin. cbn [fst snd py_int]. rewrite py_int_str_of_int. cbn [rbind]. rewrite states_round; [done|].
    rewrite Forall_forall in Hf. exact (Hf (k, v) Hin).
Qed.

Section Proofs.
  Variable text : ext_value -> string.
  Variable site_hash : option (list (Z * Z)) * option Z * option Z -> string.
  Context {Fc Fa Ro : Type}.
  Notation object := (se_object Fc Fa Ro).
  Notation from_dict := (object_from_dict text site_hash (Fc := Fc) (Fa := Fa) (Ro := Ro)).

  Record inv (o : object) : Prop := {
    inv_compute : forall s, name_of (o_compute o) = Some s -> plain s;
    inv_apply : forall s, name_of (o_apply o) = Some s -> plain s;
    inv_runtime : forall s, name_of (o_runtime o) = Some s -> plain s;
    inv_sites : forall d, o_site_mapping o = Some d -> NoDup (dkeys d);
    inv_states : forall d, o_state_mapping o = Some d -> NoDup (dkeys d);
    inv_by_site : forall d, o_by_site o = Some d -> NoDup (dkeys d) /\ Forall (fun kv => NoDup (dkeys (snd kv))) d;
    inv_order : match o_order o with Some x => o_order_hash o = Some (o_fp x) | None => forall h, o_order_hash o = Some h -> plain h end;
  }.
  Lemma callable_plain {A} (x : option A * json * json) c : new_callable x = Ok c -> forall s, name_of c = Some s -> plain s.
  Proof.
    destruct x as [[a r] k]. unfold new_callable. intros H. apply rbind_ok in H as (n & Hn & H). apply rbind_ok in H as (kw & _ & H).
    injection H as <-. cbn. intros s ->. by eapply optional_ref_plain.
  Qed.
  Lemma new_object_inv a (o : object) : new_object text a = Ok o -> inv o.
  Proof.
    unfold new_object. intros H. apply rbind_ok in H as (c & Hc & H). apply rbind_ok in H as (ap & Hap & H). apply rbind_ok in H as (rt & Hrt & H).
    apply rbind_ok in H as (si & Hsi & H). apply rbind_ok in H as (st & Hst & H). apply rbind_ok in H as (bs & Hbs & H).
    apply rbind_ok in H as (sz & _ & H). apply rbind_ok in H as (h & Hh & H).
    destruct (match a_order a with Some o0 => _ | None => false end) eqn:Eo; [done|]. apply rbind_ok in H as (u & _ & H). injection H as <-.
    assert (P : proper_dicts (SeConfig si st bs None None (EInt 0) None None None EV)) by exact (proper_dicts_lemma (SeConfig si st bs None None (EInt 0) None None None EV) _ _ _ Hsi Hst Hbs).
    destruct P as (P1 & P2 & P3). split; cbn.
    - by eapply callable_plain.
    - by eapply callable_plain.
    - by eapply callable_plain.
    - exact P1.
    - exact P2.
    - intros d Hd. destruct (P3 d Hd) as [N1 N2]. split; [done|]. apply Forall_forall. intros [k v] Hin. cbn. apply (N2 k v). by apply dget_in.
    - destruct (a_order a); [done|]. intros h' ->. by eapply optional_ref_plain.
  Qed.
  Lemma payload_object d (o : object) : from_payload text site_hash d = Ok o -> exists a, new_object text a = Ok o.
  Proof.
    unfold from_payload. intros H. do 6 (apply rbind_ok in H as (? & _ & H)). apply rbind_ok in H as (o' & Ho & H).
    assert (o' = o) as <-. { destruct (match dget d "external_site_order_hash" with Some j => j | None => JNull end); try done; [by injection H|].
      destruct (String.eqb _ _); [by injection H|done]. }
    by eexists.
  Qed.
  Lemma from_dict_payload j (o : object) : from_dict j = Ok o -> exists d, from_payload text site_hash d = Ok o.
  Proof.
    unfold object_from_dict. destruct j as [| | | | | |d]; try done. intros H.
    assert (G : from_payload text site_hash d = Ok o \/ exists d', from_payload text site_hash d' = Ok o); [|destruct G; eauto].
    revert H. generalize (from_payload text site_hash d : result object). intros x.
    destruct (dget d "model_type") as [[| | | |s| |]|]; try by left.
    destruct (dget d "site_energy") as [[| | | | | |d']|];
    repeat (match goal with |- context [match ?s with EmptyString => _ | String _ _ => _ end] => destruct s as [|[[] [] [] [] [] [] [] []] s] end; try (by left); try done); eauto.
  Qed.
  Lemma site_model_inv (o : object) : site_model text site_hash o -> inv o.
  Proof.
    induction 1 as [a o H|j o H|o given o' Hm IH H].
    - by eapply new_object_inv.
    - destruct (from_dict_payload _ _ H) as (d & Hd). destruct (payload_object _ _ Hd) as (a & Ha). by eapply new_object_inv.
    - unfold set_order in H. destruct given as [x|]; [|by injection H as <-]. destruct (match o_order_hash o with Some h => _ | None => _ end); [done|].
      injection H as <-. destruct IH. split; cbn; done.
  Qed.

  Lemma from_payload_round (o : object) : inv o -> plain_order o -> kept_array text o ->
    from_payload text site_hash (object_as_dict site_hash o) = Ok (saved o).
  Proof.
    intros [Ic Ia Ir Is It Ib Io] Po Ka. unfold from_payload.
    change (dget (object_as_dict site_hash o) "site_mapping") with (Some (or_null (int_object JInt) (o_site_mapping o))).
    change (dget (object_as_dict site_hash o) "state_mapping") with (Some (or_null (int_object ext_json) (o_state_mapping o))).
    change (dget (object_as_dict site_hash o) "state_mapping_by_site") with (Some (or_null (int_object (int_object ext_json)) (o_by_site o))).
    change (dget (object_as_dict site_hash o) "initial_occupation") with (Some (or_null (fun a => JList (map ext_json (a_values a))) (o_initial o))).
    change (dget (object_as_dict site_hash o) "external_fill_value") with (Some (ext_json (o_fill o))).
    change (dget (object_as_dict site_hash o) "active_site_order") with (Some (or_null (fun x => JObj (order_as_dict x)) (o_order o))).
    change (dget (object_as_dict site_hash o) "compute_ref") with (Some (or_null JStr (name_of (o_compute o)))).
    change (dget (object_as_dict site_hash o) "compute_kwargs") with (Some (JObj (keywords (o_compute o)))).
    change (dget (object_as_dict site_hash o) "apply_ref") with (Some (or_null JStr (name_of (o_apply o)))).
    change (dget (object_as_dict site_hash o) "apply_kwargs") with (Some (JObj (keywords (o_apply o)))).
    change (dget (object_as_dict site_hash o) "runtime_ref") with (Some (or_null JStr (name_of (o_runtime o)))).
    change (dget (object_as_dict site_hash o) "runtime_kwargs") with (Some (JObj (keywords (o_runtime o)))).
    change (dget (object_as_dict site_hash o) "external_size") with (Some (or_null JInt (o_size o))).
    change (dget (object_as_dict site_hash o) "external_dtype") with (Some (o_dtype o)).
    change (dget (object_as_dict site_hash o) "active_site_order_hash") with (Some (or_null JStr (o_order_hash o))).
    change (dget (object_as_dict site_hash o) "external_site_order_hash") with (Some (JStr (external_site_order_hash site_hash o))).
    change (dget (object_as_dict site_hash o) "units") with (Some (units_json (o_units o))).
    change (dget (object_as_dict site_hash o) "name") with (Some (o_name o)).
    cbv beta iota zeta.
    assert (exists a, mapping_of Ok (or_null (int_object JInt) (o_site_mapping o)) = Ok a /\ normalize_site_mapping a = Ok (o_site_mapping o)) as (a1 & E1 & N1).
    { destruct (o_site_mapping o) as [d|]; [|by exists None]. cbn [or_null]. rewrite (mapping_round Ok JInt JInt) by done. eexists. split; [done|]. apply sites_round. by apply Is. }
    assert (exists a, mapping_of json_ext (or_null (int_object ext_json) (o_state_mapping o)) = Ok a /\ normalize_state_mapping a = Ok (o_state_mapping o)) as (a2 & E2 & N2).
    { destruct (o_state_mapping o) as [d|]; [|by exists None]. cbn [or_null]. rewrite (mapping_round json_ext ext_json Datatypes.id) by apply ext_round. eexists. split; [done|]. apply states_round. by apply It. }
    assert (exists a, mapping_of (mapping_of json_ext) (or_null (int_object (int_object ext_json)) (o_by_site o)) = Ok a /\ normalize_by_site a = Ok (o_by_site o)) as (a3 & E3 & N3).
    { destruct (o_by_site o) as [d|]; [|by exists None]. cbn [or_null].
      rewrite (mapping_round (mapping_of json_ext) (int_object ext_json) (fun d => Some (ByKey (map (fun kv => (JStr (py_str_int (fst kv)), snd kv)) d)))).
      - eexists. split; [done|]. destruct (Ib d eq_refl). by apply by_site_round.
      - intros b. by rewrite (mapping_round json_ext ext_json Datatypes.id) by apply ext_round. }
    assert (exists a, array_arg (or_null (fun a => JList (map ext_json (a_values a))) (o_initial o)) = Ok a
       /\ match a with None => None | Some (inl l) => Some (as_array text l) | Some (inr x) => Some x end = o_initial o) as (a4 & E4 & N4).
    { unfold kept_array in Ka. destruct (o_initial o) as [x|]; [|by exists None]. cbn [or_null array_arg]. rewrite exts_round. eexists. split; [done|]. cbn. by rewrite Ka. }
    assert (E5 : order_arg (or_null (fun x => JObj (order_as_dict x)) (o_order o)) = Ok (bare_order <$> o_order o)).
    { destruct (o_order o) as [x|]; [|done]. cbn [or_null order_arg]. by rewrite order_roundtrip. }
    rewrite E1, E2, E3, E4, E5, ext_round. cbn [rbind]. unfold new_object.
    cbn [a_compute a_apply a_runtime a_site_mapping a_state_mapping a_by_site a_initial a_size a_fill a_dtype a_order a_order_hash a_units a_name].
    unfold new_callable. rewrite !optional_ref_round by done. cbn [rbind keyword_dict]. rewrite N1, N2, N3, N4. cbn [rbind].
    assert ((match or_null JInt (o_size o) with JNull => Ok None | j => rmap Some (py_int j) end) = Ok (o_size o)) as -> by by destruct (o_size o).
    cbn [rbind].
    assert (optional_ref (or_null JStr (o_order_hash o)) = Ok (o_order_hash o)) as ->.
    { apply optional_ref_round. intros h Hh. unfold plain_order in Po. destruct (o_order o) as [x|]; [|by apply Io]. rewrite Io in Hh. by injection Hh as <-. }
    cbn [rbind].
    assert (match bare_order <$> o_order o with Some x => match o_order_hash o with Some h => negb (String.eqb h (o_fp x)) | None => false end | None => false end = false) as ->.
    { destruct (o_order o) as [x|]; [|done]. rewrite Io. cbn. by rewrite String.eqb_refl. }
    assert (energy_units_of (units_json (o_units o)) = Ok (o_units o)) as -> by by destruct (o_units o).
    cbn [rbind].
    assert (match bare_order <$> o_order o with Some x => Some (o_fp x) | None => o_order_hash o end = o_order_hash o) as ->.
    { destruct (o_order o) as [x|]; [|done]. cbn. by rewrite Io. }
    match goal with |- (if String.eqb ?a ?b then _ else _) = _ => assert (a = b) as <- by done end.
    rewrite String.eqb_refl. done.
  Qed.
  Theorem site_reload p (o : object) fs : site_model text site_hash o -> plain_order o -> kept_array text o ->
    exists fs', object_to site_hash p o fs = (fs', Ok tt) /\ object_from_file text site_hash p fs' = Ok (saved o)
      /\ forall q, q <> p -> dget fs' q = dget fs q.
  Proof.
    intros Hm Po Ka. unfold object_to, dumpfn. eexists. split; [done|]. split.
    - unfold object_from_file, loadfn. rewrite dget_dset_eq. cbn [rbind].
      change (dget (object_as_dict site_hash o) "filetype") with (@None json). cbn iota. unfold object_from_dict.
      change (dget (object_as_dict site_hash o) "model_type") with (@None json). cbn iota. apply from_payload_round; [by apply site_model_inv|done|done].
    - intros q Hq. by apply dget_dset_ne.
  Qed.

  Lemma kept_one_kind l : (forall v, v ∈ l -> SiteEnergyModel.is_number v = true) \/ (forall v, v ∈ l -> exists s, v = EStr s) ->
    as_array text (a_values (as_array text l)) = as_array text l.
  Proof.
    intros H. unfold as_array at 2 3. destruct (forallb SiteEnergyModel.is_int l && negb (Nat.eqb (length l) 0)) eqn:E1.
    - cbn [a_values]. unfold as_array. by rewrite E1.
    - destruct (forallb SiteEnergyModel.is_number l) eqn:E2.
      + cbn [a_values]. set (f := fun v : ext_value => match v with EInt z => EFloat (inject_Z z) | _ => v end).
        assert (F1 : forallb SiteEnergyModel.is_number (map f l) = true).
        { rewrite forallb_forall in *. intros x Hx. apply in_map_iff in Hx as (y & <- & Hy). specialize (E2 y Hy). by destruct y. }
        assert (F2 : forallb SiteEnergyModel.is_int (map f l) && negb (Nat.eqb (length (map f l)) 0) = false).
        { destruct l as [|v l]; [done|]. cbn. cbn in E2. by destruct v. }
        unfold as_array. rewrite F1, F2. f_equal. fold f. rewrite map_map. apply map_ext. intros v. by destruct v.
      + destruct H as [H|H].
        { exfalso. assert (forallb SiteEnergyModel.is_number l = true); [|congruence]. apply forallb_forall. intros v Hv. apply H. by apply elem_of_list_In. }
        cbn [a_values]. assert (map (fun v => match v with EStr s => EStr s | _ => EStr (text v) end) l = l) as ->.
        { clear -H. induction l as [|v l IH]; [done|]. cbn. rewrite IH by (intros; apply H; by right). f_equal. destruct (H v) as (s & ->); [left|done]. }
        unfold as_array. rewrite E1, E2. f_equal.
        clear -H. induction l as [|v l IH]; [done|]. cbn. rewrite IH by (intros; apply H; by right). f_equal. destruct (H v) as (s & ->); [left|done].
  Qed.

  (** ** Evaluation *)
  Section Sessions.
    Variable np_dtype : json -> result dtype.
    Variable import_compute : string -> result Fc.
    Variable import_apply : string -> result Fa.
    Variable import_runtime : string -> list (string * json) -> result Ro.
    Variable call_compute : Fc -> list (string * json) -> option Ro -> list ext_value -> list change -> event -> list Z -> result R.
    Variable call_apply : Fa -> list (string * json) -> option Ro -> list ext_value -> list change -> event -> list Z -> result (option Ro).
    Variable parse_int : string -> option Z.
    Variable parse_float : string -> option Q.
    Notation session := (session text np_dtype import_compute import_apply import_runtime call_compute call_apply parse_int parse_float).
    Notation answers := (answers text import_compute import_apply call_compute call_apply parse_int parse_float).
    Lemma answers_same (o o' : object) c m l : o_compute o' = o_compute o -> o_apply o' = o_apply o -> answers o' c m l = answers o c m l.
    Proof.
      intros H1 H2. revert m. induction l as [|[e occ|e occ] l IH]; intros m; [done| |]; cbn [SiteFileModel.answers].
      - assert (compute_of import_compute call_compute o' = compute_of import_compute call_compute o) as -> by (unfold compute_of; by rewrite H1).
        destruct (se_compute _ _ _ _ _); [|done]. by rewrite IH.
      - assert (apply_of import_apply call_apply o' = apply_of import_apply call_apply o) as -> by (unfold apply_of; by rewrite H2).
        destruct (se_apply _ _ _ _ _ _ _); [|done]. apply IH.
    Qed.
    Lemma bare_same {A} (c : callable A) : live c = None -> bare c = c.
    Proof. destruct c as [l n k]. cbn. by intros ->. Qed.
    Theorem saved_session (o : object) given occ lib l : named o -> session (saved o) given occ lib l = session o given occ lib l.
    Proof.
      intros (H1 & H2 & H3). unfold SiteFileModel.session.
      assert (S : match set_order o given with
        | Ok o1 => exists o2, set_order (saved o) given = Ok o2 /\ o_compute o2 = o_compute o1 /\ o_apply o2 = o_apply o1 /\ o_runtime o2 = o_runtime o1
            /\ config_of np_dtype o2 = config_of np_dtype o1
        | Err e => set_order (saved o) given = Err e end).
      { unfold set_order. destruct given as [x|].
        - change (o_order_hash (saved o)) with (o_order_hash o). destruct (match o_order_hash o with Some h => _ | None => _ end); [done|].
          eexists. split; [done|]. cbn. rewrite !bare_same by done. done.
        - eexists. split; [done|]. cbn. rewrite !bare_same by done. split; [done|]. split; [done|]. split; [done|]. unfold config_of. cbn. by destruct (o_order o). }
      destruct (set_order o given) as [o1|e]; [|by rewrite S]. destruct S as (o2 & -> & E1 & E2 & E3 & ->). destruct (config_of np_dtype o1) as [c|e]; [|done].
      assert (runtime_of import_runtime o2 = runtime_of import_runtime o1) as -> by (unfold runtime_of; by rewrite E3).
      destruct (initialize_state _ _ _ _ _ _ _ _); [|done]. by apply answers_same.
    Qed.
    Theorem unnamed_function (o : object) c m occ e ch chs : name_of (o_compute o) = None ->
      changes_from_pre_state (sc_tables m) e occ = Ok (ch :: chs) ->
      se_compute (compute_of import_compute call_compute (saved o)) c m occ e = Err RuntimeError.
    Proof. intros H1 H2. unfold se_compute. rewrite H2. cbn [rbind]. unfold compute_of. cbn. by rewrite H1. Qed.
  End Sessions.

  (** ** What is checked *)
  Lemma payload_hash d (o : object) : from_payload text site_hash d = Ok o ->
    match dget d "external_site_order_hash" with Some JNull | None => True | Some (JStr h) => h = external_site_order_hash site_hash o | _ => False end.
  Proof.
    unfold from_payload. intros H. do 6 (apply rbind_ok in H as (? & _ & H)). apply rbind_ok in H as (o' & Ho & H).
    destruct (dget d "external_site_order_hash") as [[| | | |h| |]|]; try done. destruct (String.eqb_spec h (external_site_order_hash site_hash o')) as [E|]; [|done].
    injection H as <-. exact E.
  Qed.
  Theorem same_hash_same_sites d1 d2 h (o1 o2 : object) : (forall x y, site_hash x = site_hash y -> x = y) ->
    from_payload text site_hash d1 = Ok o1 -> from_payload text site_hash d2 = Ok o2 ->
    dget d1 "external_site_order_hash" = Some (JStr h) -> dget d2 "external_site_order_hash" = Some (JStr h) ->
    (match o_site_mapping o1, o_site_mapping o2 with
     | Some m1, Some m2 => forall site, dget m1 site = dget m2 site
     | None, None => True
     | _, _ => False
     end) /\ o_size o1 = o_size o2 /\ (length ∘ a_values <$> o_initial o1) = (length ∘ a_values <$> o_initial o2).
  Proof.
    intros Hi H1 H2 E1 E2. pose proof (payload_hash _ _ H1) as P1. pose proof (payload_hash _ _ H2) as P2. rewrite E1 in P1. rewrite E2 in P2.
    rewrite P1 in P2. unfold external_site_order_hash in P2. apply Hi in P2.
    destruct (payload_object _ _ H1) as (a1 & A1). destruct (payload_object _ _ H2) as (a2 & A2).
    pose proof (inv_sites _ (new_object_inv _ _ A1)) as I1. pose proof (inv_sites _ (new_object_inv _ _ A2)) as I2.
    assert (Q1 := f_equal (fun x => fst (fst x)) P2). assert (Q2 := f_equal (fun x => snd (fst x)) P2). assert (Q3 := f_equal snd P2). cbn [fst snd] in Q1, Q2, Q3. clear P2.
    split; [|split].
    - destruct (o_site_mapping o1) as [m1|], (o_site_mapping o2) as [m2|]; try done. cbn in Q1. injection Q1 as Q1.
      assert (Pm : m1 ≡ₚ m2).
      { rewrite <-(sorted_perm (fun x y => (fst x <=? fst y)%Z) m1), <-(sorted_perm (fun x y => (fst x <=? fst y)%Z) m2). by rewrite Q1. }
      intros site. specialize (I1 m1 eq_refl). specialize (I2 m2 eq_refl). destruct (dget m1 site) as [v|] eqn:G.
      + symmetry. apply dget_in; [done|]. rewrite <-Pm. by apply dget_Some_in.
      + destruct (dget m2 site) as [v|] eqn:G2; [|done]. exfalso. apply dget_Some_in in G2. rewrite <-Pm in G2. apply (dget_in _ _ _ I1) in G2. congruence.
    - done.
    - destruct (o_initial o1), (o_initial o2); cbn in *; try done. injection Q3 as Q3. f_equal. lia.
  Qed.
  Theorem order_hash_checked d (o : object) j x : from_payload text site_hash d = Ok o -> dget d "active_site_order" = Some (JObj j) -> order_from_dict j = Ok x ->
    o_order o = Some x /\ o_order_hash o = Some (o_fp x)
    /\ forall h, dget d "active_site_order_hash" = Some (JStr h) -> LocalBarrierModel.py_strip h <> "" -> LocalBarrierModel.py_strip h = o_fp x.
  Proof.
    intros H Ej Ex. unfold from_payload in H. rewrite Ej in H. do 5 (apply rbind_ok in H as (? & _ & H)).
    apply rbind_ok in H as (ord & Ho & H). cbn [order_arg] in Ho. rewrite Ex in Ho. injection Ho as <-. apply rbind_ok in H as (o' & Hn & H).
    assert (o' = o) as ->. { destruct (match dget d "external_site_order_hash" with Some j => j | None => JNull end); try done; [by injection H|].
      destruct (String.eqb _ _); [by injection H|done]. }
    unfold new_object in Hn. do 7 (apply rbind_ok in Hn as (? & _ & Hn)). apply rbind_ok in Hn as (h & Hh & Hn).
    cbn [a_order a_order_hash] in *. destruct (match h with Some h0 => negb (String.eqb h0 (o_fp x)) | None => false end) eqn:Eh; [done|].
    apply rbind_ok in Hn as (u & _ & Hn). injection Hn as <-. split; [done|]. split; [done|]. intros s Es Hs. rewrite Es in Hh. cbn in Hh.
    destruct (String.eqb_spec (LocalBarrierModel.py_strip s) ""); [done|]. injection Hh as <-. destruct (String.eqb_spec (LocalBarrierModel.py_strip s) (o_fp x)); done.
  Qed.
  Theorem other_order_refused (o : object) x h : o_order_hash o = Some h -> o_fp x <> h -> set_order o (Some x) = Err ValueError.
  Proof. intros H1 H2. unfold set_order. rewrite H1. destruct (String.eqb_spec (o_fp x) h); done. Qed.
End Proofs.
