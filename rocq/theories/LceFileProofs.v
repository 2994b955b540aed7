(** Proofs about model files. *)
From Coq Require Import QArith Reals.
From Verif Require Import Py PyLemmas Json ActiveSiteModel EventModel StateModel HopModel BasisModel BasisProofs
  MatcherModel MatcherProofs LceModel LceProofs BuildModel BuildProofs LocalEnvModel LocalEnvProofs
  CompositeModel LceFileModel LceFileSpec.
Local Open Scope nat_scope.
Local Open Scope string_scope.

(* ------------------------------------------------------------------ *)
(** ** Plain payloads *)

Lemma nested_map {A} (f : A -> json) (g : json -> result A) l :
  (forall x, x ∈ l -> g (f x) = Ok x) -> nested g (jnested f l) = Ok l.
Proof.
  intros H. unfold nested, jnested. cbn [py_list rbind]. rewrite rmapM_map.
  rewrite (rmapM_id _ (fun x => x)); [by rewrite map_id|done].
Qed.
Lemma ints_jints l : ints (jints l) = Ok l.
Proof. by apply (nested_map JInt py_int). Qed.
Lemma texts_jtexts l : texts (jtexts l) = Ok l.
Proof. by apply (nested_map JStr py_text). Qed.
Lemma floats_jfloats l : floats (jfloats l) = Ok l.
Proof. by apply (nested_map JFloat py_float). Qed.
Lemma read_jtable t : read_table (jtable t) = Ok t.
Proof. apply nested_map. intros l _. apply nested_map. intros k _. apply ints_jints. Qed.
Lemma read_jvalues v : regular v = true -> regular (List.concat v) = true ->
  read_values (jnested (jnested jfloats) v) = Ok v.
Proof.
  intros H1 H2. unfold read_values. rewrite (nested_map (jnested jfloats) (nested floats)).
  - cbn [rbind]. by rewrite H1, H2.
  - intros l _. apply nested_map. intros k _. apply floats_jfloats.
Qed.
Lemma texts_are_jtexts l : texts_are (map JStr l) l = true.
Proof. induction l as [|s l IH]; [done|]. simpl. by rewrite String.eqb_refl. Qed.
Lemma texts_are_ok l s : texts_are l s = true -> l = map JStr s.
Proof.
  revert s; induction l as [|j l IH]; intros [|t s]; simpl; try done.
  intros [H1 H2]%andb_prop. rewrite (IH _ H2). destruct j; try done. simpl in H1. by apply String.eqb_eq in H1 as ->.
Qed.

(* ------------------------------------------------------------------ *)
(** ** Lengths *)

Lemma pair_distances_total {P} (distance : P -> P -> Q) xs :
  exists l, pair_distances (build_distance_matrix distance xs) = Ok l
         /\ (2 <= length xs -> l <> []).
Proof.
  unfold pair_distances. assert (El : length (build_distance_matrix distance xs) = length xs) by (unfold build_distance_matrix; apply map_length).
  rewrite El.
  assert (exists l, rmapM (fun ij : list nat => match ij with [i; j] => entry (build_distance_matrix distance xs) i j | _ => Err ValueError end)
            (combinations 2 (seq 0 (length xs))) = Ok l) as [l Hl].
  { apply rmapM_ok_exists. intros s Hs. destruct (pairs_shape _ _ Hs) as (i & j & ->). apply pairs_of_seq in Hs.
    destruct (lookup_lt_is_Some_2 xs i ltac:(lia)) as [x Hx]. destruct (lookup_lt_is_Some_2 xs j ltac:(lia)) as [y Hy].
    exists (distance x y). by apply matrix_entry. }
  exists l. split; [exact Hl|]. intros Hn ->. apply rmapM_length in Hl. destruct xs as [|x [|y xs]]; simpl in Hn; [lia..|]. simpl in Hl. by destruct (seq 2 (length xs)).
Qed.

Lemma sorted_length {A} leb (l : list A) : length (sorted leb l) = length l.
Proof.
  assert (H : forall x k, length (insert leb x k) = Datatypes.S (length k)).
  { intros x k; induction k as [|y k IH]; [done|]. simpl. destruct (leb x y); simpl; congruence. }
  induction l as [|x l IH]; [done|]. simpl. rewrite H. congruence.
Qed.
Lemma bond_distances_total {P} (distance : P -> P -> Q) ix sp ro xs :
  exists r, bond_distances (Cluster ix sp ro (build_distance_matrix distance xs)) = Ok r.
Proof.
  unfold bond_distances. cbn [cl_dist]. assert (El : length (build_distance_matrix distance xs) = length xs) by (unfold build_distance_matrix; apply map_length).
  rewrite El. destruct (Nat.leb_spec (length xs) 1); [by eexists|].
  destruct (pair_distances_total distance xs) as (l & -> & Hl). cbn [rbind].
  assert (length (q_sort l) = length l) as E by apply sorted_length.
  destruct (q_sort l); [|by eexists]. destruct l; [|done]. by specialize (Hl ltac:(lia)).
Qed.

Section Proofs.
  Context {S C X : Type}.
  Variable w : external S C X.
  Hypothesis W : reads_what_it_writes w.

  (* ---------------------------------------------------------------- *)
  (** ** Clusters and orbits *)

  Record cluster_ok (c : cluster_obj) : Prop := {
    ok_species : cl_species (co_cluster c) = map fst (co_structure c);
    ok_canonical : Forall (canonical w) (co_structure c);
    ok_dist : cl_dist (co_cluster c) = build_distance_matrix (x_distance w) (map snd (co_structure c));
    ok_indices : length (cl_indices (co_cluster c)) = length (co_structure c);
    ok_roles : length (cl_roles (co_cluster c)) = length (co_structure c);
    ok_metadata : length (co_metadata c) = length (co_structure c);
    ok_sym : co_sym c <> JNull;
  }.
  Definition orbit_ok (o : orbit_obj) : Prop := Forall cluster_ok (ob_clusters o).

  Lemma canonical_names l : Forall (canonical w) l -> rmapM (x_canon w) (map fst l) = Ok (map fst l).
  Proof. induction 1 as [|s l Hs Hl IH]; [done|]. simpl. rewrite Hs. cbn [rbind]. by rewrite IH. Qed.
  Lemma zip_fst_snd {A B} (l : list (A * B)) : zip (map fst l) (map snd l) = l.
  Proof. induction l as [|[a b] l IH]; [done|]. simpl. by rewrite IH. Qed.

  Lemma cluster_init_ok indices sites roles metadata sym c :
    Forall (canonical w) sites ->
    cluster_init w indices sites roles metadata sym = Ok c -> cluster_ok c.
  Proof.
    intros Hc. unfold cluster_init. intros H. apply rbind_ok in H as (k & Hk & H).
    unfold cluster_new in Hk. rewrite !map_length, Nat.eqb_refl in Hk. cbn [negb] in Hk.
    repeat match type of Hk with context [negb (Nat.eqb ?a ?b)] => destruct (Nat.eqb_spec a b); cbn [negb] in Hk; [|done] end.
    injection Hk as <-.
    destruct (Nat.eqb_spec (length (match metadata with Some l => l | None => replicate (length sites) [] end)) (length sites)); cbn [negb] in H; [|done].
    rewrite canonical_names in H by done. cbn [rbind] in H. apply rbind_ok in H as ([[hi lo] bonds] & _ & H).
    injection H as <-. rewrite zip_fst_snd. split; simpl; try done.
    by destruct sym.
  Qed.

  Lemma cluster_back c : cluster_ok c ->
    cluster_from_dict w (JObj (cluster_as_dict w c)) = Ok (plain_metadata w c).
  Proof.
    intros [H1 H2 H3 H4 H5 H6 H7]. unfold cluster_from_dict.
    change (get_default (cluster_as_dict w c) "site_indices" (JList [])) with (jints (cl_indices (co_cluster c))).
    change (get_default (cluster_as_dict w c) "structure" (JObj [])) with (x_molecule_as_dict w (co_structure c)).
    change (get_some (cluster_as_dict w c) "roles") with (Some (jtexts (cl_roles (co_cluster c)))).
    change (get_some (cluster_as_dict w c) "metadata") with (Some (jnested (fun m => JObj (safe_metadata w m)) (co_metadata c))).
    change (get_default (cluster_as_dict w c) "sym" (JStr "")) with (co_sym c).
    replace (match jints (cl_indices (co_cluster c)) with JNull => Ok None | v => let* l := ints v in Ok (Some l) end)
      with (@Ok (option (list Z)) (Some (cl_indices (co_cluster c)))).
    2:{ change (Ok (Some (cl_indices (co_cluster c))) = (let* l := ints (jints (cl_indices (co_cluster c))) in Ok (Some l))). by rewrite ints_jints. }
    cbn [rbind]. rewrite (molecule_back w W) by done. cbn [rbind optional]. rewrite texts_jtexts. cbn [rbind].
    replace (nested py_obj (jnested (fun m => JObj (safe_metadata w m)) (co_metadata c)))
      with (@Ok (list (dict string json)) (map (safe_metadata w) (co_metadata c))).
    2:{ unfold nested, jnested. cbn [py_list rbind]. rewrite rmapM_map. symmetry.
        by apply (rmapM_id _ (safe_metadata w)). }
    cbn [rbind]. unfold cluster_init, cluster_new. rewrite !map_length, H4, H5, Nat.eqb_refl. cbn [negb rbind].
    rewrite H6, Nat.eqb_refl. cbn [negb]. rewrite canonical_names by done. cbn [rbind].
    destruct (bond_distances_total (x_distance w) (cl_indices (co_cluster c)) (map fst (co_structure c)) (cl_roles (co_cluster c)) (map snd (co_structure c)))
      as ([[hi lo] bonds] & ->).
    cbn [rbind]. rewrite zip_fst_snd. unfold plain_metadata. cbn [co_cluster co_structure co_metadata co_sym co_max co_min co_bonds].
    rewrite <- H1, <- H3. destruct (co_cluster c) as [a1 a2 a3 a4]; cbn [cl_indices cl_species cl_roles cl_dist].
    change (get_default (cluster_as_dict w c) "max_length" hi) with (co_max c).
    change (get_default (cluster_as_dict w c) "min_length" lo) with (co_min c).
    change (get_default (cluster_as_dict w c) "bond_distances" bonds) with (co_bonds c).
    by destruct (co_sym c).
  Qed.

  Lemma orbit_back o : orbit_ok o -> orbit_from_dict w (JObj (orbit_as_dict w o)) = Ok (plain_orbit w o).
  Proof.
    intros H. unfold orbit_from_dict.
    change (get_default (orbit_as_dict w o) "clusters" (JList [])) with (JList (map (fun c => JObj (cluster_as_dict w c)) (ob_clusters o))).
    unfold nested. cbn [py_list rbind]. rewrite rmapM_map.
    rewrite (rmapM_id _ (plain_metadata w)).
    2:{ intros c Hc. apply cluster_back. unfold orbit_ok in H. rewrite Forall_forall in H. by apply H. }
    cbn [rbind]. reflexivity.
  Qed.
  Lemma orbits_back l : Forall orbit_ok l ->
    nested (orbit_from_dict w) (JList (map (fun b => JObj (orbit_as_dict w b)) l)) = Ok (map (plain_orbit w) l).
  Proof.
    intros H. unfold nested. cbn [py_list rbind]. rewrite rmapM_map. apply rmapM_id.
    intros o Ho. apply orbit_back. rewrite Forall_forall in H. by apply H.
  Qed.
  Lemma fingerprint_plain o : fingerprint w (plain_orbit w o) = fingerprint w o.
  Proof. unfold fingerprint, plain_orbit. cbn [ob_clusters ob_multiplicity]. by rewrite map_map. Qed.
  Lemma fingerprints_plain l : map (fingerprint w) (map (plain_orbit w) l) = map (fingerprint w) l.
  Proof. rewrite map_map. apply map_ext. apply fingerprint_plain. Qed.
  Lemma cluster_read_ok j c : cluster_from_dict w j = Ok c -> cluster_ok c.
  Proof.
    unfold cluster_from_dict. destruct j; try done. intros H.
    apply rbind_ok in H as (ix & _ & H). apply rbind_ok in H as (sites & Hs & H). apply rbind_ok in H as (ro & _ & H).
    apply rbind_ok in H as (me & _ & H). apply rbind_ok in H as (k & Hk & H). injection H as <-.
    apply cluster_init_ok in Hk; [|by eapply molecule_canonical]. destruct Hk. by split.
  Qed.
  Lemma orbit_read_ok j o : orbit_from_dict w j = Ok o -> orbit_ok o.
  Proof.
    unfold orbit_from_dict. destruct j; try done. intros H. apply rbind_ok in H as (cs & Hc & H).
    apply rbind_ok in H as (n & _ & H). injection H as <-. unfold orbit_ok. cbn [ob_clusters].
    unfold nested in Hc. apply rbind_ok in Hc as (js & _ & Hc). apply rmapM_ok in Hc.
    induction Hc; constructor; [by eapply cluster_read_ok|done].
  Qed.
  Lemma orbits_read_ok j l : nested (orbit_from_dict w) j = Ok l -> Forall orbit_ok l.
  Proof.
    unfold nested. intros H. apply rbind_ok in H as (js & _ & H). apply rmapM_ok in H.
    induction H; constructor; [by eapply orbit_read_ok|done].
  Qed.

  (* ---------------------------------------------------------------- *)
  (** ** Attributes *)

  Definition cset {K V} `{EqDecision K} (o : dict K V) (k : K) (x : option V) : dict K V :=
    match x with Some a => dset o k a | None => o end.
  Lemma dget_cset_eq {K V} `{EqDecision K} (o : dict K V) k x :
    dget (cset o k x) k = match x with Some a => Some a | None => dget o k end.
  Proof. destruct x; simpl; [apply dget_dset_eq|done]. Qed.
  Lemma dget_cset_ne {K V} `{EqDecision K} (o : dict K V) k k' x : k <> k' -> dget (cset o k x) k' = dget o k'.
  Proof. destruct x; simpl; [apply dget_dset_ne|done]. Qed.

  Lemma fold_plain {A} k (f : A -> json) x rest (o : lce_obj S C) :
    (forall o j, set_entry w o (k, j) = Ok (dset o k (AJson j))) ->
    rfold (set_entry w) o (entry_if k f x ++ rest) = rfold (set_entry w) (cset o k (option_map (fun v => AJson (f v)) x)) rest.
  Proof. intros H. destruct x; cbn [entry_if app rfold option_map cset]; [|done]. by rewrite H. Qed.

  Lemma convert_ok (o : lce_obj S C) t bi v :
    dget o "cluster_site_indices" = Some (AJson (jtable t)) ->
    dget o "correlation_basis_indices" = option_map (fun t => AJson (jtable t)) bi ->
    dget o "site_basis_values" = option_map (fun v => AJson (jnested (jnested jfloats) v)) v ->
    (forall v', v = Some v' -> regular v' = true /\ regular (List.concat v') = true) ->
    convert_arrays o = Ok (cset (cset (dset o "cluster_site_indices" (ATable t))
                                   "correlation_basis_indices" (option_map ATable bi))
                             "site_basis_values" (option_map AValues v)).
  Proof.
    intros H1 H2 H3 Hv. unfold convert_arrays. rewrite H1. rewrite read_jtable. cbn [rbind].
    rewrite dget_dset_ne by discriminate. rewrite H2.
    replace (match option_map (fun t => @AJson S C (jtable t)) bi with
             | Some (AJson JNull) => Ok (dset o "cluster_site_indices" (ATable t))
             | Some (AJson j) => let* t0 := read_table j in Ok (dset (dset o "cluster_site_indices" (ATable t)) "correlation_basis_indices" (ATable t0))
             | _ => Ok (dset o "cluster_site_indices" (ATable t)) end)
      with (Ok (cset (dset o "cluster_site_indices" (ATable t)) "correlation_basis_indices" (option_map ATable bi))).
    2:{ destruct bi as [b|]; [|done]. cbn [option_map cset]. change (jtable b) with (jnested (jnested jints) b) at 1.
        unfold jnested at 1. fold (jnested (jnested jints) b). 
        change (JList (map (jnested jints) b)) with (jtable b). rewrite read_jtable. reflexivity. }
    cbn [rbind]. rewrite dget_cset_ne, dget_dset_ne, H3 by discriminate.
    destruct v as [v|]; [|done]. cbn [option_map cset]. destruct (Hv v eq_refl).
    unfold jnested at 1. change (JList (map (jnested jfloats) v)) with (jnested (jnested jfloats) v).
    rewrite read_jvalues by done. reflexivity.
  Qed.

  Record core (o : lce_obj S C) : Prop := {
    k_name : exists j, dget o "name" = Some (AJson j) /\ Json.truthy j = true;
    k_basis : exists b, dget o "basis" = Some (ABasis b)
        /\ match b with ChebyshevBasis n => (2 <= n)%Z | _ => True end
        /\ (uses_state_indices b = true ->
            given o "correlation_basis_indices" = true /\ given o "site_basis_values" = true);
    k_orbits : forall l, dget o "orbits" = Some (AOrbits l) -> Forall orbit_ok l
        /\ exists fps, get_orbit_fingerprints w o = Ok fps
           /\ match value_of o "correlation_feature_metadata" with
              | None => fps = map (fingerprint w) l \/ length fps <> length l
              | Some (AJson j) => nested (decorated_fingerprint w l) j = Ok fps
              | Some _ => False
              end;
    k_table : exists t, dget o "cluster_site_indices" = Some (ATable t);
    k_decorations : match value_of o "correlation_basis_indices" with
                    | None | Some (ATable _) => True | _ => False end;
    k_values : match value_of o "site_basis_values" with
               | None => True
               | Some (AValues v) => regular v = true /\ regular (List.concat v) = true
               | _ => False end;
    k_order : exists r, dget o "local_site_order" = Some (AOrder r);
    k_env : forall s, dget o "local_env_structure" = Some (AStructure s) ->
        (exists j, dget o "local_environment_signature" = Some (AJson j))
        /\ exists j, dget o "local_environment_hash" = Some (AJson j);
  }.

  Lemma value_of_None (o : lce_obj S C) k : value_of o k = None -> given o k = false.
  Proof. unfold value_of, given. destruct (dget o k) as [[[]| | | | | | | |]|]; done. Qed.
  Lemma value_of_Some (o : lce_obj S C) k a : value_of o k = Some a -> dget o k = Some a /\ given o k = true.
  Proof. unfold value_of, given. destruct (dget o k) as [[[]| | | | | | | |]|]; intros [= <-]; done. Qed.

  Lemma decorated_plain l j : decorated_fingerprint w (map (plain_orbit w) l) j = decorated_fingerprint w l j.
  Proof.
    unfold decorated_fingerprint. destruct (py_obj j) as [d|]; [|done]. cbn [rbind].
    destruct (dgetitem d "orbit_index") as [i|]; [|done]. cbn [rbind]. destruct (py_int i) as [i'|]; [|done]. cbn [rbind].
    unfold py_get. rewrite map_length. destruct (py_norm (length l) i') as [k|]; [|done].
    rewrite list_lookup_fmap. destruct (l !! k) as [b|]; [|done]. cbn [fmap option_fmap option_map rbind].
    by rewrite fingerprint_plain.
  Qed.
  Lemma nested_ext {A} (f g : json -> result A) j : (forall x, f x = g x) -> nested f j = nested g j.
  Proof. intros H. unfold nested. destruct (py_list j); [|done]. cbn [rbind]. apply rmapM_ext. intros; apply H. Qed.

  Ltac mem := first [apply elem_of_list_here | apply elem_of_list_further; mem].
  Ltac dg := repeat first [ rewrite dget_dset_eq | rewrite dget_dset_ne by discriminate
                          | rewrite dget_cset_eq | rewrite dget_cset_ne by discriminate ].

  Theorem reload_core o d : core o -> lce_as_dict w o = Ok d ->
    exists o', lce_from_dict w d = Ok o' /\ same_expansion w o o'
      /\ Forall (fun k => dget o' k = None)
           ["keci"; "empty_cluster"; "parameter_orbit_fingerprints"; "parameter_local_environment_hash"].
  Proof.
    intros [(jn & Hn & Tn) (b & Hb & Bb & Ub) Ho (t & Ht) Hc Hv (r & Hr) He] Hd.
    unfold lce_as_dict in Hd. rewrite Ht in Hd. cbn [as_table rbind] in Hd.
    assert (exists bi, as_table (dget o "correlation_basis_indices") = Ok bi
              /\ value_of o "correlation_basis_indices" = option_map ATable bi) as (bi & Ebi & Vbi).
    { destruct (value_of o "correlation_basis_indices") as [[]|] eqn:E; try done.
      - apply value_of_Some in E as [E _]. rewrite E. by eexists (Some _).
      - exists None. split; [|done]. revert E. unfold value_of, as_table. destruct (dget o "correlation_basis_indices") as [[[]| | | | | | | |]|]; done. }
    rewrite Ebi in Hd. cbn [rbind] in Hd. unfold attribute in Hd. rewrite Hn, Hb in Hd. cbn [rbind] in Hd.
    destruct (dget o "orbits") as [a|] eqn:Eo; [|done]. cbn [rbind] in Hd. destruct a as [|l| | | | | | |]; try done. cbn [rbind] in Hd.
    destruct (Ho l eq_refl) as (Hl & fps & Ef & Hf). rewrite Ef in Hd. cbn [rbind] in Hd.
    destruct (dget o "center_site") as [a|] eqn:Ec; [|done]. cbn [rbind] in Hd. destruct a as [| |c| | | | | |]; try done. cbn [rbind] in Hd.
    destruct (dget o "local_env_structure") as [a|] eqn:Es; [|done]. cbn [rbind] in Hd. destruct a as [| | |s| | | | |]; try done. cbn [rbind] in Hd.
    apply rbind_ok in Hd as (counts & Ecounts & Hd).
    assert (exists v, (match dget o "site_basis_values" with Some (AValues v) => Ok (Some v) | Some (AJson JNull) | None => Ok None | Some _ => Err AttributeError end) = Ok v
              /\ value_of o "site_basis_values" = option_map AValues v
              /\ (forall v', v = Some v' -> regular v' = true /\ regular (List.concat v') = true)) as (v & Ev & Vv & Rv).
    { destruct (value_of o "site_basis_values") as [[]|] eqn:E; try done.
      - apply value_of_Some in E as [E _]. rewrite E. eexists (Some _). split_and!; [done|done|]. by intros v' [= <-].
      - exists None. split_and!; [|done|done]. revert E. unfold value_of. destruct (dget o "site_basis_values") as [[[]| | | | | | | |]|]; done. }
    rewrite Ev in Hd. cbn [rbind] in Hd.
    assert (exists me, plain (if given o "correlation_feature_metadata" then dget o "correlation_feature_metadata" else None) = Ok me
              /\ value_of o "correlation_feature_metadata" = option_map AJson me /\ me <> Some JNull) as (me & Eme & Vme & Nme).
    { destruct (value_of o "correlation_feature_metadata") as [[]|] eqn:E; try done.
      - assert (j <> JNull) by (intros ->; revert E; unfold value_of; destruct (dget o "correlation_feature_metadata") as [[[]| | | | | | | |]|]; done).
        apply value_of_Some in E as [E ->]. rewrite E. exists (Some j). split_and!; [done|done|congruence].
      - exists None. apply value_of_None in E as ->. done. }
    rewrite Eme in Hd. cbn [rbind] in Hd. rewrite Hr in Hd. cbn [rbind] in Hd.
    destruct (He s eq_refl) as ((js & Ejs) & (jh & Ejh)). rewrite Ejs, Ejh in Hd. cbn [plain rbind] in Hd.
    injection Hd as <-.
    set (base := [("@module", JStr "kmcpy.models.local_cluster_expansion"); ("@class", JStr "LocalClusterExpansion"); ("name", jn);
                  ("basis", JObj (basis_as_dict b)); ("orbits", JList (map (fun b => JObj (orbit_as_dict w b)) l));
                  ("orbit_fingerprints", jtexts fps); ("cluster_site_indices", jtable t); ("center_site", JObj (x_site_as_dict w c));
                  ("migration_unit_structure", JObj (x_structure_as_dict w s))]).
    set (O1 := dset (dset (dset (dset (dset (dset (dset [] "name" (AJson jn)) "basis" (ABasis b)) "orbits" (AOrbits (map (plain_orbit w) l)))
                 "orbit_fingerprints" (AJson (jtexts fps))) "cluster_site_indices" (AJson (jtable t))) "center_site" (ACenter c))
                 "local_env_structure" (AStructure s) : lce_obj S C).
    assert (Hbase : forall rest, rfold (set_entry w) [] (base ++ rest)%list = rfold (set_entry w) O1 rest).
    { intros rest. unfold base. cbn [app rfold].
      change (set_entry w [] ("@module", JStr "kmcpy.models.local_cluster_expansion")) with (@Ok (lce_obj S C) []). cbn [rbind].
      change (set_entry w [] ("@class", JStr "LocalClusterExpansion")) with (@Ok (lce_obj S C) []). cbn [rbind].
      change (set_entry w [] ("name", jn)) with (@Ok (lce_obj S C) (dset [] "name" (AJson jn))). cbn [rbind].
      match goal with |- context [set_entry w ?o ("basis", JObj ?d)] =>
        change (set_entry w o ("basis", JObj d)) with (let* b := basis_from_dict d in Ok (dset o "basis" (ABasis b)) : result (lce_obj S C)) end.
      rewrite BasisProofs.dict_lemma by done. cbn [rbind].
      match goal with |- context [set_entry w ?o ("orbits", ?d)] =>
        change (set_entry w o ("orbits", d)) with (let* l := nested (orbit_from_dict w) d in Ok (dset o "orbits" (AOrbits l)) : result (lce_obj S C)) end.
      rewrite orbits_back by done. cbn [rbind].
      match goal with |- context [set_entry w ?o ("orbit_fingerprints", ?d)] =>
        change (set_entry w o ("orbit_fingerprints", d)) with (Ok (dset o "orbit_fingerprints" (AJson d)) : result (lce_obj S C)) end. cbn [rbind].
      match goal with |- context [set_entry w ?o ("cluster_site_indices", ?d)] =>
        change (set_entry w o ("cluster_site_indices", d)) with (Ok (dset o "cluster_site_indices" (AJson d)) : result (lce_obj S C)) end. cbn [rbind].
      match goal with |- context [set_entry w ?o ("center_site", ?d)] =>
        change (set_entry w o ("center_site", d)) with (let* c := x_site_from_dict w d in Ok (dset o "center_site" (ACenter c)) : result (lce_obj S C)) end.
      rewrite (site_back w W). cbn [rbind].
      match goal with |- context [set_entry w ?o ("migration_unit_structure", JObj ?d)] =>
        change (set_entry w o ("migration_unit_structure", JObj d))
          with (let* s := (match dget d "@class" with
                     | Some (JStr "Molecule") => x_molecule_env_from_dict w d
                     | _ => x_structure_from_dict w d
                     end) in Ok (dset o "local_env_structure" (AStructure s)) : result (lce_obj S C)) end.
      rewrite (structure_back w W). cbn [rbind]. reflexivity. }
    unfold lce_from_dict.
    match goal with |- context [rfold (set_entry w) [] ?dd] => change dd with (base ++
        (entry_if "basis_site_state_counts" jints counts ++ entry_if "correlation_basis_indices" jtable bi
         ++ entry_if "site_basis_values" (jnested (jnested jfloats)) v ++ entry_if "correlation_feature_metadata" (fun j => j) me
         ++ [("local_site_order", JObj (local_order_as_dict r)); ("local_environment_signature", js); ("local_environment_hash", jh)]))%list end.
    rewrite Hbase. clear Hbase base.
    rewrite !fold_plain by (intros; reflexivity). cbn [rfold].
    match goal with |- context [set_entry w ?o ("local_site_order", JObj ?d)] =>
      change (set_entry w o ("local_site_order", JObj d)) with (let* r := local_order_from_dict d in Ok (dset o "local_site_order" (AOrder r)) : result (lce_obj S C)) end.
    rewrite order_roundtrip_lemma. cbn [rbind].
    match goal with |- context [set_entry w ?o ("local_environment_signature", ?d)] =>
      change (set_entry w o ("local_environment_signature", d)) with (Ok (dset o "local_environment_signature" (AJson d)) : result (lce_obj S C)) end. cbn [rbind].
    match goal with |- context [set_entry w ?o ("local_environment_hash", ?d)] =>
      change (set_entry w o ("local_environment_hash", d)) with (Ok (dset o "local_environment_hash" (AJson d)) : result (lce_obj S C)) end. cbn [rbind].
    match goal with |- context [convert_arrays ?o] => rewrite (convert_ok o t bi v) end.
    2:{ unfold O1. by dg. }
    2:{ unfold O1. dg. by destruct bi. }
    2:{ unfold O1. dg. by destruct v. }
    2:done.
    cbn [rbind].
    match goal with |- context [default_basis ?o] => set (O2 := o) end.
    assert (D1 : dget O2 "name" = Some (AJson jn)) by (unfold O2, O1; by dg).
    assert (D2 : dget O2 "basis" = Some (ABasis b)) by (unfold O2, O1; by dg).
    assert (D3 : dget O2 "orbits" = Some (AOrbits (map (plain_orbit w) l))) by (unfold O2, O1; by dg).
    assert (D4 : dget O2 "orbit_fingerprints" = Some (AJson (jtexts fps))) by (unfold O2, O1; by dg).
    assert (D5 : dget O2 "cluster_site_indices" = Some (ATable t)) by (unfold O2, O1; by dg).
    assert (D6 : dget O2 "center_site" = Some (ACenter c)) by (unfold O2, O1; by dg).
    assert (D7 : dget O2 "local_env_structure" = Some (AStructure s)) by (unfold O2, O1; by dg).
    assert (D8 : dget O2 "correlation_basis_indices" = option_map ATable bi) by (unfold O2, O1; dg; by destruct bi).
    assert (D9 : dget O2 "site_basis_values" = option_map AValues v) by (unfold O2, O1; dg; by destruct v).
    assert (D10 : dget O2 "correlation_feature_metadata" = option_map AJson me) by (unfold O2, O1; dg; by destruct me).
    assert (D11 : dget O2 "local_site_order" = Some (AOrder r)) by (unfold O2, O1; by dg).
    assert (D12 : dget O2 "local_environment_signature" = Some (AJson js)) by (unfold O2, O1; by dg).
    assert (D13 : dget O2 "local_environment_hash" = Some (AJson jh)) by (unfold O2, O1; by dg).
    assert (D14 : dget O2 "correlation_fingerprints" = None) by (unfold O2, O1; by dg).
    assert (D15 : dget O2 "keci" = None) by (unfold O2, O1; by dg).
    assert (D16 : dget O2 "empty_cluster" = None) by (unfold O2, O1; by dg).
    assert (D17 : dget O2 "parameter_orbit_fingerprints" = None) by (unfold O2, O1; by dg).
    assert (D18 : dget O2 "parameter_local_environment_hash" = None) by (unfold O2, O1; by dg).
    clearbody O2. clear O1.
    unfold default_basis, has, din. rewrite D2. cbn [rbind].
    assert (check_decorations O2 = Ok tt) as ->.
    { unfold check_decorations. rewrite D2. destruct (uses_state_indices b) eqn:Eu; [|done].
      destruct (Ub eq_refl) as [G1 G2]. unfold given at 1 2. rewrite D8, D9.
      destruct bi as [bi|]; [destruct v as [v|]|]; [by rewrite andb_false_r| |]; exfalso.
      - apply value_of_None in Vv. congruence.
      - apply value_of_None in Vbi. congruence. }
    cbn [rbind]. unfold default_name. rewrite D1, Tn. unfold default_order_attr, has, din. rewrite D11. cbn [rbind].
    unfold default_signature, has, din. rewrite D12. cbn [rbind]. unfold default_hash, has, din. rewrite D13.
    unfold reconcile. rewrite D3. unfold stored_fingerprints. rewrite D4. change (py_list (jtexts fps)) with (@Ok (list json) (map JStr fps)). cbn [jtexts rbind].
    unfold has, din. rewrite D14.
    assert (HF : forall O3, (forall k, k <> "correlation_fingerprints" -> k <> "orbit_fingerprints" -> dget O3 k = dget O2 k) ->
                get_orbit_fingerprints w O3 = Ok fps ->
                same_expansion w o O3 /\ Forall (fun k => dget O3 k = None)
           ["keci"; "empty_cluster"; "parameter_orbit_fingerprints"; "parameter_local_environment_hash"]).
    { intros O3 HO HG. split.
      - split.
        + exists l. split; [done|]. by rewrite HO by discriminate.
        + congruence.
        + repeat apply Forall_cons_2; [..|apply Forall_nil_2].
          * unfold value_of. rewrite HO by discriminate. by rewrite D5, Ht.
          * rewrite Vbi. unfold value_of. rewrite HO by discriminate. rewrite D8. by destruct bi.
          * rewrite Vv. unfold value_of. rewrite HO by discriminate. rewrite D9. by destruct v.
          * rewrite Vme. unfold value_of. rewrite HO by discriminate. rewrite D10. destruct me as [[]|]; done.
          * unfold value_of. rewrite HO by discriminate. by rewrite D2, Hb.
          * unfold value_of. rewrite HO by discriminate. by rewrite D11, Hr.
          * unfold value_of. rewrite HO by discriminate. by rewrite D7, Es.
          * unfold value_of. rewrite HO by discriminate. by rewrite D6, Ec.
          * unfold value_of. rewrite HO by discriminate. by rewrite D12, Ejs.
          * unfold value_of. rewrite HO by discriminate. by rewrite D13, Ejh.
          * unfold value_of. rewrite HO by discriminate. by rewrite D1, Hn.
      - repeat apply Forall_cons_2; [..|apply Forall_nil_2]; rewrite HO by discriminate; done. }
    assert (HD : forall x O3, dget O3 "orbit_fingerprints" = Some x \/ True -> get_orbit_fingerprints w (dset O3 "orbit_fingerprints" (ATexts fps)) = get_orbit_fingerprints w O3).
    { intros x O3 _. unfold get_orbit_fingerprints. by rewrite !dget_dset_ne by discriminate. }
    destruct me as [jm|].
    - assert (given O2 "correlation_feature_metadata" = true) as ->.
      { unfold given. rewrite D10. destruct jm; done. }
      rewrite D10. cbn [option_map].
      rewrite (nested_ext _ (decorated_fingerprint w l)) by apply decorated_plain.
      rewrite Vme in Hf. cbn [option_map] in Hf. rewrite Hf. cbn [rbind].
      unfold get_orbit_fingerprints at 1. dg. cbn [rbind]. rewrite texts_are_jtexts.
      eexists. split; [reflexivity|]. apply HF.
      + intros k N1 N2. by rewrite !dget_dset_ne.
      + unfold get_orbit_fingerprints. by dg.
    - assert (given O2 "correlation_feature_metadata" = false) as ->.
      { unfold given. by rewrite D10. }
      rewrite Vme in Hf. cbn [option_map] in Hf. rewrite !map_length.
      destruct (Nat.eqb_spec (length fps) (length l)) as [El|El].
      + destruct Hf as [->|Hf]; [|done]. cbn [rbind]. unfold get_orbit_fingerprints at 1. rewrite D14, D3. cbn [rbind].
        rewrite fingerprints_plain, texts_are_jtexts.
        eexists. split; [reflexivity|]. apply HF.
        * intros k N1 N2. by rewrite !dget_dset_ne.
        * unfold get_orbit_fingerprints. dg. rewrite D14, D3.
          by rewrite fingerprints_plain.
      + rewrite rmapM_map. rewrite (rmapM_id _ (fun s => s)) by done. rewrite map_id. cbn [rbind].
        unfold get_orbit_fingerprints at 1. dg. cbn [rbind]. rewrite texts_are_jtexts.
        eexists. split; [reflexivity|]. apply HF.
        * intros k N1 N2. by rewrite !dget_dset_ne.
        * unfold get_orbit_fingerprints. by dg.
  Qed.

  (* ---------------------------------------------------------------- *)
  (** ** Objects that arise *)

  Definition parameter_keys : list string := ["keci"; "empty_cluster"; "parameter_orbit_fingerprints"; "parameter_local_environment_hash"].
  Lemma set_parameters_keeps o p o' k : file_set_parameters w o p = Ok o' -> ~ In k parameter_keys -> dget o' k = dget o k.
  Proof.
    unfold file_set_parameters. intros H Hk. apply rbind_ok in H as (keci & _ & H). apply rbind_ok in H as (empty & _ & H).
    apply rbind_ok in H as (values & _ & H). apply rbind_ok in H as (? & _ & H). apply rbind_ok in H as (fps & _ & H).
    apply rbind_ok in H as (features & _ & H). apply rbind_ok in H as (? & _ & H). injection H as <-.
    rewrite !dget_dset_ne; [done|..]; intros <-; apply Hk; simpl; tauto.
  Qed.
  Lemma not_parameter k : forallb (fun k' => negb (String.eqb k k')) parameter_keys = true -> ~ In k parameter_keys.
  Proof. intros H Hin. rewrite forallb_forall in H. specialize (H k Hin). by rewrite String.eqb_refl in H. Qed.
  Lemma core_set o p o' : core o -> file_set_parameters w o p = Ok o' -> core o'.
  Proof.
    intros [H1 H2 H3 H4 H5 H6 H7 H8] Hs.
    pose proof (fun k => set_parameters_keeps o p o' k Hs) as K. clear Hs.
    assert (E1 := K "name" (not_parameter "name" eq_refl)). assert (E2 := K "basis" (not_parameter "basis" eq_refl)). assert (E3 := K "orbits" (not_parameter "orbits" eq_refl)).
    assert (E4 := K "cluster_site_indices" (not_parameter "cluster_site_indices" eq_refl)). assert (E5 := K "correlation_fingerprints" (not_parameter "correlation_fingerprints" eq_refl)).
    assert (E6 := K "local_env_structure" (not_parameter "local_env_structure" eq_refl)). assert (E7 := K "correlation_basis_indices" (not_parameter "correlation_basis_indices" eq_refl)).
    assert (E8 := K "site_basis_values" (not_parameter "site_basis_values" eq_refl)). assert (E9 := K "correlation_feature_metadata" (not_parameter "correlation_feature_metadata" eq_refl)).
    assert (E10 := K "local_site_order" (not_parameter "local_site_order" eq_refl)). assert (E11 := K "local_environment_signature" (not_parameter "local_environment_signature" eq_refl)).
    assert (E12 := K "local_environment_hash" (not_parameter "local_environment_hash" eq_refl)). clear K.
    assert (G : get_orbit_fingerprints w o' = get_orbit_fingerprints w o) by (unfold get_orbit_fingerprints; by rewrite E3, E5).
    split; unfold value_of, given in *.
    - by rewrite E1.
    - by rewrite E2, E7, E8.
    - by rewrite G, E3, E9.
    - by rewrite E4.
    - by rewrite E7.
    - by rewrite E8.
    - by rewrite E10.
    - by rewrite E6, E11, E12.
  Qed.

  (** *** Built *)
  Definition made (env : local_env point) (c : cluster) : Prop :=
    exists s sp co, rmapM (at_nat (e_species env)) s = Ok sp /\ rmapM (at_nat (e_coords env)) s = Ok co
      /\ cluster_new (x_distance w) (Some (map Z.of_nat s)) sp co None None = Ok c.
  Lemma clusters_made env idx cut cs : build_clusters (x_distance w) env idx cut = Ok cs -> Forall (made env) cs.
  Proof.
    unfold build_clusters. intros H. apply rbind_ok in H as (? & _ & H). apply rbind_ok in H as (? & _ & H). apply rbind_ok in H as (? & _ & H).
    assert (G : forall acc, Forall (made env) acc -> forall l, rfold (fun clusters site_indices =>
             let* species := rmapM (at_nat (e_species env)) site_indices in
             let* coords := rmapM (at_nat (e_coords env)) site_indices in
             let* c := cluster_new (x_distance w) (Some (map Z.of_nat site_indices)) species coords None None in
             let* m := max_length c in
             let* cut := at_nat cut (length (cl_indices c) - 1) in
             Ok (if Qle_bool cut m then clusters else clusters ++ [c])%list) acc l = Ok cs -> Forall (made env) cs).
    { intros acc Ha l. revert acc Ha. induction l as [|s l IH]; intros acc Ha Hl; cbn [rfold] in Hl; [by injection Hl as <-|].
      apply rbind_ok in Hl as (acc' & H1 & Hl). apply (IH acc'); [|done].
      apply rbind_ok in H1 as (sp & Hsp & H1). apply rbind_ok in H1 as (co & Hco & H1). apply rbind_ok in H1 as (c & Hc & H1).
      apply rbind_ok in H1 as (m & _ & H1). apply rbind_ok in H1 as (q & _ & H1). injection H1 as <-.
      destruct (Qle_bool q m); [done|]. apply Forall_app; split; [done|]. constructor; [|done]. by exists s, sp, co. }
    by apply (G [] ltac:(done) idx).
  Qed.
  Lemma orbits_made env cutoff os : build_orbits_of (x_round8 w) (x_distance w) env cutoff = Ok os -> Forall (Forall (made env)) os.
  Proof.
    unfold build_orbits_of. intros H. apply rbind_ok in H as (cs & Hc & H). injection H as <-. apply clusters_made in Hc.
    pose proof (build_orbits_permutation (cluster_eq (x_round8 w)) cs) as Hp.
    rewrite <- Hp in Hc. revert Hc. generalize (build_orbits (cluster_eq (x_round8 w)) cs). clear. intros l.
    induction l as [|o l IH]; [done|]. simpl. intros [H1 H2]%Forall_app. constructor; [done|by apply IH].
  Qed.

  Lemma sites_of env s sp co :
    rmapM (at_nat (e_species env)) s = Ok sp -> rmapM (at_nat (e_coords env)) s = Ok co ->
    rmapM (fun i => let* s := py_get (e_species env) i in let* x := py_get (e_coords env) i in Ok (s, x)) (map Z.of_nat s) = Ok (zip sp co : list (string * point))
    /\ length sp = length co /\ (Forall (canonical w) (zip (e_species env) (e_coords env)) -> Forall (canonical w) (zip sp co)).
  Proof.
    revert sp co. induction s as [|i s IH]; intros sp co Hs Hc; cbn [rmapM map] in *.
    - injection Hs as <-. injection Hc as <-. split_and!; [done|done|]. intros _. constructor.
    - apply rbind_ok in Hs as (a & Ha & Hs). apply rbind_ok in Hs as (sp' & Hsp & Hs). injection Hs as <-.
      apply rbind_ok in Hc as (x & Hx & Hc). apply rbind_ok in Hc as (co' & Hco & Hc). injection Hc as <-.
      unfold at_nat in Ha, Hx. destruct (e_species env !! i) eqn:Ea; [|done]. injection Ha as <-.
      destruct (e_coords env !! i) eqn:Ex; [|done]. injection Hx as <-.
      destruct (IH sp' co' Hsp Hco) as (E & L & F).
      rewrite (proj2 (py_get_nonneg (e_species env) (Z.of_nat i) s0 ltac:(lia))) by (by rewrite Nat2Z.id). cbn [rbind].
      rewrite (proj2 (py_get_nonneg (e_coords env) (Z.of_nat i) p ltac:(lia))) by (by rewrite Nat2Z.id). cbn [rbind].
      rewrite E. cbn [rbind]. split_and!; [done|simpl; lia|]. intros HF. simpl. constructor; [|by apply F].
      rewrite Forall_forall in HF. apply HF. apply elem_of_list_lookup. exists i. by apply zip_lookup.
  Qed.

  Lemma object_made env c o : Forall (canonical w) (zip (e_species env) (e_coords env)) ->
    made env c -> object_of w env c = Ok o -> co_cluster o = c /\ cluster_ok o.
  Proof.
    intros HF (s & sp & co & Hs & Hc & Hn) Ho. destruct (sites_of env s sp co Hs Hc) as (E & L & F).
    assert (Ei : cl_indices c = map Z.of_nat s).
    { unfold cluster_new in Hn. repeat match type of Hn with context [negb (Nat.eqb ?a ?b)] => destruct (Nat.eqb_spec a b); cbn [negb] in Hn; [|done] end.
      injection Hn as <-. done. }
    unfold object_of in Ho. rewrite Ei, E in Ho. cbn [rbind] in Ho. split.
    - unfold cluster_init in Ho. change (list (string * point)) with (list (prod string point)) in *.
      assert (E1 : map fst (zip sp co) = sp) by (change (map fst) with (fmap (M:=list) (@fst string point)); apply fst_zip; lia).
      assert (E2 : map snd (zip sp co) = co) by (change (map snd) with (fmap (M:=list) (@snd string point)); apply snd_zip; lia).
      rewrite E1, E2, Hn in Ho. cbn [rbind] in Ho. rewrite replicate_length, Nat.eqb_refl in Ho. cbn [negb] in Ho.
      apply rbind_ok in Ho as (nm & _ & Ho). apply rbind_ok in Ho as ([[hi lo] bo] & _ & Ho). injection Ho as <-. done.
    - eapply cluster_init_ok; [|exact Ho]. by apply F.
  Qed.

  Lemma objects_made env os objects : Forall (canonical w) (zip (e_species env) (e_coords env)) -> Forall (Forall (made env)) os ->
    rmapM (fun orbit => let* l := rmapM (object_of w env) orbit in Ok (OrbitObj l (Z.of_nat (length l)))) os = Ok objects ->
    Forall orbit_ok objects /\ map (fingerprint w) objects = map (orbit_fingerprint w) os.
  Proof.
    intros HF Hm Hr. apply rmapM_ok in Hr. revert Hm. induction Hr as [|o b os objects Ho Hr IH]; intros Hm; [done|].
    apply Forall_cons in Hm as [Hm1 Hm2]. destruct (IH Hm2) as [I1 I2]. simpl in Ho. apply rbind_ok in Ho as (l & Hl & Ho). injection Ho as <-.
    apply rmapM_ok in Hl.
    assert (G : Forall cluster_ok l /\ map co_cluster l = o).
    { clear - HF Hm1 Hl. induction Hl as [|c b o l Hc Hl IH]; [done|]. apply Forall_cons in Hm1 as [M1 M2].
      destruct (IH M2) as [J1 J2]. destruct (object_made env c b HF M1 Hc) as [K1 K2]. simpl. rewrite J2, K1. split; [by constructor|done]. }
    destruct G as [G1 G2]. split; [by constructor|]. cbn [map]. rewrite I2. f_equal.
    unfold fingerprint, orbit_fingerprint. cbn [ob_clusters ob_multiplicity]. rewrite <- G2, map_map. by rewrite map_length.
  Qed.

  Lemma rmapM_concat {A B} (f : A -> result B) (ls : list (list A)) rs :
    Forall2 (fun l r => rmapM f l = Ok r) ls rs -> rmapM f (List.concat ls) = Ok (List.concat rs).
  Proof.
    assert (G : forall l r l' r', rmapM f l = Ok r -> rmapM f l' = Ok r' -> rmapM f (l ++ l')%list = Ok (r ++ r')%list).
    { intros l. induction l as [|x l IH]; intros r l' r' H1 H2; cbn [rmapM app] in *; [by injection H1 as <-|].
      apply rbind_ok in H1 as (y & Hy & H1). apply rbind_ok in H1 as (r1 & Hr1 & H1). injection H1 as <-.
      rewrite Hy. cbn [rbind]. by rewrite (IH r1 l' r'). }
    induction 1 as [|l r ls rs H1 H2 IH]; [done|]. simpl. by apply G.
  Qed.

  Lemma orbit_decorated b counts objects i ob orbit ms fs :
    objects !! i = Some ob -> fingerprint w ob = orbit_fingerprint w orbit ->
    orbit_metadata b counts (i, orbit) = Ok ms ->
    orbit_features (orbit_fingerprint w) (feature_fingerprint w) b counts orbit = Ok fs ->
    rmapM (decorated_fingerprint w objects) ms = Ok (map snd fs).
  Proof.
    intros Hi Hf Hm Hs. unfold orbit_metadata in Hm. unfold orbit_features in Hs.
    destruct (at_nat orbit 0) as [r|]; [|done]. cbn [rbind] in Hm, Hs.
    destruct (positions_counts b counts orbit (length (cl_indices r))) as [bc|]; [|done]. cbn [rbind] in Hm, Hs.
    revert ms fs Hm Hs. generalize (product (map (fun count => seq 0 count) bc)). intros l.
    induction l as [|d l IH]; intros ms fs Hm Hs; cbn [rmapM] in Hm, Hs.
    - injection Hm as <-. injection Hs as <-. done.
    - destruct (rmapM (py_get counts) (cl_indices r)) as [st|] eqn:Es; [|done]. cbn [rbind] in Hm, Hs.
      apply rbind_ok in Hm as (ms' & Hm & E). injection E as <-. apply rbind_ok in Hs as (fs' & Hs & E). injection E as <-.
      cbn [rmapM map]. unfold decorated_fingerprint at 1. cbn [py_obj rbind].
      change (dgetitem _ "orbit_index") with (@Ok json (JInt (Z.of_nat i))). cbn [rbind py_int].
      rewrite (proj2 (py_get_nonneg objects (Z.of_nat i) ob ltac:(lia))) by (by rewrite Nat2Z.id). cbn [rbind].
      change (dgetitem _ "basis_indices") with (@Ok json (jints (map Z.of_nat d))). cbn [rbind].
      change (dgetitem _ "site_state_counts") with (@Ok json (jints (map Z.of_nat st))). cbn [rbind].
      rewrite (IH ms' fs') by done. cbn [rbind snd]. by rewrite Hf.
  Qed.

  Lemma core_built env structure center order signature cutoff o :
    Forall (canonical w) (zip (e_species env) (e_coords env)) ->
    (forall n, e_basis env = ChebyshevBasis n -> (2 <= n)%Z) ->
    build_obj w env structure center order signature cutoff = Ok o -> core o.
  Proof.
    intros HF Hb H. unfold build_obj in H. apply rbind_ok in H as (os & Hos & H). apply rbind_ok in H as (objects & Hob & H).
    apply rbind_ok in H as (m & Hm & H). apply rbind_ok in H as (counts & Hc & H). apply rbind_ok in H as (deco & Hd & H). 
    pose proof (orbits_made env cutoff os Hos) as Hmade. destruct (objects_made env os objects HF Hmade Hob) as [Ook Ofp].
    unfold configure_correlation_terms in Hm. rewrite Hc in Hm. cbn [rbind] in Hm.
    destruct (uses_state_indices (e_basis env)) eqn:U; cbn [negb] in Hm.
    - apply rbind_ok in Hm as (values & Hv & Hm). apply rbind_ok in Hm as (feats & Hfe & Hm). injection Hm as <-.
      cbn [l_decorations l_sites l_features] in *. apply rbind_ok in Hd as (v & Hfv & Hd). apply rbind_ok in Hd as (md & Hmd & Hd).
      injection Hd as <-. injection H as <-. destruct (values_regular w W _ _ _ Hfv) as [R1 R2]. split.
      + by eexists.
      + eexists. split; [reflexivity|]. split; [|done]. destruct (e_basis env); [done|]. by apply Hb.
      + intros l E. injection E as <-. split; [done|]. eexists. split; [reflexivity|].
        change (nested (decorated_fingerprint w objects) (JList (List.concat md)) = Ok (map snd (List.concat feats))).
        unfold nested. cbn [py_list rbind].
        assert (G : Forall2 (fun ms fs => rmapM (decorated_fingerprint w objects) ms = Ok (map snd fs)) md feats).
        { apply rmapM_ok in Hmd. apply rmapM_ok in Hfe. apply Forall2_same_length_lookup_2.
          - apply Forall2_length in Hmd. apply Forall2_length in Hfe. rewrite <- Hmd, <- Hfe. apply enum_from_length.
          - intros i ms fs Hi1 Hi2. destruct (Forall2_lookup_r _ _ _ _ _ Hmd Hi1) as ([i' orbit] & He & E1).
            rewrite enumerate_lookup in He. destruct (os !! i) as [orbit'|] eqn:Eo; [|done]. injection He as <- <-.
            destruct (Forall2_lookup_l _ _ _ _ _ Hfe Eo) as (fs' & Hfs' & E2). rewrite Hi2 in Hfs'. injection Hfs' as <-.
            assert (exists ob, objects !! i = Some ob /\ fingerprint w ob = orbit_fingerprint w orbit') as (ob & O1 & O2).
            { assert (Em : map (fingerprint w) objects !! i = map (orbit_fingerprint w) os !! i) by (by rewrite Ofp).
              rewrite !list_lookup_fmap, Eo in Em. destruct (objects !! i) as [ob|]; [|done]. injection Em as Em. by exists ob. }
            by eapply orbit_decorated. }
        rewrite (rmapM_concat _ md (map (map snd) feats)); [by rewrite concat_map|].
        clear - G. induction G; simpl; by constructor.
      + by eexists.
      + done.
      + simpl. done.
      + by eexists.
      + intros s E. injection E as <-. split; by eexists.
    - injection Hm as <-. cbn [l_decorations l_sites l_features] in *. injection Hd as <-. injection H as <-. split.
      + by eexists.
      + eexists. split; [reflexivity|]. split; [destruct (e_basis env); [done|]; by apply Hb|]. intros U'. congruence.
      + intros l E. injection E as <-. split; [done|]. eexists. split; [reflexivity|]. left. by rewrite Ofp.
      + by eexists.
      + done.
      + done.
      + by eexists.
      + intros s E. injection E as <-. split; by eexists.
  Qed.

  (** *** Read from a file *)
  Definition basis_ok (b : basis) : Prop := match b with ChebyshevBasis n => (2 <= n)%Z | _ => True end.
  Lemma cheb_new_ok n b : cheb_new n = Ok b -> basis_ok b.
  Proof. unfold cheb_new. destruct (n <? 2)%Z eqn:E; [done|]. intros [= <-]. apply Z.ltb_ge in E. done. Qed.

  Definition specials : list string := ["orbits"; "center_site"; "local_env_structure"; "template_structure"; "basis"; "local_site_order"].
  Definition typed (k : string) (a : attr S C) : Prop :=
    (k = "orbits" -> exists l, a = AOrbits l /\ Forall orbit_ok l)
    /\ (k = "basis" -> exists b, a = ABasis b /\ basis_ok b)
    /\ (k = "local_site_order" -> exists r, a = AOrder r)
    /\ (~ In k specials -> exists j, a = AJson j).
  Definition all_typed (o : lce_obj S C) : Prop := forall k a, dget o k = Some a -> typed k a.

  Lemma typed_set o k a : all_typed o -> typed k a -> all_typed (dset o k a).
  Proof.
    intros H Hk k' a' E. destruct (String.eqb_spec k k') as [->|N].
    - rewrite dget_dset_eq in E. by injection E as <-.
    - rewrite dget_dset_ne in E by done. by apply H.
  Qed.
  Lemma basis_read_ok d b : basis_from_dict d = Ok b -> basis_ok b.
  Proof.
    assert (G : forall c kw, basis_of_class c kw = Ok b -> basis_ok b).
    { intros [] kw; unfold basis_of_class.
      - destruct kw as [|[k j] [|]]; [apply cheb_new_ok| |done]. destruct (String.eqb k "max_states"); [|done].
        intros H. apply rbind_ok in H as (z & _ & H). by eapply cheb_new_ok.
      - destruct kw; [|done]. by intros [= <-]. }
    unfold basis_from_dict. cbv zeta. intros H.
    repeat match type of H with
    | match ?x with _ => _ end = _ => destruct x; try done; try (by eapply G; exact H)
    end.
  Qed.
  Lemma set_entry_typed o kv o' : all_typed o -> set_entry w o kv = Ok o' -> all_typed o'.
  Proof.
    destruct kv as [k j]. intros H E. unfold set_entry in E.
    destruct (is_meta k); [by injection E as <-|].
    destruct (String.eqb_spec k "orbits").
    { apply rbind_ok in E as (l & Hl & E). injection E as <-. apply typed_set; [done|]. unfold typed. split_and!; try done.
      - intros _. exists l. split; [done|]. by eapply orbits_read_ok.
      - intros N. exfalso. apply N. simpl. tauto. }
    destruct (String.eqb_spec k "center_site").
    { apply rbind_ok in E as (c & _ & E). injection E as <-. apply typed_set; [done|]. unfold typed. split_and!; try done.
      intros N. exfalso. apply N. simpl. tauto. }
    destruct (String.eqb k "MigrationUnit_structure" || String.eqb k "migration_unit_structure").
    { destruct j; try done. apply rbind_ok in E as (s & _ & E). injection E as <-. apply typed_set; [done|]. unfold typed. split_and!; try done.
      intros N. exfalso. apply N. simpl. tauto. }
    destruct (String.eqb_spec k "template_structure").
    { destruct j; try done. apply rbind_ok in E as (s & _ & E). injection E as <-. apply typed_set; [done|]. unfold typed. split_and!; try done.
      intros N. exfalso. apply N. simpl. tauto. }
    destruct (String.eqb_spec k "basis").
    { destruct j; try done; [by injection E as <-|]. apply rbind_ok in E as (b & Hb & E). injection E as <-. apply typed_set; [done|]. unfold typed. split_and!; try done.
      - intros _. exists b. split; [done|]. by eapply basis_read_ok.
      - intros N. exfalso. apply N. simpl. tauto. }
    destruct (String.eqb_spec k "local_site_order").
    { apply rbind_ok in E as (r & _ & E). injection E as <-. apply typed_set; [done|]. unfold typed. split_and!; try done.
      - intros _. by exists r.
      - intros N. exfalso. apply N. simpl. tauto. }
    injection E as <-. apply typed_set; [done|]. unfold typed. split_and!; try done. intros _. by exists j.
  Qed.
  Lemma fold_typed d o o' : all_typed o -> rfold (set_entry w) o d = Ok o' -> all_typed o'.
  Proof.
    revert o. induction d as [|kv d IH]; intros o H E; cbn [rfold] in E; [by injection E as <-|].
    apply rbind_ok in E as (o1 & E1 & E). apply (IH o1); [|done]. by eapply set_entry_typed.
  Qed.

  Definition plain_key (k : string) : Prop := is_meta k = false /\ ~ In k ("MigrationUnit_structure" :: "migration_unit_structure" :: specials).
  Lemma set_entry_other o k' j o' k : plain_key k -> k' <> k -> set_entry w o (k', j) = Ok o' -> dget o' k = dget o k.
  Proof.
    intros [Hm Hk] N E. unfold set_entry in E. simpl in Hk.
    repeat match type of E with
    | (if ?b then _ else _) = _ => destruct b eqn:?
    | match ?j with _ => _ end = _ => destruct j; try done
    | rbind _ _ = _ => let H := fresh in apply rbind_ok in E as (? & H & E)
    end; injection E as <-; rewrite ?dget_dset_ne; try done; intros <-; tauto.
  Qed.
  Lemma set_entry_plain o k j : plain_key k -> set_entry w o (k, j) = Ok (dset o k (AJson j)).
  Proof.
    intros [Hm Hk]. unfold set_entry. rewrite Hm. simpl in Hk.
    repeat match goal with |- context [String.eqb k ?s] => destruct (String.eqb_spec k s); [subst; exfalso; tauto|] end. done.
  Qed.
  Lemma fold_plain_key d o o' k : plain_key k -> NoDup (dkeys d) -> rfold (set_entry w) o d = Ok o' ->
    dget o' k = match dget d k with Some j => Some (AJson j) | None => dget o k end.
  Proof.
    intros Hk. revert o. induction d as [|[k' j] d IH]; intros o Hn E; cbn [rfold] in E; [by injection E as <-|].
    apply rbind_ok in E as (o1 & E1 & E). unfold dkeys in Hn. cbn [map fst] in Hn. apply NoDup_cons in Hn as [Hn1 Hn2].
    rewrite (IH o1 Hn2 E). cbn [dget]. destruct (decide (k = k')) as [<-|N].
    - rewrite set_entry_plain in E1 by done. injection E1 as <-. rewrite dget_dset_eq.
      assert (dget d k = None) as ->; [|done]. by apply dget_None.
    - rewrite (set_entry_other o k' j o1 k) by done. done.
  Qed.

  Definition table_json (o : lce_obj S C) k : Prop :=
    match value_of o k with None | Some (ATable _) => True | _ => False end.
  Definition values_json (o : lce_obj S C) : Prop :=
    match value_of o "site_basis_values" with
    | None => True
    | Some (AValues v) => regular v = true /\ regular (List.concat v) = true
    | _ => False end.

  Lemma convert_facts o o' j : all_typed o -> dget o "cluster_site_indices" = Some (AJson j) -> convert_arrays o = Ok o' ->
    (exists t, read_table j = Ok t /\ dget o' "cluster_site_indices" = Some (ATable t))
    /\ table_json o' "correlation_basis_indices" /\ values_json o'
    /\ forall k, ~ In k ["cluster_site_indices"; "correlation_basis_indices"; "site_basis_values"] -> dget o' k = dget o k.
  Proof.
    intros T Hj H. unfold convert_arrays in H. rewrite Hj in H.
    apply rbind_ok in H as (o1 & H1 & H). apply rbind_ok in H1 as (t & Ht & H1). injection H1 as <-.
    apply rbind_ok in H as (o2 & H2 & H).
    assert (P1 : forall a, dget o "correlation_basis_indices" = Some a -> exists j, a = AJson j).
    { intros a Ha. apply (T _ _ Ha). simpl. intuition discriminate. }
    assert (P2 : forall a, dget o "site_basis_values" = Some a -> exists j, a = AJson j).
    { intros a Ha. apply (T _ _ Ha). simpl. intuition discriminate. }
    rewrite dget_dset_ne in H2 by discriminate.
    assert (Q1 : table_json o2 "correlation_basis_indices"
       /\ forall k, k <> "correlation_basis_indices" -> dget o2 k = dget (dset o "cluster_site_indices" (ATable t)) k).
    { destruct (dget o "correlation_basis_indices") as [a|] eqn:Ea.
      - destruct (P1 a eq_refl) as [j1 ->].
        destruct (match j1 with JNull => true | _ => false end) eqn:Ej.
        + destruct j1; try done. injection H2 as <-. split; [|done]. unfold table_json, value_of. by rewrite dget_dset_ne, Ea by discriminate.
        + assert (exists t1, o2 = dset (dset o "cluster_site_indices" (ATable t)) "correlation_basis_indices" (ATable t1)) as [t1 ->].
          { destruct j1; try done; apply rbind_ok in H2 as (t1 & _ & H2); injection H2 as <-; by exists t1. }
          split; [unfold table_json, value_of; by rewrite dget_dset_eq|]. intros k Hk. by rewrite dget_dset_ne.
      - injection H2 as <-. split; [|done]. unfold table_json, value_of. by rewrite dget_dset_ne, Ea by discriminate. }
    destruct Q1 as [Q1 Q2].
    assert (E2 : dget o2 "site_basis_values" = dget o "site_basis_values") by (rewrite Q2 by discriminate; by rewrite dget_dset_ne by discriminate).
    rewrite E2 in H.
    assert (Q3 : values_json o' /\ forall k, k <> "site_basis_values" -> dget o' k = dget o2 k).
    { destruct (dget o "site_basis_values") as [a|] eqn:Ea.
      - destruct (P2 a eq_refl) as [j1 ->].
        destruct (match j1 with JNull => true | _ => false end) eqn:Ej.
        + destruct j1; try done. injection H as <-. split; [|done]. unfold values_json, value_of. by rewrite E2.
        + assert (exists v, read_values j1 = Ok v /\ o' = dset o2 "site_basis_values" (AValues v)) as (v & Hv & ->).
          { destruct j1; try done; apply rbind_ok in H as (v & Hv & H); injection H as <-; by exists v. }
          split; [|intros k Hk; by rewrite dget_dset_ne]. unfold values_json, value_of. rewrite dget_dset_eq.
          unfold read_values in Hv. apply rbind_ok in Hv as (v' & _ & Hv).
          destruct (regular v' && regular (List.concat v')) eqn:Er; [|done]. injection Hv as <-. by apply andb_prop.
      - injection H as <-. split; [|done]. unfold values_json, value_of. by rewrite E2. }
    destruct Q3 as [Q3 Q4]. split_and!.
    - exists t. split; [done|]. rewrite Q4, Q2, dget_dset_eq by discriminate. done.
    - unfold table_json, value_of in *. by rewrite Q4 by discriminate.
    - done.
    - intros k Hk. simpl in Hk. rewrite Q4, Q2, dget_dset_ne; [done|..]; intros E0; subst k; tauto.
  Qed.

  Lemma core_loaded d o : NoDup (dkeys d) -> din d "cluster_site_indices" = true -> din d "correlation_fingerprints" = false ->
    lce_from_dict w d = Ok o -> core o.
  Proof.
    intros Hn Hcsi Hcf H. unfold lce_from_dict in H.
    apply rbind_ok in H as (o1 & H1 & H). apply rbind_ok in H as (o2 & H2 & H). apply rbind_ok in H as (o3 & H3 & H).
    apply rbind_ok in H as ([] & H4 & H). apply rbind_ok in H as (o5 & H5 & H). apply rbind_ok in H as (o6 & H6 & H).
    assert (T1 : all_typed o1) by (eapply fold_typed; [|exact H1]; intros k a E; done).
    assert (exists j, dget o1 "cluster_site_indices" = Some (AJson j)) as [jc Ej].
    { rewrite (fold_plain_key d [] o1 _) by (done || (split; [done|simpl; intuition discriminate])).
      unfold din in Hcsi. destruct (dget d "cluster_site_indices") as [j|]; [by exists j|done]. }
    assert (E1cf : dget o1 "correlation_fingerprints" = None).
    { rewrite (fold_plain_key d [] o1 _) by (done || (split; [done|simpl; intuition discriminate])).
      unfold din in Hcf. by destruct (dget d "correlation_fingerprints"). }
    destruct (convert_facts o1 o2 jc T1 Ej H2) as ((t & _ & Et) & CB & CV & K2).
    assert (K2' : forall k, ~ In k ["cluster_site_indices"; "correlation_basis_indices"; "site_basis_values"] -> forall a, dget o2 k = Some a -> typed k a).
    { intros k Hk a Ha. rewrite K2 in Ha by done. by apply T1. }
    (* basis *)
    assert (exists b, dget o3 "basis" = Some (ABasis b) /\ basis_ok b /\ forall k, k <> "basis" -> dget o3 k = dget o2 k) as (b & Eb & Bb & K3).
    { unfold default_basis, has, din in H3. destruct (dget o2 "basis") as [a|] eqn:Ea.
      - injection H3 as <-. destruct (K2' "basis" ltac:(simpl; intuition discriminate) a Ea) as (_ & Hb & _). destruct (Hb eq_refl) as (b & -> & Hb'). by exists b.
      - apply rbind_ok in H3 as (l & _ & H3). apply rbind_ok in H3 as (b & Hb & H3). injection H3 as <-. exists b.
        split; [by rewrite dget_dset_eq|]. split; [by eapply cheb_new_ok|]. intros k Hk. by rewrite dget_dset_ne. }
    (* name *)
    assert (exists j, dget (default_name o3) "name" = Some (AJson j) /\ Json.truthy j = true /\ forall k, k <> "name" -> dget (default_name o3) k = dget o3 k)
      as (jn & En & Tn & K4).
    { unfold default_name. destruct (dget o3 "name") as [a|] eqn:Ea.
      - rewrite K3 in Ea by discriminate. pose proof Ea as Ea'. apply K2' in Ea as (_ & _ & _ & Hp); [|simpl; intuition discriminate].
        destruct Hp as [j ->]; [simpl; intuition discriminate|]. destruct (Json.truthy j) eqn:Ej'.
        + exists j. by rewrite K3 by discriminate.
        + eexists. rewrite dget_dset_eq. split_and!; [done|done|]. intros k Hk. by rewrite dget_dset_ne.
      - eexists. rewrite dget_dset_eq. split_and!; [done|done|]. intros k Hk. by rewrite dget_dset_ne. }
    set (o4 := default_name o3) in *. clearbody o4.
    (* order *)
    assert (exists r, dget o5 "local_site_order" = Some (AOrder r) /\ forall k, k <> "local_site_order" -> dget o5 k = dget o4 k) as (r & Er & K5).
    { unfold default_order_attr, has, din in H5. destruct (dget o4 "local_site_order") as [a|] eqn:Ea.
      - injection H5 as <-. pose proof Ea as Ea'. rewrite K4, K3 in Ea by discriminate. apply K2' in Ea as (_ & _ & Hp & _); [|simpl; intuition discriminate].
        destruct (Hp eq_refl) as [r ->]. by exists r.
      - apply rbind_ok in H5 as (r & _ & H5). injection H5 as <-. exists r. split; [by rewrite dget_dset_eq|]. intros k Hk. by rewrite dget_dset_ne. }
    assert (K45 : forall k, k <> "local_site_order" -> k <> "name" -> k <> "basis" -> dget o5 k = dget o2 k) by (intros; by rewrite K5, K4, K3).
    (* signature and hash *)
    assert (S6 : (forall s, dget o5 "local_env_structure" = Some (AStructure s) -> exists j, dget o6 "local_environment_signature" = Some (AJson j))
              /\ (forall a, dget o6 "local_environment_signature" = Some a -> exists j, a = AJson j)
              /\ forall k, k <> "local_environment_signature" -> dget o6 k = dget o5 k).
    { unfold default_signature, has, din in H6. destruct (dget o5 "local_environment_signature") as [a|] eqn:Ea.
      - injection H6 as <-. pose proof Ea as Ea'. rewrite K45 in Ea by discriminate. apply K2' in Ea as (_ & _ & _ & Hp); [|simpl; intuition discriminate].
        destruct Hp as [j ->]; [simpl; intuition discriminate|]. split_and!; [by exists j| |done]. intros a' E. rewrite Ea' in E. injection E as <-. by exists j.
      - destruct (dget o5 "local_env_structure") as [a|] eqn:Es.
        + destruct a as [| | |s| | | | |]; try done. injection H6 as <-. rewrite dget_dset_eq. split_and!; [by eexists| |].
          * intros a E. injection E as <-. by eexists.
          * intros k Hk. by rewrite dget_dset_ne.
        + injection H6 as <-. split_and!; [done| |done]. intros a E. congruence. }
    destruct S6 as (S6 & S6' & K6).
    set (o7 := default_hash w o6) in *.
    assert (S7 : (forall j, dget o6 "local_environment_signature" = Some (AJson j) -> exists j, dget o7 "local_environment_hash" = Some (AJson j))
              /\ forall k, k <> "local_environment_hash" -> dget o7 k = dget o6 k).
    { unfold o7, default_hash, has, din. destruct (dget o6 "local_environment_hash") as [a|] eqn:Ea.
      - pose proof Ea as Ea'. rewrite K6, K45 in Ea by discriminate. apply K2' in Ea as (_ & _ & _ & Hp); [|simpl; intuition discriminate].
        destruct Hp as [j ->]; [simpl; intuition discriminate|]. split; [by exists j|done].
      - destruct (dget o6 "local_environment_signature") as [a|] eqn:Es; [|done].
        destruct (S6' a eq_refl) as [j ->]. split.
        + intros j' _. rewrite dget_dset_eq. by eexists.
        + intros k Hk. by rewrite dget_dset_ne. }
    destruct S7 as [S7 K7]. clearbody o7.
    assert (K27 : forall k, ~ In k ["local_site_order"; "name"; "basis"; "local_environment_signature"; "local_environment_hash"] -> dget o7 k = dget o2 k).
    { intros k Hk. simpl in Hk. rewrite K7, K6, K5, K4, K3; [done|..]; intros E0; subst k; tauto. }
    (* reconcile *)
    assert (R : (forall k, k <> "correlation_fingerprints" -> k <> "orbit_fingerprints" -> dget o k = dget o7 k) /\
                forall l, dget o7 "orbits" = Some (AOrbits l) -> exists fps, get_orbit_fingerprints w o = Ok fps
           /\ match value_of o7 "correlation_feature_metadata" with
              | None => fps = map (fingerprint w) l \/ length fps <> length l
              | Some (AJson j) => nested (decorated_fingerprint w l) j = Ok fps
              | Some _ => False
              end).
    { unfold reconcile in H. destruct (dget o7 "orbits") as [a|] eqn:Eo; [|injection H as <-; split; [done|intros l E; done]].
      destruct a as [|l| | | | | | |]; try (injection H as <-; split; [done|intros l' E; done]).
      apply rbind_ok in H as (stored & Hst & H). apply rbind_ok in H as (o8 & H8 & H). apply rbind_ok in H as (fps & Hf & H).
      assert (E9 : o = dset o8 "orbit_fingerprints" (ATexts fps)).
      { destruct stored as [ls|]; [destruct (texts_are ls fps); [|done]|]; by injection H as <-. }
      assert (G9 : get_orbit_fingerprints w o = Ok fps).
      { rewrite E9. unfold get_orbit_fingerprints in *. by rewrite !dget_dset_ne by discriminate. }
      assert (Ecf : dget o7 "correlation_fingerprints" = None).
      { rewrite K27, K2 by (simpl; intuition discriminate). done. }
      unfold has, din in H8. rewrite Ecf in H8.
      assert (K8 : (forall k, k <> "correlation_fingerprints" -> dget o8 k = dget o7 k) /\
          match value_of o7 "correlation_feature_metadata" with
              | None => fps = map (fingerprint w) l \/ length fps <> length l
              | Some (AJson j) => nested (decorated_fingerprint w l) j = Ok fps
              | Some _ => False
              end).
      { destruct (given o7 "correlation_feature_metadata") eqn:Eg.
        - destruct (dget o7 "correlation_feature_metadata") as [a|] eqn:Em; [|done].
          destruct a as [j| | | | | | | |]; try done.
          apply rbind_ok in H8 as (l8 & Hl8 & H8). injection H8 as <-. split; [intros k Hk; by rewrite dget_dset_ne|].
          unfold get_orbit_fingerprints in Hf. rewrite dget_dset_eq in Hf. injection Hf as <-.
          unfold given in Eg. rewrite Em in Eg. unfold value_of. rewrite Em. by destruct j.
        - assert (value_of o7 "correlation_feature_metadata" = None) as ->.
          { unfold given in Eg. unfold value_of. destruct (dget o7 "correlation_feature_metadata") as [[[]| | | | | | | |]|]; done. }
          destruct stored as [ls|].
          + destruct (Nat.eqb_spec (length ls) (length l)) as [El|El].
            * injection H8 as <-. split; [done|]. left. unfold get_orbit_fingerprints in Hf. rewrite Ecf, Eo in Hf. by injection Hf as <-.
            * apply rbind_ok in H8 as (tx & Htx & H8). injection H8 as <-. split; [intros k Hk; by rewrite dget_dset_ne|].
              unfold get_orbit_fingerprints in Hf. rewrite dget_dset_eq in Hf. injection Hf as <-. right. by rewrite (rmapM_length _ _ _ Htx).
          + injection H8 as <-. split; [done|]. left. unfold get_orbit_fingerprints in Hf. rewrite Ecf, Eo in Hf. by injection Hf as <-. }
      destruct K8 as [K8 M8]. split.
      - intros k N1 N2. rewrite E9, dget_dset_ne by done. by apply K8.
      - intros l' E. injection E as <-. by exists fps. }
    destruct R as [K9 R].
    assert (K29 : forall k, ~ In k ["local_site_order"; "name"; "basis"; "local_environment_signature"; "local_environment_hash"; "correlation_fingerprints"; "orbit_fingerprints"] -> dget o k = dget o2 k).
    { intros k Hk. simpl in Hk. rewrite K9 by (intros E0; subst k; tauto). apply K27. simpl. tauto. }
    split.
    - exists jn. split; [|done]. by rewrite K9, K7, K6, K5 by discriminate.
    - exists b. split; [by rewrite K9, K7, K6, K5, K4 by discriminate|]. split; [done|]. intros U.
      unfold check_decorations in H4. rewrite Eb, U in H4. unfold has, din in H4. rewrite K3, Et in H4 by discriminate. cbn [andb] in H4.
      unfold given in *. rewrite !K3 in H4 by discriminate. rewrite !K29 by (simpl; intuition discriminate).
      match type of H4 with (if negb ?c then _ else _) = _ => destruct c eqn:Ec; [|done] end. by apply andb_prop.
    - intros l El. rewrite K9 in El by discriminate. split.
      + rewrite K27, K2 in El by (simpl; intuition discriminate). apply T1 in El as (Hl & _). destruct (Hl eq_refl) as (l' & E & Hok). by injection E as <-.
      + unfold value_of. rewrite K9 by discriminate. by apply R.
    - exists t. by rewrite K29 by (simpl; intuition discriminate).
    - unfold table_json, value_of in *. by rewrite K29 by (simpl; intuition discriminate).
    - unfold values_json, value_of in *. by rewrite K29 by (simpl; intuition discriminate).
    - exists r. by rewrite K9, K7, K6 by discriminate.
    - intros s Es. rewrite K9, K7, K6 in Es by discriminate. destruct (S6 s Es) as [j Ej6]. destruct (S7 j Ej6) as [jh Ejh]. split.
      + exists j. by rewrite K9, K7 by discriminate.
      + exists jh. by rewrite K9 by discriminate.
  Qed.

  Lemma arises_core o : arises w o -> core o.
  Proof.
    induction 1 as [env st ce ord sg cut o H1 H2 H3|d o H1 H2 H3 H4|o p o' H1 IH H2].
    - by eapply core_built.
    - by eapply core_loaded.
    - by eapply core_set.
  Qed.

  (* ---------------------------------------------------------------- *)
  (** ** Parameters *)

  Lemma compute_same (m m' : lce R) : l_sites m' = l_sites m -> l_decorations m' = l_decorations m -> l_features m' = l_features m ->
    l_env_hash m' = l_env_hash m -> l_keci m' = l_keci m -> l_empty m' = l_empty m -> l_param_fingerprints m' = l_param_fingerprints m ->
    (truthy (l_env_hash m) = true -> l_param_hash m' = l_param_hash m) ->
    forall occ e, Rcompute m' occ e = Rcompute m occ e.
  Proof.
    intros E1 E2 E3 E4 E5 E6 E7 E8 occ e. unfold Rcompute, lce_compute. rewrite E5, E6, E7.
    destruct (l_keci m) as [k|]; [|done]. destruct (l_empty m) as [x|]; [|done].
    assert (validate_parameter_orbits m' k (l_param_fingerprints m) (l_param_hash m') = validate_parameter_orbits m k (l_param_fingerprints m) (l_param_hash m)) as ->.
    { unfold validate_parameter_orbits. rewrite E3, E4. destruct (truthy (l_env_hash m)); [by rewrite E8|done]. }
    unfold calculate_correlation. by rewrite E1, E2.
  Qed.

  Lemma as_table_value (o : lce_obj S C) k : as_table (dget o k) = as_table (value_of o k).
  Proof. unfold value_of. by destruct (dget o k) as [[[]| | | | | | | |]|]. Qed.
  Lemma values_value (o : lce_obj S C) : (match dget o "site_basis_values" with Some (AValues v) => Some v | _ => None end)
    = match value_of o "site_basis_values" with Some (AValues v) => Some v | _ => None end.
  Proof. unfold value_of. by destruct (dget o "site_basis_values") as [[[]| | | | | | | |]|]. Qed.
  Lemma env_hash_value (o : lce_obj S C) : env_hash o = match value_of o "local_environment_hash" with Some (AJson (JStr h)) => Some h | _ => None end.
  Proof. unfold env_hash, value_of. by destruct (dget o "local_environment_hash") as [[[]| | | | | | | |]|]. Qed.

  (** What [file_set_parameters] leaves. *)
  Lemma set_parameters_facts o p o' : file_set_parameters w o p = Ok o' ->
    exists keci empty values features, dget o' "keci" = Some (AJson keci) /\ floats keci = Ok values
      /\ dget o' "empty_cluster" = Some (AJson empty) /\ (exists q, py_float empty = Ok q)
      /\ get_orbit_fingerprints w o = Ok features
      /\ (length features = 0%nat \/ length values = length features)
      /\ dget o' "parameter_orbit_fingerprints" = Some (ATexts features)
      /\ exists h, dget o' "parameter_local_environment_hash" = Some (AJson h)
         /\ (truthy (env_hash o) = true -> exists t, env_hash o = Some t /\ h = JStr t).
  Proof.
    unfold file_set_parameters. intros H. apply rbind_ok in H as (keci & Hk & H). apply rbind_ok in H as (empty & He & H).
    apply rbind_ok in H as (values & Hv & H). apply rbind_ok in H as (q & Hq & H). apply rbind_ok in H as (fps & Hf & H).
    apply rbind_ok in H as (features & Hg & H). apply rbind_ok in H as (vs & Hval & H). injection H as <-.
    exists keci, empty, values, features.
    repeat first [rewrite dget_dset_eq | rewrite dget_dset_ne by discriminate].
    unfold validate_parameter_orbits in Hval. cbn [l_features l_env_hash] in Hval.
    destruct (Nat.eqb_spec (length features) 0) as [L1|L1]; cbn [negb andb] in Hval;
     [|destruct (Nat.eqb_spec (length values) (length features)) as [L2|L2]; cbn [negb andb] in Hval; [|done]].
    all: match type of Hval with (if ?c then _ else _) = _ => destruct c eqn:Eh; [done|] end.
    all: assert (Efp : (match fps with Some l => l | None => features end) = features)
      by (destruct fps as [l|]; [|done]; destruct (Nat.eqb (length l) (length features)); [|done]; cbn [negb] in Hval;
          destruct (bool_decide (l = features)) eqn:Eb; [by apply bool_decide_eq_true in Eb|done]).
    all: rewrite Efp; split_and!; try done; try (by exists q); try tauto.
    all: eexists; split; [reflexivity|]; intros Tr; rewrite Tr in Eh; cbn [andb] in Eh.
    all: destruct (param_hash p) as [h|]; [apply negb_false_iff, bool_decide_eq_true in Eh; by exists h|].
    all: unfold env_hash in *; repeat rewrite dget_dset_ne by discriminate; destruct (dget o "local_environment_hash") as [[[]| | | | | | | |]|]; try done; by eexists.
  Qed.

  Lemma fitted_view o : fitted w o -> exists keci values empty features,
      get_orbit_fingerprints w o = Ok features /\ dget o "keci" = Some (AJson keci) /\ floats keci = Ok values
      /\ dget o "empty_cluster" = Some (AJson empty) /\ (exists q, py_float empty = Ok q)
      /\ (length features = 0%nat \/ length values = length features)
      /\ dget o "parameter_orbit_fingerprints" = Some (ATexts features)
      /\ exists h, dget o "parameter_local_environment_hash" = Some (AJson h)
         /\ (truthy (env_hash o) = true -> exists t, env_hash o = Some t /\ h = JStr t).
  Proof.
    intros (o0 & p & _ & H). pose proof (set_parameters_keeps o0 p o) as K.
    destruct (set_parameters_facts o0 p o H) as (keci & empty & values & features & F1 & F2 & F3 & F4 & F5 & F6 & F7 & h & F8 & F9).
    exists keci, values, empty, features. split_and!; try done.
    - unfold get_orbit_fingerprints in *. rewrite !(K _ H) by (by apply not_parameter). done.
    - exists h. split; [done|]. unfold env_hash in *. by rewrite (K _ H) by (by apply not_parameter).
  Qed.

  Lemma same_value o o' : fitted w o -> fitted w o' -> same_expansion w o o' ->
    dget o' "keci" = dget o "keci" -> dget o' "empty_cluster" = dget o "empty_cluster" ->
    forall occ e, value w o' occ e = value w o occ e.
  Proof.
    intros F F' [_ Sf Sa] Ek Ee occ e.
    rewrite Forall_forall in Sa. assert (A1 := Sa "cluster_site_indices" ltac:(mem)). assert (A2 := Sa "correlation_basis_indices" ltac:(mem)).
    assert (A3 := Sa "site_basis_values" ltac:(mem)). assert (A10 := Sa "local_environment_hash" ltac:(mem)).
    destruct (fitted_view o F) as (keci & values & empty & features & G1 & G2 & G3 & G4 & (q & G5) & G6 & G7 & h & G8 & G9).
    destruct (fitted_view o' F') as (keci' & values' & empty' & features' & G1' & G2' & G3' & G4' & (q' & G5') & G6' & G7' & h' & G8' & G9').
    assert (features' = features) as -> by congruence.
    assert (Eh : env_hash o' = env_hash o) by (by rewrite !env_hash_value, A10).
    unfold value, lce_view. rewrite !as_table_value, !values_value, A1, A2, A3, Sf, Ek, Ee, Eh, G7, G7', G8, G8', G1, G2, G4.
    destruct (as_table (value_of o "cluster_site_indices")) as [[t|]|]; [|done|done]. cbn [rbind].
    destruct (as_table (value_of o "correlation_basis_indices")) as [bi|]; [|done]. cbn [rbind optional_number optional_texts]. rewrite G3, G5. cbn [rbind].
    apply compute_same; try done. cbn [to_real l_env_hash l_param_hash]. intros Tr.
    rewrite Eh in G9'. destruct (G9 Tr) as (t1 & T1 & ->). destruct (G9' Tr) as (t2 & T2 & ->). congruence.
  Qed.

  Lemma attribute_value (o : lce_obj S C) k a : value_of o k = Some a -> dget o k = Some a.
  Proof. intros H. by apply value_of_Some in H as [H _]. Qed.

  Lemma entry_keys {A} k (f : A -> json) x : dkeys (entry_if k f x) `sublist_of` [k].
  Proof. destruct x; [done|]. apply sublist_nil_l. Qed.
  Lemma dkeys_app {V} (d d' : dict string V) : dkeys (d ++ d')%list = (dkeys d ++ dkeys d')%list.
  Proof. unfold dkeys. apply map_app. Qed.
  Lemma as_dict_keys o d : lce_as_dict w o = Ok d ->
    NoDup (dkeys d) /\ din d "cluster_site_indices" = true /\ din d "correlation_fingerprints" = false.
  Proof.
    intros Hd. unfold lce_as_dict in Hd. do 19 (apply rbind_ok in Hd as (? & _ & Hd)).
    match type of Hd with Ok ?dd = _ => assert (Ed : dd = d) by (by injection Hd) end. clear Hd.
    assert (G : dkeys d `sublist_of` (["@module"; "@class"; "name"; "basis"; "orbits"; "orbit_fingerprints"; "cluster_site_indices"; "center_site"; "migration_unit_structure"]
       ++ ["basis_site_state_counts"] ++ ["correlation_basis_indices"] ++ ["site_basis_values"] ++ ["correlation_feature_metadata"] ++ ["local_site_order"]
       ++ ["local_environment_signature"] ++ ["local_environment_hash"])%list).
    { rewrite <- Ed. rewrite !dkeys_app. repeat apply sublist_app; try apply entry_keys. done. }
    split_and!.
    - eapply sublist_NoDup; [exact G|]. apply (bool_decide_unpack _). vm_compute. exact I.
    - rewrite <- Ed. reflexivity.
    - unfold din. destruct (dget d "correlation_fingerprints") eqn:E; [|done]. exfalso.
      assert (Hin : "correlation_fingerprints" ∈ dkeys d).
      { destruct (decide ("correlation_fingerprints" ∈ dkeys d)) as [|N]; [done|]. apply dget_None in N. congruence. }
      eapply elem_of_submseteq in Hin; [|exact (sublist_submseteq _ _ G)]. revert Hin. apply (bool_decide_unpack _). vm_compute. exact I.
  Qed.

  Theorem submodel_reload o fit d : fitted w o -> submodel_as_dict w o fit = Ok d ->
    dget d "fit_metadata" = Some fit /\ (exists a b, dget d "lce" = Some (JObj a) /\ dget d "parameters" = Some (JObj b) /\ din b "keci" = true /\ din b "empty_cluster" = true)
    /\ exists o', submodel_from_dict w d = Ok o' /\ same_model w o o'.
  Proof.
    intros F H. unfold submodel_as_dict in H. apply rbind_ok in H as (l & Hl & H). apply rbind_ok in H as (p & Hp & H). injection H as <-.
    split; [done|].
    assert (Hc : core o).
    { destruct F as (o0 & p0 & Ha & Hs). eapply core_set; [|exact Hs]. by apply arises_core. }
    destruct (reload_core o l Hc Hl) as (o1 & H1 & Hs & Hn).
    destruct (as_dict_keys o l Hl) as (N1 & N2 & N3).
    destruct (fitted_view o F) as (keci & values & empty & features & G1 & G2 & G3 & G4 & (q & G5) & G6 & G7 & h & G8 & G9).
    unfold parameter_payload, has, din in Hp. rewrite G2, G4, G1 in Hp. cbn [negb andb rbind] in Hp. injection Hp as <-.
    set (hh := match dget o "local_environment_hash" with Some (AJson JNull) => [] | Some (AJson j) => [("local_environment_hash", j)] | _ => [] end).
    split.
    { eexists _, _. split; [reflexivity|]. split; [reflexivity|]. done. }
    assert (Ef : get_orbit_fingerprints w o1 = Ok features) by (destruct Hs as [_ Sf _]; congruence).
    assert (Eh : env_hash o1 = env_hash o).
    { destruct Hs as [_ _ Sa]. rewrite Forall_forall in Sa. assert (A10 := Sa "local_environment_hash" ltac:(mem)). by rewrite !env_hash_value, A10. }
    assert (Eph : param_hash ([("keci", keci); ("empty_cluster", empty); ("orbit_fingerprints", jtexts features)] ++ hh)%list = env_hash o).
    { unfold param_hash, env_hash, hh. destruct (dget o "local_environment_hash") as [[[]| | | | | | | |]|]; done. }
    set (pp := ([("keci", keci); ("empty_cluster", empty); ("orbit_fingerprints", jtexts features)] ++ hh)%list) in *.
    assert (exists o2, file_set_parameters w o1 pp = Ok o2) as [o2 H2].
    { unfold file_set_parameters. change (dgetitem pp "keci") with (@Ok json keci). change (dgetitem pp "empty_cluster") with (@Ok json empty).
      change (get_some pp "orbit_fingerprints") with (Some (jtexts features)). cbn [rbind optional]. rewrite G3, G5, texts_jtexts. cbn [rbind].
      rewrite Ef. cbn [rbind]. rewrite Eph, Eh. unfold validate_parameter_orbits. cbn [l_features l_env_hash].
      assert (negb (Nat.eqb (length features) 0) && negb (Nat.eqb (length values) (length features)) = false) as ->.
      { destruct G6 as [-> | ->]; [done|]. rewrite Nat.eqb_refl. by rewrite andb_false_r. }
      assert (truthy (env_hash o) && match env_hash o with Some h => negb (bool_decide (Some h = env_hash o)) | None => false end = false) as ->.
      { destruct (env_hash o) as [t|]; [|done]. rewrite bool_decide_eq_true_2 by done. by rewrite andb_false_r. }
      rewrite Nat.eqb_refl, bool_decide_eq_true_2 by done. cbn [negb rbind]. by eexists. }
    exists o2. unfold submodel_from_dict, object_at.
    match goal with |- context [dgetitem ?dd "lce"] => change (dgetitem dd "lce") with (@Ok json (JObj l)); change (dgetitem dd "parameters") with (@Ok json (JObj pp)) end.
    cbn [rbind py_obj]. rewrite H1. cbn [rbind]. split; [done|].
    assert (F2 : fitted w o2).
    { exists o1, pp. split; [|done]. by eapply arises_loaded. }
    assert (S2 : same_expansion w o o2).
    { pose proof (set_parameters_keeps o1 pp o2) as K. destruct Hs as [(ls & O1 & O2) Sf Sa]. split.
      - exists ls. split; [done|]. by rewrite (K _ H2) by (by apply not_parameter).
      - unfold get_orbit_fingerprints in *. by rewrite !(K _ H2) by (by apply not_parameter).
      - rewrite Forall_forall in *. intros k Hk. rewrite <- (Sa k Hk). unfold value_of. rewrite (K k H2); [done|]. apply not_parameter.
        repeat (apply elem_of_cons in Hk as [->|Hk]; [reflexivity|]). by apply elem_of_nil in Hk. }
    split; [done|]. split; [done|].
    destruct (set_parameters_facts o1 pp o2 H2) as (keci2 & empty2 & values2 & features2 & P1 & P2 & P3 & _).
    apply same_value; try done.
    - unfold file_set_parameters in H2. change (dgetitem pp "keci") with (@Ok json keci) in H2. change (dgetitem pp "empty_cluster") with (@Ok json empty) in H2.
      cbn [rbind] in H2. rewrite G2.
      repeat (apply rbind_ok in H2 as (? & _ & H2)). injection H2 as <-. by repeat first [rewrite dget_dset_eq | rewrite dget_dset_ne by discriminate].
    - unfold file_set_parameters in H2. change (dgetitem pp "keci") with (@Ok json keci) in H2. change (dgetitem pp "empty_cluster") with (@Ok json empty) in H2.
      cbn [rbind] in H2. rewrite G4.
      repeat (apply rbind_ok in H2 as (? & _ & H2)). injection H2 as <-. by repeat first [rewrite dget_dset_eq | rewrite dget_dset_ne by discriminate].
  Qed.

  Lemma fitted_core o : fitted w o -> core o.
  Proof. intros (o0 & p0 & Ha & Hs). eapply core_set; [|exact Hs]. by apply arises_core. Qed.
  Lemma fitted_view_ok o : fitted w o -> exists m, lce_view w o = Ok m.
  Proof.
    intros F. destruct (fitted_core o F) as [_ _ _ (t & Ht) Hc _ _ _].
    destruct (fitted_view o F) as (keci & values & empty & features & G1 & G2 & G3 & G4 & (q & G5) & G6 & G7 & h & G8 & G9).
    unfold lce_view. rewrite Ht. cbn [as_table rbind].
    assert (exists bi, as_table (dget o "correlation_basis_indices") = Ok bi) as [bi ->].
    { rewrite as_table_value. destruct (value_of o "correlation_basis_indices") as [[]|]; try done; by eexists. }
    cbn [rbind]. rewrite G1, G2, G4, G7. cbn [rbind optional_number optional_texts]. rewrite G3. cbn [rbind]. rewrite G5. cbn [rbind]. by eexists.
  Qed.

  Lemma or_no_fit_idem j : or_no_fit (or_no_fit j) = or_no_fit j.
  Proof. unfold or_no_fit. destruct (Json.truthy j) eqn:E; [by rewrite E|done]. Qed.

  Lemma model_value o o' : fitted w o -> same_model w o o' -> exists m m', lce_view w o = Ok m /\ lce_view w o' = Ok m'
    /\ forall occ e, Rcompute (to_real m') occ e = Rcompute (to_real m) occ e.
  Proof.
    intros F (_ & F' & V). destruct (fitted_view_ok o F) as [m Hm]. destruct (fitted_view_ok o' F') as [m' Hm'].
    exists m, m'. split; [done|]. split; [done|]. intros occ e. specialize (V occ e). unfold value in V. by rewrite Hm, Hm' in V.
  Qed.

  Theorem composite_reload site kra kf sf d : fitted w kra -> site_ok w site ->
    composite_as_dict w (composite_new site (Some kra) kf sf) = Ok d ->
    exists c', composite_from_dict w (JObj d) = Ok c'
      /\ (exists k', cp_kra c' = Some k' /\ same_model w kra k')
      /\ same_site w site (cp_site c')
      /\ cp_kra_fit c' = or_no_fit kf
      /\ (site <> SNone -> cp_site_fit c' = or_no_fit sf)
      /\ forall E (ext : E -> list Z -> event -> result R) lk v temperature m occ e,
           rate w ext c' lk v temperature m occ e = rate w ext (composite_new site (Some kra) kf sf) lk v temperature m occ e.
  Proof.
    intros F Hs H. unfold composite_as_dict in H. cbn [cp_kra cp_kra_fit cp_site cp_site_fit composite_new] in H.
    apply rbind_ok in H as (k & Hk & H). apply rbind_ok in H as (sd & Hsd & H).
    destruct (submodel_reload kra (or_no_fit kf) k F Hk) as (Kf & (ka & kb & K1 & K2 & K3 & K4) & k' & Kr & Ks).
    set (base := [("@module", JStr "kmcpy.models.composite_lce_model"); ("@class", JStr "CompositeLCEModel");
                  ("filetype", JStr "kmcpy.model_file"); ("model_type", JStr "composite_lce"); ("kra", JObj k)]) in *.
    assert (Vk : validate_submodel (JObj k) = Ok tt).
    { unfold validate_submodel. by rewrite K1, K2, K3, K4. }
    assert (Gs : exists s' f, (match get_some (base ++ sd)%list "site" with
               | None => Ok (SNone, JNull)
               | Some site =>
                   let* sd := py_obj site in
                   let* m := (if din sd "lce" then let* o := submodel_from_dict w sd in Ok (SLce o)
                              else let* md := object_at sd "model" in
                                   let* x := site_model_from_dict w md in Ok (SExternal x)) in
                   Ok (m, get_default sd "fit_metadata" JNull)
               end) = Ok (s', f) /\ same_site w site s' /\ (site <> SNone -> or_no_fit f = or_no_fit sf)
               /\ match get_some (base ++ sd)%list "site" with None => True | Some site => validate_site site = Ok tt end).
    { destruct site as [|o|x].
      - injection Hsd as <-. exists SNone, JNull. done.
      - apply rbind_ok in Hsd as (s & Hsub & Hsd). injection Hsd as <-.
        destruct (submodel_reload o (or_no_fit sf) s Hs Hsub) as (Sf & (sa & sb & S1 & S2 & S3 & S4) & o' & Sr & Ss).
        change (get_some (base ++ [("site", JObj s)])%list "site") with (Some (JObj s)). cbn [py_obj rbind].
        assert (din s "lce" = true) as Dl by (unfold din; by rewrite S1). rewrite Dl, Sr. cbn [rbind].
        exists (SLce o'), (get_default s "fit_metadata" JNull). split_and!; [done|by exists o'| |].
        + intros _. unfold get_default. rewrite Sf. apply or_no_fit_idem.
        + unfold validate_site. rewrite Dl. unfold validate_submodel. by rewrite S1, S2, S3, S4.
      - injection Hsd as <-. destruct Hs as (md & cl & M1 & M2 & C1 & C2 & Hx).
        set (pl := [("model_type", x_ext_type w x); ("model", JObj (x_ext_as_dict w x)); ("fit_metadata", or_no_fit sf);
                    ("delta_convention", JStr "after_minus_before"); ("units", JStr "meV")]).
        change (get_some (base ++ [("site", JObj pl)])%list "site") with (Some (JObj pl)). cbn [py_obj rbind].
        change (din pl "lce") with false. change (object_at pl "model") with (@Ok (dict string json) (x_ext_as_dict w x)).
        change (get_default pl "fit_metadata" JNull) with (or_no_fit sf). cbn iota. cbn [rbind].
        assert (T : forall s, s <> "" -> text_or_empty (Some (JStr s)) = Ok s) by (intros [|] ?; done).
        unfold site_model_from_dict. rewrite M1, C1, !T by done. cbn [rbind].
        destruct (String.eqb_spec md "") as [|_]; [done|]. destruct (String.eqb_spec cl "") as [|_]; [done|]. cbn [orb]. rewrite Hx. cbn [rbind].
        exists (SExternal x), (or_no_fit sf). split_and!; [done|done| |].
        + intros _. apply or_no_fit_idem.
        + reflexivity. }
    destruct Gs as (s' & f & Gs & Ss & Sfit & Vs).
    assert (Hv : validate_dict (JObj (base ++ sd)%list) = Ok (base ++ sd)%list).
    { unfold validate_dict. change (require_model_type (JObj (base ++ sd)%list) "composite_lce") with (@Ok (dict string json) (base ++ sd)%list). cbn [rbind].
      change (dget (base ++ sd)%list "kra") with (Some (JObj k)). cbv iota beta. rewrite Vk. cbn [rbind].
      destruct (get_some (base ++ sd)%list "site"); [by rewrite Vs|done]. }
    assert (Ed : d = (base ++ sd)%list) by congruence. subst d. clear H.
    unfold composite_from_dict. rewrite Hv. cbn [rbind].
    change (object_at (base ++ sd)%list "kra") with (@Ok (dict string json) k). cbn [rbind]. rewrite Kr. cbn [rbind].
    rewrite Gs. cbn [rbind fst snd]. eexists. split; [reflexivity|]. unfold composite_new. cbn [cp_kra cp_site cp_kra_fit cp_site_fit].
    assert (Ekf : or_no_fit (get_default k "fit_metadata" JNull) = or_no_fit kf) by (unfold get_default; rewrite Kf; apply or_no_fit_idem).
    split_and!; [by exists k'|done|done|done|].
    intros E ext lk v temperature m occ e. unfold rate, composite_view. cbn [cp_kra cp_site].
    destruct (model_value kra k' F Ks) as (mk & mk' & Mk & Mk' & Vkk). rewrite Mk, Mk'. cbn [rbind].
    destruct site as [|o|x].
    - simpl in Ss. subst s'. cbn [rbind]. unfold compute_probability, site_energy_difference. cbn [kra_model c_site].
      destruct (event_codes lk e) as [codes|]; [|done]. cbn [rbind]. destruct (event_direction occ e codes) as [dir|]; [|done]. cbn [rbind].
      by rewrite Vkk.
    - destruct Ss as (o' & -> & Ss). destruct (model_value o o' Hs Ss) as (mo & mo' & Mo & Mo' & Voo). rewrite Mo, Mo'. cbn [rbind].
      unfold compute_probability, site_energy_difference. cbn [kra_model c_site].
      destruct (event_codes lk e) as [codes|]; [|done]. cbn [rbind]. destruct (event_direction occ e codes) as [dir|]; [|done]. cbn [rbind].
      by rewrite Vkk, Voo.
    - simpl in Ss. subst s'. cbn [rbind]. unfold compute_probability, site_energy_difference. cbn [kra_model c_site].
      destruct (event_codes lk e) as [codes|]; [|done]. cbn [rbind]. destruct (event_direction occ e codes) as [dir|]; [|done]. cbn [rbind].
      by rewrite Vkk.
  Qed.

  (* ---------------------------------------------------------------- *)
  (** ** Saving *)

  Definition complete (o : lce_obj S C) : Prop :=
    (exists l, dget o "orbits" = Some (AOrbits l)) /\ (exists c, dget o "center_site" = Some (ACenter c))
    /\ (exists s, dget o "local_env_structure" = Some (AStructure s))
    /\ (exists l, dget o "basis_site_state_counts" = Some (AJson (jints l))).
  Lemma complete_saves o : core o -> complete o -> exists d, lce_as_dict w o = Ok d.
  Proof.
    intros [(jn & Hn & Tn) (b & Hb & Bb & Ub) Ho (t & Ht) Hc Hv (r & Hr) He] ((l & Hl) & (c & Hce) & (s & Hst) & (cn & Hcn)).
    destruct (Ho l Hl) as (_ & fps & Hf & Hm). destruct (He s Hst) as ((js & Hjs) & (jh & Hjh)).
    unfold lce_as_dict, attribute. rewrite Ht, Hn, Hb, Hl, Hf, Hce, Hst, Hcn, Hr, Hjs, Hjh. cbn [as_table rbind].
    rewrite ints_jints, as_table_value. cbn [rbind plain].
    assert (exists bi, as_table (value_of o "correlation_basis_indices") = Ok bi) as [bi ->].
    { destruct (value_of o "correlation_basis_indices") as [[]|]; try done; by eexists. }
    cbn [rbind].
    assert (exists v, (match dget o "site_basis_values" with Some (AValues v) => Ok (Some v) | Some (AJson JNull) | None => Ok None | Some _ => Err AttributeError end) = Ok v) as [v ->].
    { unfold value_of in Hv. destruct (dget o "site_basis_values") as [[[]| | | | | | | |]|]; try done; by eexists. }
    cbn [rbind].
    assert (exists me, plain (if given o "correlation_feature_metadata" then dget o "correlation_feature_metadata" else None) = Ok me) as [me ->].
    { destruct (value_of o "correlation_feature_metadata") as [[]|] eqn:E; try done.
      - apply value_of_Some in E as [E ->]. rewrite E. by eexists.
      - apply value_of_None in E as ->. by eexists. }
    cbn [rbind]. by eexists.
  Qed.

  Lemma built_complete env structure center order signature cutoff o :
    build_obj w env structure center order signature cutoff = Ok o -> complete o.
  Proof.
    intros H. unfold build_obj in H. apply rbind_ok in H as (os & Hos & H). apply rbind_ok in H as (objects & Hob & H).
    apply rbind_ok in H as (m & Hm & H). apply rbind_ok in H as (counts & Hc & H). apply rbind_ok in H as (deco & Hd & H).
    injection H as <-. split_and!; by eexists.
  Qed.
  Lemma complete_set o p o' : complete o -> file_set_parameters w o p = Ok o' -> complete o'.
  Proof.
    intros (H1 & H2 & H3 & H4) Hs. pose proof (fun k => set_parameters_keeps o p o' k Hs) as K. unfold complete.
    rewrite (K "orbits"), (K "center_site"), (K "local_env_structure"), (K "basis_site_state_counts") by (by apply not_parameter). done.
  Qed.
  Lemma submodel_saves o fit : fitted w o -> complete o -> exists d, submodel_as_dict w o fit = Ok d.
  Proof.
    intros F Hc. destruct (complete_saves o (fitted_core o F) Hc) as [d Hd]. unfold submodel_as_dict. rewrite Hd. cbn [rbind].
    destruct (fitted_view o F) as (keci & values & empty & features & G1 & G2 & G3 & G4 & (q & G5) & G6 & G7 & h & G8 & G9).
    unfold parameter_payload, has, din. rewrite G2, G4, G1. cbn [negb andb rbind]. by eexists.
  Qed.

  (* ---------------------------------------------------------------- *)
  (** ** What a payload must satisfy *)

  Lemma set_entry_orbits o k' j o' : k' <> "orbits" -> set_entry w o (k', j) = Ok o' -> dget o' "orbits" = dget o "orbits".
  Proof.
    intros N E. unfold set_entry in E.
    repeat match type of E with
    | (if ?b then _ else _) = _ => destruct b eqn:?
    | match ?j with _ => _ end = _ => destruct j; try done
    | rbind _ _ = _ => let H := fresh in apply rbind_ok in E as (? & H & E)
    end; injection E as <-; try done; rewrite ?dget_dset_ne by discriminate; try done.
    - match goal with H : String.eqb _ _ = true |- _ => by apply String.eqb_eq in H end.
    - by rewrite dget_dset_ne.
  Qed.
  Lemma fold_orbits d o o' j : NoDup (dkeys d) -> rfold (set_entry w) o d = Ok o' -> dget d "orbits" = Some j ->
    exists l, nested (orbit_from_dict w) j = Ok l /\ dget o' "orbits" = Some (AOrbits l).
  Proof.
    revert o. induction d as [|[k' j'] d IH]; intros o Hn E Hj; cbn [rfold] in E; [done|].
    apply rbind_ok in E as (o1 & E1 & E). unfold dkeys in Hn. cbn [map fst] in Hn. apply NoDup_cons in Hn as [Hn1 Hn2].
    cbn [dget] in Hj. destruct (decide ("orbits" = k')) as [<-|N].
    - injection Hj as ->. change (set_entry w o ("orbits", j)) with (let* l := nested (orbit_from_dict w) j in Ok (dset o "orbits" (AOrbits l)) : result (lce_obj S C)) in E1.
      apply rbind_ok in E1 as (l & Hl & E1). injection E1 as <-. exists l. split; [done|].
      assert (G : forall d o o', "orbits" ∉ dkeys d -> rfold (set_entry w) o d = Ok o' -> dget o' "orbits" = dget o "orbits").
      { clear. induction d as [|[k j] d IH]; intros o o' Hn E; cbn [rfold] in E; [by injection E as <-|].
        apply rbind_ok in E as (o1 & E1 & E). unfold dkeys in Hn. cbn [map fst] in Hn. apply not_elem_of_cons in Hn as [N1 N2].
        rewrite (IH o1 o' N2 E). by apply (set_entry_orbits o k j). }
      rewrite (G d _ o' Hn1 E). by rewrite dget_dset_eq.
    - by apply (IH o1).
  Qed.

  Lemma convert_other o o' k : convert_arrays o = Ok o' -> k <> "cluster_site_indices" -> k <> "correlation_basis_indices" -> k <> "site_basis_values" ->
    dget (V := attr S C) o' k = dget o k.
  Proof.
    intros H N1 N2 N3. unfold convert_arrays in H. apply rbind_ok in H as (o1 & H1 & H). apply rbind_ok in H as (o2 & H2 & H).
    assert (E1 : dget o1 k = dget o k).
    { destruct (dget o "cluster_site_indices") as [[]|]; try (by injection H1 as <-). apply rbind_ok in H1 as (t & _ & H1). injection H1 as <-. by rewrite dget_dset_ne. }
    assert (E2 : dget o2 k = dget o1 k).
    { destruct (dget o1 "correlation_basis_indices") as [[[]| | | | | | | |]|]; try (by injection H2 as <-); apply rbind_ok in H2 as (t & _ & H2); injection H2 as <-; by rewrite dget_dset_ne. }
    assert (E3 : dget o' k = dget o2 k).
    { destruct (dget o2 "site_basis_values") as [[[]| | | | | | | |]|]; try (by injection H as <-); apply rbind_ok in H as (t & _ & H); injection H as <-; by rewrite dget_dset_ne. }
    congruence.
  Qed.

  Lemma load_steps d o : lce_from_dict w d = Ok o -> exists o1 o7, rfold (set_entry w) [] d = Ok o1 /\ reconcile w o7 = Ok o
    /\ Forall (fun k => dget o7 k = dget o1 k) ["orbits"; "orbit_fingerprints"; "correlation_feature_metadata"; "correlation_fingerprints"].
  Proof.
    unfold lce_from_dict. intros H. apply rbind_ok in H as (o1 & H1 & H). apply rbind_ok in H as (o2 & H2 & H). apply rbind_ok in H as (o3 & H3 & H).
    apply rbind_ok in H as ([] & H4 & H). apply rbind_ok in H as (o5 & H5 & H). apply rbind_ok in H as (o6 & H6 & H).
    exists o1, (default_hash w o6). split; [done|]. split; [done|].
    assert (G : forall k, ~ In k ["cluster_site_indices"; "correlation_basis_indices"; "site_basis_values"; "basis"; "name"; "local_site_order";
                   "local_environment_signature"; "local_environment_hash"] -> dget (default_hash w o6) k = dget o1 k).
    { intros k Hk. simpl in Hk.
      rewrite <- (convert_other o1 o2 k H2) by (intros E0; subst k; tauto).
      assert (E3 : dget o3 k = dget o2 k).
      { unfold default_basis in H3. destruct (has o2 "basis"); [by injection H3 as <-|]. apply rbind_ok in H3 as (? & _ & H3).
        apply rbind_ok in H3 as (? & _ & H3). injection H3 as <-. rewrite dget_dset_ne; [done|]. intros E0; subst k; tauto. }
      assert (E4 : dget (default_name o3) k = dget o3 k).
      { unfold default_name. destruct (dget o3 "name") as [[j| | | | | | | |]|]; [destruct (Json.truthy j)|..]; rewrite ?dget_dset_ne; try done; intros E0; subst k; tauto. }
      assert (E5 : dget o5 k = dget (default_name o3) k).
      { unfold default_order_attr in H5. destruct (has (default_name o3) "local_site_order"); [by injection H5 as <-|]. apply rbind_ok in H5 as (? & _ & H5).
        injection H5 as <-. rewrite dget_dset_ne; [done|]. intros E0; subst k; tauto. }
      assert (E6 : dget o6 k = dget o5 k).
      { unfold default_signature in H6. destruct (has o5 "local_environment_signature"); [by injection H6 as <-|].
        destruct (dget o5 "local_env_structure") as [[]|]; try done; injection H6 as <-; [|done]. rewrite dget_dset_ne; [done|]. intros E0; subst k; tauto. }
      assert (E7 : dget (default_hash w o6) k = dget o6 k).
      { unfold default_hash. destruct (has o6 "local_environment_hash"); [done|]. destruct (dget o6 "local_environment_signature") as [[]|]; try done.
        rewrite dget_dset_ne; [done|]. intros E0; subst k; tauto. }
      congruence. }
    repeat apply Forall_cons_2; [..|apply Forall_nil_2]; apply G; simpl; intuition discriminate.
  Qed.

  Theorem fingerprints_checked d o fps : NoDup (dkeys d) -> din d "correlation_fingerprints" = false ->
    lce_from_dict w d = Ok o -> din d "orbits" = true -> dget d "orbit_fingerprints" = Some (JList fps) ->
    exists l, (exists j, dget d "orbits" = Some j /\ nested (orbit_from_dict w) j = Ok l)
      /\ match get_some d "correlation_feature_metadata" with
         | Some m => exists k, nested (decorated_fingerprint w l) m = Ok k /\ fps = map JStr k
         | None => length fps = length l -> fps = map JStr (map (fingerprint w) l)
         end.
  Proof.
    intros Hn Hcf H Ho Hf. destruct (load_steps d o H) as (o1 & o7 & H1 & HR & HK). rewrite Forall_forall in HK.
    assert (K1 := HK "orbits" ltac:(mem)). assert (K2 := HK "orbit_fingerprints" ltac:(mem)).
    assert (K3 := HK "correlation_feature_metadata" ltac:(mem)). assert (K4 := HK "correlation_fingerprints" ltac:(mem)). clear HK.
    unfold din in Ho. destruct (dget d "orbits") as [jo|] eqn:Eo; [|done].
    destruct (fold_orbits d [] o1 jo Hn H1 Eo) as (l & Hl & E1). exists l. split; [by exists jo|].
    assert (P : forall k, plain_key k -> dget o1 k = option_map AJson (dget d k)).
    { intros k Hk. rewrite (fold_plain_key d [] o1 k Hk Hn H1). by destruct (dget d k). }
    assert (E2 : dget o7 "orbit_fingerprints" = Some (AJson (JList fps))).
    { rewrite K2, P by (split; [done|simpl; intuition discriminate]). by rewrite Hf. }
    assert (E3 : dget o7 "correlation_feature_metadata" = option_map AJson (dget d "correlation_feature_metadata")).
    { rewrite K3, P by (split; [done|simpl; intuition discriminate]). done. }
    assert (E4 : dget o7 "correlation_fingerprints" = None).
    { rewrite K4, P by (split; [done|simpl; intuition discriminate]). unfold din in Hcf. by destruct (dget d "correlation_fingerprints"). }
    unfold reconcile in HR. rewrite K1, E1 in HR. unfold stored_fingerprints in HR. rewrite E2 in HR. cbn [py_list rbind] in HR.
    unfold has, din in HR. rewrite E4 in HR. apply rbind_ok in HR as (o8 & H8 & HR). apply rbind_ok in HR as (ex & Hex & HR).
    destruct (texts_are fps ex) eqn:Et; [|done]. apply texts_are_ok in Et. unfold given in H8. rewrite E3 in H8. unfold get_some.
    assert (NN : forall j, (match j with JNull => false | _ => true end) = true ->
       (let* l0 := nested (decorated_fingerprint w l) j in Ok (dset o7 "correlation_fingerprints" (ATexts l0))) = Ok o8 ->
       exists k, nested (decorated_fingerprint w l) j = Ok k /\ fps = map JStr k).
    { intros j _ E. apply rbind_ok in E as (k & Hk & E). injection E as <-. exists k. split; [done|].
      unfold get_orbit_fingerprints in Hex. rewrite dget_dset_eq in Hex. injection Hex as <-. done. }
    assert (NU : (if Nat.eqb (length fps) (length l) then Ok o7 else let* t := rmapM py_text fps in Ok (dset o7 "correlation_fingerprints" (ATexts t))) = Ok o8 ->
       length fps = length l -> fps = map JStr (map (fingerprint w) l)).
    { intros E El. rewrite El, Nat.eqb_refl in E. injection E as <-. unfold get_orbit_fingerprints in Hex. rewrite E4, K1, E1 in Hex.
      injection Hex as <-. done. }
    destruct (dget d "correlation_feature_metadata") as [jm|]; cbn [option_map] in *; [|by apply NU].
    destruct jm; try (by apply NN); by apply NU.
  Qed.

  Theorem parameters_belong o p o' : file_set_parameters w o p = Ok o' -> belongs w o p.
  Proof.
    unfold file_set_parameters. intros H. apply rbind_ok in H as (keci & Hk & H). apply rbind_ok in H as (empty & He & H).
    apply rbind_ok in H as (values & Hv & H). apply rbind_ok in H as (q & Hq & H). apply rbind_ok in H as (fps & Hf & H).
    apply rbind_ok in H as (features & Hg & H). apply rbind_ok in H as (vs & Hval & _).
    exists features, keci, values. unfold validate_parameter_orbits in Hval. cbn [l_features l_env_hash] in Hval.
    assert (Hk' : dget p "keci" = Some keci) by (unfold dgetitem in Hk; destruct (dget p "keci"); congruence).
    split_and!; try done.
    - intros Hne. destruct (Nat.eqb_spec (length features) 0) as [L1|L1]; [by destruct features|]. cbn [negb andb] in Hval.
      destruct (Nat.eqb_spec (length values) (length features)); [done|]. done.
    - intros l Hl. unfold get_some in Hf. rewrite Hl in Hf. unfold jtexts at 1 in Hf. change (JList (map JStr l)) with (jtexts l) in Hf. cbn [optional] in Hf.
      rewrite texts_jtexts in Hf. cbn [rbind] in Hf. injection Hf as <-.
      repeat match type of Hval with (if ?c then Err _ else _) = _ => destruct c eqn:?; [done|] end.
      destruct (bool_decide (l = features)) eqn:Eb; [|done]. by apply bool_decide_eq_true in Eb.
    - intros h t Hh Ht Hne. unfold param_hash in Hval. rewrite Hh, Ht in Hval.
      assert (truthy (Some t) = true) as Tr by (simpl; destruct (String.eqb_spec t ""); done). rewrite Tr in Hval. cbn [andb] in Hval.
      match type of Hval with (if ?c then _ else _) = _ => destruct c; [done|] end.
      destruct (bool_decide (Some h = Some t)) eqn:Eb; [|done]. apply bool_decide_eq_true in Eb. by injection Eb.
  Qed.

  Lemma built_fitted o : built_and_fitted w o -> fitted w o /\ complete o.
  Proof.
    intros (env & st & ce & ord & sg & cut & o0 & p & H1 & H2 & H3 & H4). split.
    - exists o0, p. split; [|done]. by eapply arises_built.
    - eapply complete_set; [|exact H4]. by eapply built_complete.
  Qed.
  Theorem composite_saves site kra kf sf : built_and_fitted w kra ->
    match site with SLce o => built_and_fitted w o | _ => True end ->
    exists d, composite_as_dict w (composite_new site (Some kra) kf sf) = Ok d.
  Proof.
    intros Hk Hs. destruct (built_fitted kra Hk) as [Fk Ck]. unfold composite_as_dict. cbn [cp_kra cp_site cp_kra_fit cp_site_fit composite_new].
    destruct (submodel_saves kra (or_no_fit kf) Fk Ck) as [k Ek]. rewrite Ek. cbn [rbind].
    destruct (submodel_reload kra _ k Fk Ek) as (_ & (ka & kb & K1 & K2 & K3 & K4) & _).
    assert (Vk : validate_submodel (JObj k) = Ok tt) by (unfold validate_submodel; by rewrite K1, K2, K3, K4).
    destruct site as [|o|x].
    - cbn [rbind]. match goal with |- context [validate_dict (JObj ?dd)] => exists dd end. unfold validate_dict.
      match goal with |- context [require_model_type (JObj ?dd) ?t] => change (require_model_type (JObj dd) t) with (@Ok (dict string json) dd); cbn [rbind];
        change (dget dd "kra") with (Some (JObj k)); change (get_some dd "site") with (@None json) end. cbv iota beta. by rewrite Vk.
    - destruct (built_fitted o Hs) as [Fo Co]. destruct (submodel_saves o (or_no_fit sf) Fo Co) as [s Es]. rewrite Es. cbn [rbind].
      destruct (submodel_reload o _ s Fo Es) as (_ & (sa & sb & S1 & S2 & S3 & S4) & _).
      assert (Vs : validate_submodel (JObj s) = Ok tt) by (unfold validate_submodel; by rewrite S1, S2, S3, S4).
      match goal with |- context [validate_dict (JObj ?dd)] => exists dd end. unfold validate_dict.
      match goal with |- context [require_model_type (JObj ?dd) ?t] => change (require_model_type (JObj dd) t) with (@Ok (dict string json) dd); cbn [rbind];
        change (dget dd "kra") with (Some (JObj k)); change (get_some dd "site") with (Some (JObj s)) end. cbv iota beta. rewrite Vk. cbn [rbind].
      unfold validate_site. assert (din s "lce" = true) as -> by (unfold din; by rewrite S1). by rewrite Vs.
    - cbn [rbind]. match goal with |- context [validate_dict (JObj ?dd)] => exists dd end. unfold validate_dict.
      match goal with |- context [require_model_type (JObj ?dd) ?t] => change (require_model_type (JObj dd) t) with (@Ok (dict string json) dd); cbn [rbind];
        change (dget dd "kra") with (Some (JObj k)); match goal with |- context [get_some dd "site"] =>
          change (get_some dd "site") with (Some (JObj [("model_type", x_ext_type w x); ("model", JObj (x_ext_as_dict w x)); ("fit_metadata", or_no_fit sf);
                    ("delta_convention", JStr "after_minus_before"); ("units", JStr "meV")])) end end. cbv iota beta. rewrite Vk. reflexivity.
  Qed.

  Theorem expansion_reload o d : arises w o -> lce_as_dict w o = Ok d ->
    exists o', lce_from_dict w d = Ok o' /\ arises w o' /\ same_expansion w o o' /\ forall occ e, value w o' occ e = Err ValueError.
  Proof.
    intros Ha Hd. pose proof (arises_core o Ha) as Hc. destruct (reload_core o d Hc Hd) as (o' & H1 & Hs & Hn).
    destruct (as_dict_keys o d Hd) as (N1 & N2 & N3).
    assert (Ha' : arises w o') by (by eapply arises_loaded). exists o'. split_and!; [done|done|done|].
    intros occ e. rewrite Forall_forall in Hn. assert (E1 := Hn "keci" ltac:(mem)). assert (E2 := Hn "empty_cluster" ltac:(mem)).
    assert (E3 := Hn "parameter_orbit_fingerprints" ltac:(mem)).
    destruct (arises_core o' Ha') as [_ _ Ho (t & Ht) Hk _ _ _]. destruct Hs as [(l & O1 & O2) _ _].
    destruct (Ho _ O2) as (_ & fps & Hf & _).
    unfold value, lce_view. rewrite Ht. cbn [as_table rbind].
    assert (exists bi, as_table (dget o' "correlation_basis_indices") = Ok bi) as [bi ->].
    { rewrite as_table_value. destruct (value_of o' "correlation_basis_indices") as [[]|]; try done; by eexists. }
    cbn [rbind]. rewrite Hf, E1, E2, E3. reflexivity.
  Qed.

  Lemma object_at_ok d k x : object_at d k = Ok x -> dget d k = Some (JObj x).
  Proof.
    unfold object_at, dgetitem. destruct (dget d k) as [j|]; [|done]. cbn [rbind]. destruct j; try done. by intros [= ->].
  Qed.
  Lemma submodel_parts d k : submodel_from_dict w d = Ok k -> exists l p o, dget d "lce" = Some (JObj l) /\ dget d "parameters" = Some (JObj p)
    /\ lce_from_dict w l = Ok o /\ belongs w o p /\ file_set_parameters w o p = Ok k.
  Proof.
    unfold submodel_from_dict. intros H. apply rbind_ok in H as (l & Hl & H). apply rbind_ok in H as (o & Ho & H). apply rbind_ok in H as (p & Hp & H).
    apply object_at_ok in Hl. apply object_at_ok in Hp. exists l, p, o. split_and!; try done. by eapply parameters_belong.
  Qed.
  Theorem composite_parts j c : composite_from_dict w j = Ok c ->
    exists d kra k, j = JObj d /\ dget d "filetype" = Some (JStr "kmcpy.model_file") /\ dget d "model_type" = Some (JStr "composite_lce")
      /\ dget d "kra" = Some (JObj kra) /\ cp_kra c = Some k
      /\ (exists l p o, dget kra "lce" = Some (JObj l) /\ dget kra "parameters" = Some (JObj p)
           /\ lce_from_dict w l = Ok o /\ belongs w o p /\ file_set_parameters w o p = Ok k)
      /\ match get_some d "site" with
         | None => cp_site c = SNone
         | Some site => exists sd, site = JObj sd /\
             ((exists s l p o, cp_site c = SLce s /\ dget sd "lce" = Some (JObj l) /\ dget sd "parameters" = Some (JObj p)
                 /\ lce_from_dict w l = Ok o /\ belongs w o p /\ file_set_parameters w o p = Ok s)
              \/ (exists x md, cp_site c = SExternal x /\ dget sd "lce" = None /\ dget sd "model" = Some (JObj md)))
         end.
  Proof.
    unfold composite_from_dict. intros H. apply rbind_ok in H as (d & Hd & H). apply rbind_ok in H as (kra & Hkra & H).
    apply rbind_ok in H as (k & Hk & H). apply rbind_ok in H as ([s f] & Hs & H). injection H as <-.
    apply object_at_ok in Hkra. unfold validate_dict in Hd. apply rbind_ok in Hd as (d' & Hd' & Hd).
    assert (d' = d) as ->.
    { destruct (dget d' "kra"); [|done]. apply rbind_ok in Hd as (? & _ & Hd). destruct (get_some d' "site"); [apply rbind_ok in Hd as (? & _ & Hd)|]; congruence. }
    clear Hd. unfold require_model_type in Hd'. apply rbind_ok in Hd' as (d1 & H1 & Hd').
    assert (d1 = d /\ dget d "model_type" = Some (JStr "composite_lce")) as [-> Hm].
    { destruct (dget d1 "model_type") as [[| | | |t| |]|] eqn:E; try done. destruct (String.eqb_spec t "composite_lce"); [|done]. subst t. injection Hd' as <-. done. }
    assert (j = JObj d /\ dget d "filetype" = Some (JStr "kmcpy.model_file")) as [-> Hft].
    { unfold require_model_file_payload in H1. destruct j as [| | | | | |dd]; try done. destruct (dget dd "filetype") as [[| | | |t| |]|] eqn:E; try done.
      destruct (String.eqb_spec t "kmcpy.model_file"); [|done]. subst t. injection H1 as <-. done. }
    exists d, kra, k. split_and!; try done.
    - by apply submodel_parts.
    - destruct (get_some d "site") as [site|].
      + apply rbind_ok in Hs as (sd & Hsd & Hs). exists sd. split; [destruct site; try done; by injection Hsd as <-|].
        apply rbind_ok in Hs as (m & Hmm & Hs). injection Hs as <- _. unfold composite_new. cbn [cp_site].
        destruct (din sd "lce") eqn:El.
        * left. apply rbind_ok in Hmm as (o & Ho & Hmm). injection Hmm as <-. destruct (submodel_parts sd o Ho) as (l & p & o0 & P). by exists o, l, p, o0.
        * right. apply rbind_ok in Hmm as (md & Hmd & Hmm). apply rbind_ok in Hmm as (x & Hx & Hmm). injection Hmm as <-.
          apply object_at_ok in Hmd. exists x, md. split_and!; [done| |done]. unfold din in El. by destruct (dget sd "lce").
      + injection Hs as <- _. done.
  Qed.

  Theorem fingerprints_fit d o fps j l : NoDup (dkeys d) -> din d "correlation_fingerprints" = false ->
    lce_from_dict w d = Ok o -> dget d "orbits" = Some j -> nested (orbit_from_dict w) j = Ok l ->
    dget d "orbit_fingerprints" = Some (JList fps) ->
    get_some d "correlation_feature_metadata" <> None \/ length fps = length l ->
    exists k, fingerprints_of_payload w d k /\ fps = map JStr k.
  Proof.
    intros Hn Hc Ho Hj Hl Hf Hd.
    destruct (fingerprints_checked d o fps Hn Hc Ho) as (l' & (j' & Hj' & Hl') & H); [by unfold din; rewrite Hj|done|].
    assert (j' = j) as -> by congruence. assert (l' = l) as -> by congruence. unfold fingerprints_of_payload.
    destruct (get_some d "correlation_feature_metadata") as [m|].
    - destruct H as (k & Hk & ->). exists k. split; [|done]. by exists j, l.
    - destruct Hd as [Hd|Hd]; [done|]. exists (map (fingerprint w) l). split; [by exists j, l|by apply H].
  Qed.

  Theorem composite_fits j c : composite_from_dict w j = Ok c ->
    exists d kra k, j = JObj d /\ dget d "filetype" = Some (JStr "kmcpy.model_file") /\ dget d "model_type" = Some (JStr "composite_lce")
      /\ dget d "kra" = Some (JObj kra) /\ cp_kra c = Some k /\ part_of_file w kra k
      /\ match get_some d "site" with
         | None => cp_site c = SNone
         | Some site => exists sd, site = JObj sd /\
             ((exists s, cp_site c = SLce s /\ part_of_file w sd s)
              \/ (exists x md, cp_site c = SExternal x /\ dget sd "lce" = None /\ dget sd "model" = Some (JObj md)))
         end.
  Proof.
    intros H. destruct (composite_parts j c H) as (d & kra & k & H1 & H2 & H3 & H4 & H5 & H6 & H7).
    exists d, kra, k. split_and!; try done. destruct (get_some d "site") as [site|]; [|done].
    destruct H7 as (sd & E & H7). exists sd. split; [done|]. destruct H7 as [(s & l & p & o & E' & H7)|H7]; [left|by right].
    exists s. split; [done|]. by exists l, p, o.
  Qed.
End Proofs.
