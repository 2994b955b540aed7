(** Vocabulary for the properties of model files. *)
From Coq Require Import QArith Reals.
From Verif Require Import Py Json ActiveSiteModel EventModel StateModel HopModel BasisModel MatcherModel LceModel
  BuildModel LocalEnvModel CompositeModel LceFileModel.
Local Open Scope nat_scope.
Local Open Scope string_scope.

Section Spec.
  Context {S C X : Type}.
  Variable w : external S C X.

  (** A species text as pymatgen prints it. *)
  Definition canonical (s : string * point) : Prop := x_canon w (fst s) = Ok (fst s).

  (** What is assumed of pymatgen: its dictionary forms lose nothing, and the species of a
      molecule it reads are printed in its own way. *)
  Record reads_what_it_writes : Prop := {
    molecule_back : forall l, Forall canonical l ->
      x_molecule_from_dict w (x_molecule_as_dict w l) = Ok l;
    molecule_canonical : forall j l, x_molecule_from_dict w j = Ok l -> Forall canonical l;
    structure_back : forall s,
      match dget (x_structure_as_dict w s) "@class" with
      | Some (JStr "Molecule") => x_molecule_env_from_dict w (x_structure_as_dict w s)
      | _ => x_structure_from_dict w (x_structure_as_dict w s)
      end = Ok s;
    site_back : forall c, x_site_from_dict w (JObj (x_site_as_dict w c)) = Ok c;
    values_regular : forall b l v, x_float_values w b l = Ok v ->
      regular v = true /\ regular (List.concat v) = true;
  }.

  (** A cluster after one trip through a file: everything is kept but metadata that is not
      plain. *)
  Definition plain_metadata (c : cluster_obj) : cluster_obj :=
    ClusterObj (co_cluster c) (co_structure c) (map (safe_metadata w) (co_metadata c)) (co_sym c)
      (co_max c) (co_min c) (co_bonds c).
  Definition plain_orbit (o : orbit_obj) : orbit_obj :=
    OrbitObj (map plain_metadata (ob_clusters o)) (ob_multiplicity o).

  (** [getattr(o, k, None)], with [None] for an attribute that is not set. *)
  Definition value_of (o : lce_obj S C) (k : string) : option (attr S C) :=
    match dget o k with Some (AJson JNull) => None | a => a end.

  (** Two objects that are the same expansion: the same orbits (with plain metadata), features
      in the same order, cluster tables, decorations, site functions, basis, local site order,
      environment, centre, signature, hash and name. *)
  Record same_expansion (o o' : lce_obj S C) : Prop := {
    same_orbits : exists l, dget o "orbits" = Some (AOrbits l)
                         /\ dget o' "orbits" = Some (AOrbits (map plain_orbit l));
    same_features : get_orbit_fingerprints w o' = get_orbit_fingerprints w o;
    same_attributes : Forall (fun k => value_of o' k = value_of o k)
      [ "cluster_site_indices"; "correlation_basis_indices"; "site_basis_values";
        "correlation_feature_metadata"; "basis"; "local_site_order"; "local_env_structure";
        "center_site"; "local_environment_signature"; "local_environment_hash"; "name" ];
  }.

  (** The value of an expansion for an event in a state, from what the object holds. *)
  Definition value (o : lce_obj S C) (occ : list Z) (e : event) : result R :=
    let* m := lce_view w o in Rcompute (to_real m) occ e.

  (** The rate of an event under a composite model. *)
  Definition rate {E} (ext_compute : E -> list Z -> event -> result R) (c : composite_obj S C X)
      (lk : option lookup) (v temperature : R) (m : E) (occ : list Z) (e : event) : result R :=
    let* c := composite_view w c in
    compute_probability ext_compute c lk v temperature m occ e.

  (** The histories of an expansion: built, or read from a file that has its own cluster tables
      and no list of feature fingerprints of its own; then given parameters. *)
  Inductive arises : lce_obj S C -> Prop :=
    | arises_built env structure center order signature cutoff o :
        Forall canonical (zip (e_species env) (e_coords env)) ->
        (forall n, e_basis env = ChebyshevBasis n -> (2 <= n)%Z) ->
        build_obj w env structure center order signature cutoff = Ok o ->
        arises o
    | arises_loaded d o :
        NoDup (dkeys d) ->
        din d "cluster_site_indices" = true ->
        din d "correlation_fingerprints" = false ->
        lce_from_dict w d = Ok o ->
        arises o
    | arises_set o p o' :
        arises o -> file_set_parameters w o p = Ok o' -> arises o'.

  (** An expansion whose last step was to be given parameters. *)
  Definition fitted (o : lce_obj S C) : Prop :=
    exists o0 p, arises o0 /\ file_set_parameters w o0 p = Ok o.

  (** An expansion that was built for an environment and then given parameters. *)
  Definition built_and_fitted (o : lce_obj S C) : Prop :=
    exists env structure center order signature cutoff o0 p,
      Forall canonical (zip (e_species env) (e_coords env))
      /\ (forall n, e_basis env = ChebyshevBasis n -> (2 <= n)%Z)
      /\ build_obj w env structure center order signature cutoff = Ok o0
      /\ file_set_parameters w o0 p = Ok o.

  (** A site model that a composite model may have: fitted, or an external model whose class
      reads what it writes. *)
  Definition site_ok (s : site_obj S C X) : Prop :=
    match s with
    | SNone => True
    | SLce o => fitted o
    | SExternal x => exists module class,
        dget (x_ext_as_dict w x) "@module" = Some (JStr module) /\ module <> ""
        /\ dget (x_ext_as_dict w x) "@class" = Some (JStr class) /\ class <> ""
        /\ x_ext_from_dict w module class (x_ext_as_dict w x) = Ok x
    end.

  (** The same expansion with the same value for every event in every state. *)
  Definition same_model (o o' : lce_obj S C) : Prop :=
    same_expansion o o' /\ fitted o' /\ forall occ e, value o' occ e = value o occ e.
  Definition same_site (s s' : site_obj S C X) : Prop :=
    match s with
    | SNone => s' = SNone
    | SLce o => exists o', s' = SLce o' /\ same_model o o'
    | SExternal x => s' = SExternal x
    end.

  (** Parameters that belong to an expansion: one number for each feature, and, where they say
      so, the features and the environment they were fitted for. *)
  Definition belongs (o : lce_obj S C) (p : dict string json) : Prop :=
    exists features keci values,
      get_orbit_fingerprints w o = Ok features
      /\ dget p "keci" = Some keci /\ floats keci = Ok values
      /\ (features <> [] -> length values = length features)
      /\ (forall l, dget p "orbit_fingerprints" = Some (jtexts l) -> l = features)
      /\ (forall h t, dget p "local_environment_hash" = Some (JStr h) -> env_hash o = Some t -> t <> "" -> h = t).

  (** The fingerprints that the orbits of a payload have, in the order of its features. *)
  Definition fingerprints_of_payload (d : dict string json) (fps : list string) : Prop :=
    exists j l, dget d "orbits" = Some j /\ nested (orbit_from_dict w) j = Ok l
      /\ match get_some d "correlation_feature_metadata" with
         | None => fps = map (fingerprint w) l
         | Some m => nested (decorated_fingerprint w l) m = Ok fps
         end.

  (** The model [k] is what the payload [d] of a part says: its expansion, given parameters that
      belong to that expansion. *)
  Definition part_of_file (d : dict string json) (k : lce_obj S C) : Prop :=
    exists l p o, dget d "lce" = Some (JObj l) /\ dget d "parameters" = Some (JObj p)
      /\ lce_from_dict w l = Ok o /\ belongs o p /\ file_set_parameters w o p = Ok k.
End Spec.
