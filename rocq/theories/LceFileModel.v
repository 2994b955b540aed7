(** Model of the dictionary forms of clusters, orbits, local cluster expansions and composite
    models: kmcpy/structure/cluster.py, kmcpy/models/local_cluster_expansion.py,
    kmcpy/models/composite_lce_model.py and kmcpy/models/base.py.

    Attributes of a LocalClusterExpansion object are a dictionary, as in the code, which sets
    any key of a payload as an attribute.  Numbers in files are exact rationals. *)
From Coq Require Import QArith Reals Qreals.
From Verif Require Import Py Json ActiveSiteModel EventModel BasisModel MatcherModel LceModel
  BuildModel LocalEnvModel CompositeModel.
Local Open Scope nat_scope.
Local Open Scope string_scope.

(** [d.get(k)] where [None] and a missing key are treated alike. *)
Definition get_some (d : dict string json) (k : string) : option json :=
  match dget d k with Some JNull => None | o => o end.
(** [d.get(k, default)]. *)
Definition get_default (d : dict string json) (k : string) (default : json) : json :=
  match dget d k with Some j => j | None => default end.
Definition is_meta (k : string) : bool := String.prefix "@" k.

Definition ints (j : json) : result (list Z) := let* l := py_list j in rmapM py_int l.
Definition texts (j : json) : result (list string) := let* l := py_list j in rmapM py_text l.
Definition floats (j : json) : result (list Q) := let* l := py_list j in rmapM py_float l.
Definition nested {A} (f : json -> result A) (j : json) : result (list A) :=
  let* l := py_list j in rmapM f l.
Definition jints (l : list Z) : json := JList (map JInt l).
Definition jtexts (l : list string) : json := JList (map JStr l).
Definition jfloats (l : list Q) : json := JList (map JFloat l).
Definition jnested {A} (f : A -> json) (l : list A) : json := JList (map f l).
Notation table := (list (list (list Z))).
Definition jtable (t : table) : json := jnested (jnested jints) t.
Definition read_table (j : json) : result table := nested (nested ints) j.

(* ------------------------------------------------------------------ *)
(** ** Clusters and orbits (cluster.py) *)

(** The attributes of a Cluster (cluster.py:250-261): those of [MatcherModel.cluster], the sites of
    its Molecule, the metadata, the symmetry symbol, and the lengths, which a loaded cluster
    takes from the file unchanged. *)
Record cluster_obj := ClusterObj {
  co_cluster : cluster;
  co_structure : list (string * point);
  co_metadata : list (dict string json);
  co_sym : json;
  co_max : json;
  co_min : json;
  co_bonds : json;
}.
Record orbit_obj := OrbitObj { ob_clusters : list cluster_obj; ob_multiplicity : Z }.

(** cluster.py:50-56. *)
Definition cluster_type (n : nat) : string :=
  match n with
  | 1 => "point" | 2 => "pair" | 3 => "triplet" | 4 => "quadruplet"
  | _ => py_str_int (Z.of_nat n) ++ "-site"
  end.

Definition q_sort (l : list Q) : list Q := sorted Qle_bool l.
(** cluster.py:353-363: largest, smallest and all pair distances. *)
Definition bond_distances (c : cluster) : result (json * json * json) :=
  if Nat.leb (length (cl_dist c)) 1 then Ok (JInt 0, JInt 0, JList [])
  else let* l := pair_distances (cl_dist c) in
       match q_sort l with
       | [] => Err ValueError
       | x :: l' => Ok (JFloat (List.last l' x), JFloat x, jfloats (x :: l'))
       end.

(** The code outside kMCpy that the dictionary forms rest on.  [S], [C], [X]: pymatgen
    structures, pymatgen sites, and site models that are not LCE models. *)
Record external (S C X : Type) := External {
  (** The text pymatgen prints for the species it reads from a text. *)
  x_canon : string -> result string;
  (** Molecule.as_dict and Molecule.from_dict, for the species and positions of the sites. *)
  x_molecule_as_dict : list (string * point) -> json;
  x_molecule_from_dict : json -> result (list (string * point));
  (** The distance of two positions, and [round(x, 8)]. *)
  x_distance : point -> point -> Q;
  x_round8 : Q -> Q;
  (** The hashes of cluster.py:133-154, local_cluster_expansion.py:594-602 and
      local_site_order.py:170-173. *)
  x_orbit_hash : list (list Z * list label * list (list Q)) -> Z -> string;
  x_feature_hash : string -> json -> json -> string;
  x_signature_hash : json -> string;
  (** [str] of a list or dictionary. *)
  x_text_of : json -> string;
  (** The local environment's Structure or Molecule, and the PeriodicSite of its centre. *)
  x_structure_as_dict : S -> dict string json;
  x_structure_from_dict : dict string json -> result S;
  x_molecule_env_from_dict : dict string json -> result S;
  x_structure_sites : S -> list (string * point);
  x_site_as_dict : C -> dict string json;
  x_site_from_dict : json -> result C;
  (** The symmetry symbol of sites, and the table of site functions as the floats it has. *)
  x_point_group : list (string * point) -> string;
  x_float_values : basis -> list nat -> result (list (list (list Q)));
  (** Another site model: its payload, its MODEL_TYPE, and the class named by [@module] and
      [@class]. *)
  x_ext_as_dict : X -> dict string json;
  x_ext_type : X -> json;
  x_ext_from_dict : string -> string -> dict string json -> result X;
}.
Arguments x_canon {S C X}.
Arguments x_molecule_as_dict {S C X}.
Arguments x_molecule_from_dict {S C X}.
Arguments x_distance {S C X}.
Arguments x_round8 {S C X}.
Arguments x_orbit_hash {S C X}.
Arguments x_feature_hash {S C X}.
Arguments x_signature_hash {S C X}.
Arguments x_text_of {S C X}.
Arguments x_structure_as_dict {S C X}.
Arguments x_structure_from_dict {S C X}.
Arguments x_molecule_env_from_dict {S C X}.
Arguments x_structure_sites {S C X}.
Arguments x_site_as_dict {S C X}.
Arguments x_site_from_dict {S C X}.
Arguments x_point_group {S C X}.
Arguments x_float_values {S C X}.
Arguments x_ext_as_dict {S C X}.
Arguments x_ext_type {S C X}.
Arguments x_ext_from_dict {S C X}.

Section Files.
  Context {S C X : Type}.
  Variable w : external S C X.
  Local Notation canon := (x_canon w).
  Local Notation molecule_as_dict := (x_molecule_as_dict w).
  Local Notation molecule_from_dict := (x_molecule_from_dict w).
  Local Notation distance := (x_distance w).
  Local Notation round8 := (x_round8 w).
  Local Notation orbit_hash := (x_orbit_hash w).
  Local Notation feature_hash := (x_feature_hash w).
  Local Notation signature_hash := (x_signature_hash w).
  Local Notation text_of := (x_text_of w).
  Local Notation structure_as_dict := (x_structure_as_dict w).
  Local Notation structure_from_dict := (x_structure_from_dict w).
  Local Notation molecule_env_from_dict := (x_molecule_env_from_dict w).
  Local Notation structure_sites := (x_structure_sites w).
  Local Notation site_as_dict := (x_site_as_dict w).
  Local Notation site_from_dict := (x_site_from_dict w).
  Local Notation point_group := (x_point_group w).
  Local Notation float_values := (x_float_values w).
  Local Notation ext_as_dict := (x_ext_as_dict w).
  Local Notation ext_type := (x_ext_type w).
  Local Notation ext_from_dict := (x_ext_from_dict w).

  (** cluster.py:59-74, for values that can be written to JSON. *)
  Definition safe_metadata (m : dict string json) : dict string json :=
    map (fun kv => match snd kv with
                   | JList _ | JObj _ => (fst kv, JStr (text_of (snd kv)))
                   | v => (fst kv, v)
                   end)
      (List.filter (fun kv => negb (String.eqb (fst kv) "site")) m).

  (** cluster.py:188-261 for [sites] given, without the symmetry analysis. *)
  Definition cluster_init (indices : option (list Z)) (sites : list (string * point))
      (roles : option (list string)) (metadata : option (list (dict string json))) (sym : json)
    : result cluster_obj :=
    let* c := cluster_new distance indices (map fst sites) (map snd sites) roles None in
    let metadata := match metadata with Some l => l | None => replicate (length sites) [] end in
    if negb (Nat.eqb (length metadata) (length sites)) then Err ValueError else
    let* names := rmapM canon (map fst sites) in
    let* lengths := bond_distances c in
    let '(hi, lo, bonds) := lengths in
    Ok (ClusterObj c (zip names (map snd sites)) metadata
          (match sym with JNull => JStr "" | s => s end) hi lo bonds).

  (** cluster.py:392-409. *)
  Definition cluster_as_dict (c : cluster_obj) : dict string json :=
    [ ("@module", JStr "kmcpy.structure.cluster");
      ("@class", JStr "Cluster");
      ("site_indices", jints (cl_indices (co_cluster c)));
      ("type", JStr (cluster_type (length (cl_species (co_cluster c)))));
      ("structure", molecule_as_dict (co_structure c));
      ("sym", co_sym c);
      ("max_length", co_max c);
      ("min_length", co_min c);
      ("bond_distances", co_bonds c);
      ("roles", jtexts (cl_roles (co_cluster c)));
      ("metadata", JList (map (fun m => JObj (safe_metadata m)) (co_metadata c))) ].

  Definition optional {A} (f : json -> result A) (o : option json) : result (option A) :=
    match o with None => Ok None | Some j => let* x := f j in Ok (Some x) end.

  (** cluster.py:411-426.  Roles are texts here (the code calls [str]). *)
  Definition cluster_from_dict (j : json) : result cluster_obj :=
    match j with
    | JObj d =>
        let* indices := (match get_default d "site_indices" (JList []) with
                         | JNull => Ok None
                         | v => let* l := ints v in Ok (Some l)
                         end) in
        let* sites := molecule_from_dict (get_default d "structure" (JObj [])) in
        let* roles := optional texts (get_some d "roles") in
        let* metadata := optional (nested py_obj) (get_some d "metadata") in
        let* c := cluster_init indices sites roles metadata (get_default d "sym" (JStr "")) in
        Ok (ClusterObj (co_cluster c) (co_structure c) (co_metadata c) (co_sym c)
              (get_default d "max_length" (co_max c))
              (get_default d "min_length" (co_min c))
              (get_default d "bond_distances" (co_bonds c)))
    | _ => Err ValueError
    end.

  (** cluster.py:133-154.  The records are hashed in sorted order. *)
  Definition cluster_record (c : cluster) : list Z * list label * list (list Q) :=
    (cl_indices c, cl_labels c, map (map round8) (cl_dist c)).
  Definition fingerprint (o : orbit_obj) : string :=
    orbit_hash (map (fun c => cluster_record (co_cluster c)) (ob_clusters o)) (ob_multiplicity o).

  (** cluster.py:156-177. *)
  Definition orbit_as_dict (o : orbit_obj) : dict string json :=
    [ ("@module", JStr "kmcpy.structure.cluster");
      ("@class", JStr "Orbit");
      ("clusters", JList (map (fun c => JObj (cluster_as_dict c)) (ob_clusters o)));
      ("multiplicity", JInt (ob_multiplicity o));
      ("cluster_site_indices", jnested jints (map (fun c => cl_indices (co_cluster c)) (ob_clusters o)));
      ("fingerprint", JStr (fingerprint o)) ].
  Definition orbit_from_dict (j : json) : result orbit_obj :=
    match j with
    | JObj d =>
        let* clusters := nested cluster_from_dict (get_default d "clusters" (JList [])) in
        let* n := py_int (get_default d "multiplicity" (JInt (Z.of_nat (length clusters)))) in
        Ok (OrbitObj clusters n)
    | _ => Err ValueError
    end.

  (* ---------------------------------------------------------------- *)
  (** ** Local cluster expansions (local_cluster_expansion.py) *)

  (** What an attribute holds. *)
  Inductive attr :=
    | AJson (j : json)
    | AOrbits (l : list orbit_obj)
    | ACenter (c : C)
    | AStructure (s : S)
    | ABasis (b : basis)
    | AOrder (o : local_order)
    | ATable (t : table)
    | AValues (v : list (list (list Q)))
    | ATexts (l : list string).
  Definition lce_obj := dict string attr.

  Definition has (o : lce_obj) (k : string) : bool := din o k.
  (** [getattr(o, k, None) is not None]. *)
  Definition given (o : lce_obj) (k : string) : bool :=
    match dget o k with Some (AJson JNull) | None => false | _ => true end.

  Definition order_of (j : json) : order_arg :=
    match j with JNull => ONone | JStr s => OName s | JObj d => ODict d | _ => OOther end.

  (** local_cluster_expansion.py:148-182: one entry of the payload. *)
  Definition set_entry (o : lce_obj) (kv : string * json) : result lce_obj :=
    let (key, value) := kv in
    if is_meta key then Ok o
    else if String.eqb key "orbits" then
      let* l := nested orbit_from_dict value in Ok (dset o "orbits" (AOrbits l))
    else if String.eqb key "center_site" then
      let* c := site_from_dict value in Ok (dset o "center_site" (ACenter c))
    else if String.eqb key "MigrationUnit_structure" || String.eqb key "migration_unit_structure" then
      match value with
      | JObj d =>
          let* s := (match dget d "@class" with
                     | Some (JStr "Molecule") => molecule_env_from_dict d
                     | _ => structure_from_dict d
                     end) in
          Ok (dset o "local_env_structure" (AStructure s))
      | _ => Err AttributeError
      end
    else if String.eqb key "template_structure" then
      match value with
      | JObj d => let* s := structure_from_dict d in Ok (dset o "template_structure" (AStructure s))
      | _ => Err TypeError
      end
    else if String.eqb key "basis" then
      match value with
      | JNull => Ok o
      | JObj d => let* b := basis_from_dict d in Ok (dset o "basis" (ABasis b))
      | _ => Err ValueError
      end
    else if String.eqb key "local_site_order" then
      let* r := order_resolve (order_of value) in Ok (dset o "local_site_order" (AOrder r))
    else Ok (dset o key (AJson value)).

  (** [np.asarray(values, dtype=float)] of three nested lists: all rows equally long. *)
  Definition regular {A} (l : list (list A)) : bool :=
    match l with [] => true | r :: l' => forallb (fun r' => Nat.eqb (length r') (length r)) l' end.
  Definition read_values (j : json) : result (list (list (list Q))) :=
    let* v := nested (nested floats) j in
    if regular v && regular (concat v) then Ok v else Err ValueError.

  (** local_cluster_expansion.py:184-194. *)
  Definition convert_arrays (o : lce_obj) : result lce_obj :=
    let* o := (match dget o "cluster_site_indices" with
               | Some (AJson j) => let* t := read_table j in Ok (dset o "cluster_site_indices" (ATable t))
               | _ => Ok o
               end) in
    let* o := (match dget o "correlation_basis_indices" with
               | Some (AJson JNull) => Ok o
               | Some (AJson j) => let* t := read_table j in Ok (dset o "correlation_basis_indices" (ATable t))
               | _ => Ok o
               end) in
    match dget o "site_basis_values" with
    | Some (AJson JNull) => Ok o
    | Some (AJson j) => let* v := read_values j in Ok (dset o "site_basis_values" (AValues v))
    | _ => Ok o
    end.

  (** local_cluster_expansion.py:196-201. *)
  Definition default_basis (o : lce_obj) : result lce_obj :=
    if has o "basis" then Ok o else
    let counts := match dget o "basis_site_state_counts" with
                  | Some (AJson j) => if Json.truthy j then j else JList [JInt 2]
                  | _ => JList [JInt 2]
                  end in
    let* l := ints counts in
    let* b := cheb_new (fold_left Z.max l 2%Z) in
    Ok (dset o "basis" (ABasis b)).

  (** local_cluster_expansion.py:203-215. *)
  Definition check_decorations (o : lce_obj) : result unit :=
    match dget o "basis" with
    | Some (ABasis b) =>
        if uses_state_indices b && has o "cluster_site_indices"
           && negb (given o "correlation_basis_indices" && given o "site_basis_values")
        then Err ValueError else Ok tt
    | _ => Ok tt
    end.

  (** local_cluster_expansion.py:217-234. *)
  Definition default_name (o : lce_obj) : lce_obj :=
    match dget o "name" with
    | Some (AJson j) => if Json.truthy j then o else dset o "name" (AJson (JStr "LocalClusterExpansion"))
    | Some _ => o
    | None => dset o "name" (AJson (JStr "LocalClusterExpansion"))
    end.
  Definition default_order_attr (o : lce_obj) : result lce_obj :=
    if has o "local_site_order" then Ok o
    else let* r := order_resolve ONone in Ok (dset o "local_site_order" (AOrder r)).
  (** local_site_order.py:153-167. *)
  Definition signature_json (sites : list (string * point)) : json :=
    JList (map (fun s => let '(x, y, z) := snd s in
                         JObj [("species", JStr (fst s));
                               ("cartesian_coords", jfloats [round8 x; round8 y; round8 z])]) sites).
  Definition default_signature (o : lce_obj) : result lce_obj :=
    if has o "local_environment_signature" then Ok o
    else match dget o "local_env_structure" with
         | None => Ok o
         | Some (AStructure s) => Ok (dset o "local_environment_signature" (AJson (signature_json (structure_sites s))))
         | Some _ => Err AttributeError
         end.
  Definition default_hash (o : lce_obj) : lce_obj :=
    if has o "local_environment_hash" then o
    else match dget o "local_environment_signature" with
         | Some (AJson j) => dset o "local_environment_hash" (AJson (JStr (signature_hash j)))
         | _ => o
         end.

  (** local_cluster_expansion.py:276-282.  Fingerprints are texts (the code calls [str]). *)
  Definition get_orbit_fingerprints (o : lce_obj) : result (list string) :=
    match dget o "correlation_fingerprints" with
    | Some (ATexts l) => Ok l
    | Some (AJson j) => texts j
    | Some _ => Err TypeError
    | None => match dget o "orbits" with
              | Some (AOrbits l) => Ok (map fingerprint l)
              | _ => Ok []
              end
    end.

  (** local_cluster_expansion.py:593-602. *)
  Definition decorated_fingerprint (orbits : list orbit_obj) (j : json) : result string :=
    let* metadata := py_obj j in
    let* i := dgetitem metadata "orbit_index" in
    let* i := py_int i in
    let* orbit := py_get orbits i in
    let* b := dgetitem metadata "basis_indices" in
    let* n := dgetitem metadata "site_state_counts" in
    Ok (feature_hash (fingerprint orbit) b n).

  (** [list(stored)] of stored fingerprints, as JSON values. *)
  Definition stored_fingerprints (o : lce_obj) : result (option (list json)) :=
    match dget o "orbit_fingerprints" with
    | None | Some (AJson JNull) => Ok None
    | Some (AJson j) => let* l := py_list j in Ok (Some l)
    | Some (ATexts l) => Ok (Some (map JStr l))
    | Some _ => Err TypeError
    end.
  Definition text_is (j : json) (s : string) : bool :=
    match j with JStr t => String.eqb t s | _ => false end.
  Fixpoint texts_are (l : list json) (s : list string) : bool :=
    match l, s with
    | [], [] => true
    | j :: l, t :: s => text_is j t && texts_are l s
    | _, _ => false
    end.

  (** local_cluster_expansion.py:236-264. *)
  Definition reconcile (o : lce_obj) : result lce_obj :=
    match dget o "orbits" with
    | Some (AOrbits orbits) =>
        let* stored := stored_fingerprints o in
        let* o :=
          (if has o "correlation_fingerprints" then Ok o
           else if given o "correlation_feature_metadata" then
             match dget o "correlation_feature_metadata" with
             | Some (AJson j) => let* l := nested (decorated_fingerprint orbits) j in
                                 Ok (dset o "correlation_fingerprints" (ATexts l))
             | _ => Err TypeError
             end
           else match stored with
                | Some l => if Nat.eqb (length l) (length orbits) then Ok o
                            else let* t := rmapM py_text l in
                                 Ok (dset o "correlation_fingerprints" (ATexts t))
                | None => Ok o
                end) in
        let* expected := get_orbit_fingerprints o in
        match stored with
        | Some l => if texts_are l expected then Ok (dset o "orbit_fingerprints" (ATexts expected))
                    else Err ValueError
        | None => Ok (dset o "orbit_fingerprints" (ATexts expected))
        end
    | _ => Ok o
    end.

  (** local_cluster_expansion.py:134-267. *)
  Definition lce_from_dict (data : dict string json) : result lce_obj :=
    let* o := rfold set_entry [] data in
    let* o := convert_arrays o in
    let* o := default_basis o in
    let* _ := check_decorations o in
    let o := default_name o in
    let* o := default_order_attr o in
    let* o := default_signature o in
    let o := default_hash o in
    reconcile o.

  (** [self.k] for an attribute that may be missing. *)
  Definition attribute (o : lce_obj) (k : string) : result attr :=
    match dget o k with Some a => Ok a | None => Err AttributeError end.
  Definition as_table (a : option attr) : result (option table) :=
    match a with
    | Some (ATable t) => Ok (Some t)
    | Some (AJson JNull) | None => Ok None
    | Some (AJson j) => let* t := read_table j in Ok (Some t)
    | Some _ => Err TypeError
    end.
  Definition entry_if {A} (k : string) (f : A -> json) (o : option A) : dict string json :=
    match o with Some x => [(k, f x)] | None => [] end.
  Definition plain (a : option attr) : result (option json) :=
    match a with
    | None => Ok None
    | Some (AJson j) => Ok (Some j)
    | Some (ATexts l) => Ok (Some (jtexts l))
    | Some _ => Err TypeError
    end.

  (** local_cluster_expansion.py:754-799. *)
  Definition lce_as_dict (o : lce_obj) : result (dict string json) :=
    let* tables := as_table (dget o "cluster_site_indices") in
    let* decorations := as_table (dget o "correlation_basis_indices") in
    let* name := attribute o "name" in
    let* name := (match name with AJson j => Ok j | _ => Err TypeError end) in
    let* basis := attribute o "basis" in
    let* basis := (match basis with ABasis b => Ok (JObj (basis_as_dict b)) | _ => Ok JNull end) in
    let* orbits := attribute o "orbits" in
    let* orbits := (match orbits with AOrbits l => Ok l | _ => Err AttributeError end) in
    let* fingerprints := get_orbit_fingerprints o in
    let* center := attribute o "center_site" in
    let* center := (match center with ACenter c => Ok c | _ => Err AttributeError end) in
    let* env := attribute o "local_env_structure" in
    let* env := (match env with AStructure s => Ok s | _ => Err AttributeError end) in
    let* counts := (match dget o "basis_site_state_counts" with
                    | None => Ok None
                    | Some (AJson j) => let* l := ints j in Ok (Some l)
                    | Some _ => Err TypeError
                    end) in
    let* values := (match dget o "site_basis_values" with
                    | Some (AValues v) => Ok (Some v)
                    | Some (AJson JNull) | None => Ok None
                    | Some _ => Err AttributeError
                    end) in
    let* metadata := plain (if given o "correlation_feature_metadata"
                            then dget o "correlation_feature_metadata" else None) in
    let* order := (match dget o "local_site_order" with
                   | None => Ok None
                   | Some (AOrder r) => Ok (Some r)
                   | Some _ => Err AttributeError
                   end) in
    let* signature := plain (dget o "local_environment_signature") in
    let* hash := plain (dget o "local_environment_hash") in
    Ok ([ ("@module", JStr "kmcpy.models.local_cluster_expansion");
          ("@class", JStr "LocalClusterExpansion");
          ("name", name);
          ("basis", basis);
          ("orbits", JList (map (fun b => JObj (orbit_as_dict b)) orbits));
          ("orbit_fingerprints", jtexts fingerprints);
          ("cluster_site_indices", match tables with Some t => jtable t | None => JList [] end);
          ("center_site", JObj (site_as_dict center));
          ("migration_unit_structure", JObj (structure_as_dict env)) ]
        ++ entry_if "basis_site_state_counts" jints counts
        ++ entry_if "correlation_basis_indices" jtable decorations
        ++ entry_if "site_basis_values" (jnested (jnested jfloats)) values
        ++ entry_if "correlation_feature_metadata" (fun j => j) metadata
        ++ entry_if "local_site_order" (fun r => JObj (local_order_as_dict r)) order
        ++ entry_if "local_environment_signature" (fun j => j) signature
        ++ entry_if "local_environment_hash" (fun j => j) hash)%list.

  (** The hash of the local environment, a text. *)
  Definition env_hash (o : lce_obj) : option string :=
    match dget o "local_environment_hash" with Some (AJson (JStr h)) => Some h | _ => None end.

  (** What [compute] reads of an object (see [LceModel.lce]). *)
  Definition optional_texts (a : option attr) : result (option (list string)) :=
    match a with
    | Some (ATexts l) => Ok (Some l)
    | Some (AJson JNull) | None => Ok None
    | Some (AJson j) => let* l := texts j in Ok (Some l)
    | Some _ => Err TypeError
    end.
  Definition optional_number {A} (f : json -> result A) (a : option attr) : result (option A) :=
    match a with
    | Some (AJson j) => let* x := f j in Ok (Some x)
    | None => Ok None
    | Some _ => Err TypeError
    end.
  Definition lce_view (o : lce_obj) : result (lce Q) :=
    let* tables := as_table (dget o "cluster_site_indices") in
    let* tables := (match tables with Some t => Ok t | None => Err AttributeError end) in
    let* basis := as_table (dget o "correlation_basis_indices") in
    let values := match dget o "site_basis_values" with Some (AValues v) => Some v | _ => None end in
    let* features := get_orbit_fingerprints o in
    let* keci := optional_number floats (dget o "keci") in
    let* empty := optional_number py_float (dget o "empty_cluster") in
    let* fps := optional_texts (dget o "parameter_orbit_fingerprints") in
    Ok (Lce tables
          (match basis, values with Some b, Some v => Some (b, v) | _, _ => None end)
          features (env_hash o) keci empty fps
          (match dget o "parameter_local_environment_hash" with
           | Some (AJson (JStr h)) => Some h | _ => None end)).

  (** local_cluster_expansion.py:667-710 for a dictionary of parameters.  Numbers are checked here; the code finds
      an entry that is no number when it computes. *)
  Definition param_hash (p : dict string json) : option string :=
    match dget p "local_environment_hash" with Some (JStr h) => Some h | _ => None end.
  Definition file_set_parameters (o : lce_obj) (p : dict string json) : result lce_obj :=
    let* keci := dgetitem p "keci" in
    let* empty := dgetitem p "empty_cluster" in
    let* values := floats keci in
    let* _ := py_float empty in
    let* fps := optional texts (get_some p "orbit_fingerprints") in
    let* features := get_orbit_fingerprints o in
    let* _ := validate_parameter_orbits (Lce [] None features (env_hash o) None None None None)
                values fps (param_hash p) in
    let o := dset o "keci" (AJson keci) in
    let o := dset o "empty_cluster" (AJson empty) in
    let o := dset o "parameter_orbit_fingerprints" (ATexts (match fps with Some l => l | None => features end)) in
    Ok (dset o "parameter_local_environment_hash"
          (AJson (match param_hash p with
                  | Some h => JStr h
                  | None => match env_hash o with Some h => JStr h | None => JNull end
                  end))).

  (* ---------------------------------------------------------------- *)
  (** ** The object that [build] leaves *)

  (** local_cluster_expansion.py:458-472: the Cluster object of a cluster of the environment. *)
  Definition object_of (env : local_env point) (c : cluster) : result cluster_obj :=
    let* sites := rmapM (fun i => let* s := py_get (e_species env) i in
                                  let* x := py_get (e_coords env) i in Ok (s, x)) (cl_indices c) in
    cluster_init (Some (cl_indices c)) sites None None (JStr (point_group sites)).

  (** local_cluster_expansion.py:537-566, the metadata of the features of one orbit. *)
  Definition orbit_metadata (b : basis) (counts : list nat) (io : nat * list cluster) : result (list json) :=
    let (i, orbit) := io in
    let* representative := at_nat orbit 0 in
    let* basis_counts := positions_counts b counts orbit (length (cl_indices representative)) in
    rmapM (fun decoration =>
             let* states := rmapM (py_get counts) (cl_indices representative) in
             Ok (JObj [ ("orbit_index", JInt (Z.of_nat i));
                        ("basis_indices", jints (map Z.of_nat decoration));
                        ("site_state_counts", jints (map Z.of_nat states)) ]))
      (product (map (fun count => seq 0 count) basis_counts)).

  (** The hashes of [BuildModel.build] in terms of those above. *)
  Definition orbit_fingerprint (orbit : list cluster) : string :=
    orbit_hash (map cluster_record orbit) (Z.of_nat (length orbit)).
  Definition feature_fingerprint (f : string) (basis_indices counts : list nat) : string :=
    feature_hash f (jints (map Z.of_nat basis_indices)) (jints (map Z.of_nat counts)).

  (** local_cluster_expansion.py:62-116 and 499-570.  The orbits are those of [BuildModel.build_orbits_of]; the code
      makes the Cluster objects before it groups them.  Attributes that neither [compute] nor
      [as_dict] reads are left out. *)
  Definition build_obj (env : local_env point) (structure : S) (center : C) (order : local_order)
      (signature : json) (cutoff : list Q) : result lce_obj :=
    let* orbits := build_orbits_of round8 distance env cutoff in
    let* objects := rmapM (fun orbit => let* l := rmapM (object_of env) orbit in
                                        Ok (OrbitObj l (Z.of_nat (length l)))) orbits in
    let* m := configure_correlation_terms orbit_fingerprint feature_fingerprint env orbits in
    let* counts := site_state_counts env in
    let* decorations :=
      (match l_decorations m with
       | None => Ok [("correlation_basis_indices", AJson JNull); ("site_basis_values", AJson JNull);
                     ("correlation_feature_metadata", AJson JNull)]
       | Some (b, _) =>
           let* v := float_values (e_basis env) counts in
           let* metadata := rmapM (orbit_metadata (e_basis env) counts) (enumerate orbits) in
           Ok [("correlation_basis_indices", ATable b); ("site_basis_values", AValues v);
               ("correlation_feature_metadata", AJson (JList (concat metadata)))]
       end) in
    Ok ([ ("name", AJson (JStr "LocalClusterExpansion"));
          ("center_site", ACenter center);
          ("local_env_structure", AStructure structure);
          ("basis", ABasis (e_basis env));
          ("local_site_order", AOrder order);
          ("local_environment_signature", AJson signature);
          ("local_environment_hash", AJson (JStr (e_hash env)));
          ("orbits", AOrbits objects);
          ("basis_site_state_counts", AJson (jints (map Z.of_nat counts)));
          ("cluster_site_indices", ATable (l_sites m));
          ("correlation_fingerprints", ATexts (l_features m));
          ("orbit_fingerprints", ATexts (l_features m)) ] ++ decorations)%list.

  (* ---------------------------------------------------------------- *)
  (** ** Composite models (composite_lce_model.py) *)

  Inductive site_obj := SNone | SLce (o : lce_obj) | SExternal (x : X).
  Record composite_obj := CompositeObj {
    cp_kra : option lce_obj;
    cp_site : site_obj;
    cp_kra_fit : json;
    cp_site_fit : json;
  }.

  (** composite_lce_model.py:77-117; [or] replaces empty metadata. *)
  Definition no_fit : json := JObj [("time_stamp", JNull); ("time", JNull)].
  Definition or_no_fit (j : json) : json := if Json.truthy j then j else no_fit.
  Definition composite_new (site : site_obj) (kra : option lce_obj) (kra_fit site_fit : json) : composite_obj :=
    CompositeObj kra site (or_no_fit kra_fit) (or_no_fit site_fit).

  (** composite_lce_model.py:270-285. *)
  Definition parameter_payload (o : lce_obj) : result (dict string json) :=
    if negb (has o "keci" && has o "empty_cluster") then Err ValueError else
    let* keci := (match dget o "keci" with Some (AJson j) => Ok j | _ => Err TypeError end) in
    let* empty := (match dget o "empty_cluster" with Some (AJson j) => Ok j | _ => Err TypeError end) in
    let* fps := get_orbit_fingerprints o in
    Ok ([("keci", keci); ("empty_cluster", empty); ("orbit_fingerprints", jtexts fps)]
        ++ match dget o "local_environment_hash" with
           | Some (AJson JNull) => []
           | Some (AJson j) => [("local_environment_hash", j)]
           | _ => []
           end)%list.
  (** composite_lce_model.py:287-298. *)
  Definition submodel_as_dict (o : lce_obj) (fit : json) : result (dict string json) :=
    let* l := lce_as_dict o in
    let* p := parameter_payload o in
    Ok [("lce", JObj l); ("parameters", JObj p); ("fit_metadata", fit)].

  (** composite_lce_model.py:325-344. *)
  Definition validate_submodel (j : json) : result unit :=
    match j with
    | JObj d =>
        match dget d "lce" with
        | Some (JObj _) =>
            match dget d "parameters" with
            | Some (JObj p) => if din p "keci" && din p "empty_cluster" then Ok tt else Err ValueError
            | _ => Err ValueError
            end
        | _ => Err ValueError
        end
    | _ => Err ValueError
    end.
  (** composite_lce_model.py:346-356. *)
  Definition validate_site (j : json) : result unit :=
    match j with
    | JObj d =>
        if din d "lce" then validate_submodel j
        else match dget d "model" with Some (JObj _) => Ok tt | _ => Err ValueError end
    | _ => Err ValueError
    end.
  (** base.py:22-43; a list or an object cannot be looked up in a set. *)
  Definition require_model_file_payload (j : json) : result (dict string json) :=
    match j with
    | JObj d =>
        match dget d "filetype" with
        | Some (JList _) | Some (JObj _) => Err TypeError
        | Some (JStr s) => if String.eqb s "kmcpy.model_file" then Ok d else Err ValueError
        | _ => Err ValueError
        end
    | _ => Err ValueError
    end.
  Definition require_model_type (j : json) (model_type : string) : result (dict string json) :=
    let* d := require_model_file_payload j in
    match dget d "model_type" with
    | Some (JStr s) => if String.eqb s model_type then Ok d else Err ValueError
    | _ => Err ValueError
    end.
  (** composite_lce_model.py:358-367. *)
  Definition validate_dict (j : json) : result (dict string json) :=
    let* d := require_model_type j "composite_lce" in
    match dget d "kra" with
    | None => Err ValueError
    | Some kra =>
        let* _ := validate_submodel kra in
        match get_some d "site" with
        | None => Ok d
        | Some site => let* _ := validate_site site in Ok d
        end
    end.

  (** composite_lce_model.py:244-268 and 300-323. *)
  Definition composite_as_dict (c : composite_obj) : result (dict string json) :=
    match cp_kra c with
    | None => Err ValueError
    | Some kra =>
        let* k := submodel_as_dict kra (cp_kra_fit c) in
        let* site := (match cp_site c with
                      | SNone => Ok []
                      | SLce o => let* s := submodel_as_dict o (cp_site_fit c) in Ok [("site", JObj s)]
                      | SExternal x =>
                          Ok [("site", JObj [ ("model_type", ext_type x); ("model", JObj (ext_as_dict x));
                                              ("fit_metadata", cp_site_fit c);
                                              ("delta_convention", JStr "after_minus_before");
                                              ("units", JStr "meV") ])]
                      end) in
        validate_dict (JObj ([ ("@module", JStr "kmcpy.models.composite_lce_model");
                               ("@class", JStr "CompositeLCEModel");
                               ("filetype", JStr "kmcpy.model_file");
                               ("model_type", JStr "composite_lce");
                               ("kra", JObj k) ] ++ site)%list)
    end.

  (** composite_lce_model.py:411-432; an import that fails is in [ext_from_dict]. *)
  Definition text_or_empty (o : option json) : result string :=
    match o with
    | None => Ok ""
    | Some j => if Json.truthy j then py_text j else Ok ""
    end.
  Definition site_model_from_dict (d : dict string json) : result X :=
    let* module := text_or_empty (dget d "@module") in
    let* class := text_or_empty (dget d "@class") in
    if String.eqb module "" || String.eqb class "" then Err ValueError
    else ext_from_dict module class d.

  (** [d[k]] of a payload that must be an object. *)
  Definition object_at (d : dict string json) (k : string) : result (dict string json) :=
    let* j := dgetitem d k in py_obj j.
  Definition submodel_from_dict (d : dict string json) : result lce_obj :=
    let* l := object_at d "lce" in
    let* o := lce_from_dict l in
    let* p := object_at d "parameters" in
    file_set_parameters o p.

  (** composite_lce_model.py:384-409. *)
  Definition composite_from_dict (j : json) : result composite_obj :=
    let* d := validate_dict j in
    let* kra := object_at d "kra" in
    let* k := submodel_from_dict kra in
    let* s := (match get_some d "site" with
               | None => Ok (SNone, JNull)
               | Some site =>
                   let* sd := py_obj site in
                   let* m := (if din sd "lce" then let* o := submodel_from_dict sd in Ok (SLce o)
                              else let* md := object_at sd "model" in
                                   let* x := site_model_from_dict md in Ok (SExternal x)) in
                   Ok (m, get_default sd "fit_metadata" JNull)
               end) in
    Ok (composite_new (fst s) (Some k) (get_default kra "fit_metadata" JNull) (snd s)).

  (** The rates of a composite model: [CompositeModel.compute_probability] of what its parts
      compute. *)
  Definition to_real (m : lce Q) : lce R :=
    Lce (l_sites m)
      (match l_decorations m with
       | Some (b, v) => Some (b, map (map (map Q2R)) v)
       | None => None
       end)
      (l_features m) (l_env_hash m)
      (option_map (map Q2R) (l_keci m)) (option_map Q2R (l_empty m))
      (l_param_fingerprints m) (l_param_hash m).
  Definition composite_view (c : composite_obj) : result composite :=
    let* kra := (match cp_kra c with
                 | None => Ok None
                 | Some o => let* m := lce_view o in Ok (Some (to_real m))
                 end) in
    let* site := (match cp_site c with
                  | SNone => Ok NoSite
                  | SLce o => let* m := lce_view o in Ok (LceSite (to_real m))
                  | SExternal _ => Ok ExternalSite
                  end) in
    Ok (Composite kra site).
End Files.
Arguments attr : clear implicits.
Arguments lce_obj : clear implicits.
Arguments site_obj : clear implicits.
Arguments composite_obj : clear implicits.
