(** Model of kmcpy/structure/local_site_order.py and
    kmcpy/structure/local_lattice_structure.py, over exact numbers. *)
From Coq Require Import QArith Ascii.
From Verif Require Import Py Json ActiveSiteModel BasisModel LatticeModel MatcherModel LceModel BuildModel.
Local Open Scope nat_scope.

(* ------------------------------------------------------------------ *)
(** ** Local site orders (local_site_order.py) *)

(** lines 31-50. *)
Record local_order := LocalOrder {
  lo_name : string;
  lo_keys : list string;
  lo_exclude : bool;
  lo_tol : Q;
}.

(** lines 19-28. *)
Definition builtin_orders : dict string (list string * bool) :=
  [ ("kmcpy_default", (["species_string"], false));
    ("nasicon_nat_commun_2022", (["species"; "cartesian_x"], true)) ]%string.

(** lines 52-66. *)
Definition order_from_name (name : string) : result local_order :=
  match dget builtin_orders name with
  | Some (keys, exclude) => Ok (LocalOrder name keys exclude (1 # 1000))
  | None => Err ValueError
  end.

(** [tuple(x)] of a payload value.  Entries that are not text are refused here; the code
    refuses them when it sorts. *)
Definition key_tuple (j : json) : result (list string) :=
  match j with
  | JList l => rmapM py_text l
  | JStr s => Ok (map (fun c => String c EmptyString) (list_ascii_of_string s))
  | JObj d => Ok (map fst d)
  | _ => Err TypeError
  end.

(** lines 68-90.  The name is text here (the code calls [str]). *)
Definition local_order_from_dict (d : dict string json) : result local_order :=
  match dget d "name"%string with
  | None => Err ValueError
  | Some j =>
      let* name := py_text j in
      let base := match order_from_name name with
                  | Ok o => o
                  | Err _ => LocalOrder name ["species_string"%string] false (1 # 1000)
                  end in
      let* keys := (match dget d "sort_keys"%string with
                    | Some j => key_tuple j
                    | None => Ok (lo_keys base)
                    end) in
      let exclude := match dget d "exclude_center_site"%string with
                     | Some j => Json.truthy j
                     | None => lo_exclude base
                     end in
      let* tol := (match dget d "center_match_tolerance"%string with
                   | Some j => py_float j
                   | None => Ok (lo_tol base)
                   end) in
      Ok (LocalOrder (lo_name base) keys exclude tol)
  end.

(** lines 92-110: the forms a user can give. *)
Inductive order_arg :=
  | ONone
  | OOrder (o : local_order)
  | OName (s : string)
  | ODict (d : dict string json)
  | OOther.
Definition order_resolve (a : order_arg) : result local_order :=
  match a with
  | ONone => order_from_name "kmcpy_default"
  | OOrder o => Ok o
  | OName s => order_from_name s
  | ODict d => local_order_from_dict d
  | OOther => Err TypeError
  end.

(** lines 112-121. *)
Definition with_exclude_center_site (o : local_order) (b : bool) : local_order :=
  LocalOrder (lo_name o) (lo_keys o) b (lo_tol o).

(** lines 123-132. *)
Definition local_order_as_dict (o : local_order) : dict string json :=
  [ ("@module", JStr "kmcpy.structure.local_site_order");
    ("@class", JStr "LocalSiteOrder");
    ("name", JStr (lo_name o));
    ("sort_keys", JList (map JStr (lo_keys o)));
    ("exclude_center_site", JBool (lo_exclude o));
    ("center_match_tolerance", JFloat (lo_tol o)) ]%string.

(* ------------------------------------------------------------------ *)
(** ** Positions *)

(** Cartesian positions; the rows of the matrix are the lattice vectors. *)
Notation point := (Q * Q * Q)%type.
Notation cell := (point * point * point)%type.
Notation image := (Z * Z * Z)%type.
Definition vadd (p q : point) : point :=
  let '(x, y, z) := p in let '(x', y', z') := q in ((x + x')%Q, (y + y')%Q, (z + z')%Q).
Definition vsub (p q : point) : point :=
  let '(x, y, z) := p in let '(x', y', z') := q in ((x - x')%Q, (y - y')%Q, (z - z')%Q).
Definition vscale (a : Q) (p : point) : point :=
  let '(x, y, z) := p in ((a * x)%Q, (a * y)%Q, (a * z)%Q).
Definition norm2 (p : point) : Q := let '(x, y, z) := p in (x * x + y * y + z * z)%Q.
Definition to_cart (m : cell) (f : coords) : point :=
  let '(a, b, c) := m in
  let '(x, y, z) := f in vadd (vadd (vscale x a) (vscale y b)) (vscale z c).
Definition shift (f : coords) (t : image) : coords :=
  let '(a, b, c) := t in vadd f (inject_Z a, inject_Z b, inject_Z c).

(** A site found in the sphere: its species, its position and its index. *)
Notation found_site := (species * point * nat)%type.

(** One entry of a sort key. *)
Inductive key_value := KText (s : string) | KSpecies (sp : species) | KNumber (q : Q).

(** The [center] argument: an integer, a sequence of numbers, anything else. *)
Inductive center_arg := CIndex (i : Z) | CPoint (l : list Q) | COther.

(** local_lattice_structure.py:18-124.  [ll_lattice] holds what the LatticeStructure
    constructor stored, [ll_sites] the local molecule. *)
Record local_lattice := LocalLattice {
  ll_lattice : lattice;
  ll_order : order;
  ll_rule : local_order;
  ll_center : point;
  ll_center_index : option nat;
  ll_indices : list Z;
  ll_sites : list (species * point);
  ll_signature : list (string * point);
  ll_hash : string;
}.

Section LocalEnv.
  Variable parse_species : string -> result species.
  Variable fp_hash : fp_payload -> string.
  (** pymatgen: whether [Element(symbol)] exists, and its electronegativity ([None]: not
      known, which sorts last). *)
  Variable is_element : string -> bool.
  Variable electronegativity : string -> option Q.
  (** pymatgen's [get_sites_in_sphere] on a lattice, site coordinates, a Cartesian centre
      and a radius: indices and periodic images, in its own order. *)
  Variable sphere : cell -> list coords -> point -> Q -> list (nat * image).
  (** Whether pymatgen builds a Molecule without sites. *)
  Variable empty_molecule : bool.
  (** [round(x, 8)], and the SHA-256 of the canonical JSON text. *)
  Variable round8 : Q -> Q.
  Variable site_hash : list (string * point) -> string.
  (** [np.linalg.norm] of a difference of two positions. *)
  Variable distance : point -> point -> Q.

  (** Comparison of two species by pymatgen: electronegativity, then symbol (the text of a
      species without oxidation state). *)
  Definition electronegativity_compare (a b : option Q) : comparison :=
    match a, b with
    | Some x, Some y => (x ?= y)%Q
    | Some _, None => Lt
    | None, Some _ => Gt
    | None, None => Eq
    end.
  Definition species_compare (a b : species) : comparison :=
    match electronegativity_compare (electronegativity (sp_str a)) (electronegativity (sp_str b)) with
    | Eq => String.compare (sp_str a) (sp_str b)
    | c => c
    end.
  Definition key_value_compare (a b : key_value) : comparison :=
    match a, b with
    | KText s, KText t => String.compare s t
    | KSpecies s, KSpecies t => species_compare s t
    | KNumber x, KNumber y => (x ?= y)%Q
    | _, _ => Eq
    end.
  (** Comparison of two tuples made from the same keys. *)
  Fixpoint key_compare (a b : list key_value) : comparison :=
    match a, b with
    | x :: a', y :: b' => match key_value_compare x y with Eq => key_compare a' b' | c => c end
    | _, _ => Eq
    end.
  Definition key_le (a b : list key_value) : bool :=
    match key_compare a b with Gt => false | _ => true end.

  (** local_site_order.py:138-153. *)
  Definition sort_key_entry (site : found_site) (key : string) : result key_value :=
    let '(sp, (x, y, z), _) := site in
    if String.eqb key "species_string" then Ok (KText (sp_str sp))
    else if String.eqb key "species" then Ok (KSpecies sp)
    else if String.eqb key "cartesian_x" then Ok (KNumber x)
    else if String.eqb key "cartesian_y" then Ok (KNumber y)
    else if String.eqb key "cartesian_z" then Ok (KNumber z)
    else Err ValueError.
  Definition sort_key (o : local_order) (site : found_site) : result (list key_value) :=
    rmapM (sort_key_entry site) (lo_keys o).

  (** local_site_order.py:134-136; [sorted] is stable. *)
  Definition sort_local_env_sites (o : local_order) (l : list found_site) : result (list found_site) :=
    let* keyed := rmapM (fun s => let* k := sort_key o s in Ok (k, s)) l in
    Ok (map snd (sorted (fun a b => key_le (fst a) (fst b)) keyed)).

  (** local_site_order.py:156-170. *)
  Definition round_point (p : point) : point :=
    let '(x, y, z) := p in (round8 x, round8 y, round8 z).
  Definition ordered_site_signature (sites : list (species * point)) : list (string * point) :=
    map (fun s => (sp_str (fst s), round_point (snd s))) sites.

  (** pymatgen's [remove_oxidation_states], one ordered site. *)
  Definition remove_oxidation_state (s : site) : result site :=
    match sp_symbol (fst s) with
    | Some symbol => if is_element symbol then Ok (Species symbol (Some symbol) None, snd s) else Err ValueError
    | None => Err AttributeError
    end.

  (** active_site_order.py:249-273 with coordinates. *)
  Definition active_sites (template : list site) (o : order) : result (list site) :=
    let* sites := active_structure o in
    rmapM (fun e => match template !! ss_prim (fst e) with
                    | Some s => Ok (fst s, place (shape3 (o_shape o)) (snd s) (ss_image (fst e)))
                    | None => Err IndexError
                    end) sites.

  (** local_lattice_structure.py:58-66. *)
  Definition center_to_active (o : order) (center : center_arg) : result center_arg :=
    match center with
    | CIndex i => match dget (primitive_to_active o) i with
                  | None => Err ValueError
                  | Some a => Ok (CIndex (Z.of_nat a))
                  end
    | c => Ok c
    end.

  (** lines 80-91. *)
  Definition center_site (m : cell) (sites : list site) (center : center_arg)
    : result (point * option nat) :=
    match center with
    | CIndex i => let* s := py_get sites i in Ok (to_cart m (snd s), Some (Z.to_nat i))
    | CPoint [x; y; z] => Ok (to_cart m (x, y, z), None)
    | _ => Err ValueError
    end.

  (** lines 142-151. *)
  Definition is_center_site (rule : local_order) (center : point) (center_index : option nat)
      (s : found_site) : bool :=
    let '(_, p, i) := s in
    match center_index with
    | Some c => if Nat.eqb i c then true
                else Qle_bool 0 (lo_tol rule) && Qle_bool (norm2 (vsub p center)) (sq (lo_tol rule))
    | None => Qle_bool 0 (lo_tol rule) && Qle_bool (norm2 (vsub p center)) (sq (lo_tol rule))
    end.

  Definition site_in_sphere (m : cell) (sites : list site) (e : nat * image) : result found_site :=
    let* s := at_nat sites (fst e) in
    Ok (fst s, to_cart m (shift (snd s) (snd e)), fst e).

  (** pymatgen's [Molecule.from_sites]. *)
  Definition molecule {A} (l : list A) : result (list A) :=
    match l with [] => if empty_molecule then Ok [] else Err ValueError | _ => Ok l end.

  (** lines 38-124.  [exclude_species] is the truth value of that argument.  Writing the
      local environment to a file (lines 112-120) is not modelled. *)
  Definition local_lattice_new (m : cell) (template : list site) (center : center_arg) (cutoff : Q)
      (mapping : list (spval * allowedval)) (basis_type : string) (exclude_species : bool)
      (local_site_order : order_arg) (exclude_center_site : option bool) : result local_lattice :=
    if exclude_species then Err ValueError else
    let* o := from_structure_and_mapping parse_species fp_hash (map fst template) mapping None in
    let* center := center_to_active o center in
    let* active := active_sites template o in
    let* working := rmapM remove_oxidation_state active in
    let* rule := order_resolve local_site_order in
    let rule := match exclude_center_site with
                | Some b => with_exclude_center_site rule b
                | None => rule
                end in
    let* la := lattice_new parse_species working mapping basis_type in
    let* c := center_site m working center in
    let* found := rmapM (site_in_sphere m working) (sphere m (map snd working) (fst c) cutoff) in
    let found := if lo_exclude rule
                 then List.filter (fun s => negb (is_center_site rule (fst c) (snd c) s)) found
                 else found in
    let* found := sort_local_env_sites rule found in
    let* sites := molecule (map (fun s : found_site => (fst (fst s), vsub (snd (fst s)) (fst c))) found) in
    let signature := ordered_site_signature sites in
    Ok (LocalLattice la o rule (fst c) (snd c) (map (fun s : found_site => Z.of_nat (snd s)) found) sites
          signature (site_hash signature)).

  (** lines 264-299: the template of a LatticeStructure, and its mapping unless another is
      given. *)
  Definition from_lattice_structure (m : cell) (l : lattice) (center : center_arg) (cutoff : Q)
      (mapping : option (list (spval * allowedval))) (basis_type : string) (exclude_species : bool)
      (local_site_order : order_arg) (exclude_center_site : option bool) : result local_lattice :=
    local_lattice_new m (la_template l) center cutoff
      (match mapping with Some x => x | None => raw_mapping (la_mapping l) end)
      basis_type exclude_species local_site_order exclude_center_site.

  (** lines 179-184. *)
  Definition to_cluster (e : local_lattice) : result cluster :=
    cluster_new distance (Some (ll_indices e)) (map (fun s => sp_str (fst s)) (ll_sites e))
      (map snd (ll_sites e)) None None.

  (** lines 186-230. *)
  Definition match_with_reference (e reference : local_lattice) (rtol atol : Q) (find_nearest : bool)
    : result local_lattice :=
    let* r := to_cluster reference in
    let* c := to_cluster e in
    let* found := cluster_match round8 r rtol atol c false find_nearest in
    let* sites := rmapM (at_nat (ll_sites e)) (reference_to_candidate found) in
    let* sites := molecule sites in
    let* indices := rmapM (at_nat (ll_indices e)) (reference_to_candidate found) in
    let signature := ordered_site_signature sites in
    Ok (LocalLattice (ll_lattice e) (ll_order e) (ll_rule e) (ll_center e) (ll_center_index e) indices sites
          signature (site_hash signature)).

  (** lines 243-262. *)
  Definition is_equivalent_to (e other : local_lattice) (rtol atol : Q) : result bool :=
    match (let* r := to_cluster e in
           let* c := to_cluster other in
           cluster_match round8 r rtol atol c false false) with
    | Ok _ => Ok true
    | Err ValueError => Ok false
    | Err x => Err x
    end.
End LocalEnv.

(** What building a cluster expansion reads of it. *)
Definition env_of (e : local_lattice) : local_env point :=
  LocalEnv (map (fun s => sp_str (fst s)) (ll_sites e)) (map snd (ll_sites e)) (ll_indices e)
    (la_allowed (ll_lattice e)) (la_basis (ll_lattice e)) (ll_hash e).
