(** Model of kmcpy/event/generators.py, kmcpy/structure/neighbors.py:prepare_cutoff_neighbor_lookup
    and get_cutoff_neighbor_info, and the site index of kmcpy/structure/sites.py. *)
From Coq Require Import QArith Qminmax Ascii.
From Verif Require Import Py ActiveSiteModel EventModel MatcherModel.
Local Open Scope nat_scope.

(* ------------------------------------------------------------------ *)
(** ** Sites *)

(** A site of the labelled primitive cell: its species and the "label" and "local_index"
    properties that kmcpy/io/cif.py:224-226 writes.  Sites are ordered (one species). *)
Record gsite := GSite { gs_species : species; gs_label : string; gs_local : Z }.

(** [site.species_string] of an ordered site. *)
Definition species_string (s : gsite) : string := sp_str (gs_species s).

Notation cell3 := (nat * nat * nat)%type.
Notation image3 := (Z * Z * Z)%type.
Definition list_of_cell (a : cell3) : list Z :=
  let '(x, y, z) := a in [Z.of_nat x; Z.of_nat y; Z.of_nat z].
Definition list_of_image (t : image3) : list Z := let '(x, y, z) := t in [x; y; z].

(** generators.py:604-633.  numpy's remainder has the sign of the divisor and is 0 for a
    divisor 0; arrays of different lengths are refused (broadcasting of arrays of length
    one is not modelled). *)
Definition np_mod (a n : Z) : Z := if (n =? 0)%Z then 0%Z else (a mod n)%Z.
Definition normalize_supercell_tuple (site_belongs_to_supercell image_of_site supercell_shape : list Z)
    (additional_input : option Z) : result (list Z) :=
  if negb (Nat.eqb (length site_belongs_to_supercell) (length image_of_site) &&
           Nat.eqb (length site_belongs_to_supercell) (length supercell_shape))
  then Err ValueError
  else
    let supercell := zip_with Z.add site_belongs_to_supercell image_of_site in
    let supercell := zip_with np_mod supercell supercell_shape in
    Ok (supercell ++ match additional_input with Some x => [x] | None => [] end).

(** sites.py:106-150, with the "supercell" property of lines 121-125. *)
Definition kmc_supercell {A} (structure : list A) (shape : cell3) : list (A * cell3) :=
  let '(n1, n2, n3) := shape in
  s ← structure; t ← lattice_points n1 n2 n3; [(s, t)].

(** sites.py:168-180. *)
Notation site_key := (Z * Z * Z * string * Z)%type.
Definition site_index_key (supercell : list Z) (label : string) (local_index : Z) : result site_key :=
  match supercell with
  | x :: y :: z :: _ => Ok (x, y, z, label, local_index)
  | _ => Err IndexError
  end.

(** sites.py:183-208.  The properties are always present here. *)
Definition build_site_index (structure : list (gsite * cell3)) (skip_check : bool)
  : result (dict site_key nat) :=
  rfold (fun index_by_key (e : nat * (gsite * cell3)) =>
           let (site_index, site) := e in
           let* key := site_index_key (list_of_cell (snd site)) (gs_label (fst site)) (gs_local (fst site)) in
           if negb skip_check && din index_by_key key then Err KeyError
           else Ok (dset index_by_key key site_index))
    [] (enumerate structure).

(* ------------------------------------------------------------------ *)
(** ** Identifiers *)

(** One of the two mobile-ion identifiers: a string or a list of strings. *)
Inductive identifier := IdOne (s : string) | IdMany (l : list string).

(** lines 57-63. *)
Definition identifier_list (i : identifier) : list string :=
  match i with IdOne s => [s] | IdMany l => l end.

(** lines 65-73, on a list of identifiers. *)
Definition flatten_identifiers (l : list identifier) : list string := l ≫= identifier_list.

(** [str(value)] of a species-like value, and lines 76-79. *)
Definition str_of (v : spval) : string := match v with SStr s => s | SObj sp => sp_str sp end.
Definition mapping_values (v : allowedval) : list string :=
  match v with AList l => map str_of l | AOne v => [str_of v] end.

(** [str.upper], on ASCII text. *)
Definition upper_char (c : ascii) : ascii :=
  let n := nat_of_ascii c in
  if Nat.leb 97 n && Nat.leb n 122 then ascii_of_nat (n - 32) else c.
Fixpoint upper (s : string) : string :=
  match s with EmptyString => EmptyString | String c s' => String (upper_char c) (upper s') end.

(** lines 82-96. *)
Definition mobile_species_from_site_mapping (mapping : list (spval * allowedval)) : result (list string) :=
  let mobile := List.filter (fun kv =>
                  let tokens := map upper (mapping_values (snd kv)) in
                  str_in "X" tokens || str_in "VACANCY" tokens) mapping in
  match mobile with
  | [] => Err ValueError
  | _ => Ok (map (fun kv => str_of (fst kv)) mobile)
  end.

(** lines 99-104: the pattern [A-Z][a-z]? followed by digits and a sign, on ASCII text.
    The optional lower-case letter can only be taken, since no lower-case letter may
    follow it. *)
Definition in_range (lo hi : nat) (c : ascii) : bool :=
  Nat.leb lo (nat_of_ascii c) && Nat.leb (nat_of_ascii c) hi.
Definition is_upper (c : ascii) : bool := in_range 65 90 c.
Definition is_lower (c : ascii) : bool := in_range 97 122 c.
Definition is_digit (c : ascii) : bool := in_range 48 57 c.
Definition is_sign (c : ascii) : bool := Ascii.eqb c "+" || Ascii.eqb c "-".
Fixpoint is_charge (s : string) : bool :=
  match s with
  | EmptyString => false
  | String c EmptyString => is_sign c
  | String c s' => is_digit c && is_charge s'
  end.
Definition element_of_token (t : string) : option string :=
  match t with
  | EmptyString => None
  | String c r =>
      if negb (is_upper c) then None else
      let (symbol, rest) :=
        match r with
        | String d r' => if is_lower d then (String c (String d EmptyString), r')
                         else (String c EmptyString, r)
        | EmptyString => (String c EmptyString, r)
        end in
      if is_charge rest then Some symbol else None
  end.
Definition species_token_variants (t : string) : list string :=
  t :: match element_of_token t with Some s => [s] | None => [] end.

Inductive selection_kind := BySpecies | ByLabel.

(** lines 107-123. *)
Definition infer_site_selection_kind (identifiers : list identifier) (mobile_species : list string)
  : selection_kind :=
  let tokens := flatten_identifiers identifiers in
  let mobile := mobile_species ≫= species_token_variants in
  if negb (Nat.eqb (length tokens) 0) &&
     forallb (fun t => existsb (fun v => str_in v mobile) (species_token_variants t)) tokens
  then BySpecies else ByLabel.

(** lines 126-153. *)
Definition site_names (s : gsite) : list string :=
  species_string s ::
  (match sp_symbol (gs_species s) with Some x => [x] | None => [] end) ++
  (match sp_element (gs_species s) with Some x => [x] | None => [] end).
Definition site_matches_species_identifier (s : gsite) (i : identifier) : bool :=
  existsb (fun t => str_in t (identifier_list i)) (site_names s).
(** lines 156-158. *)
Definition site_matches_label_identifier (s : gsite) (i : identifier) : bool :=
  str_in (gs_label s) (identifier_list i).
(** lines 307-319 and the tests of 576-588. *)
Definition is_valid_target_site (s : gsite) (kind : selection_kind) (i : identifier) : bool :=
  match kind with
  | BySpecies => site_matches_species_identifier s i
  | ByLabel => site_matches_label_identifier s i
  end.

(** lines 553-600. *)
Definition find_atom_indices (structure : list gsite) (kind : selection_kind) (i : identifier) : list nat :=
  map fst (List.filter (fun e => is_valid_target_site (snd e) kind i) (enumerate structure)).

(* ------------------------------------------------------------------ *)
(** ** Cutoffs and neighbours *)

Notation cutoff_dict := (list ((string * string) * Q)).

(** lines 161-184.  All entries have the same value, so neither their order nor
    repeated entries matter. *)
Definition build_uniform_cutoff_dict (structure : list gsite) (mobile_species : list string) (cutoff : Q)
  : result cutoff_dict :=
  let mobile := List.filter (fun s => site_matches_species_identifier s (IdMany mobile_species)) structure in
  match mobile with
  | [] => Err ValueError
  | _ => Ok (m ← mobile; n ← structure; [((species_string m, species_string n), cutoff)])
  end.

(** neighbors.py:16-27; the nested dictionary is keyed by the pair. *)
Definition cutoff_lookup (cutoffs : cutoff_dict) : dict (string * string) Q :=
  fold_left (fun d e => dset (dset d (fst e) (snd e)) (snd (fst e), fst (fst e)) (snd e)) cutoffs [].
Definition max_cutoff (cutoffs : cutoff_dict) : Q :=
  fold_left (fun m e => Qmax (snd e) m) cutoffs 0%Q.

(** A neighbour found by pymatgen: the primitive site it is a copy of, its image, its
    distance and its position. *)
Record near (P : Type) := Near { nr_site : nat; nr_image : image3; nr_distance : Q; nr_coords : P }.
Arguments Near {P}. Arguments nr_site {P}. Arguments nr_image {P}.
Arguments nr_distance {P}. Arguments nr_coords {P}.

(** The dictionary built by neighbors.py:30-50, as far as it is read. *)
Record neighbor (P : Type) := Neighbor {
  nb_index : nat;
  nb_image : image3;
  nb_coords : P;
  nb_species : string;
  nb_local : Z;
  nb_label : string;
}.
Arguments Neighbor {P}. Arguments nb_index {P}. Arguments nb_image {P}. Arguments nb_coords {P}.
Arguments nb_species {P}. Arguments nb_local {P}. Arguments nb_label {P}.

Section Generator.
  Context {P : Type}.
  (** pymatgen's species parser and the fingerprint hash (ActiveSiteModel). *)
  Variable parse_species : string -> result species.
  Variable fp_hash : fp_payload -> string.
  (** pymatgen's [Structure.get_neighbors]: the neighbours of a site of a structure within
      a radius. *)
  Variable get_neighbors : list gsite -> nat -> Q -> list (near P).
  (** The comparison of the sort keys of the order "nasicon_nat_commun_2022". *)
  Variable order_leb : neighbor P -> neighbor P -> bool.
  (** The distance of two positions, and [np.round(x, 8)]. *)
  Variable distance : P -> P -> Q.
  Variable round8 : Q -> Q.

  (** neighbors.py:53-74. *)
  Definition cutoff_of (lookup : dict (string * string) Q) (a b : string) : Q :=
    match dget lookup (a, b) with Some c => c | None => 0%Q end.
  Definition get_cutoff_neighbor_info (structure : list gsite) (n : nat) (cutoffs : cutoff_dict)
    : result (list (neighbor P)) :=
    let* site := at_nat structure n in
    let* all := rmapM (fun x => let* s := at_nat structure (nr_site x) in Ok (x, s))
                  (get_neighbors structure n (max_cutoff cutoffs)) in
    Ok (map (fun e => Neighbor (nr_site (fst e)) (nr_image (fst e)) (nr_coords (fst e))
                        (species_string (snd e)) (gs_local (snd e)) (gs_label (snd e)))
         (List.filter (fun e => negb (Qle_bool (cutoff_of (cutoff_lookup cutoffs) (species_string site)
                                                  (species_string (snd e))) (nr_distance (fst e)))) all)).

  (** kmcpy/structure/local_lattice_structure.py:150-158. *)
  Definition sort_neighbor_info (l : list (neighbor P)) : list (neighbor P) := sorted order_leb l.

  (** lines 46-54. *)
  Definition species_counts (l : list string) : dict string nat :=
    fold_left (fun d x => dset d x (match dget d x with Some n => n | None => 0 end + 1)) l [].
  Definition neighbor_species_signature (l : list (neighbor P)) : list (string * nat) :=
    sorted (fun a b => String.leb (fst a) (fst b)) (species_counts (map nb_species l)).

  (** cluster.py:284-303. *)
  Definition cluster_of (l : list (neighbor P)) : result cluster :=
    cluster_new distance (Some (map (fun n => Z.of_nat (nb_index n)) l)) (map nb_species l)
      (map nb_coords l) None None.

  Notation refs := (dict (list (string * nat)) (cluster * list (neighbor P))).
  Notation infos := (dict Z (list (neighbor P))).

  (** lines 242-281. *)
  Definition match_or_register (rtol atol : Q) (nearest : bool) (acc : refs * infos)
      (local_index : Z) (seq : list (neighbor P)) : result (refs * infos) :=
    let (reference, info) := acc in
    let sig := neighbor_species_signature seq in
    let* c := cluster_of seq in
    match dget reference sig with
    | None => Ok (dset reference sig (c, seq), dset info local_index seq)
    | Some (ref, _) =>
        let* m := cluster_match round8 ref rtol atol c false nearest in
        let* l := rmapM (at_nat seq) (reference_to_candidate m) in
        Ok (reference, dset info local_index l)
    end.

  (** lines 427-445: one migrating ion. *)
  Definition template_step (cell : list gsite) (cutoffs : cutoff_dict) (rtol atol : Q) (nearest : bool)
      (acc : refs * infos) (migrating : nat) : result (refs * infos) :=
    let* l := get_cutoff_neighbor_info cell migrating cutoffs in
    let* site := at_nat cell migrating in
    match_or_register rtol atol nearest acc (gs_local site) (sort_neighbor_info l).

  (** lines 488-503: the environment of one migrating site of the supercell. *)
  Definition neighbor_site (index : dict site_key nat) (shape : list Z) (cell : cell3)
      (n : neighbor P) : result nat :=
    let* t := normalize_supercell_tuple (list_of_cell cell) (list_of_image (nb_image n)) shape None in
    let* key := site_index_key t (nb_label n) (nb_local n) in
    dgetitem index key.

  (** lines 479-520: the events of one migrating site. *)
  Definition events_of_site (supercell : list (gsite * cell3)) (index : dict site_key nat)
      (info : infos) (shape : list Z) (kind : selection_kind) (target : identifier) (i : nat)
    : result (list event) :=
    let* site := at_nat supercell i in
    let* env := dgetitem info (gs_local (fst site)) in
    let* local := rmapM (neighbor_site index shape (snd site)) env in
    let* targets := rmapM (fun j => let* t := at_nat supercell j in
                                    Ok (j, is_valid_target_site (fst t) kind target)) local in
    Ok (map (fun e => Event [Z.of_nat i; Z.of_nat (fst e)] (map Z.of_nat local))
         (List.filter snd targets)).

  (** What [generate_events] leaves behind: the library it writes to the event file, and
      the two dictionaries of the generator. *)
  Record generated := Generated { g_lib : event_lib; g_refs : refs; g_info : infos }.

  (** lines 186-240: the inputs with defaults filled in. *)
  Record inputs := Inputs {
    in_kind : selection_kind;
    in_ids : list identifier;
    in_shape : list Z;
    in_mobile : list string;
    in_cutoff : option Q;
  }.
  Definition normalize_inputs (identifiers : option (list identifier)) (shape : option (list Z))
      (cutoffs : option cutoff_dict) (mobile_species : option (list string))
      (mapping : option (list (spval * allowedval))) (cutoff : option Q) : result inputs :=
    let shape := match shape with Some s => s | None => [2; 1; 1]%Z end in
    match mapping with
    | None => Err ValueError
    | Some m =>
        let* mobile := match mobile_species with
                       | Some l => Ok l
                       | None => mobile_species_from_site_mapping m
                       end in
        let kind := match identifiers with
                    | None => BySpecies
                    | Some ids => infer_site_selection_kind ids mobile
                    end in
        let ids := match identifiers with
                   | None => [IdMany mobile; IdMany mobile]
                   | Some ids => ids
                   end in
        let cutoff := match cutoff, cutoffs with None, None => Some 4%Q | c, _ => c end in
        Ok (Inputs kind ids shape mobile cutoff)
    end.

  (** lines 396-398: the active primitive cell. *)
  Definition active_primitive (full : list gsite) (o : order) : result (list gsite) :=
    let* sites := active_structure o in
    rmapM (fun e => at_nat full (ss_prim (fst e))) sites.

  (** lines 467-520. *)
  Definition expand (cell : list gsite) (info : infos) (shape : list Z) (kind : selection_kind)
      (initial target : identifier) : result (list event) :=
    let supercell := kmc_supercell cell (shape3 shape) in
    let migrating := find_atom_indices (map fst supercell) kind initial in
    let* index := build_site_index supercell false in
    let* l := rmapM (events_of_site supercell index info shape kind target) migrating in
    Ok (mjoin l).

  (** lines 321-549.  [full] is the labelled primitive cell after the oxidation states were
      added.  CIF export and the event file are left out.  [local_env_cutoff or 4.0] (line
      404) is 4.0 for a missing or zero cutoff. *)
  Definition generate_events (full : list gsite) (identifiers : option (list identifier))
      (shape : option (list Z)) (cutoffs : option cutoff_dict) (mobile_species : option (list string))
      (mapping : option (list (spval * allowedval))) (cutoff : option Q) (rtol atol : Q) (nearest : bool)
    : result generated :=
    let* i := normalize_inputs identifiers shape cutoffs mobile_species mapping cutoff in
    match in_ids i, mapping with
    | [initial; target], Some m =>
        let template := map gs_species full in
        let* o1 := from_structure_and_mapping parse_species fp_hash template m None in
        let* o2 := from_structure_and_mapping parse_species fp_hash template m (Some (in_shape i)) in
        let* cell := active_primitive full o1 in
        let* cutoffs :=
          match cutoffs with
          | Some c => Ok c
          | None => build_uniform_cutoff_dict cell (in_mobile i)
                      (match in_cutoff i with
                       | Some c => if Qeq_bool c 0 then 4%Q else c
                       | None => 4%Q
                       end)
          end in
        let migrating := find_atom_indices cell (in_kind i) initial in
        let* t := rfold (template_step cell cutoffs rtol atol nearest) ([], []) migrating in
        let* events := expand cell (snd t) (in_shape i) (in_kind i) initial target in
        match events with
        | [] => Err ValueError
        | _ =>
            let lib := fold_left add_event events empty_lib in
            let (lib, r) := set_index_metadata lib o2 in
            let* _ := r in
            let* lib := generate_event_dependencies lib in
            Ok (Generated lib (fst t) (snd t))
        end
    | _, _ => Err ValueError
    end.
End Generator.
