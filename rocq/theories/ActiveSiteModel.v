(** Model of kmcpy/structure/species.py, kmcpy/structure/active_site_order.py and
    the site order of kmcpy/structure/sites.py:make_kmc_supercell. *)
From Coq Require Import QArith.
From stdpp Require Import sorting.
From Verif Require Import Py Json.

(* ------------------------------------------------------------------ *)
(** ** Species (kmcpy/structure/species.py) *)

(** A pymatgen species object, reduced to what the code reads from it:
    [str(s)], [getattr(s, "symbol", None)], [getattr(s, "element", None)]. *)
Record species := Species {
  sp_str : string;
  sp_symbol : option string;
  sp_element : option string;
}.

Global Instance species_eq_dec : EqDecision species.
Proof. solve_decision. Defined.

(** A species-like argument: a string or a species object. *)
Inductive spval :=
  | SStr (s : string)
  | SObj (sp : species).

(** species.py:10 [VACANCY_LABELS]. *)
Definition vacancy_labels : list string :=
  ["X"; "Vacancy"; "vacancy"; "Va"; "VA"]%string.

Definition str_in (s : string) (l : list string) : bool :=
  existsb (String.eqb s) l.

(** species.py:13-15.  [DummySpecies("X", 0)]: its string is "X0+". *)
Definition vacancy_species : species :=
  {| sp_str := "X0+"%string; sp_symbol := Some "X"%string; sp_element := None |}.

(** species.py:18-23. *)
Definition is_vacancy_species (v : spval) : bool :=
  match v with
  | SStr s => str_in s vacancy_labels
  | SObj sp =>
      match sp_symbol sp with
      | Some s => str_in s vacancy_labels
      | None => false
      end
  end.

(** species.py:35-46, the token set as a list. *)
Definition species_tokens (v : spval) : list string :=
  if is_vacancy_species v then ["X"; "Vacancy"]%string
  else match v with
       | SStr s => [s]
       | SObj sp =>
           sp_str sp ::
           (match sp_symbol sp with Some s => [s] | None => [] end) ++
           (match sp_element sp with Some s => [s] | None => [] end)
       end.

(** species.py:61-63. *)
Definition species_equivalent (a b : spval) : bool :=
  existsb (fun t => str_in t (species_tokens b)) (species_tokens a).

(** species.py:49-58. *)
Definition species_label (v : spval) : string :=
  if is_vacancy_species v then "X"%string
  else match v with
       | SStr s => s
       | SObj sp => match sp_symbol sp with Some s => s | None => sp_str sp end
       end.

(* ------------------------------------------------------------------ *)
(** ** Supercells (kmcpy/structure/sites.py:106-150) *)

(** A supercell site: the primitive site it copies and its image.  Coordinates
    and other site properties are not part of this model. *)
Record ssite := SSite { ss_prim : nat; ss_image : nat * nat * nat }.

(** sites.py:116, pymatgen's [lattice_points_in_supercell] for a diagonal
    matrix: all integer points of the box, first axis slowest. *)
Definition lattice_points (n1 n2 n3 : nat) : list (nat * nat * nat) :=
  a ← seq 0 n1; b ← seq 0 n2; c ← seq 0 n3; [(a, b, c)].

(** sites.py:118-136: for every site, for every translation. *)
Definition make_kmc_supercell (n_sites : nat) (shape : nat * nat * nat) : list ssite :=
  let '(n1, n2, n3) := shape in
  p ← seq 0 n_sites; t ← lattice_points n1 n2 n3; [SSite p t].

(* ------------------------------------------------------------------ *)
(** ** ActiveSiteOrder *)

(** active_site_order.py:21 *)
Definition order_format : string := "kmcpy.active_site_order.v1".

(** active_site_order.py:28-44.  [o_template] holds the species of the template
    sites; it is excluded from equality in the source (compare=False). *)
Record order := Order {
  o_prim_count : Z;
  o_orig_count : Z;
  o_prim_active : list Z;
  o_a2o : list Z;
  o_a2p : list Z;
  o_fixed : list Z;
  o_shape : list Z;
  o_species : list string;
  o_allowed : list (list string);
  o_fp : string;
  o_template : option (list species);
}.

(** The dictionary hashed at active_site_order.py:109-123 (the format string is
    a constant and left out). *)
Record fp_payload := FpPayload {
  f_prim_count : Z;
  f_orig_count : Z;
  f_prim_active : list Z;
  f_a2o : list Z;
  f_a2p : list Z;
  f_shape : list Z;
  f_species : list string;
  f_allowed : list (list string);
}.

(** A site_mapping value: a list/tuple of species, or one species. *)
Inductive allowedval :=
  | AList (l : list spval)
  | AOne (v : spval).

Section Build.
  (** pymatgen's [Species(text)] parser and the SHA-256 fingerprint of the
      canonical JSON text (active_site_order.py:401-403) are parameters. *)
  Variable parse_species : string -> result species.
  Variable fp_hash : fp_payload -> string.

  (** species.py:26-32. *)
  Definition normalize_species (v : spval) : result species :=
    if is_vacancy_species v then Ok vacancy_species
    else match v with
         | SStr s => parse_species s
         | SObj sp => Ok sp
         end.

  (** active_site_order.py:395-398. *)
  Definition normalize_allowed_species (v : allowedval) : result (list species) :=
    match v with
    | AList l => rmapM normalize_species l
    | AOne v => rmap (fun s => [s]) (normalize_species v)
    end.

  (** active_site_order.py:375-378, one entry. *)
  Definition mapping_entry (kv : spval * allowedval)
    : result (species * list species) :=
    let* k := normalize_species (fst kv) in
    let* a := normalize_allowed_species (snd kv) in
    Ok (k, a).

  (** active_site_order.py:380-391, one template site. *)
  Definition site_allowed (entries : list (species * list species)) (sp : species)
    : result (list species) :=
    match List.filter (fun e => species_equivalent (SObj sp) (SObj (fst e))) entries with
    | [] => Err ValueError
    | (_, allowed) :: _ => Ok allowed
    end.

  (** active_site_order.py:371-392. *)
  Definition allowed_species_by_site (template : list species)
      (mapping : list (spval * allowedval)) : result (list (list species)) :=
    let* entries := rmapM mapping_entry mapping in
    rmapM (site_allowed entries) template.

  (** active_site_order.py:329-339. *)
  Definition normalize_supercell_shape (shape : option (list Z)) : result (list Z) :=
    match shape with
    | None => Ok [1; 1; 1]%Z
    | Some l =>
        if negb (Nat.eqb (length l) 3) then Err ValueError
        else if existsb (fun v => (v <=? 0)%Z) l then Err ValueError
        else Ok l
    end.

  (** The three components of a normalised shape. *)
  Definition shape3 (l : list Z) : nat * nat * nat :=
    match l with
    | [a; b; c] => (Z.to_nat a, Z.to_nat b, Z.to_nat c)
    | _ => (1, 1, 1)
    end.

  (** active_site_order.py:71-75. *)
  Definition primitive_active (allowed : list (list species)) : list nat :=
    map fst (List.filter (fun e => Nat.ltb 1 (length (snd e))) (enumerate allowed)).

  (** active_site_order.py:81-84. *)
  Definition active_lookup (prim_active : list nat) : dict nat nat :=
    dof_pairs (map (fun e => (snd e, fst e)) (enumerate prim_active)).

  (** active_site_order.py:94-100: one step of the loop over the supercell. *)
  Definition classify_site (lookup : dict nat nat)
      (acc : list nat * list nat * list nat) (e : nat * ssite)
    : list nat * list nat * list nat :=
    let '(a2o, a2p, fixed) := acc in
    let '(full_index, site) := e in
    if din lookup (ss_prim site)
    then (a2o ++ [full_index], a2p ++ [ss_prim site], fixed)
    else (a2o, a2p, fixed ++ [full_index]).

  (** active_site_order.py:60-136. *)
  Definition from_structure_and_mapping (template : list species)
      (mapping : list (spval * allowedval)) (supercell_shape : option (list Z))
    : result order :=
    let* shape := normalize_supercell_shape supercell_shape in
    let* allowed := allowed_species_by_site template mapping in
    let prim_active := primitive_active allowed in
    match prim_active with
    | [] => Err ValueError
    | _ =>
        let lookup := active_lookup prim_active in
        let full := make_kmc_supercell (length template) (shape3 shape) in
        let '(a2o, a2p, fixed) :=
          fold_left (classify_site lookup) (enumerate full) ([], [], []) in
        let sp_labels := map (fun s => species_label (SObj s)) template in
        let allowed_labels :=
          map (map (fun s => species_label (SObj s))) allowed in
        let payload :=
          {| f_prim_count := Z.of_nat (length template);
             f_orig_count := Z.of_nat (length full);
             f_prim_active := map Z.of_nat prim_active;
             f_a2o := map Z.of_nat a2o;
             f_a2p := map Z.of_nat a2p;
             f_shape := shape;
             f_species := sp_labels;
             f_allowed := allowed_labels |} in
        Ok {| o_prim_count := f_prim_count payload;
              o_orig_count := f_orig_count payload;
              o_prim_active := f_prim_active payload;
              o_a2o := f_a2o payload;
              o_a2p := f_a2p payload;
              o_fixed := map Z.of_nat fixed;
              o_shape := shape;
              o_species := sp_labels;
              o_allowed := allowed_labels;
              o_fp := fp_hash payload;
              o_template := Some template |}
    end.
End Build.

(** active_site_order.py:171-173. *)
Definition active_site_count (o : order) : nat := length (o_a2o o).

(** active_site_order.py:175-180. *)
Definition original_to_active (o : order) : dict Z nat :=
  dof_pairs (map (fun e => (snd e, fst e)) (enumerate (o_a2o o))).

(** active_site_order.py:182-187. *)
Definition primitive_to_active (o : order) : dict Z nat :=
  dof_pairs (map (fun e => (snd e, fst e)) (enumerate (o_prim_active o))).

(** active_site_order.py:189-205. *)
Definition order_as_dict (o : order) : list (string * json) :=
  [ ("format", JStr order_format);
    ("primitive_site_count", JInt (o_prim_count o));
    ("original_site_count", JInt (o_orig_count o));
    ("primitive_active_indices", JList (map JInt (o_prim_active o)));
    ("active_to_original", JList (map JInt (o_a2o o)));
    ("active_to_primitive", JList (map JInt (o_a2p o)));
    ("fixed_original_indices", JList (map JInt (o_fixed o)));
    ("supercell_shape", JList (map JInt (o_shape o)));
    ("species_by_primitive_site", JList (map JStr (o_species o)));
    ("allowed_species_by_primitive_site",
      JList (map (fun l => JList (map JStr l)) (o_allowed o)));
    ("fingerprint", JStr (o_fp o)) ]%string.

(** [tuple(int(index) for index in data[key])]. *)
Definition int_list (j : json) : result (list Z) :=
  let* l := py_list j in rmapM py_int l.
Definition text_list (j : json) : result (list string) :=
  let* l := py_list j in rmapM py_text l.

(** active_site_order.py:138-169.  Labels and fingerprint must be JSON strings in
    the model (the source keeps any value and calls [str] on the fingerprint). *)
Definition order_from_dict (d : list (string * json)) : result order :=
  match dget d "format"%string with
  | Some (JStr f) =>
      if negb (String.eqb f order_format) then Err ValueError else
      let* pc := (let* j := dgetitem d "primitive_site_count"%string in py_int j) in
      let* oc := (let* j := dgetitem d "original_site_count"%string in py_int j) in
      let* pa := (let* j := dgetitem d "primitive_active_indices"%string in int_list j) in
      let* a2o := (let* j := dgetitem d "active_to_original"%string in int_list j) in
      let* a2p := (let* j := dgetitem d "active_to_primitive"%string in int_list j) in
      let* fx := (match dget d "fixed_original_indices"%string with
                  | Some j => int_list j
                  | None => Ok []
                  end) in
      let* sh := (let* j := dgetitem d "supercell_shape"%string in int_list j) in
      let* sp := (let* j := dgetitem d "species_by_primitive_site"%string in text_list j) in
      let* al := (let* j := dgetitem d "allowed_species_by_primitive_site"%string in
                  let* l := py_list j in rmapM text_list l) in
      let* fp := (let* j := dgetitem d "fingerprint"%string in py_text j) in
      Ok {| o_prim_count := pc; o_orig_count := oc; o_prim_active := pa;
            o_a2o := a2o; o_a2p := a2p; o_fixed := fx; o_shape := sh;
            o_species := sp; o_allowed := al; o_fp := fp; o_template := None |}
  | _ => Err ValueError
  end.

(** active_site_order.py:207-218; a mapping argument goes through [from_dict]. *)
Definition assert_same_order (o : order) (other : order) : result unit :=
  if String.eqb (o_fp o) (o_fp other) then Ok tt else Err ValueError.
Definition assert_same_order_dict (o : order) (other : list (string * json)) : result unit :=
  let* o' := order_from_dict other in assert_same_order o o'.

(** active_site_order.py:220-234. *)
Definition validate_active_indices (o : order) (indices : list Z) : result unit :=
  match List.filter (fun i => (i <? 0)%Z || (Z.of_nat (active_site_count o) <=? i)%Z) indices with
  | [] => Ok tt
  | _ => Err IndexError
  end.

(** active_site_order.py:236-247. *)
Definition select_active_values {A} (o : order) (values : list A) : result (list A) :=
  if Nat.eqb (length values) (active_site_count o) then Ok values
  else if (Z.of_nat (length values) =? o_orig_count o)%Z
  then rmapM (py_get values) (o_a2o o)
  else Err ValueError.

(** active_site_order.py:249-273: the template sites of the active structure in
    compact order, with the compact index attached to each of them
    ([add_site_property] at line 270).  Sites are reduced to primitive index and
    image. *)
Definition active_structure (o : order) : result (list (ssite * nat)) :=
  match o_template o with
  | None => Err ValueError
  | Some template =>
      let full := make_kmc_supercell (length template) (shape3 (o_shape o)) in
      let* sites := rmapM (py_get full) (o_a2o o) in
      Ok (combine sites (seq 0 (active_site_count o)))
  end.

(** active_site_order.py:342-368, the ACTIVE_SITE_PROPERTY column of the full
    structure: the position of the primitive site among the active primitive
    sites, or -1. *)
Definition full_structure_active_property (o : order) (full : list ssite) : list Z :=
  map (fun site => match dget (primitive_to_active o) (Z.of_nat (ss_prim site)) with
                   | Some a => Z.of_nat a
                   | None => (-1)%Z
                   end) full.

(** [np.argmin]: index and value of the first smallest entry. *)
Fixpoint argmin_from (best_index : nat) (best : Q) (i : nat) (l : list Q) : nat * Q :=
  match l with
  | [] => (best_index, best)
  | x :: l' =>
      if Qle_bool best x then argmin_from best_index best (S i) l'
      else argmin_from i x (S i) l'
  end.
Definition argmin (l : list Q) : result (nat * Q) :=
  match l with [] => Err ValueError | x :: l' => Ok (argmin_from 0 x 1 l') end.

Section Filter.
  Context {S : Type}.
  (** The periodic distances of an input site to every site of the full reference
      structure (pymatgen's [get_all_distances]), and the tolerance. *)
  Variable distances : S -> list Q.
  Variable tol : Q.

  (** pymatgen's [Structure.from_sites] refuses an empty list. *)
  Definition from_sites (l : list S) : result (list S) :=
    match l with [] => Err ValueError | _ => Ok l end.

  (** active_site_order.py:298-316, one site. *)
  Definition filter_step (o : order) (kept : dict nat S) (site : S)
    : result (dict nat S) :=
    let* best := argmin (distances site) in
    let (original_index, d) := best in
    if negb (Qle_bool d tol) then Err ValueError
    else match dget (original_to_active o) (Z.of_nat original_index) with
         | None => Ok kept
         | Some active_index =>
             if din kept active_index then Err ValueError
             else Ok (dset kept active_index site)
         end.

  (** active_site_order.py:275-326; [tagged] says whether the structure carries the
      active-site property.  The result pairs each kept site with the property
      written on it (line 323); on the first branch the copy keeps its own. *)
  Definition filter_active_structure (o : order) (tagged : bool) (structure : list S)
    : result (list (S * nat)) :=
    if Nat.eqb (length structure) (active_site_count o) && tagged
    then Ok (combine structure (seq 0 (active_site_count o)))
    else if (Z.of_nat (length structure) =? o_orig_count o)%Z
    then let* sites := (let* l := rmapM (py_get structure) (o_a2o o) in from_sites l) in
         Ok (combine sites (seq 0 (active_site_count o)))
    else
      let* kept := rfold (filter_step o) [] structure in
      let keys := merge_sort Nat.le (dkeys kept) in
      let* sites := (let* l := rmapM (dgetitem kept) keys in from_sites l) in
      Ok (combine sites keys).
End Filter.
