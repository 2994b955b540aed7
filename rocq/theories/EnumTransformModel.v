(** Model of kmcpy/structure/local_environment_enumerator.py: enumeration by a transformation
    object given by the caller (lines 107-122 and 454-576). *)
From Coq Require Import QArith.
From Verif Require Import Py Json ActiveSiteModel BasisModel LatticeModel MatcherModel EnumModel.
Local Open Scope nat_scope.

(** What a site of a disordered pymatgen structure holds: one species, or species with occupancies. *)
Inductive occupant := Whole (s : species) | Partial (l : dict species Q).
Notation dsite := (occupant * coords)%type.

(** lines 552-557. *)
Definition partial_species_entry (choices : list species) : result occupant :=
  let real := List.filter (fun s => negb (is_vacancy_species (SObj s))) choices in
  match real with
  | [] => Err ValueError
  | _ =>
      let occupancy := (1 / inject_Z (Z.of_nat (length choices)))%Q in
      Ok (Partial (dof_pairs (map (fun s => (s, occupancy)) real)))
  end.

(** lines 524-543, one site of the active lattice; [None] when the site is left out. *)
Definition disordered_site (act : lattice) (base : occupation) (vars : list Z)
    (variable_species : option (list spval)) (e : nat * site) : result (option dsite) :=
  let i := Z.of_nat (fst e) in
  if bool_decide (i ∈ vars) then
    let* choices := allowed_choices act i variable_species in
    let* entry := partial_species_entry choices in
    Ok (Some (entry, snd (snd e)))
  else
    let* v := getitem base i in
    let* sp := species_for_occupation_value act i v in
    Ok (if is_vacancy_species (SObj sp) then None else Some (Whole sp, snd (snd e))).
(** lines 515-549.  The structure is the list of its sites; its lattice is that of the active lattice. *)
Definition build_disordered_structure (act : lattice) (base : occupation) (vars : list Z)
    (variable_species : option (list spval)) : result (list dsite) :=
  let* l := rmapM (disordered_site act base vars variable_species) (enumerate (la_template act)) in
  Ok (keep_some l).

(** The argument [return_ranked_list], and lines 475-479. *)
Inductive ranked := RBool (b : bool) | RInt (n : Z).
Definition ranked_request (r : ranked) (max_results : Z) : ranked :=
  match r with
  | RInt n => RInt n
  | RBool true => RInt max_results
  | RBool false => RBool false
  end.

(** What the transformation may return: an ordered structure, whose lattice is a diagonal supercell of the
    active lattice, a list, or anything else.  A list entry is a structure, a dictionary or anything else. *)
Record crystal := Crystal { cr_shape : nat * nat * nat; cr_sites : list site }.
Inductive tval := TStructure (c : crystal) | TOther (j : json).
Inductive entry := EStructure (c : crystal) | EDict (d : dict string tval) | EOther.
Inductive transformed := One (c : crystal) | Many (l : list entry) | Neither.

(** lines 560-576.  The generator raises only when the entry is reached. *)
Definition entries (t : transformed) : result (list entry) :=
  match t with
  | One c => Ok [EStructure c]
  | Many l => Ok l
  | Neither => Err TypeError
  end.
Definition entry_structure (e : entry) : result (crystal * dict string tval) :=
  match e with
  | EStructure c => Ok (c, [])
  | EDict d =>
      match dget d "structure" with
      | Some (TStructure c) => Ok (c, List.filter (fun kv => negb (String.eqb (fst kv) "structure")) d)
      | _ => Err TypeError
      end
  | EOther => Err TypeError
  end.

(** lines 728-738. *)
Definition species_by_site (act : lattice) (occ : occupation) (vars : list Z) : result (dict Z string) :=
  let* l := rmapM (fun i => let* v := getitem occ i in
                            let* sp := species_for_occupation_value act i v in
                            Ok (i, species_label (SObj sp))) vars in
  Ok (dof_pairs l).

(** lines 486-512, one entry; [None] when the counts do not match.  Beside the result, its metadata. *)
Definition one_entry (la act : lattice) (o : order) (local vars : list Z) (counts : option (dict string Z))
    (tol : Q) (e : entry) : result (option (enumeration * dict string tval)) :=
  let* (c, metadata) := entry_structure e in
  let* occ := get_occ_from_structure act (cr_sites c) tol (cr_shape c) None in
  let* by_site := species_by_site act occ vars in
  if negb (matches_counts by_site counts) then Ok None else
  let* loc := rmapM (getitem occ) local in
  let* s := structure_from_active la act o occ in
  Ok (Some (Enumeration s occ loc local vars by_site,
            dof_pairs (("source"%string, TOther (JStr "transformation")) :: metadata))).

Section EnumTransform.
  Variable parse_species : string -> result species.
  Variable fp_hash : fp_payload -> string.
  (** The [apply_transformation] method of the object given by the caller. *)
  Variable transformation : list dsite -> ranked -> result transformed.

  (** lines 49-122 and 454-513: [enumerate_local_environments] with a transformation. *)
  Definition enumerate_transformed (la : lattice) (local : list Z)
      (counts : option (list (spval * Z))) (variable_species : option (list spval))
      (variable_sites : option (list Z)) (base : option (list site)) (return_ranked_list : ranked)
      (max_results : Z) (tol : Q) : result (list (enumeration * dict string tval)) :=
    if (max_results <? 1)%Z then Err ValueError else
    let* (act, o) := active_context parse_species fp_hash la in
    let* b := base_occupation act base tol in
    let* vars := resolve_variable_sites act local variable_sites variable_species in
    let exact := canonical_counts counts in
    if match exact with
       | Some c => negb (zsum (dvalues c) =? Z.of_nat (length vars))%Z
       | None => false
       end then Err ValueError else
    let* d := build_disordered_structure act b vars variable_species in
    let* t := transformation d (ranked_request return_ranked_list max_results) in
    let* es := entries t in
    collect (one_entry la act o local vars exact tol) (Z.to_nat max_results) es.
End EnumTransform.
