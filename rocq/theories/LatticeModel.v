(** Model of kmcpy/structure/lattice_structure.py. *)
From Coq Require Import QArith Qround.
From Verif Require Import Py Json ActiveSiteModel BasisModel.
Local Open Scope nat_scope.

(** Fractional coordinates, as exact rationals. *)
Notation coords := (Q * Q * Q)%type.

(** A site of a pymatgen structure: its species and its fractional coordinates.  A
    structure is the list of its sites; the lattice is not part of it (see
    [get_occ_from_structure]). *)
Notation site := (species * coords)%type.

(** lines 263-265: squared minimum-image fractional distance.  [np.round] rounds halves
    to even and this function rounds them up; the square is the same. *)
Definition wrap (x : Q) : Q := (x - inject_Z (Qfloor (x + (1 # 2))))%Q.
Definition sq (x : Q) : Q := (x * x)%Q.
Definition dist2 (p q : coords) : Q :=
  let '(x, y, z) := p in
  let '(x', y', z') := q in
  (sq (wrap (x - x')) + sq (wrap (y - y')) + sq (wrap (z - z')))%Q.

(** pymatgen's [Structure.make_supercell] for a diagonal matrix with positive entries:
    for every site, for every translation, in the order of [lattice_points]; the
    coordinates become fractions of the larger cell. *)
Definition place (shape : nat * nat * nat) (p : coords) (t : nat * nat * nat) : coords :=
  let '(n1, n2, n3) := shape in
  let '(x, y, z) := p in
  let '(a, b, c) := t in
  let f (x : Q) (a n : nat) := ((x + inject_Z (Z.of_nat a)) / inject_Z (Z.of_nat n))%Q in
  (f x a n1, f y b n2, f z c n3).
Definition points_of (shape : nat * nat * nat) : list (nat * nat * nat) :=
  let '(n1, n2, n3) := shape in lattice_points n1 n2 n3.
Definition supercell_sites (shape : nat * nat * nat) (template : list site) : list site :=
  s ← template; t ← points_of shape; [(fst s, place shape (snd s) t)].
(** lines 155-160: the template index carried by every supercell site. *)
Definition supercell_indices (shape : nat * nat * nat) (n : nat) : list nat :=
  p ← seq 0 n; _ ← points_of shape; [p].

(** lines 19-72.  [None] in [la_allowed] is a template site without a mapping entry. *)
Record lattice := Lattice {
  la_template : list site;
  la_mapping : dict species (list species);
  la_basis_type : string;
  la_allowed : list (option (list species));
  la_basis : basis;
}.

Definition is_nonempty {A} (o : option (list A)) : bool :=
  match o with Some (_ :: _) => true | _ => false end.
Definition allowed_length {A} (o : option (list A)) : nat :=
  match o with Some l => length l | None => 0 end.

Section Lattice.
  Variable parse_species : string -> result species.
  Variable fp_hash : fp_payload -> string.

  (** lines 44-50, one site. *)
  Definition allowed_for (mapping : dict species (list species)) (sp : species)
    : option (list species) :=
    match List.filter (fun e => species_equivalent (SObj sp) (SObj (fst e))) mapping with
    | [] => None
    | e :: _ => Some (snd e)
    end.

  (** lines 31-72.  The length test of line 52 cannot fail.  The stored site order is
      [stored_order] below. *)
  Definition lattice_new (template : list site) (mapping : list (spval * allowedval))
      (basis_type : string) : result lattice :=
    let* entries := rmapM (mapping_entry parse_species) mapping in
    let m := dof_pairs entries in
    let allowed := map (fun s => allowed_for m (fst s)) template in
    match List.filter is_nonempty allowed with
    | [] => Err ValueError
    | l =>
        let max_states := Z.max 2 (Z.of_nat (fold_right Nat.max 0 (map allowed_length l))) in
        let* b := (if String.eqb basis_type "chebyshev"
                   then get_basis basis_type [("max_states"%string, JInt max_states)]
                   else get_basis basis_type []) in
        Ok (Lattice template m basis_type allowed b)
    end.

  (** lines 374-378: the constructor again, on the stored mapping. *)
  Definition raw_mapping (m : dict species (list species)) : list (spval * allowedval) :=
    map (fun e => (SObj (fst e), AList (map SObj (snd e)))) m.
  Definition lattice_copy (la : lattice) : result lattice :=
    lattice_new (la_template la) (raw_mapping (la_mapping la)) (la_basis_type la).

  (** lines 380-391 for a diagonal matrix: the outcome and the object after the call. *)
  Definition tile {A} (shape : nat * nat * nat) (l : list A) : list A :=
    _ ← points_of shape; l.
  Definition make_supercell (la : lattice) (shape : nat * nat * nat) : result unit * lattice :=
    let la' := Lattice (supercell_sites shape (la_template la)) (la_mapping la)
                 (la_basis_type la) (tile shape (la_allowed la)) (la_basis la) in
    (if Nat.eqb (length (la_allowed la')) (length (la_template la')) then Ok tt
     else Err ValueError, la').

  (** lines 74-80 and 69-72. *)
  Definition get_active_site_order (la : lattice) (shape : option (list Z)) : result order :=
    from_structure_and_mapping parse_species fp_hash (map fst (la_template la))
      (raw_mapping (la_mapping la)) shape.
  Definition stored_order (la : lattice) : option order :=
    match get_active_site_order la None with Ok o => Some o | Err _ => None end.

  (** lines 82-91: the active sites with their species and coordinates, and the same
      mapping and basis type. *)
  Definition active_template (la : lattice) (o : order) : result (list site) :=
    let* sites := active_structure o in
    rmapM (fun e => match la_template la !! ss_prim (fst e) with
                    | Some s => Ok (fst s, place (shape3 (o_shape o)) (snd s) (ss_image (fst e)))
                    | None => Err IndexError
                    end) sites.
  Definition get_active_lattice_structure (la : lattice) (shape : option (list Z)) : result lattice :=
    let* o := get_active_site_order la shape in
    let* t := active_template la o in
    lattice_new t (raw_mapping (la_mapping la)) (la_basis_type la).

  (** lines 292-299. *)
  Definition missing_occupation_value (b : basis) (allowed : option (list species)) : Z :=
    match allowed with
    | None | Some [] => mismatch_value b
    | Some l =>
        match List.filter (fun e => is_vacancy_species (SObj (snd e))) (enumerate l) with
        | (k, _) :: _ => state_value b (Z.of_nat k)
        | [] => state_value b (if Nat.ltb 1 (length l) then 1 else 0)
        end
    end.

  (** lines 301-318. *)
  Definition value_for_species (b : basis) (allowed : option (list species)) (sp : species)
    : result Z :=
    match allowed with
    | None | Some [] => Err ValueError
    | Some l =>
        match List.filter (fun e => species_equivalent (SObj sp) (SObj (snd e))) (enumerate l) with
        | (k, _) :: _ => Ok (state_value b (Z.of_nat k))
        | [] => Err ValueError
        end
    end.
  Definition occupation_value_for_species (la : lattice) (i : Z) (sp : species) : result Z :=
    let* allowed := py_get (la_allowed la) i in value_for_species (la_basis la) allowed sp.

  (** lines 320-328. *)
  Definition species_for_value (b : basis) (allowed : option (list species)) (v : Z)
    : result species :=
    match allowed with
    | None | Some [] => Err ValueError
    | Some l =>
        match List.filter (fun e => (v =? state_value b (Z.of_nat (fst e)))%Z) (enumerate l) with
        | (_, sp) :: _ => Ok sp
        | [] => Err ValueError
        end
    end.
  Definition species_for_occupation_value (la : lattice) (i v : Z) : result species :=
    let* allowed := py_get (la_allowed la) i in species_for_value (la_basis la) allowed v.

  (** lines 250-278: for every atom the first nearest template site, all within [tol]. *)
  Definition nearest (templates : list coords) (tol : Q) (p : coords) : result Z :=
    let* best := argmin (map (fun t => dist2 t p) templates) in
    if Qle_bool 0 tol && Qle_bool (snd best) (sq tol) then Ok (Z.of_nat (fst best))
    else Err ValueError.

  (** lines 195-212. *)
  Definition explicit_mapping (n_template n_atoms : nat) (m : list Z) : result (list Z) :=
    if negb (Nat.eqb (length m) n_atoms) then Err ValueError
    else if existsb (fun i => (i <? 0)%Z || (Z.of_nat n_template <=? i)%Z) m then Err ValueError
    else Ok m.

  (** lines 223-243, one atom. *)
  Definition place_atom (b : basis) (allowed : list (option (list species))) (occ : list Z)
      (e : Z * species) : result (list Z) :=
    let* a := py_get allowed (fst e) in
    let* v := value_for_species b a (snd e) in
    py_set occ (fst e) v.

  (** lines 93-248 for a known diagonal supercell matrix.  Detecting the matrix from the
      lattice vectors (125-149) and the lattice comparison (184-187) are not modelled:
      the structure is taken to have the lattice of the supercell.  All error paths
      raise ValueError. *)
  Definition get_occ_from_structure (la : lattice) (structure : list site) (tol : Q)
      (shape : nat * nat * nat) (mapping : option (list Z)) : result occupation :=
    let template := supercell_sites shape (la_template la) in
    let* allowed := rmapM (fun k => py_get (la_allowed la) (Z.of_nat k))
                      (supercell_indices shape (length (la_template la))) in
    let occ := map (missing_occupation_value (la_basis la)) allowed in
    match structure with
    | [] => Ok (Occupation (la_basis la) occ)
    | _ =>
        let* indices :=
          (match mapping with
           | None => rmapM (fun s => nearest (map snd template) tol (snd s)) structure
           | Some m => explicit_mapping (length template) (length structure) m
           end) in
        if negb (bool_decide (NoDup indices)) then Err ValueError else
        let* occ' := rfold (place_atom (la_basis la) allowed) occ
                       (combine indices (map fst structure)) in
        Ok (Occupation (la_basis la) occ')
    end.

  (** lines 330-372. *)
  Definition get_structure_from_occ (la : lattice) (occ : list Z) (shape : nat * nat * nat)
    : result (list site) :=
    let* c := lattice_copy la in
    let (r, big) := make_supercell c shape in
    let* _ := r in
    if negb (Nat.eqb (length occ) (length (la_template big))) then Err ValueError else
    let* new := lattice_copy big in
    let* sps := rmapM (fun e => let* v := py_get occ (Z.of_nat (fst e)) in
                                species_for_occupation_value new (Z.of_nat (fst e)) v)
                  (enumerate (la_template new)) in
    Ok (List.filter (fun s => negb (is_vacancy_species (SObj (fst s))))
          (combine sps (map snd (la_template new)))).
End Lattice.
