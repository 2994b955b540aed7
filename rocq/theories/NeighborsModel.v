(** Model of kmcpy/structure/neighbors.py: the neighbours of a site by fixed cutoffs and by ranges. *)
From Coq Require Import QArith Qminmax.
From Verif Require Import Py Json.
Local Open Scope string_scope.

(** A site: its species string and its properties. *)
Record site := Site { n_species : string; n_properties : dict string json }.
(** A neighbour found by pymatgen: the site it is a copy of, its image and its distance. *)
Record found := Found { f_site : nat; f_image : Z * Z * Z; f_distance : Q }.
(** neighbors.py:30-50: the dictionary of a neighbour, with the copied properties. *)
Record info := Info { i_index : nat; i_image : Z * Z * Z; i_weight : Q; i_metadata : dict string json }.

(** A [defaultdict(dict)], [d[a][b] = v] and [d.get(a, {}).get(b)]. *)
Definition table (V : Type) := dict string (dict string V).
Definition tget {V} (d : table V) (a b : string) : option V :=
  match dget d a with Some e => dget e b | None => None end.
Definition tset {V} (d : table V) (a b : string) (v : V) : table V :=
  dset d a (dset (match dget d a with Some e => e | None => [] end) b v).

(** neighbors.py:16-27. *)
Record lookup := Lookup { lookup_dict : table Q; max_dist : Q }.
Definition prepare_cutoff_neighbor_lookup (cutoffs : option (dict (string * string) Q)) : lookup :=
  fold_left (fun l e =>
      let d := tset (lookup_dict l) (fst (fst e)) (snd (fst e)) (snd e) in
      Lookup (tset d (snd (fst e)) (fst (fst e)) (snd e)) (Qmax (snd e) (max_dist l)))
    (match cutoffs with Some c => c | None => [] end) (Lookup [] 0).
(** neighbors.py:77-100. *)
Record range_lookup := RangeLookup { lookup_max : table Q; lookup_min : table Q; range_max : Q; range_min : Q }.
Definition prepare_range_cutoff_neighbor_lookup (cutoffs : option (dict (string * string) (Q * Q))) : range_lookup :=
  fold_left (fun l e =>
      let '((a, b), (low, high)) := e in
      let up := tset (lookup_max l) a b high in
      let down := tset (lookup_min l) a b low in
      RangeLookup (tset up b a high) (tset down b a low) (Qmax high (range_max l)) (Qmin low (range_min l)))
    (match cutoffs with Some c => c | None => [] end) (RangeLookup [] [] 0 1000).

Section Neighbors.
  (** pymatgen's [Structure.get_neighbors]: the neighbours of a site within a radius. *)
  Variable get_neighbors : list site -> nat -> Q -> list found.

  (** pymatgen's [Structure.site_properties]: a property is there if some site has it. *)
  Definition has_column (structure : list site) (k : string) : bool :=
    existsb (fun s => match dget (n_properties s) k with Some _ => true | None => false end) structure.
  Definition property (s : site) (k : string) : result json :=
    match dget (n_properties s) k with Some v => Ok v | None => Err KeyError end.
  (** neighbors.py:39-50. *)
  Definition copy_kmc_site_metadata (structure : list site) (s : site) : result (dict string json) :=
    if negb (has_column structure "wyckoff_sequence") then Ok [] else
    let* w := property s "wyckoff_sequence" in
    let* i := property s "local_index" in
    let* l := property s "label" in
    let base := [("wyckoff_sequence", w); ("local_index", i); ("label", l)] in
    if has_column structure "supercell"
    then let* c := property s "supercell" in Ok (base ++ [("supercell", c)])%list
    else Ok base.
  (** neighbors.py:30-37 and 39-50 for one neighbour. *)
  Definition neighbor_info (structure : list site) (x : found) (s : site) : result info :=
    let* m := copy_kmc_site_metadata structure s in
    Ok (Info (f_site x) (f_image x) (f_distance x) m).
  Definition site_at (structure : list site) (n : nat) : result site :=
    match structure !! n with Some s => Ok s | None => Err IndexError end.
  (** The loops of neighbors.py:63-74 and 112-128, for a test of the two species and the distance. *)
  Fixpoint collect (structure : list site) (test : string -> Q -> bool) (l : list found) : result (list info) :=
    match l with
    | [] => Ok []
    | x :: l' =>
        let* s := site_at structure (f_site x) in
        if test (n_species s) (f_distance x) then
          let* i := neighbor_info structure x s in
          let* rest := collect structure test l' in
          Ok (i :: rest)
        else collect structure test l'
    end.
  Definition less (a b : Q) : bool := negb (Qle_bool b a).
  Definition or_zero (o : option Q) : Q := match o with Some q => q | None => 0 end.
  (** neighbors.py:53-74. *)
  Definition get_cutoff_neighbor_info (structure : list site) (n : nat) (l : lookup) : result (list info) :=
    let* site := site_at structure n in
    collect structure (fun other d => less d (or_zero (tget (lookup_dict l) (n_species site) other)))
      (get_neighbors structure n (max_dist l)).
  (** neighbors.py:103-128. *)
  Definition get_range_cutoff_neighbor_info (structure : list site) (n : nat) (l : range_lookup) : result (list info) :=
    let* site := site_at structure n in
    collect structure (fun other d =>
        less (or_zero (tget (lookup_min l) (n_species site) other)) d
        && less d (or_zero (tget (lookup_max l) (n_species site) other)))
      (get_neighbors structure n (range_max l)).
End Neighbors.

(** neighbors.py:131-136; the files of the package directory are a parameter. *)
Definition prepare_range_cutoff_neighbor_lookup_from_preset
  (data_file : string -> option (dict (string * string) (Q * Q))) (preset : string) : result range_lookup :=
  if String.eqb preset "vesta_2019" then
    match data_file "vesta_cutoffs.yaml" with
    | Some c => Ok (prepare_range_cutoff_neighbor_lookup (Some c))
    | None => Err FileNotFoundError
    end
  else Err ValueError.
