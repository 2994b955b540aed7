(** Model of kmcpy/io/cif.py: the sites of a labelled structure.  The text of the file is parsed
    already (a row that cannot be parsed is an exception of its block); coordinates are exact.
    Implicit hydrogens and the magnetic moments themselves are not modelled. *)
From Coq Require Import QArith Qround.
From Verif Require Import Py Json MatcherModel TrackerModel.
Local Open Scope string_scope.

(** pymatgen's [find_in_coord_list_pbc] for one coordinate: each component of the difference is
    within [tol] of an integer. *)
Definition near1 (tol d : Q) : bool := negb (Qle_bool tol (Qabs.Qabs (d - inject_Z (np_round d))%Q)).
Definition near (tol : Q) (a b : vec) : bool :=
  near1 tol (vx a - vx b)%Q && near1 tol (vy a - vy b)%Q && near1 tol (vz a - vz b)%Q.
(** Equality of tuples of floats. *)
Definition coord_eqb (a b : vec) : bool := Qeq_bool (vx a) (vx b) && Qeq_bool (vy a) (vy b) && Qeq_bool (vz a) (vz b).
(** [i - math.floor(i)]. *)
Definition wrap1 (q : Q) : Q := q - inject_Z (Qfloor q).
Definition wrap (a : vec) : vec := Vec (wrap1 (vx a)) (wrap1 (vy a)) (wrap1 (vz a)).

(** Position of the first element that satisfies a test. *)
Fixpoint index_where {A} (f : A -> bool) (l : list A) : option nat :=
  match l with
  | [] => None
  | x :: l' => if f x then Some 0%nat else match index_where f l' with Some i => Some (S i) | None => None end
  end.

(** Amounts of species. *)
Definition composition := dict string Q.
Definition amount (c : composition) (el : string) : Q := match dget c el with Some q => q | None => 0 end.
Definition add_species (c : composition) (el : string) (q : Q) : composition := dset c el (amount c el + q)%Q.
Definition total (c : composition) : Q := fold_right Qplus 0%Q (dvalues c).

(** One row of the atom loop: its label, its species (none if the symbol is not understood), its
    coordinates and its occupancy. *)
Record row := Row { row_label : string; row_species : option string; row_coord : vec; row_occu : Q }.
(** An entry of [coord_to_species] and [coord_to_labels], which have the same keys. *)
Record rep := Rep { rep_coord : vec; rep_comp : composition; rep_label : string }.

Definition operation := vec -> vec.

(** cif.py:76-86. *)
Fixpoint get_matching_coord (tol : Q) (keys : list vec) (ops : list operation) (coord : vec) : option nat :=
  match ops with
  | [] => None
  | op :: ops' =>
      match index_where (fun k => near tol k (op coord)) keys with
      | Some i => Some i
      | None => get_matching_coord tol keys ops' coord
      end
  end.
(** cif.py:88-144. *)
Definition read_row (ops : list operation) (tol : Q) (reps : list rep) (r : row) : result (list rep) :=
  match row_species r with
  | None => Ok reps
  | Some el =>
      if Qle_bool (row_occu r) 0 then Ok reps else
      let coord := row_coord r in
      match get_matching_coord tol (map rep_coord reps) ops coord with
      | None =>
          let new := Rep coord (add_species [] el (row_occu r)) (row_label r) in
          match index_where (coord_eqb coord) (map rep_coord reps) with
          | None => Ok (reps ++ [new])%list
          | Some i => Ok (<[i := new]> reps)
          end
      | Some i =>
          let reps := alter (fun p => Rep (rep_coord p) (add_species (rep_comp p) el (row_occu r)) (rep_label p)) i reps in
          match index_where (coord_eqb coord) (map rep_coord reps) with
          | None => Err KeyError
          | Some k => Ok (alter (fun p => Rep (rep_coord p) (rep_comp p) (rep_label p ++ row_label r)) k reps)
          end
      end
  end.
Definition read_rows (ops : list operation) (tol : Q) (rows : list row) (reps : list rep) : result (list rep) :=
  fold_left (fun acc r => let* reps := acc in read_row ops tol reps r) rows (Ok reps).

(** cif.py:403-410: the first of the images within the tolerance of each other stays. *)
Definition add_image (tol : Q) (out : list vec) (c : vec) : list vec :=
  if existsb (fun o => near tol o c) out then out else (out ++ [c])%list.
Definition unique_coords (ops : list operation) (tol : Q) (x : vec) : list vec :=
  fold_left (add_image tol) (map (fun op => wrap (op x)) ops) [].

(** A site of the structure. *)
Record site := Site { s_coord : vec; s_comp : composition; s_label : string; s_sequence : nat; s_local : nat }.

(** cif.py:253-257 (rescaling). *)
Definition rescale (occupancy_tol : Q) (c : composition) : composition :=
  if negb (Qle_bool (total c) 1) && Qle_bool (total c) occupancy_tol
  then map (fun kv => (fst kv, (snd kv / total c)%Q)) c else c.
(** cif.py:196-251: the images of each entry, numbered. *)
Definition sites_of_rep (ops : list operation) (tol occupancy_tol : Q) (first : nat) (p : rep) : list site :=
  imap (fun i c => Site c (rescale occupancy_tol (rep_comp p)) (rep_label p) i (first + i)) (unique_coords ops tol (rep_coord p)).
Fixpoint all_sites (ops : list operation) (tol occupancy_tol : Q) (first : nat) (reps : list rep) : list site :=
  match reps with
  | [] => []
  | p :: reps' =>
      let sites := sites_of_rep ops tol occupancy_tol first p in
      (sites ++ all_sites ops tol occupancy_tol (first + length sites) reps')%list
  end.
(** pymatgen's [PeriodicSite] refuses occupancies above 1 + 1e-8. *)
Definition too_full (c : composition) : bool := negb (Qle_bool (total c) (1 + (1 # 100000000))%Q).

Section Cif.
  (** The order of [get_sorted_structure] (electronegativity), and pymatgen's primitive cell. *)
  Variable species_leb : composition -> composition -> bool.
  Variable primitive_cell : list site -> list site.

  (** A data block. *)
  Record block := Block { b_operations : list operation; b_rows : list row }.
  (** Site tolerance and occupancy tolerance of the parser, whether the file has magnetic entries,
      and the arguments [primitive] and [symmetrized]. *)
  Variable tol occupancy_tol : Q.
  Variable magnetic primitive symmetrized : bool.
  (** cif.py:41-301.  For magnetic files [_unique_coords] is called with an argument it does not
      have; a shared site there is a NotImplementedError, written TypeError as well. *)
  Definition labeled_structure (b : block) : result (option (list site)) :=
    let* reps := read_rows (b_operations b) tol (b_rows b) [] in
    match reps with
    | [] => Ok None
    | _ =>
        if magnetic then Err TypeError else
        match all_sites (b_operations b) tol occupancy_tol 0 reps with
        | [] => Ok None
        | sites =>
            if existsb (fun s => too_full (s_comp s)) sites then Err ValueError
            else if symmetrized then Ok (Some sites)
            else let sites := sorted (fun a b => species_leb (s_comp a) (s_comp b)) sites in
                 Ok (Some (if primitive then primitive_cell sites else sites))
        end
    end.
  (** cif.py:336-360: a block that raises KeyError or ValueError is left out. *)
  Fixpoint structures_of (blocks : list (result block)) : result (list (list site)) :=
    match blocks with
    | [] => Ok []
    | b :: blocks' =>
        match rbind b labeled_structure with
        | Ok (Some s) => let* rest := structures_of blocks' in Ok (s :: rest)
        | Ok None | Err KeyError | Err ValueError => structures_of blocks'
        | Err e => Err e
        end
    end.
  Definition get_labeled_structures (blocks : list (result block)) : result (list (list site)) :=
    if primitive && symmetrized then Err ValueError else
    let* structures := structures_of blocks in
    match structures with [] => Err ValueError | _ => Ok structures end.
  (** cif.py:430-460: the first structure. *)
  Definition load_labeled_structure (blocks : list (result block)) : result (list site) :=
    let* structures := get_labeled_structures blocks in
    match structures with s :: _ => Ok s | [] => Err IndexError end.
End Cif.
