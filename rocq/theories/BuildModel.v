(** Model of [LocalClusterExpansion.build] and of the features of a structure
    (kmcpy/models/local_cluster_expansion.py), over exact numbers. *)
From Coq Require Import QArith Reals.
From Verif Require Import Py Json ActiveSiteModel EventModel BasisModel MatcherModel LceModel.
Local Open Scope nat_scope.

(** [itertools.combinations]. *)
Fixpoint combinations {A} (k : nat) (l : list A) : list (list A) :=
  match k with
  | O => [[]]
  | S k' => match l with
            | [] => []
            | x :: l' => map (cons x) (combinations k' l') ++ combinations k l'
            end
  end.

(** What [build] reads of a LocalLatticeStructure: the species and positions of the local
    sites, their active-site indices, the species allowed on the active sites, the basis and
    the hash of the ordered sites. *)
Record local_env (P : Type) := LocalEnv {
  e_species : list string;
  e_coords : list P;
  e_site_indices : list Z;
  e_allowed : list (option (list species));
  e_basis : basis;
  e_hash : string;
}.
Arguments LocalEnv {P}. Arguments e_species {P}. Arguments e_coords {P}.
Arguments e_site_indices {P}. Arguments e_allowed {P}. Arguments e_basis {P}. Arguments e_hash {P}.

(** basis.py:32-35 and 221-224. *)
Definition uses_state_indices (b : basis) : bool :=
  match b with OccupationBasis => false | ChebyshevBasis _ => true end.

(** cluster.py:353-363, the largest distance; the pair (0, 0) of a cluster of one site is 0. *)
Definition pair_distances (m : list (list Q)) : result (list Q) :=
  rmapM (fun ij => match ij with
                   | [i; j] => entry m i j
                   | _ => Err ValueError
                   end) (combinations 2 (seq 0 (length m))).
Definition max_length (c : cluster) : result Q :=
  if Nat.leb (length (cl_dist c)) 1 then Ok 0%Q
  else let* l := pair_distances (cl_dist c) in
       match l with
       | [] => Err ValueError
       | x :: l' => Ok (fold_left (fun m y => if Qle_bool y m then m else y) l' x)
       end.

(** numpy's [values[i, :r, :c] = block] on one site: a block padded with zeros. *)
Definition pad {T} (zero : T) (n : nat) (l : list T) : list T := l ++ replicate (n - length l) zero.
Definition pad_block (rows columns : nat) (block : list (list R)) : list (list R) :=
  pad (replicate columns 0%R) rows (map (pad 0%R columns) block).

(** [min] and [max] of a sequence of numbers. *)
Definition py_min (l : list nat) : result nat :=
  match l with [] => Err ValueError | x :: l' => Ok (fold_left Nat.min l' x) end.
Definition py_max (l : list nat) : result nat :=
  match l with [] => Err ValueError | x :: l' => Ok (fold_left Nat.max l' x) end.

Section Build.
  Variable round8 : Q -> Q.
  Context {P : Type}.
  Variable distance : P -> P -> Q.
  (** The hashes of cluster.py:129-149 and of line 594-602. *)
  Variable orbit_fingerprint : list cluster -> string.
  Variable feature_fingerprint : string -> list nat -> list nat -> string.

  (** lines 459-476.  The symmetry analysis of the cluster only gives a symbol. *)
  Definition build_clusters (env : local_env P) (indexes : list (list nat)) (cutoff : list Q)
    : result (list cluster) :=
    let* _ := at_nat cutoff 1 in
    let* _ := at_nat cutoff 2 in
    let* _ := at_nat cutoff 3 in
    rfold (fun clusters site_indices =>
             let* species := rmapM (at_nat (e_species env)) site_indices in
             let* coords := rmapM (at_nat (e_coords env)) site_indices in
             let* c := cluster_new distance (Some (map Z.of_nat site_indices)) species coords None None in
             let* m := max_length c in
             let* cut := at_nat cutoff (length (cl_indices c) - 1) in
             Ok (if Qle_bool cut m then clusters else clusters ++ [c]))
      [] indexes.

  (** lines 508-512; [len(None)] is a TypeError. *)
  Definition site_state_counts (env : local_env P) : result (list nat) :=
    rmapM (fun i => let* a := py_get (e_allowed env) i in
                    match a with Some l => Ok (length l) | None => Err TypeError end)
      (e_site_indices env).

  (** lines 572-591. *)
  Definition build_site_basis_values (b : basis) (counts : list nat) : result (list (list (list R))) :=
    let* max_states := py_max counts in
    let* max_basis_count := py_max (map (num_site_basis_functions b) counts) in
    Ok (map (fun n => pad_block max_states max_basis_count (site_basis_values b n)) counts).

  (** lines 537-570, one orbit: its features as (tables, decorations, fingerprint). *)
  Definition positions_counts (b : basis) (counts : list nat) (orbit : list cluster) (n : nat)
    : result (list nat) :=
    rmapM (fun position =>
             let* l := rmapM (fun c => let* i := at_nat (cl_indices c) position in
                                       let* k := py_get counts i in
                                       Ok (num_site_basis_functions b k)) orbit in
             py_min l) (seq 0 n).
  Definition orbit_features (b : basis) (counts : list nat) (orbit : list cluster)
    : result (list (list (list Z) * list (list Z) * string)) :=
    let* representative := at_nat orbit 0 in
    let* basis_counts := positions_counts b counts orbit (length (cl_indices representative)) in
    rmapM (fun decoration =>
             let* states := rmapM (py_get counts) (cl_indices representative) in
             Ok (map cl_indices orbit,
                 map (fun _ => map Z.of_nat decoration) orbit,
                 feature_fingerprint (orbit_fingerprint orbit) decoration states))
      (product (map (fun count => seq 0 count) basis_counts)).

  (** lines 499-570. *)
  Definition configure_correlation_terms (env : local_env P) (orbits : list (list cluster)) : result (lce R) :=
    let* counts := site_state_counts env in
    if negb (uses_state_indices (e_basis env)) then
      Ok (Lce (map (map cl_indices) orbits) None (map orbit_fingerprint orbits) (Some (e_hash env))
            None None None None)
    else
      let* values := build_site_basis_values (e_basis env) counts in
      let* features := rmapM (orbit_features (e_basis env) counts) orbits in
      let features := concat features in
      Ok (Lce (map (fun f => fst (fst f)) features)
            (Some (map (fun f => snd (fst f)) features, values))
            (map snd features) (Some (e_hash env)) None None None None).

  (** lines 64-116. *)
  Definition build_orbits_of (env : local_env P) (cutoff_cluster : list Q) : result (list (list cluster)) :=
    let sites := seq 0 (length (e_species env)) in
    let indexes := combinations 1 sites ++ combinations 2 sites ++ combinations 3 sites ++ combinations 4 sites in
    let* clusters := build_clusters env indexes (10%Q :: cutoff_cluster) in
    Ok (build_orbits (cluster_eq round8) clusters).
  Definition build (env : local_env P) (cutoff_cluster : list Q) : result (lce R) :=
    let* orbits := build_orbits_of env cutoff_cluster in
    configure_correlation_terms env orbits.

  (** lines 342-381; the reference is a LocalLatticeStructure.  A model without clusters has
      no index to check. *)
  Definition validate_reference (m : lce R) (reference : local_env P) : result unit :=
    if truthy (l_env_hash m) && negb (bool_decide (Some (e_hash reference) = l_env_hash m)) then Err ValueError
    else if forallb (fun i => (0 <=? i)%Z && (i <? Z.of_nat (length (e_site_indices reference)))%Z)
              (concat (concat (l_sites m)))
    then Ok tt else Err ValueError.

  (** lines 383-437, from the occupation vector that
      [get_occ_from_structure] gives for the structure. *)
  Definition corr_from_occupation (m : lce R) (reference : local_env P) (occ : list Z) : result (list R) :=
    let* _ := validate_reference m reference in
    let* local := rmapM (py_get occ) (e_site_indices reference) in
    calculate_correlation 0%R 1%R Rplus Rmult IZR m local.
End Build.
