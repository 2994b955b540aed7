(** Vocabulary for the statements about lattice structures. *)
From Coq Require Import QArith.
From Verif Require Import Py ActiveSiteModel BasisModel LatticeModel.
Local Open Scope nat_scope.

(** Equal up to whole lattice vectors. *)
Definition congruent1 (x y : Q) : Prop := exists k : Z, (x == y + inject_Z k)%Q.
Definition congruent (p q : coords) : Prop :=
  let '(x, y, z) := p in
  let '(x', y', z') := q in
  congruent1 x x' /\ congruent1 y y' /\ congruent1 z z'.

(** No two template sites coincide in the crystal. *)
Definition distinct_sites (template : list site) : Prop :=
  forall i j s t, template !! i = Some s -> template !! j = Some t ->
    congruent (snd s) (snd t) -> i = j.

(** The number the basis stores for the [k]-th allowed species of a site. *)
Definition code (b : basis) (k : nat) : Z :=
  match b with
  | OccupationBasis => if Nat.eqb k 0 then 1%Z else 0%Z
  | ChebyshevBasis _ => Z.of_nat k
  end.

(** The codes of a site tell its allowed species apart, and no two allowed species
    share a name. *)
Definition distinguishable (b : basis) (allowed : list species) : Prop :=
  allowed <> [] /\
  (b = OccupationBasis -> length allowed <= 2) /\
  forall i j s t, allowed !! i = Some s -> allowed !! j = Some t ->
    species_equivalent (SObj s) (SObj t) = true -> i = j.

Definition is_vacancy (s : species) : Prop := is_vacancy_species (SObj s) = true.

(** The supercell: site [k] is primitive site [k / images] moved by image
    [k mod images]. *)
Definition images (shape : nat * nat * nat) : nat :=
  let '(a, b, c) := shape in a * b * c.
Definition positive_shape (shape : nat * nat * nat) : Prop :=
  let '(a, b, c) := shape in 0 < a /\ 0 < b /\ 0 < c.
Definition image_number (shape : nat * nat * nat) (k : nat) : nat * nat * nat :=
  let '(n1, n2, n3) := shape in
  let r := k mod images shape in (r / (n2 * n3), (r / n3) mod n2, r mod n3).
Definition cell_site (template : list site) (shape : nat * nat * nat) (k : nat) : option site :=
  (fun s => (fst s, place shape (snd s) (image_number shape k))) <$> template !! (k / images shape).

(** What is allowed at site [k] of the supercell: the entry of the site's species. *)
Definition allowed_at (la : lattice) (shape : nat * nat * nat) (k : nat) : option (list species) :=
  match la_allowed la !! (k / images shape) with Some (Some l) => Some l | _ => None end.

(** [p] belongs to supercell site [k]: no other site is nearer, no earlier one as near,
    and it is within [tol]. *)
Definition belongs (template : list site) (shape : nat * nat * nat) (tol : Q) (p : coords) (k : nat)
  : Prop :=
  exists s, cell_site template shape k = Some s /\
    (0 <= tol)%Q /\ (dist2 (snd s) p <= sq tol)%Q /\
    forall j t, cell_site template shape j = Some t ->
      (dist2 (snd s) p <= dist2 (snd t) p)%Q /\ (j < k -> (dist2 (snd s) p < dist2 (snd t) p)%Q).

(** The first allowed species with a name of [s]. *)
Definition first_named (allowed : list species) (s : species) (k : nat) : Prop :=
  (exists t, allowed !! k = Some t /\ species_equivalent (SObj s) (SObj t) = true) /\
  forall j t, allowed !! j = Some t -> species_equivalent (SObj s) (SObj t) = true -> k <= j.

(** What is stored for a site without an atom: its vacancy; without a vacancy among the
    allowed species, the second species, or the only one. *)
Definition empty_state (allowed : list species) (k : nat) : Prop :=
  (exists t, allowed !! k = Some t /\ is_vacancy t) /\
    (forall j t, allowed !! j = Some t -> is_vacancy t -> k <= j)
  \/ (forall t, t ∈ allowed -> ~ is_vacancy t) /\ k = Nat.min 1 (length allowed - 1).

(** The same atoms in another order, each possibly moved by whole lattice vectors. *)
Definition same_crystal (s t : list site) : Prop :=
  exists u, Permutation s u /\
    Forall2 (fun a b => fst a = fst b /\ congruent (snd a) (snd b)) u t.

(** Every atom belongs to a site that allows its species, no two atoms to the same site. *)
Definition readable (la : lattice) (structure : list site) (tol : Q) (shape : nat * nat * nat) : Prop :=
  (forall j s p, structure !! j = Some (s, p) ->
     exists k l i, belongs (la_template la) shape tol p k /\ allowed_at la shape k = Some l /\
       first_named l s i) /\
  (forall i j s t p q k, structure !! i = Some (s, p) -> structure !! j = Some (t, q) ->
     belongs (la_template la) shape tol p k -> belongs (la_template la) shape tol q k -> i = j).

Definition tells_apart (la : lattice) : Prop :=
  forall l, Some l ∈ la_allowed la -> distinguishable (la_basis la) l.

(** No name is parsed to a vacancy other than the one the code makes itself. *)
Definition one_vacancy (parse : string -> result species) : Prop :=
  forall s sp, parse s = Ok sp -> is_vacancy sp -> sp = vacancy_species.

(** [la] is the object the constructor made. *)
Definition made (parse : string -> result species) (template : list site)
    (mapping : list (spval * allowedval)) (basis_type : string) (la : lattice) : Prop :=
  one_vacancy parse /\ lattice_new parse template mapping basis_type = Ok la.
