(** Vocabulary for the statements about building a cluster expansion. *)
From Coq Require Import QArith Reals Sorted.
From Verif Require Import Py ActiveSiteModel BasisModel LceModel LceSpec BuildModel.
Local Open Scope nat_scope.

Section Env.
  Context {P : Type}.
  Variable distance : P -> P -> Q.
  Variable env : local_env P.

  (** The local sites are numbered 0, 1, ...: one species, one position and one active-site
      index each.  The distance does not depend on the order of the two positions. *)
  Definition well_formed : Prop :=
    length (e_coords env) = length (e_species env) /\
    length (e_site_indices env) = length (e_species env) /\
    forall x y, (distance x y == distance y x)%Q.

  (** The distance between two local sites, and the number of states of one. *)
  Definition dist_is (i j : nat) (d : Q) : Prop :=
    exists x y, e_coords env !! i = Some x /\ e_coords env !! j = Some y /\ d = distance x y.
  Definition states_is (i k : nat) : Prop :=
    exists a l, e_site_indices env !! i = Some a /\ py_get (e_allowed env) a = Ok (Some l) /\ k = length l.

  (** The cutoff for clusters of two, three and four sites. *)
  Definition cutoff_is (cutoffs : list Q) (k : nat) (c : Q) : Prop :=
    exists i, k = i + 2 /\ i < 3 /\ cutoffs !! i = Some c.

  (** A set of one to four local sites, in increasing order, all of whose pairs are closer
      than the cutoff. *)
  Definition admissible (cutoffs : list Q) (s : list nat) : Prop :=
    1 <= length s <= 4 /\ StronglySorted lt s /\ (forall i, i ∈ s -> i < length (e_species env)) /\
    forall i j d c, i ∈ s -> j ∈ s -> i < j -> dist_is i j d -> cutoff_is cutoffs (length s) c -> (d < c)%Q.

  (** [p] sends site [i] to site [p[i]] and keeps species, number of states and distances: a
      symmetry of the local environment. *)
  Definition symmetry (p : list nat) : Prop :=
    Permutation p (seq 0 (length (e_species env))) /\
    (forall i a, p !! i = Some a -> e_species env !! a = e_species env !! i) /\
    (forall i a k, p !! i = Some a -> states_is i k <-> states_is a k) /\
    (forall i j a b d d', p !! i = Some a -> p !! j = Some b -> i <> j ->
       dist_is i j d -> dist_is a b d' -> (d == d')%Q).

  (** [occ'] has at site [i] what [occ] has at the image of [i]. *)
  Definition moved (p : list nat) (occ occ' : list Z) : Prop :=
    length occ = length (e_species env) /\ length occ' = length (e_species env) /\
    forall i a, p !! i = Some a -> occ' !! i = occ !! a.

  (** Two sets of sites of the same shape: a bijection that keeps species and distances. *)
  Definition congruent (s t : list nat) : Prop :=
    exists u, Permutation u t /\ length u = length s /\
      (forall i x y, s !! i = Some x -> u !! i = Some y -> e_species env !! x = e_species env !! y) /\
      (forall i j x y x' y' d d', i <> j -> s !! i = Some x -> s !! j = Some y -> u !! i = Some x' -> u !! j = Some y' ->
         dist_is x y d -> dist_is x' y' d' -> (d == d')%Q).

  (** Distances that are not equal differ by more than the tolerance of the comparison. *)
  Definition separated : Prop :=
    forall i j k l d d', i <> j -> k <> l -> dist_is i j d -> dist_is k l d' ->
      (Qabs.Qabs (d - d') <= (1 # 1000) + (1 # 1000) * Qabs.Qabs d')%Q -> (d == d')%Q.

  (** State codes a site can have: 0 and 1, or the number of a state. *)
  Definition legal_codes (occ : list Z) : Prop :=
    length occ = length (e_species env) /\
    (uses_state_indices (e_basis env) = true ->
     forall i v k, occ !! i = Some v -> states_is i k -> (0 <= v < Z.of_nat k)%Z).
End Env.

(** The clusters of a feature, as sets of sites. *)
Definition clusters_of {T} (m : lce T) (f : nat) (c : list (list nat)) : Prop :=
  exists l, l_sites m !! f = Some l /\ l = map (map Z.of_nat) c.

(** The decoration of a feature: the number of a basis function for each position, the same
    for all clusters. *)
Definition decoration_of {T} (m : lce T) (f : nat) (d : list nat) : Prop :=
  exists basis values l, l_decorations m = Some (basis, values) /\ basis !! f = Some l /\
    forall x, x ∈ l -> x = map Z.of_nat d.

(** All positions use the same basis function. *)
Definition uniform {T} (m : lce T) (f : nat) : Prop :=
  l_decorations m = None \/ exists d b, decoration_of m f d /\ forall x, x ∈ d -> x = b.

(** What a site contributes to a product: its state code; or, for bases that number the
    states, the value at that state of the basis function the decoration names, among the
    functions for the number of states of that very site. *)
Definition site_factor {P} (env : local_env P) (m : lce R) (f : nat) (occ : list Z) (pos i : nat) (y : R) : Prop :=
  exists v, occ !! i = Some v /\
    if uses_state_indices (e_basis env) then
      exists d b k row, decoration_of m f d /\ d !! pos = Some b /\ states_is env i k /\
        site_basis_values (e_basis env) k !! Z.to_nat v = Some row /\ row !! b = Some y
    else y = IZR v.

(** The value of feature [f]: the sum over its clusters of the products of the factors. *)
Definition feature_value {P} (env : local_env P) (m : lce R) (occ : list Z) (f : nat) (x : R) : Prop :=
  exists c table, clusters_of m f c /\ length table = length c /\
    x = Rsum (map Rprod table) /\
    forall q s row, c !! q = Some s -> table !! q = Some row ->
      length row = length s /\
      forall pos i y, s !! pos = Some i -> row !! pos = Some y -> site_factor env m f occ pos i y.

(** The model has at most two states on every site, or uses the state codes themselves. *)
Definition binary {P} (env : local_env P) : Prop :=
  uses_state_indices (e_basis env) = false \/ forall i k, states_is env i k -> k <= 2.

(** The codes found at the given site indices. *)
Definition sees (occ indices codes : list Z) : Prop :=
  Forall2 (fun a v => py_get occ a = Ok v) indices codes.
