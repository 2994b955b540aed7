(** Vocabulary for the properties of neighbour lists. *)
From Coq Require Import QArith.
From Verif Require Import Py Json NeighborsModel.
Local Open Scope Q_scope.

(** The entry for a pair of species: the last one, in either order. *)
Definition is_pair {V} (a b : string) (e : (string * string) * V) : bool :=
  bool_decide (fst e = (a, b)) || bool_decide (fst e = (b, a)).
Definition last_for {V} (c : list ((string * string) * V)) (a b : string) : option V :=
  match List.filter (is_pair a b) (rev c) with e :: _ => Some (snd e) | [] => None end.

(** The periodic structure: copy [z] of site [m] is at the distance [d n m z] from site [n], which
    is not negative and the same seen from the other side. *)
Definition opposite (z : Z * Z * Z) : Z * Z * Z := let '(i, j, k) := z in (- i, - j, - k)%Z.
Record geometry (size : nat) (d : nat -> nat -> Z * Z * Z -> Q) : Prop := {
  not_negative : forall n m z, 0 <= d n m z;
  both_ways : forall n m z, d n m z == d m n (opposite z);
}.
(** The search finds every copy within the radius other than the site itself, once, with its distance. *)
Definition complete_search (structure : list site) (d : nat -> nat -> Z * Z * Z -> Q) (get : list site -> nat -> Q -> list found) : Prop :=
  forall n r, (n < length structure)%nat ->
    NoDup (map (fun x => (f_site x, f_image x)) (get structure n r))
    /\ (forall x, x ∈ get structure n r -> f_distance x == d n (f_site x) (f_image x))
    /\ (forall m z, (m, z) ∈ map (fun x => (f_site x, f_image x)) (get structure n r)
        <-> (m < length structure)%nat /\ (m, z) <> (n, (0, 0, 0)%Z) /\ d n m z <= r).

(** Species of a site. *)
Definition species_of (structure : list site) (n : nat) (s : string) : Prop := exists x, structure !! n = Some x /\ n_species x = s.
(** The copies in a list of neighbours. *)
Definition copies (l : list info) : list (nat * (Z * Z * Z)) := map (fun i => (i_index i, i_image i)) l.
(** The metadata of a site, as the structure has it. *)
Definition metadata_of (structure : list site) (m : nat) (l : dict string json) : Prop :=
  exists s, structure !! m = Some s /\
  if has_column structure "wyckoff_sequence"
  then (forall k, k ∈ ["wyckoff_sequence"; "local_index"; "label"]%string -> exists v, dget (n_properties s) k = Some v /\ dget l k = Some v)
       /\ (has_column structure "supercell" = true -> exists v, dget (n_properties s) "supercell" = Some v /\ dget l "supercell" = Some v)
  else l = [].
(** Every site has the metadata that some site has. *)
Definition full_metadata (structure : list site) : Prop :=
  has_column structure "wyckoff_sequence" = true ->
  forall s k, s ∈ structure -> k ∈ ["wyckoff_sequence"; "local_index"; "label"]%string \/ (k = "supercell"%string /\ has_column structure "supercell" = true) ->
  exists v, dget (n_properties s) k = Some v.
