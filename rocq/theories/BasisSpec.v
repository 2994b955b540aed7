(** Vocabulary for the statements about occupation bases. *)
From Coq Require Import Reals.
From Verif Require Import Py BasisModel.
Local Open Scope nat_scope.

(** The bases with two states per site. *)
Definition two_state (b : basis) : Prop := b = OccupationBasis \/ b = ChebyshevBasis 2.

(** What the stored numbers mean: in the occupation basis 1 is an atom and 0 a vacancy;
    in the Chebyshev basis the numbers are species states, 0 the first species. *)
Definition legal_value (b : basis) (v : Z) : Prop :=
  match b with
  | OccupationBasis => v = 0%Z \/ v = 1%Z
  | ChebyshevBasis n => (0 <= v < n)%Z
  end.
Definition means_occupied (b : basis) (v : Z) : Prop :=
  match b with OccupationBasis => v = 1%Z | ChebyshevBasis _ => v = 0%Z end.
Definition means_vacant (b : basis) (v : Z) : Prop :=
  match b with OccupationBasis => v = 0%Z | ChebyshevBasis _ => v = 1%Z end.

Definition legal (o : occupation) : Prop :=
  forall v, v ∈ oc_data o -> legal_value (oc_basis o) v.
Definition occupied_at (o : occupation) (i : nat) : Prop :=
  exists v, oc_data o !! i = Some v /\ means_occupied (oc_basis o) v.
Definition vacant_at (o : occupation) (i : nat) : Prop :=
  exists v, oc_data o !! i = Some v /\ means_vacant (oc_basis o) v.

(** Two occupations of the same sites with the same atoms and vacancies. *)
Definition same_pattern (a b : occupation) : Prop :=
  length (oc_data a) = length (oc_data b) /\
  (forall i, occupied_at a i <-> occupied_at b i) /\
  (forall i, vacant_at a i <-> vacant_at b i).

(** How often position [k] of [n] is named by a list of Python indices. *)
Definition times_named (n k : nat) (indices : list Z) : nat :=
  length (List.filter (fun i => (i =? Z.of_nat k) || (i + Z.of_nat n =? Z.of_nat k))%Z indices).

(** The indices are exactly those with the property, in increasing order. *)
Definition lists_exactly (l : list nat) (P : nat -> Prop) : Prop :=
  (forall i, i ∈ l <-> P i) /\ forall i j a b, i < j -> l !! i = Some a -> l !! j = Some b -> a < b.

(** Scalar product of coefficients and a row of site functions. *)
Fixpoint dot (c row : list R) : R :=
  match c, row with
  | a :: c', r :: row' => (a * r + dot c' row')%R
  | _, _ => 0%R
  end.

(** The constant [c0] and the coefficients [c] of the site functions reproduce the
    function [f] of the site's state. *)
Definition reproduces (values : list (list R)) (c0 : R) (c f : list R) : Prop :=
  length f = length values /\
  forall i row y, values !! i = Some row -> f !! i = Some y ->
    length row = length c /\ (y = c0 + dot c row)%R.
