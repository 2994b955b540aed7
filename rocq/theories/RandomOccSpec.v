(** What is expected of random occupations. *)
From Coq Require Import QArith.
From Verif Require Import Py BasisModel RandomOccModel.
Local Open Scope nat_scope.

(** A generator of numbers from 0 up to but not including 1. *)
Definition unit_numbers {G} (draw : G -> Q * G) : Prop :=
  forall g, (0 <= fst (draw g))%Q /\ (fst (draw g) < 1)%Q.

(** Every site of [o] that holds an atom holds one in [o']. *)
Definition no_more_atoms (o o' : occupation) : Prop :=
  length (oc_data o) = length (oc_data o') /\
  forall i, oc_data o !! i = Some (occupied_value (oc_basis o)) ->
            oc_data o' !! i = Some (occupied_value (oc_basis o')).

(** A basis object as its constructor makes it. *)
Definition proper_basis (b : basis) : Prop :=
  match b with OccupationBasis => True | ChebyshevBasis n => (2 <= n)%Z end.

(** The generator after [n] draws, and the number drawn next. *)
Definition after {G} (draw : G -> Q * G) (n : nat) (g : G) : G := Nat.iter n (fun g => snd (draw g)) g.
Definition number {G} (draw : G -> Q * G) (g : G) (n : nat) : Q := fst (draw (after draw n g)).
(** The generator a call starts from. *)
Definition start {G} (seeded : Z -> G) (seed : option Z) (g : G) : G :=
  match seed with Some s => seeded s | None => g end.
(** Whether a number is less than another. *)
Definition is_less (x y : Q) : bool := if Qlt_le_dec x y then true else false.
