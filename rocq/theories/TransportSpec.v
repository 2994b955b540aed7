(** Vocabulary for the statements about transport properties. *)
From Coq Require Import QArith.
From Verif Require Import Py TrackerModel.
Local Open Scope Q_scope.

(** Squared length, and the vector sum of a list. *)
Definition len2 (v : vec) : Q := vx v * vx v + vy v * vy v + vz v * vz v.
Definition vector_sum (l : list vec) : vec := fold_right vadd vzero l.

(** Optional values equal as rationals (NaN only equals NaN). *)
Definition oeq (a b : option Q) : Prop :=
  match a, b with
  | Some x, Some y => x == y
  | None, None => True
  | _, _ => False
  end.

(** [b] is [a] divided by [k]. *)
Definition odiv_by (k : Q) (a b : option Q) : Prop :=
  match a, b with
  | Some x, Some y => y == x / k
  | None, None => True
  | _, _ => False
  end.

(** The displacement is the sum of as many hops as counted, each of length [a]. *)
Definition made_of_hops (a : Q) (d : vec) (n : nat) : Prop :=
  exists steps, length steps = n /\ Forall (fun v => len2 v == a * a) steps /\
    vx d == vx (vector_sum steps) /\ vy d == vy (vector_sum steps) /\
    vz d == vz (vector_sum steps).

(** Boltzmann's constant in meV/K, and the conversion of e^2 / (meV A cm s / cm^2) to
    mS/cm. *)
Definition boltzmann_constant_mev : Q := 8617333262145 # 100000000000000.
Definition to_millisiemens : Q := 160200000000 # 1.
