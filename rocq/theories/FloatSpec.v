(** Vocabulary for the statements about double arithmetic. *)
From Coq Require Import Reals.
From Flocq Require Import Core BinarySingleNaN.
From Verif Require Import Py FloatModel.

Definition finite (x : f64) : Prop := is_finite x = true.
Definition value (x : f64) : R := B2R x.

(** A float that is a number or +infinity, and not below zero. *)
Definition nonneg_or_inf (x : f64) : Prop :=
  (finite x /\ (0 <= value x)%R) \/ x = B754_infinity false.

(** What is assumed of the C library's logarithm. *)
Definition log_ok (flog : f64 -> f64) : Prop :=
  (forall s, flog (B754_zero s) = B754_infinity true) /\
  (forall u, finite u -> (0 < value u < 1)%R -> finite (flog u) /\ (value (flog u) < 0)%R).
