(** Vocabulary for the statements about event selection. *)
From Coq Require Import Reals.
From Verif Require Import Py.

(** Sum of a list of rates. *)
Fixpoint total_rate (p : list R) : R :=
  match p with [] => 0%R | x :: p' => (x + total_rate p')%R end.

(** Sum of the rates before index [i]. *)
Definition rate_before (p : list R) (i : nat) : R := total_rate (take i p).

Definition all_nonneg (p : list R) : Prop := Forall (fun x => (0 <= x)%R) p.
