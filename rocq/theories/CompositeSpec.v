(** Vocabulary for the statements about the composite rate model. *)
From Coq Require Import Reals.
From Verif Require Import Py EventModel HopModel LceModel CompositeModel.

(** The two endpoints hold the mobile species and a vacancy in one of the two
    orientations ([codes]: mobile code at the first site, vacancy code at the second,
    vacancy code at the first, mobile code at the second). *)
Definition hoppable (codes : codes4) (occ : list Z) (e : event) : Prop :=
  let '(mobile_from, vacancy_to, vacancy_from, mobile_to) := codes in
  exists f t x y, mobile_ion_indices e = [f; t] /\
    py_get occ f = Ok x /\ py_get occ t = Ok y /\
    ((x = mobile_from /\ y = vacancy_to) \/ (x = vacancy_from /\ y = mobile_to)).

(** Only LCE submodels (or none) are used for site energies. *)
Definition lce_only (c : composite) : Prop := c_site c <> ExternalSite.

(** Boltzmann's constant: 0.08617333262145 meV/K. *)
Definition boltzmann_constant : R := (8617333262145 / 100000000000000)%R.
