(** Vocabulary for statements about the kinetics of whole simulations. *)
From Coq Require Import Reals.
From stdpp Require Import relations.
From Verif Require Import Py EventModel StateModel HopModel KmcModel TrackerModel LceModel CompositeModel ProposeModel ProposeSpec CompositeSpec MatcherModel GeneratorModel GeneratorSpec.
Local Open Scope R_scope.

(** A simulation from the start: building the engine from a state, then running it. *)
Section Whole.
  Context {E S : Type}.
  Variable ext_initialize : list Z -> event_lib -> result E.
  Variable ext_apply : E -> event -> list Z -> result E.
  Variable ext_compute : E -> list Z -> event -> result R.
  Variable sample : S -> list vec -> list nat -> state R -> result S.
  Definition whole_simulation (c : composite) (init : E) (lk : option lookup) (v temperature : R) (lib : event_lib) (st : state R)
      (str : structure) (mobile : string) (s0 : S) (eqp kp : Z) (pl : nat) (draws : nat -> R * R) : result (kmc R E * tracker S) :=
    let* k := construct Rplus (composite_initialize ext_initialize c init) (compute_probability ext_compute c lk v temperature) lib lk st in
    simulate ext_apply ext_compute sample c lk v temperature str mobile s0 eqp kp pl draws k.
  (** What is sampled does not look at the clock. *)
  Definition clock_blind : Prop :=
    forall s d h st st', occupations st = occupations st' -> step st = step st' -> sample s d h st = sample s d h st'.
End Whole.

(** A set of draws in [0,1) made of intervals that do not overlap, and its size. *)
Fixpoint in_intervals (l : list (R * R)) (u : R) : Prop :=
  match l with [] => False | (a, b) :: l' => a <= u < b \/ in_intervals l' u end.
Fixpoint apart_from (x : R) (l : list (R * R)) : Prop :=
  match l with [] => True | (a, b) :: l' => x <= a <= b /\ apart_from b l' end.
Definition size (l : list (R * R)) : R := total_rate (map (fun ab => snd ab - fst ab) l).
Definition probability (P : R -> Prop) (x : R) : Prop :=
  exists l, apart_from 0 l /\ Forall (fun ab => snd ab <= 1) l /\ (forall u, 0 <= u < 1 -> (P u <-> in_intervals l u)) /\ size l = x.

(** The rate of going from [s] to [t]: the sum of the rates of the events that lead there. *)
Fixpoint flow (es : list event) (p : list R) (s t : list Z) : R :=
  match es, p with
  | e :: es', r :: p' => (if decide (swap_occupations s e = Ok t) then r else 0) + flow es' p' s t
  | _, _ => 0
  end.
Definition Rsum {A} (f : A -> R) (l : list A) : R := fold_right (fun x acc => f x + acc) 0 l.

(** An event between two different sites whose endpoints agree on their codes. *)
Definition proper_event (lk : option lookup) (e : event) : Prop :=
  exists f g env codes, e = Event [f; g] env /\ (0 <= f)%Z /\ (0 <= g)%Z /\ f <> g /\ event_codes lk e = Ok codes
    /\ (let '(mobile_from, vacancy_to, vacancy_from, mobile_to) := codes in
        mobile_from = mobile_to /\ vacancy_to = vacancy_from /\ mobile_from <> vacancy_to).
(** The barrier of the event in the state [s]: the kinetically resolved barrier and half the site energy difference;
    [m] is the state of an external site model. *)
Definition barrier {E} (ext_compute : E -> list Z -> event -> result R) (c : composite) (lk : option lookup) (m : E)
    (s : list Z) (e : event) (x : R) : Prop :=
  exists kra codes d e_kra delta, kra_model c = Some kra /\ event_codes lk e = Ok codes /\ event_direction s e codes = Ok d
    /\ Rcompute kra s e = Ok e_kra /\ site_energy_difference ext_compute c m s e d = Ok delta /\ x = e_kra + delta / 2.
(** With the energies [H] of the states, a hop and the way back lead over the same energy: the energy of the state and
    the barrier add up to the same at both ends.  [ms s] is the state of the model in the state [s]. *)
Definition same_saddle {E} (ext_compute : E -> list Z -> event -> result R) (c : composite) (lk : option lookup) (ms : list Z -> E)
    (H : list Z -> R) (states : list (list Z)) (es : list event) : Prop :=
  forall s s' e codes x x', s ∈ states -> s' ∈ states -> e ∈ es -> event_codes lk e = Ok codes -> hoppable codes s e ->
    swap_occupations s e = Ok s' -> barrier ext_compute c lk (ms s) s e x -> barrier ext_compute c lk (ms s') s' e x' ->
    H s + x = H s' + x'.
(** The site model gives differences of the energy [H] of the states. *)
Definition differences_of {E} (ext_compute : E -> list Z -> event -> result R) (c : composite) (lk : option lookup) (ms : list Z -> E)
    (H : list Z -> R) (states : list (list Z)) (es : list event) : Prop :=
  forall s e codes d s', s ∈ states -> e ∈ es -> event_codes lk e = Ok codes -> event_direction s e codes = Ok d -> d <> 0%Z ->
    swap_occupations s e = Ok s' -> site_energy_difference ext_compute c (ms s) s e d = Ok (H s' - H s).
(** The position [p] of the environment is in a cluster of the expansion. *)
Definition reads (l : lce R) (p : Z) : Prop := exists orbit cluster, orbit ∈ l_sites l /\ cluster ∈ orbit /\ p ∈ cluster.
(** The expansions of the model do not look at the endpoints of the event. *)
Definition looks_elsewhere (c : composite) (e : event) : Prop :=
  forall l p i, kra_model c = Some l \/ c_site c = LceSite l -> reads l p -> py_get (local_env_indices e) p = Ok i ->
    (0 <= i)%Z /\ i ∉ mobile_ion_indices e.
(** Every possible hop from one of the states leads to one of them. *)
Definition closed_under (lk : option lookup) (states : list (list Z)) (es : list event) : Prop :=
  forall s e codes, s ∈ states -> e ∈ es -> event_codes lk e = Ok codes -> hoppable codes s e ->
    exists s', swap_occupations s e = Ok s' /\ s' ∈ states.

(** The event [e'] in [occ'] names sites with the same contents as those that [e] names in [occ], in the same order. *)
Definition same_contents (occ occ' : list Z) (e e' : event) : Prop :=
  Forall2 (fun i j => py_get occ i = py_get occ' j) (mobile_ion_indices e) (mobile_ion_indices e')
  /\ Forall2 (fun i j => py_get occ i = py_get occ' j) (local_env_indices e) (local_env_indices e').
(** The state [occ'] is [occ] moved by the lattice translation [t] of a supercell of [n] cells. *)
Definition state_moved (n t : image3) (occ occ' : list Z) : Prop :=
  length occ = length occ' /\ forall k k', moved n t k k' -> occ' !! Z.to_nat k' = occ !! Z.to_nat k.

(** A possible hop leads from [s] to [t]. *)
Definition one_hop (lk : option lookup) (es : list event) (s t : list Z) : Prop :=
  exists e codes, e ∈ es /\ event_codes lk e = Ok codes /\ hoppable codes s e /\ swap_occupations s e = Ok t.
(** All states can be reached from each other by possible hops. *)
Definition connected (lk : option lookup) (states : list (list Z)) (es : list event) : Prop :=
  forall s t, s ∈ states -> t ∈ states -> rtc (one_hop lk es) s t.
(** The product of the rates along a path of states. *)
Fixpoint path_rate (es : list event) (rates : list Z -> list R) (path : list (list Z)) : R :=
  match path with
  | s :: (t :: _) as rest => flow es (rates s) s t * path_rate es rates rest
  | _ => 1
  end.
(** All ways of putting the contents of [s] on the sites. *)
Definition arrangements (s : list Z) : list (list Z) := remove_dups (list.permutations s).
