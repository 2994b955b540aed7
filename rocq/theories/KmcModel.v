(** Model of kmcpy/simulator/kmc.py: rate cache, update and the run loop.  The
    numbers, the selection of an event from the cumulative list, the rate model and
    the tracker are parameters; other files instantiate them. *)
From Verif Require Import Py Json ActiveSiteModel EventModel StateModel HopModel.

Section Kmc.
  (** Numbers: rates, times and draws. *)
  Context {T : Type}.
  Variable zero : T.
  Variable add : T -> T -> T.

  (** numpy.cumsum: the first entry is the first rate, every further entry adds the
      next rate to the previous entry. *)
  Fixpoint cumsum_from (acc : T) (l : list T) : list T :=
    match l with
    | [] => []
    | x :: l' => let s := add acc x in s :: cumsum_from s l'
    end.
  Definition cumsum (l : list T) : list T :=
    match l with [] => [] | x :: l' => x :: cumsum_from x l' end.

  (** The model object: private state (external occupation caches), initialisation
      from the starting occupations (kmc.py:137-152), commit of an accepted event
      (kmc.py:154-158), and [compute_probability]. *)
  Context {M : Type}.
  Variable model_initialize : list Z -> event_lib -> result M.
  Variable model_apply : M -> event -> list Z -> result M.
  Variable compute_probability : M -> list Z -> event -> result T.

  Record kmc := Kmc {
    k_lib : event_lib;
    k_lookup : option lookup;
    k_state : state T;
    k_model : M;
    k_prob : list T;
    k_cum : list T;
  }.

  (** kmc.py:52-135 without logging and property configuration. *)
  Definition construct (lib : event_lib) (lk : option lookup) (st : state T)
    : result kmc :=
    let* _ := (match lk with
               | None => Ok []
               | Some l => rmapM (annotate_event l) (events lib)
               end) in
    let* m := model_initialize (occupations st) lib in
    let* p := rmapM (compute_probability m (occupations st)) (events lib) in
    Ok {| k_lib := lib; k_lookup := lk; k_state := st; k_model := m;
          k_prob := p; k_cum := cumsum p |}.

  (** kmc.py:449-455, one dependent event. *)
  Definition refresh (lib : event_lib) (m : M) (occ : list Z) (p : list T) (j : nat)
    : result (list T) :=
    let* e := py_get (events lib) (Z.of_nat j) in
    let* r := compute_probability m occ e in
    py_set p (Z.of_nat j) r.

  (** kmc.py:415-456.  (The fields already assigned when an exception escapes are
      not modelled: the run ends there.) *)
  Definition update (k : kmc) (e : event) (dt : T) : result kmc :=
    let* st := apply_event add (k_state k) e dt in
    let* m := model_apply (k_model k) e (occupations st) in
    let* i := list_index (events (k_lib k)) e in
    let deps := get_dependent_events (k_lib k) i in
    let* p := rfold (refresh (k_lib k) m (occupations st)) (k_prob k) deps in
    Ok {| k_lib := k_lib k; k_lookup := k_lookup k; k_state := st; k_model := m;
          k_prob := p; k_cum := cumsum p |}.

  (** A history of accepted events. *)
  Definition updates (k : kmc) (hist : list (event * T)) : result kmc :=
    rfold (fun k h => update k (fst h) (snd h)) k hist.

  (** Selection of an index and a waiting time from the cumulative list and two
      draws: [_propose], kmc.py:555-564. *)
  Variable select : list T -> T -> T -> result (nat * T).

  (** kmc.py:398-412. *)
  Definition propose (k : kmc) (u1 u2 : T) : result (event * T) :=
    let* id := select (k_cum k) u1 u2 in
    let* e := py_get (events (k_lib k)) (Z.of_nat (fst id)) in
    Ok (e, snd id).

  (** The tracker seen by the loop: [update] before the state changes,
      [sample_properties] after it. *)
  Context {R : Type}.
  Variable tracker_create : state T -> option lookup -> result R.
  Variable tracker_update : R -> state T -> event -> result R.
  Variable tracker_sample : R -> state T -> result R.

  (** kmc.py:513-517: [n] equilibration steps; [draws i] are the two numbers of the
      i-th call of [_propose]. *)
  Fixpoint equilibrate (n i : nat) (draws : nat -> T * T) (k : kmc) : result kmc :=
    match n with
    | O => Ok k
    | S n' =>
        let* ed := propose k (fst (draws i)) (snd (draws i)) in
        let* k' := update k (fst ed) zero in
        equilibrate n' (S i) draws k'
    end.

  (** kmc.py:537-547: [n] production steps. *)
  Fixpoint produce (n i : nat) (draws : nat -> T * T) (k : kmc) (r : R)
    : result (kmc * R) :=
    match n with
    | O => Ok (k, r)
    | S n' =>
        let* ed := propose k (fst (draws i)) (snd (draws i)) in
        let* r1 := tracker_update r (k_state k) (fst ed) in
        let* k' := update k (fst ed) (snd ed) in
        let* r2 := tracker_sample r1 (k_state k') in
        produce n' (S i) draws k' r2
    end.

  (** kmc.py:458-553: the nested pass loops run pass_length steps per pass.  Negative
      pass counts behave as 0 ([np.arange]). *)
  Definition run (equilibration_passes kmc_passes : Z) (pass_length : nat)
      (draws : nat -> T * T) (k : kmc) : result (kmc * R) :=
    let n_eq := (Z.to_nat equilibration_passes * pass_length)%nat in
    let n_prod := (Z.to_nat kmc_passes * pass_length)%nat in
    let* k1 := equilibrate n_eq 0 draws k in
    let* r := tracker_create (k_state k1) (k_lookup k1) in
    produce n_prod n_eq draws k1 r.
End Kmc.
Arguments kmc : clear implicits.

(** kmc.py:501-505: species symbols that contain the mobile species as a substring. *)
Fixpoint is_prefix (s t : string) : bool :=
  match s, t with
  | EmptyString, _ => true
  | String a s', String b t' => Ascii.eqb a b && is_prefix s' t'
  | String _ _, EmptyString => false
  end.
Fixpoint contains (s t : string) : bool :=
  is_prefix s t ||
  match t with
  | EmptyString => false
  | String _ t' => contains s t'
  end.
Definition pass_length (symbols : list string) (mobile_ion_specie : string) : nat :=
  length (List.filter (contains mobile_ion_specie) symbols).
