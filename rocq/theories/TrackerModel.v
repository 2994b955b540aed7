(** Model of kmcpy/simulator/tracker.py: mobile-ion identities, displacements and hop
    counters.  Coordinates are exact rationals (every float64 is one); the rounding
    errors of floating-point addition are not modelled. *)
From Coq Require Import QArith Qround.
From Verif Require Import Py Json ActiveSiteModel EventModel StateModel HopModel KmcModel.
Local Open Scope nat_scope.

(** Three-component vectors. *)
Record vec := Vec { vx : Q; vy : Q; vz : Q }.
Definition vzero : vec := Vec 0 0 0.
Definition vadd (a b : vec) : vec := Vec (vx a + vx b) (vy a + vy b) (vz a + vz b).
Definition vsub (a b : vec) : vec := Vec (vx a - vx b) (vy a - vy b) (vz a - vz b).
Definition vscale (q : Q) (a : vec) : vec := Vec (q * vx a) (q * vy a) (q * vz a).
(** Row-vector times matrix: [lattice.get_cartesian_coords(frac)] = frac @ matrix. *)
Definition cartesian (m : vec * vec * vec) (f : vec) : vec :=
  let '(a, b, c) := m in
  vadd (vscale (vx f) a) (vadd (vscale (vy f) b) (vscale (vz f) c)).

(** numpy.round: to the nearest integer, ties to the even one. *)
Definition np_round (q : Q) : Z :=
  let f := Qfloor q in
  let r := (q - inject_Z f)%Q in
  match Qcompare r (1 # 2) with
  | Lt => f
  | Gt => (f + 1)%Z
  | Eq => if Z.even f then f else (f + 1)%Z
  end.
Definition vround (a : vec) : vec :=
  Vec (inject_Z (np_round (vx a))) (inject_Z (np_round (vy a))) (inject_Z (np_round (vz a))).

(** The simulation structure as the tracker reads it: species symbols, fractional
    coordinates, lattice matrix. *)
Record structure := Structure {
  symbols : list string;
  frac_coords : list vec;
  lattice : vec * vec * vec;
}.

Section Tracker.
  (** Everything the tracker stores about property sampling is in [S]; see
      [PropertyModel]. *)
  Context {T S : Type}.

  Record tracker := Tracker {
    t_lookup : option lookup;
    t_locations : list Z;
    t_displacement : list vec;
    t_hops : list nat;
    t_sampling : S;
  }.

  (** [np.where(mask)[0]]. *)
  Definition where_true (mask : list bool) : list Z :=
    map (fun p => Z.of_nat (fst p)) (List.filter snd (enumerate mask)).

  (** tracker.py:128-141.  Comparing arrays of different lengths raises (numpy would
      broadcast a length-1 array; not modelled). *)
  Definition mobile_mask (lk : option lookup) (n_structure : nat) (occ : list Z)
    : result (list bool) :=
    match lk with
    | None => Ok (map (fun o => (o =? 0)%Z) (take n_structure occ))
    | Some l =>
        let mobile_states := mobile_state_by_site l in
        let active := take (length mobile_states) occ in
        if (length active =? length mobile_states)%nat
        then Ok (zip_with (fun m o => negb (m =? invalid_state)%Z && (o =? m)%Z)
                   mobile_states active)
        else Err ValueError
    end.

  (** tracker.py:79-149 (identity part; [frac_coords[locations]] for [r0] raises when a
      location has no coordinates). *)
  Definition create (str : structure) (mobile : string) (sampling : S)
      (occ : list Z) (lk : option lookup) : result tracker :=
    let* mask := mobile_mask lk (pass_length (symbols str) mobile) occ in
    let locations := where_true mask in
    let* _ := rmapM (py_get (frac_coords str)) locations in
    Ok {| t_lookup := lk; t_locations := locations;
          t_displacement := map (fun _ => vzero) locations;
          t_hops := map (fun _ => 0) locations; t_sampling := sampling |}.

  (** tracker.py:457-472: the first row whose location is the source. *)
  Definition record_hop (tr : tracker) (source destination : Z) : result (nat * list Z) :=
    match list_index (t_locations tr) source with
    | Err _ => Err RuntimeError
    | Ok i => Ok (i, <[i := destination]> (t_locations tr))
    end.

  (** tracker.py:474-481, fractional part and Cartesian result. *)
  Definition wrapped_fraction (str : structure) (e : event) (direction : Z) : result vec :=
    let* ft := unpack2 (mobile_ion_indices e) in
    let* to_c := py_get (frac_coords str) (snd ft) in
    let* from_c := py_get (frac_coords str) (fst ft) in
    let d := vscale (inject_Z direction) (vsub to_c from_c) in
    Ok (vsub d (vround d)).
  Definition wrapped_displacement (str : structure) (e : event) (direction : Z)
    : result vec :=
    let* f := wrapped_fraction str e direction in
    Ok (cartesian (lattice str) f).

  (** [a[i] = f(a[i])] for an index known to exist. *)
  Definition modify {A} (f : A -> A) (i : nat) (l : list A) : list A := alter f i l.

  (** tracker.py:436-455. *)
  Definition update (str : structure) (tr : tracker) (occ : list Z) (e : event)
    : result tracker :=
    let* codes := event_codes (t_lookup tr) e in
    let* direction := event_direction occ e codes in
    if (direction =? 0)%Z then Ok tr
    else
      let* ft := unpack2 (mobile_ion_indices e) in
      let source := if (direction =? 1)%Z then fst ft else snd ft in
      let destination := if (direction =? 1)%Z then snd ft else fst ft in
      let* il := record_hop tr source destination in
      let* d := wrapped_displacement str e direction in
      Ok {| t_lookup := t_lookup tr; t_locations := snd il;
            t_displacement := modify (fun v => vadd v d) (fst il) (t_displacement tr);
            t_hops := modify Datatypes.S (fst il) (t_hops tr);
            t_sampling := t_sampling tr |}.

  (** tracker.py:378-420 as the run loop sees it: only the sampling part changes. *)
  Variable sample : S -> list vec -> list nat -> state T -> result S.
  Definition sample_properties (tr : tracker) (st : state T) : result tracker :=
    let* s := sample (t_sampling tr) (t_displacement tr) (t_hops tr) st in
    Ok {| t_lookup := t_lookup tr; t_locations := t_locations tr;
          t_displacement := t_displacement tr; t_hops := t_hops tr; t_sampling := s |}.
End Tracker.
Arguments tracker : clear implicits.

(** The whole simulation: the composite model, real arithmetic, and this tracker in the
    run loop (kmc.py:458-553).  [pl] is the pass length. *)
From Coq Require Import Reals.
From Verif Require Import ProposeModel LceModel CompositeModel.
Section Simulation.
  Context {E S : Type}.
  Variable ext_apply : E -> event -> list Z -> result E.
  Variable ext_compute : E -> list Z -> event -> result R.
  Variable sample : S -> list vec -> list nat -> state R -> result S.
  Definition simulate (c : composite) (lk : option lookup) (v temperature : R)
      (str : structure) (mobile : string) (s0 : S)
      (eqp kp : Z) (pl : nat) (draws : nat -> R * R) (k : kmc R E)
    : result (kmc R E * tracker S) :=
    run 0%R Rplus (composite_apply ext_apply c) (compute_probability ext_compute c lk v temperature)
      Rselect (fun st l => create str mobile s0 (occupations st) l)
      (fun tr st e => update str tr (occupations st) e) (sample_properties sample)
      eqp kp pl draws k.
End Simulation.
