(** Vocabulary for the statements about the tracker. *)
From Coq Require Import QArith.
From Verif Require Import Py EventModel StateModel HopModel KmcSpec TrackerModel.

(** Site [s] currently holds the mobile species, according to the lookup (the code the
    site uses for the mobile species, -1 if it cannot hold it). *)
Definition holds_mobile (lk : lookup) (occ : list Z) (s : Z) : Prop :=
  (0 <= s)%Z /\ exists c, mobile_state_by_site lk !! Z.to_nat s = Some c /\
    c <> (-1)%Z /\ occ !! Z.to_nat s = Some c.

(** [l] lists exactly the mobile-ion sites, each once. *)
Definition exactly_mobile (lk : lookup) (occ : list Z) (l : list Z) : Prop :=
  NoDup l /\ forall s, s ∈ l <-> holds_mobile lk occ s.

(** The hop an event performs in a given occupation: source and destination. *)
Definition hop_of (lk : option lookup) (occ : list Z) (e : event) : option (Z * Z) :=
  match event_codes lk e, mobile_ion_indices e with
  | Ok codes, [f; t] =>
      match event_direction occ e codes with
      | Ok 1%Z => Some (f, t)
      | Ok (-1)%Z => Some (t, f)
      | _ => None
      end
  | _, _ => None
  end.

(** Occupations before each event of a history in which every event is accepted. *)
Fixpoint occupation_history (occ : list Z) (es : list event) : list (list Z * event) :=
  match es with
  | [] => []
  | e :: es' =>
      (occ, e) :: match swap_occupations occ e with
                  | Ok occ' => occupation_history occ' es'
                  | Err _ => []
                  end
  end.

(** The hops made by the ion that is at [pos] when the history starts. *)
Fixpoint journey (lk : option lookup) (hist : list (list Z * event)) (pos : Z)
  : list (Z * Z) :=
  match hist with
  | [] => []
  | (occ, e) :: hist' =>
      match hop_of lk occ e with
      | Some (source, destination) =>
          if Z.eqb source pos then (source, destination) :: journey lk hist' destination
          else journey lk hist' pos
      | None => journey lk hist' pos
      end
  end.

(** Where a journey from [pos] ends. *)
Definition journey_end (pos : Z) (hops : list (Z * Z)) : Z :=
  match last hops with Some h => snd h | None => pos end.

(** Componentwise equality of rational vectors. *)
Definition veq (a b : vec) : Prop := (vx a == vx b /\ vy a == vy b /\ vz a == vz b)%Q.

(** Vectors with integer components. *)
Definition integral (a : vec) : Prop :=
  exists x y z : Z, veq a (Vec (inject_Z x) (inject_Z y) (inject_Z z)).

(** Every component is between -1/2 and 1/2. *)
Definition minimum_image (a : vec) : Prop :=
  (-(1#2) <= vx a <= 1#2 /\ -(1#2) <= vy a <= 1#2 /\ -(1#2) <= vz a <= 1#2)%Q.

(** A fractional displacement from site [s] to site [d]: the coordinate difference up
    to an integer vector, minimum image. *)
Definition image_of (str : structure) (s d : Z) (f : vec) : Prop :=
  exists cs cd n, py_get (frac_coords str) s = Ok cs /\ py_get (frac_coords str) d = Ok cd /\
    integral n /\ veq f (vadd (vsub cd cs) n) /\ minimum_image f.

(** Sum of a list of vectors. *)
Definition vsum (l : list vec) : vec := fold_right vadd vzero l.

(** Every event joins two sites that use the same codes for the mobile species and the
    vacancy. *)
Definition events_consistent (lk : lookup) (es : list event) : Prop :=
  forall e codes, e ∈ es -> annotate_event lk e = Ok codes -> endpoint_consistent codes.

(** The codes a simulation uses at each site.  With a lookup: its own.  Without one:
    code 0 for the mobile species and 1 for the vacancy on the first [n] sites ([n]
    the number of mobile-ion sites of the structure), where all events must live. *)
Definition codes_in_use (lo : option lookup) (n : nat) (es : list event) (lk : lookup) : Prop :=
  match lo with
  | Some l => lk = l
  | None =>
      mobile_state_by_site lk = repeat 0%Z n /\ vacancy_state_by_site lk = repeat 1%Z n /\
      forall e s, e ∈ es -> s ∈ mobile_ion_indices e -> (0 <= s < Z.of_nat n)%Z
  end.
