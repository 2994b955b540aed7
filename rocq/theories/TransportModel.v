(** Model of [compute_transport_properties] (kmcpy/simulator/property.py:325-425) in
    exact rational arithmetic.  [None] stands for NaN or an infinity: numpy's result of a
    division by zero, and the explicit [nan]s of the code. *)
From Coq Require Import QArith.
From Verif Require Import Py TrackerModel.
Local Open Scope Q_scope.

(** units.py:12, 16-17, 31. *)
Definition boltzmann_mev_per_k : Q := 8617333262145 # 100000000000000.
Definition angstrom2_to_cm2 : Q := 1 # 10000000000000000.
Definition conductivity_factor : Q := 160200000000 # 1.

(** numpy division: not finite when the divisor is zero. *)
Definition qdiv (a b : Q) : option Q := if Qeq_bool b 0 then None else Some (a / b).
Definition oscale (a : option Q) (k : Q) : option Q := option_map (fun x => x * k) a.

Definition qsum (l : list Q) : Q := fold_right Qplus 0 l.
Definition qlen {A} (l : list A) : Q := inject_Z (Z.of_nat (length l)).
(** [np.mean]; NaN for an empty array. *)
Definition qmean (l : list Q) : option Q := qdiv (qsum l) (qlen l).

Definition norm2 (v : vec) : Q := vx v * vx v + vy v * vy v + vz v * vz v.
Definition total (l : list vec) : vec :=
  Vec (qsum (map vx l)) (qsum (map vy l)) (qsum (map vz l)).

(** The system parameters the tracker passes (tracker.py:316-329).  The number of mobile
    ions is the number of tracked rows (tracker.py:143-148). *)
Record transport_params := TransportParams {
  dimension : Z;
  hop_distance : Q;
  volume : Q;
  charge : Q;
  temperature : Q;
}.

(** [None] if one of the values is not finite. *)
Fixpoint all_finite (l : list (option Q)) : option (list Q) :=
  match l with
  | [] => Some []
  | None :: _ => None
  | Some x :: l' => match all_finite l' with Some xs => Some (x :: xs) | None => None end
  end.

Section Transport.
  Variable pr : transport_params.
  Variable displacement : list vec.
  Variable hops : list nat.
  Variable sim_time : Q.

  (** lines 358-359. *)
  Definition msd_value : option Q := qmean (map norm2 displacement).

  (** lines 361-375. *)
  Definition diffusivities_defined : bool :=
    negb (Qle_bool sim_time 0) && Nat.ltb 0 (length displacement).
  Definition jump_value : option Q :=
    if diffusivities_defined then
      oscale (qdiv (norm2 (total displacement))
                (2 * inject_Z (dimension pr) * sim_time * qlen displacement))
             angstrom2_to_cm2
    else None.
  Definition tracer_value : option Q :=
    if diffusivities_defined then
      match msd_value with
      | Some m => oscale (qdiv m (2 * inject_Z (dimension pr) * sim_time)) angstrom2_to_cm2
      | None => None
      end
    else None.

  (** lines 377-386. *)
  Definition conductivity_value : option Q :=
    match jump_value with
    | None => None
    | Some j =>
        match qdiv (qlen displacement) (volume pr) with
        | None => None
        | Some n_carrier =>
            oscale (qdiv (j * n_carrier * (charge pr * charge pr))
                      (boltzmann_mev_per_k * temperature pr))
                   conductivity_factor
        end
    end.

  (** lines 388-394. *)
  Definition havens_value : option Q :=
    match jump_value, tracer_value with
    | Some j, Some d => if Qeq_bool j 0 then None else qdiv d j
    | _, _ => None
    end.

  (** lines 396-406; the two arrays have one entry per tracked ion. *)
  Definition correlation_by_ion (d : vec) (h : nat) : option Q :=
    if Nat.eqb h 0 then Some 0
    else qdiv (norm2 d) (inject_Z (Z.of_nat h) * (hop_distance pr * hop_distance pr)).
  Definition correlation_value : option Q :=
    if Nat.ltb 0 (length hops) then
      match all_finite (zip_with correlation_by_ion displacement hops) with
      | Some l => qmean l
      | None => None
      end
    else None.

  (** lines 408-425 with every property enabled; the toggles are in
      [PropertyModel.reported]. *)
  Definition transport_value (name : string) : option Q :=
    if String.eqb name "msd" then msd_value
    else if String.eqb name "jump_diffusivity" then jump_value
    else if String.eqb name "tracer_diffusivity" then tracer_value
    else if String.eqb name "conductivity" then conductivity_value
    else if String.eqb name "havens_ratio" then havens_value
    else if String.eqb name "correlation_factor" then correlation_value
    else None.
End Transport.
