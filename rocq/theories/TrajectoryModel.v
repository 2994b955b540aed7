(** Successive calls of [KMC.run] on one object (kmc.py:458-553): each call makes a new
    random generator, starts from the state the last call left and makes a new tracker.
    [seeded s] is the sequence of pairs of numbers that [_propose] (kmc.py:555-564) reads
    from [np.random.default_rng(seed=s)]: a parameter. *)
From Verif Require Import Py ActiveSiteModel EventModel StateModel HopModel KmcModel
  TrackerModel PropertyModel RunModel.

Section Trajectory.
  Context {T : Type}.
  Variable zero : T.
  Variable add sub : T -> T -> T.
  Variable leb : T -> T -> bool.
  Context {M : Type}.
  Variable model_apply : M -> event -> list Z -> result M.
  Variable compute_probability : M -> list Z -> event -> result T.
  Variable select : list T -> T -> T -> result (nat * T).
  Variable fname : nat -> option string.
  Context {V : Type}.
  Variable call : nat -> state T -> Z -> T -> list (control T) * result V.
  Variable handle : nat -> exn -> state T -> Z -> T -> result bool.
  Variable transport : list vec * list nat -> T -> string -> option V.
  Variable seeded : Z -> nat -> T * T.

  (** kmc.py:482-487: the generator of a call.  [fresh] are the numbers of the generator
      made without a seed, an input of the call. *)
  Definition generator (seed : option Z) (fresh : nat -> T * T) : nat -> T * T :=
    match seed with Some s => seeded s | None => fresh end.

  (** kmc.py:458-553: the engine and the property settings are left on the object, the
      tracker is returned. *)
  Definition run_call (str : structure) (mobile : string) (eqp kp : Z) (seed : option Z)
      (fresh : nat -> T * T) (o : kmc T M * world T V)
    : result ((kmc T M * world T V) * tracker (world T V)) :=
    let* kt := run_simulation zero add sub leb model_apply compute_probability select fname
                 call handle transport str mobile (snd o) eqp kp (generator seed fresh) (fst o) in
    Ok ((fst kt, t_sampling (snd kt)), snd kt).

  (** One call per element of [fresh], with the same settings. *)
  Fixpoint run_calls (str : structure) (mobile : string) (eqp kp : Z) (seed : option Z)
      (fresh : list (nat -> T * T)) (o : kmc T M * world T V)
    : result ((kmc T M * world T V) * list (tracker (world T V))) :=
    match fresh with
    | [] => Ok (o, [])
    | f :: fresh' =>
        let* ot := run_call str mobile eqp kp seed f o in
        let* rest := run_calls str mobile eqp kp seed fresh' (fst ot) in
        Ok (fst rest, snd ot :: snd rest)
    end.
End Trajectory.
