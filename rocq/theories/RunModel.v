(** [KMC.run] with the whole tracker: ion bookkeeping ([TrackerModel]) and property
    sampling ([PropertyModel]) in the loop of [KmcModel] (kmc.py:458-553).
    Logging and the CSV output at the end are not modelled. *)
From Verif Require Import Py ActiveSiteModel EventModel StateModel HopModel KmcModel
  TrackerModel PropertyModel.

Section Run.
  Context {T : Type}.
  Variable zero : T.
  Variable add sub : T -> T -> T.
  Variable leb : T -> T -> bool.
  Context {M : Type}.
  Variable model_apply : M -> event -> list Z -> result M.
  Variable compute_probability : M -> list Z -> event -> result T.
  Variable select : list T -> T -> T -> result (nat * T).
  Variable fname : nat -> option string.
  Context {V : Type}.
  (** Callbacks see the simulation state; the transport summary sees the displacements
      and the hop counters. *)
  Variable call : nat -> state T -> Z -> T -> list (control T) * result V.
  Variable handle : nat -> exn -> state T -> Z -> T -> result bool.
  Variable transport : list vec * list nat -> T -> string -> option V.

  Definition done_with {A} (wr : A * result unit) : result A :=
    match wr with (w, Ok _) => Ok w | (_, Err x) => Err x end.

  (** kmc.py:521-531: a new tracker with the property plan applied becomes the active
      one.  (The plan is applied at the end of [Tracker.__init__], tracker.py:151-156;
      here before the ion part: with both failing, the exceptions would come in another
      order.) *)
  Definition open_tracker (str : structure) (mobile : string) (w : world T V) (pl : nat)
      (st : state T) (lk : option lookup) : result (tracker (world T V)) :=
    let* w' := done_with (act zero sub leb fname call handle transport w (StartRun pl)) in
    create str mobile w' (occupations st) lk.

  (** kmc.py:544-547: the step and the time of the simulation state. *)
  Definition take_sample (w : world T V) (d : list vec) (h : list nat) (st : state T)
    : result (world T V) :=
    done_with (act zero sub leb fname call handle transport w
                 (Sample (d, h) st (step st) (time st))).

  (** kmc.py:537-547. *)
  Definition production (str : structure) :=
    produce add model_apply compute_probability select
      (fun tr st e => update str tr (occupations st) e) (TrackerModel.sample_properties take_sample).

  (** kmc.py:458-553. *)
  Definition run_simulation (str : structure) (mobile : string) (w : world T V)
      (eqp kp : Z) (draws : nat -> T * T) (k : kmc T M)
    : result (kmc T M * tracker (world T V)) :=
    let pl := pass_length (symbols str) mobile in
    run zero add model_apply compute_probability select (open_tracker str mobile w pl)
      (fun tr st e => update str tr (occupations st) e) (TrackerModel.sample_properties take_sample)
      eqp kp pl draws k.
End Run.
