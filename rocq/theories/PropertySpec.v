(** What the property-sampling theorems say, in terms independent of the model's
    helpers. *)
From Verif Require Import Py PropertyModel.
Local Open Scope nat_scope.

Section PropertySpec.
  Context {T : Type}.
  Variable zero : T.
  Variable sub : T -> T -> T.
  Variable leb : T -> T -> bool.
  Context {V St Obs : Type}.

  (** When a schedule (step interval, time interval) makes a sample due at step [step]
      and time [t], the previous sample having been at time [prev]. *)
  Definition due (interval : option Z) (time_interval : option T) (prev : option T)
      (step : Z) (t : T) : Prop :=
    (exists n, interval = Some n /\ (0 < step)%Z /\ (n | step)%Z) \/
    (exists d, time_interval = Some d /\
       match prev with
       | None => leb d t = true
       | Some l => leb d (sub t l) = true
       end).

  (** [sampled i d prev pts out]: along the points [pts], the due ones are [out], each
      judged from the previous due one. *)
  Inductive sampled {A} (interval : option Z) (time_interval : option T)
    : option T -> list (A * Z * T) -> list (A * Z * T) -> Prop :=
    | sampled_nil prev : sampled interval time_interval prev [] []
    | sampled_due prev a step t pts out :
        due interval time_interval prev step t ->
        sampled interval time_interval (Some t) pts out ->
        sampled interval time_interval prev ((a, step, t) :: pts) ((a, step, t) :: out)
    | sampled_not prev a step t pts out :
        ~ due interval time_interval prev step t ->
        sampled interval time_interval prev pts out ->
        sampled interval time_interval prev ((a, step, t) :: pts) out.

  (** A property's own interval, else the global one. *)
  Definition own_or_global {A} (own global : option A) : option A :=
    match own with Some x => Some x | None => global end.

  (** [l'] is [l] cut to its last [max] entries. *)
  Definition most_recent {A} (max : option Z) (l l' : list A) : Prop :=
    exists dropped, l = dropped ++ l' /\
      match max with
      | None => dropped = []
      | Some m => length l' = Nat.min (Z.to_nat m) (length l)
      end.

  (** The invocations of one attachment. *)
  Definition calls_of (g : sampling T V) (o : nat) : list (Z * T) :=
    map (fun c => (c.1.2, c.2)) (List.filter (fun c => Nat.eqb c.1.1 o) (g_calls g)).

  (** What an attachment is: its name, the object, and the object's fields. *)
  Definition attached (g : sampling T V) (name : string) (o : nat) (s : spec T) : Prop :=
    (name, o) ∈ g_props g /\ g_objects g !! o = Some s.

  (** Two specs that differ at most in their trigger history. *)
  Definition same_settings (s s' : spec T) : Prop :=
    s_name s = s_name s' /\ s_callback s = s_callback s' /\ s_interval s = s_interval s' /\
    s_time_interval s = s_time_interval s' /\ s_store s = s_store s' /\
    s_max s = s_max s' /\ s_enabled s = s_enabled s' /\ s_on_error s = s_on_error s'.

  (** The plan and a tracker list the same attachments in the same order, with the same
      settings, and the same built-in toggles. *)
  Definition agree (p : plan T) (g : sampling T V) : Prop :=
    p_builtin p = g_builtin g /\
    Forall2 (fun ns no => fst ns = fst no /\
               exists s, g_objects g !! snd no = Some s /\ same_settings (snd ns) s)
      (p_attached p) (g_props g).

  (** All seven columns have the same length. *)
  Definition rectangular (r : results T V) : Prop :=
    length (c_jump r) = length (c_time r) /\ length (c_tracer r) = length (c_time r) /\
    length (c_conductivity r) = length (c_time r) /\
    length (c_correlation r) = length (c_time r) /\ length (c_havens r) = length (c_time r) /\
    length (c_msd r) = length (c_time r).

  (** [r'] is [r] with one more row for each entry of [l]: the time and the six fields. *)
  Definition more_rows (r r' : results T V) (l : list (Obs * Z * T))
      (value : Obs -> T -> string -> option V) : Prop :=
    let new name := map (fun x => value x.1.1 x.2 name) l in
    c_time r' = c_time r ++ map snd l /\
    c_jump r' = c_jump r ++ new "jump_diffusivity"%string /\
    c_tracer r' = c_tracer r ++ new "tracer_diffusivity"%string /\
    c_conductivity r' = c_conductivity r ++ new "conductivity"%string /\
    c_correlation r' = c_correlation r ++ new "correlation_factor"%string /\
    c_havens r' = c_havens r ++ new "havens_ratio"%string /\
    c_msd r' = c_msd r ++ new "msd"%string.

  Variable fname : nat -> option string.
  Variable call : nat -> St -> Z -> T -> list (control T) * result V.
  Variable handle : nat -> exn -> St -> Z -> T -> result bool.
  Variable transport : Obs -> T -> string -> option V.

  (** Callbacks that make no property-control calls. *)
  Definition quiet (cb : nat) : Prop := forall st step t, fst (call cb st step t) = [].
  Definition quiet_attachments (g : sampling T V) : Prop :=
    forall name o s, attached g name o s -> quiet (s_callback s).

  (** What happens to an attachment [s] at a sampling point. *)
  Inductive outcome := Idle | Returned (v : V) | Survived | Stopped.
  Inductive happens (g : sampling T V) (s : spec T) (st : St) (step : Z) (t : T)
    : outcome -> Prop :=
    | happens_disabled : s_enabled s = false -> happens g s st step t Idle
    | happens_not_due :
        ~ due (own_or_global (s_interval s) (g_interval g))
              (own_or_global (s_time_interval s) (g_time g)) (s_last_time s) step t ->
        happens g s st step t Idle
    | happens_value v :
        s_enabled s = true ->
        due (own_or_global (s_interval s) (g_interval g))
            (own_or_global (s_time_interval s) (g_time g)) (s_last_time s) step t ->
        snd (call (s_callback s) st step t) = Ok v ->
        happens g s st step t (Returned v)
    | happens_survived x h :
        s_enabled s = true ->
        due (own_or_global (s_interval s) (g_interval g))
            (own_or_global (s_time_interval s) (g_time g)) (s_last_time s) step t ->
        snd (call (s_callback s) st step t) = Err x ->
        s_on_error s = Some h -> handle h x st step t = Ok true ->
        happens g s st step t Survived
    | happens_stopped x :
        s_enabled s = true ->
        due (own_or_global (s_interval s) (g_interval g))
            (own_or_global (s_time_interval s) (g_time g)) (s_last_time s) step t ->
        snd (call (s_callback s) st step t) = Err x ->
        ~ (exists h, s_on_error s = Some h /\ handle h x st step t = Ok true) ->
        happens g s st step t Stopped.

  (** The effect of an outcome on the attachment: its invocations, its records and its
      trigger history. *)
  Definition effect (g g' : sampling T V) (name : string) (o : nat) (s : spec T)
      (step : Z) (t : T) (out : outcome) : Prop :=
    calls_of g' o = calls_of g o ++ match out with Idle => [] | _ => [(step, t)] end /\
    (match out with
     | Returned v =>
         if s_store s then
           exists l l', dget (g_records g) name = Some l /\ dget (g_records g') name = Some l' /\
             most_recent (s_max s) (l ++ [PRecord name step t v]) l'
         else dget (g_records g') name = dget (g_records g) name
     | _ => dget (g_records g') name = dget (g_records g) name
     end) /\
    exists s', g_objects g' !! o = Some s' /\ same_settings s s' /\
      (s_last_step s', s_last_time s') =
      match out with
      | Returned _ | Survived => (step, Some t)
      | Idle | Stopped => (s_last_step s, s_last_time s)
      end.

  (** The attachment is left alone: not called, same records, same trigger history. *)
  Definition untouched (g g' : sampling T V) (name : string) (o : nat) : Prop :=
    calls_of g' o = calls_of g o /\ dget (g_records g') name = dget (g_records g) name /\
    g_objects g' !! o = g_objects g !! o.

  (** The records of the successful ones among the invocations [out]. *)
  Definition successes (name : string) (cb : nat) (out : list (St * Z * T))
    : list (record T V) :=
    omap (fun x : St * Z * T =>
            match snd (call cb x.1.1 x.1.2 x.2) with
            | Ok v => Some (PRecord name x.1.2 x.2 v)
            | Err _ => None
            end) out.

  (** The value of a built-in field in a row: NaN when it is disabled. *)
  Definition field_value (toggles : dict string bool) (o : Obs) (t : T) (name : string)
    : option V :=
    if bool_decide (dget toggles name = Some false) then None else transport o t name.

  (** The points of a sampling sequence as seen by a callback and by the summary. *)
  Definition callback_points (pts : list (Obs * St * Z * T)) : list (St * Z * T) :=
    map (fun x => (x.1.1.2, x.1.2, x.2)) pts.
  Definition summary_points (pts : list (Obs * St * Z * T)) : list (Obs * Z * T) :=
    map (fun x => (x.1.1.1, x.1.2, x.2)) pts.

  (** Worlds that a user can produce with the public calls. *)
  Definition reachable (w : world T V) : Prop :=
    exists l, w = acts zero sub leb fname call handle transport new_world l.
End PropertySpec.
