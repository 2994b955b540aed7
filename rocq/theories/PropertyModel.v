(** Model of kmcpy/simulator/property.py, of the sampling half of
    kmcpy/simulator/tracker.py and of the property-control methods of
    kmcpy/simulator/kmc.py. *)
From Verif Require Import Py.
Local Open Scope nat_scope.

(** An argument that should be an [int]: an integer, or an object of another type. *)
Inductive int_arg := IntArg (z : Z) | OtherArg.

(** The [func] argument of [attach]: a callable object (identified by a number), or
    something that cannot be called. *)
Inductive func_arg := Func (callback : nat) | NotCallable.

(** property.py:102-109. *)
Definition builtin_fields : list string :=
  ["msd"; "jump_diffusivity"; "tracer_diffusivity"; "conductivity"; "havens_ratio";
   "correlation_factor"]%string.

Section Property.
  (** Times, with the operations used on them. *)
  Context {T : Type}.
  Variable zero : T.
  Variable sub : T -> T -> T.
  Variable leb : T -> T -> bool.
  (** The [__name__] of each callable object, if it has one. *)
  Variable fname : nat -> option string.
  (** Values returned by callbacks, simulation states, and what the transport summary
      is computed from. *)
  Context {V St Obs : Type}.

  (** property.py:48-57; the returned value is the accepted step interval. *)
  Definition validate_schedule (interval : option int_arg) (time_interval : option T)
    : result (option Z) :=
    let* i := (match interval with
               | None => Ok None
               | Some OtherArg => Err TypeError
               | Some (IntArg z) => if (z <=? 0)%Z then Err ValueError else Ok (Some z)
               end) in
    match time_interval with
    | Some d => if leb d zero then Err ValueError else Ok i
    | None => Ok i
    end.

  (** property.py:61-68. *)
  Definition validate_max_records (m : option int_arg) : result (option Z) :=
    match m with
    | None => Ok None
    | Some OtherArg => Err TypeError
    | Some (IntArg z) => if (z <=? 0)%Z then Err ValueError else Ok (Some z)
    end.

  (** property.py:72-89. *)
  Definition should_trigger (step : Z) (sim_time : T) (interval : option Z)
      (time_interval : option T) (last_trigger_time : option T) : bool :=
    let step_trigger :=
      match interval with
      | Some n => (0 <? step)%Z && (step mod n =? 0)%Z
      | None => false
      end in
    let time_trigger :=
      match time_interval with
      | None => false
      | Some d =>
          match last_trigger_time with
          | None => leb d sim_time
          | Some l => leb d (sub sim_time l)
          end
      end in
    step_trigger || time_trigger.

  (** property.py:37-44. *)
  Record record := PRecord { r_name : string; r_step : Z; r_time : T; r_value : V }.

  (** property.py:93-99, the list after the call. *)
  Definition append_record (records : list record) (max : option Z) (r : record)
    : list record :=
    let l := records ++ [r] in
    match max with
    | Some m => if (m <? Z.of_nat (length l))%Z then drop (length l - Z.to_nat m) l else l
    | None => l
    end.

  (** property.py:21-34. *)
  Record spec := Spec {
    s_name : string;
    s_callback : nat;
    s_interval : option Z;
    s_time_interval : option T;
    s_store : bool;
    s_max : option Z;
    s_enabled : bool;
    s_on_error : option nat;
    s_last_step : Z;
    s_last_time : option T;
  }.

  (** The arguments of [attach]. *)
  Record attach_args := Attach {
    a_func : func_arg;
    a_interval : option int_arg;
    a_time : option T;
    a_name : option string;
    a_store : bool;
    a_max : option int_arg;
    a_on_error : option nat;
    a_enabled : bool;
  }.

  (** property.py:135: [name or getattr(func, "__name__", "attached_property")]. *)
  Definition property_name (name : option string) (callback : nat) : string :=
    let fallback := match fname callback with Some n => n | None => "attached_property"%string end in
    match name with
    | Some n => if String.eqb n "" then fallback else n
    | None => fallback
    end.

  (** property.py:116-152. *)
  Definition make_property_spec (a : attach_args) (existing : list string) : result spec :=
    match a_func a with
    | NotCallable => Err TypeError
    | Func cb =>
        let* interval := validate_schedule (a_interval a) (a_time a) in
        let* max := validate_max_records (a_max a) in
        let name := property_name (a_name a) cb in
        if bool_decide (name ∈ builtin_fields) then Err ValueError
        else if bool_decide (name ∈ existing) then Err ValueError
        else Ok {| s_name := name; s_callback := cb; s_interval := interval;
                   s_time_interval := a_time a; s_store := a_store a; s_max := max;
                   s_enabled := a_enabled a; s_on_error := a_on_error a;
                   s_last_step := 0%Z; s_last_time := None |}
    end.

  (** ** PropertyPlan, property.py:198-315 *)
  Record plan := Plan {
    p_interval : option Z;
    p_time : option T;
    p_builtin : dict string bool;
    p_attached : dict string spec;
  }.

  (** lines 216-218. *)
  Definition all_enabled : dict string bool := map (fun n => (n, true)) builtin_fields.
  Definition empty_plan : plan := Plan None None all_enabled [].

  (** lines 239-247. *)
  Definition plan_frequency (p : plan) (i : option int_arg) (d : option T) : result plan :=
    let* i := validate_schedule i d in
    Ok (Plan i d (p_builtin p) (p_attached p)).

  (** lines 249-273. *)
  Definition plan_attach (p : plan) (a : attach_args) : result (plan * string) :=
    let* s := make_property_spec a (dkeys (p_attached p)) in
    Ok (Plan (p_interval p) (p_time p) (p_builtin p) (dset (p_attached p) (s_name s) s),
        s_name s).

  (** lines 275-283. *)
  Definition plan_detach (p : plan) (name : string) : result plan :=
    if din (p_attached p) name
    then Ok (Plan (p_interval p) (p_time p) (p_builtin p) (ddel (p_attached p) name))
    else Err ValueError.
  Definition plan_clear (p : plan) : plan := Plan (p_interval p) (p_time p) (p_builtin p) [].

  Definition with_enabled (s : spec) (b : bool) : spec :=
    Spec (s_name s) (s_callback s) (s_interval s) (s_time_interval s) (s_store s) (s_max s) b
      (s_on_error s) (s_last_step s) (s_last_time s).

  (** lines 181-195 and 296-303. *)
  Definition plan_enable (p : plan) (name : string) (b : bool) : result plan :=
    if din (p_builtin p) name
    then Ok (Plan (p_interval p) (p_time p) (dset (p_builtin p) name b) (p_attached p))
    else match dget (p_attached p) name with
         | None => Err ValueError
         | Some s => Ok (Plan (p_interval p) (p_time p) (p_builtin p)
                           (dset (p_attached p) name (with_enabled s b)))
         end.

  (** lines 305-315. *)
  Definition fresh_specs (p : plan) : list spec :=
    map (fun s => Spec (s_name s) (s_callback s) (s_interval s) (s_time_interval s) (s_store s)
                    (s_max s) (s_enabled s) (s_on_error s) 0%Z None)
        (dvalues (p_attached p)).

  (** ** The tracker's sampling state *)

  (** One result row: time and the six built-in fields ([None] is NaN). *)
  Record results := Results {
    c_time : list T;
    c_jump : list (option V);
    c_tracer : list (option V);
    c_conductivity : list (option V);
    c_correlation : list (option V);
    c_havens : list (option V);
    c_msd : list (option V);
  }.

  (** tracker.py:98-111.  Spec objects are shared between the attachment table and the
      sampling loop, so they live in [g_objects] (one entry per object ever created, in
      order) and the table maps names to objects.  [g_calls] is the trace of callback
      invocations (object, step, time). *)
  Record sampling := Sampling {
    g_interval : option Z;
    g_time : option T;
    g_builtin : dict string bool;
    g_objects : list spec;
    g_props : dict string nat;
    g_records : dict string (list record);
    g_last_summary : option T;
    g_results : results;
    g_calls : list (nat * Z * T);
  }.

  Definition new_sampling : sampling :=
    Sampling (Some 1%Z) None all_enabled [] [] [] None (Results [] [] [] [] [] [] []) [].

  (** tracker.py:211-219. *)
  Definition tracker_frequency (g : sampling) (i : option int_arg) (d : option T)
    : result sampling :=
    let* i := validate_schedule i d in
    Ok (Sampling i d (g_builtin g) (g_objects g) (g_props g) (g_records g) (g_last_summary g)
          (g_results g) (g_calls g)).

  (** tracker.py:244-269. *)
  Definition tracker_attach (g : sampling) (a : attach_args) : result (sampling * string) :=
    let* s := make_property_spec a (dkeys (g_props g)) in
    Ok (Sampling (g_interval g) (g_time g) (g_builtin g) (g_objects g ++ [s])
          (dset (g_props g) (s_name s) (length (g_objects g)))
          (dset (g_records g) (s_name s) []) (g_last_summary g) (g_results g) (g_calls g),
        s_name s).

  (** tracker.py:271-282: the fields of a spec as arguments. *)
  Definition spec_args (s : spec) : attach_args :=
    Attach (Func (s_callback s)) (option_map IntArg (s_interval s)) (s_time_interval s)
      (Some (s_name s)) (s_store s) (option_map IntArg (s_max s)) (s_on_error s) (s_enabled s).

  (** tracker.py:284-294. *)
  Definition tracker_detach (g : sampling) (name : string) : result sampling :=
    if din (g_props g) name
    then Ok (Sampling (g_interval g) (g_time g) (g_builtin g) (g_objects g)
               (ddel (g_props g) name) (ddel (g_records g) name) (g_last_summary g)
               (g_results g) (g_calls g))
    else Err ValueError.
  Definition tracker_clear (g : sampling) : sampling :=
    Sampling (g_interval g) (g_time g) (g_builtin g) (g_objects g) [] [] (g_last_summary g)
      (g_results g) (g_calls g).

  (** tracker.py:307-314. *)
  Definition tracker_enable (g : sampling) (name : string) (b : bool) : result sampling :=
    if din (g_builtin g) name
    then Ok (Sampling (g_interval g) (g_time g) (dset (g_builtin g) name b) (g_objects g)
               (g_props g) (g_records g) (g_last_summary g) (g_results g) (g_calls g))
    else match dget (g_props g) name with
         | None => Err ValueError
         | Some o => Ok (Sampling (g_interval g) (g_time g) (g_builtin g)
                           (alter (fun s => with_enabled s b) o (g_objects g))
                           (g_props g) (g_records g) (g_last_summary g) (g_results g)
                           (g_calls g))
         end.

  (** tracker.py:221-242. *)
  Definition apply_plan (g : sampling) (p : plan) (default_interval : option Z)
    : result sampling :=
    let interval :=
      match p_interval p, p_time p, default_interval with
      | None, None, Some d => Some d
      | i, _, _ => i
      end in
    let* g := tracker_frequency g (option_map IntArg interval) (p_time p) in
    let* g := rfold (fun g nb => tracker_enable g (fst nb) (snd nb)) g (p_builtin p) in
    rfold (fun g s => let* gn := tracker_attach g (spec_args s) in Ok (fst gn)) g
      (fresh_specs p).

  (** kmc.py:521-531: the tracker of a run; the default interval is
      [max(pass_length, 1)]. *)
  Definition tracker_for_run (p : plan) (pass_length : nat) : result sampling :=
    apply_plan new_sampling p (Some (Z.max (Z.of_nat pass_length) 1)).

  (** ** Property control through KMC, kmc.py:281-388 *)
  Record world := World { w_plan : plan; w_active : option sampling }.

  Inductive control :=
    | SetFrequency (i : option int_arg) (d : option T)
    | DoAttach (a : attach_args)
    | Detach (name : string)
    | ClearAttachments
    | SetEnabled (name : string) (b : bool).

  (** The plan is changed first; the active tracker, if any, afterwards.  The state at
      an exception is returned with it. *)
  Definition on_active (w : world) (p : plan) (f : sampling -> result sampling)
    : world * result unit :=
    match w_active w with
    | None => (World p None, Ok tt)
    | Some g =>
        match f g with
        | Ok g' => (World p (Some g'), Ok tt)
        | Err x => (World p (Some g), Err x)
        end
    end.

  (** kmc.py:343-353: the tracker is given the name the plan chose. *)
  Definition renamed (a : attach_args) (name : string) : attach_args :=
    Attach (a_func a) (a_interval a) (a_time a) (Some name) (a_store a) (a_max a)
      (a_on_error a) (a_enabled a).

  Definition kmc_control (w : world) (c : control) : world * result unit :=
    match c with
    | SetFrequency i d =>
        match plan_frequency (w_plan w) i d with
        | Err x => (w, Err x)
        | Ok p => on_active w p (fun g => tracker_frequency g i d)
        end
    | DoAttach a =>
        match plan_attach (w_plan w) a with
        | Err x => (w, Err x)
        | Ok (p, name) =>
            on_active w p (fun g =>
              let* gn := tracker_attach g (renamed a name) in Ok (fst gn))
        end
    | Detach name =>
        match plan_detach (w_plan w) name with
        | Err x => (w, Err x)
        | Ok p => on_active w p (fun g => tracker_detach g name)
        end
    | ClearAttachments =>
        on_active w (plan_clear (w_plan w)) (fun g => Ok (tracker_clear g))
    | SetEnabled name b =>
        match plan_enable (w_plan w) name b with
        | Err x => (w, Err x)
        | Ok p => on_active w p (fun g => tracker_enable g name b)
        end
    end.

  (** Several calls in a row; the first exception ends the sequence. *)
  Fixpoint kmc_controls (w : world) (cs : list control) : world * result unit :=
    match cs with
    | [] => (w, Ok tt)
    | c :: cs' =>
        let (w', r) := kmc_control w c in
        match r with
        | Ok _ => kmc_controls w' cs'
        | Err x => (w', Err x)
        end
    end.

  (** ** Sampling *)

  (** What a callback does when called: property-control calls it makes, then a value or
      an exception; an exception of one of its calls escapes from it.  Simplification:
      callbacks do not change the simulation state or start another run. *)
  Variable call : nat -> St -> Z -> T -> list control * result V.
  (** What an error handler does: its truth value or an exception.  Simplification:
      handlers make no property-control calls. *)
  Variable handle : nat -> exn -> St -> Z -> T -> result bool.
  (** The transport summary before the toggles are applied (see [TransportModel]);
      [None] is NaN. *)
  Variable transport : Obs -> T -> string -> option V.

  (** property.py:318-322 and 408-425. *)
  Definition reported (g : sampling) (o : Obs) (t : T) (name : string) : option V :=
    let on := match dget (g_builtin g) name with Some b => b | None => true end in
    if on then transport o t name else None.

  (** tracker.py:62-70. *)
  Definition append_row (g : sampling) (o : Obs) (t : T) : results :=
    let r := g_results g in
    Results (c_time r ++ [t])
      (c_jump r ++ [reported g o t "jump_diffusivity"%string])
      (c_tracer r ++ [reported g o t "tracer_diffusivity"%string])
      (c_conductivity r ++ [reported g o t "conductivity"%string])
      (c_correlation r ++ [reported g o t "correlation_factor"%string])
      (c_havens r ++ [reported g o t "havens_ratio"%string])
      (c_msd r ++ [reported g o t "msd"%string]).

  (** tracker.py:331-344. *)
  Definition sample_summary (g : sampling) (o : Obs) (step : Z) (t : T) : sampling :=
    if should_trigger step t (g_interval g) (g_time g) (g_last_summary g)
    then Sampling (g_interval g) (g_time g) (g_builtin g) (g_objects g) (g_props g)
           (g_records g) (Some t) (append_row g o t) (g_calls g)
    else g.

  Definition or_else {A} (a b : option A) : option A :=
    match a with Some x => Some x | None => b end.

  (** tracker.py:406-407 and 419-420. *)
  Definition mark (g : sampling) (o : nat) (step : Z) (t : T) : sampling :=
    Sampling (g_interval g) (g_time g) (g_builtin g)
      (alter (fun s => Spec (s_name s) (s_callback s) (s_interval s) (s_time_interval s)
                         (s_store s) (s_max s) (s_enabled s) (s_on_error s) step (Some t))
         o (g_objects g))
      (g_props g) (g_records g) (g_last_summary g) (g_results g) (g_calls g).

  Definition log_call (g : sampling) (o : nat) (step : Z) (t : T) : sampling :=
    Sampling (g_interval g) (g_time g) (g_builtin g) (g_objects g) (g_props g) (g_records g)
      (g_last_summary g) (g_results g) (g_calls g ++ [(o, step, t)]).

  Definition set_records (g : sampling) (r : dict string (list record)) : sampling :=
    Sampling (g_interval g) (g_time g) (g_builtin g) (g_objects g) (g_props g) r
      (g_last_summary g) (g_results g) (g_calls g).

  (** tracker.py:346-369: [true] to go on. *)
  Definition survives (s : spec) (x : exn) (st : St) (step : Z) (t : T) : bool :=
    match s_on_error s with
    | None => false
    | Some h => match handle h x st step t with Ok b => b | Err _ => false end
    end.

  (** tracker.py:382-420, one turn of the loop for object [o].  The plan is only changed
      by the calls the callback makes. *)
  Definition sample_object (p : plan) (g : sampling) (o : nat) (st : St) (step : Z) (t : T)
    : (plan * sampling) * result unit :=
    match g_objects g !! o with
    | None => ((p, g), Err RuntimeError) (* not reachable: [o] comes from the table *)
    | Some s =>
        if negb (s_enabled s) then ((p, g), Ok tt)
        else if negb (should_trigger step t (or_else (s_interval s) (g_interval g))
                        (or_else (s_time_interval s) (g_time g)) (s_last_time s))
        then ((p, g), Ok tt)
        else
          let g := log_call g o step t in
          let (cs, out) := call (s_callback s) st step t in
          let (w, r) := kmc_controls (World p (Some g)) cs in
          let p := w_plan w in
          let g := match w_active w with Some g' => g' | None => g end in
          let out := match r with Ok _ => out | Err x => Err x end in
          match out with
          | Err x =>
              if survives s x st step t then ((p, mark g o step t), Ok tt)
              else ((p, g), Err CallbackExecutionError)
          | Ok v =>
              if s_store s then
                match dget (g_records g) (s_name s) with
                | None => ((p, g), Err KeyError)
                | Some l =>
                    let r := PRecord (s_name s) step t v in
                    let g := set_records g (dset (g_records g) (s_name s)
                                              (append_record l (s_max s) r)) in
                    ((p, mark g o step t), Ok tt)
                end
              else ((p, mark g o step t), Ok tt)
          end
    end.

  Fixpoint sample_objects (p : plan) (g : sampling) (os : list nat) (st : St) (step : Z) (t : T)
    : (plan * sampling) * result unit :=
    match os with
    | [] => ((p, g), Ok tt)
    | o :: os' =>
        match sample_object p g o st step t with
        | ((p', g'), Ok _) => sample_objects p' g' os' st step t
        | (pg, Err x) => (pg, Err x)
        end
    end.

  (** tracker.py:378-420; the loop runs over the objects attached when it starts. *)
  Definition sample_properties (p : plan) (g : sampling) (obs : Obs) (st : St) (step : Z) (t : T)
    : (plan * sampling) * result unit :=
    let g := sample_summary g obs step t in
    sample_objects p g (dvalues (g_props g)) st step t.

  (** A sequence of sampling points, up to the first exception. *)
  Fixpoint sample_points (p : plan) (g : sampling) (pts : list (Obs * St * Z * T))
    : (plan * sampling) * result unit :=
    match pts with
    | [] => ((p, g), Ok tt)
    | (o, st, step, t) :: pts' =>
        match sample_properties p g o st step t with
        | ((p', g'), Ok _) => sample_points p' g' pts'
        | (pg, Err x) => (pg, Err x)
        end
    end.

  (** The life of a KMC object as far as properties are concerned: control calls, runs
      (a fresh tracker becomes the active one) and sampling points of the active run. *)
  Inductive action :=
    | Control (c : control)
    | StartRun (pass_length : nat)
    | Sample (o : Obs) (st : St) (step : Z) (t : T).
  Definition act (w : world) (a : action) : world * result unit :=
    match a with
    | Control c => kmc_control w c
    | StartRun n =>
        match tracker_for_run (w_plan w) n with
        | Ok g => (World (w_plan w) (Some g), Ok tt)
        | Err x => (w, Err x)
        end
    | Sample o st step t =>
        match w_active w with
        | None => (w, Ok tt)
        | Some g =>
            let '((p, g'), r) := sample_properties (w_plan w) g o st step t in
            (World p (Some g'), r)
        end
    end.
  (** Any number of actions; exceptions are caught by the caller, who goes on. *)
  Definition acts (w : world) (l : list action) : world :=
    fold_left (fun w a => fst (act w a)) l w.
  Definition new_world : world := World empty_plan None.

  (** tracker.py:422-434 and 371-376. *)
  Definition get_property_records (g : sampling) (name : string) : result (list record) :=
    match dget (g_records g) name with
    | None => Err ValueError
    | Some l => Ok l
    end.
End Property.
Arguments record : clear implicits.
Arguments spec : clear implicits.
Arguments plan : clear implicits.
Arguments sampling : clear implicits.
Arguments results : clear implicits.
Arguments world : clear implicits.
Arguments control : clear implicits.
Arguments attach_args : clear implicits.
Arguments action : clear implicits.
