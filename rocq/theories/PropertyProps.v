(** Property sampling: schedules, records, the result table, attachments, failing
    callbacks, fresh runs. *)
From Verif Require Import Py PropertyModel PropertySpec PropertyProofs.
Local Open Scope nat_scope.

Section PropertyProps.
  Context {T : Type}.
  Variable zero : T.
  Variable sub : T -> T -> T.
  Variable leb : T -> T -> bool.
  Variable fname : nat -> option string.
  Context {V St Obs : Type}.
  Variable call : nat -> St -> Z -> T -> list (control T) * result V.
  Variable handle : nat -> exn -> St -> Z -> T -> result bool.
  Variable transport : Obs -> T -> string -> option V.
  Notation reachable := (reachable zero sub leb fname call handle transport).
  Notation sample_properties := (sample_properties zero sub leb fname call handle transport).
  Notation sample_points := (sample_points zero sub leb fname call handle transport).
  Notation kmc_control := (kmc_control zero leb fname).

  (** C23.  Over any sequence of sampling points, an enabled attachment is called exactly
      at the due points, judged by its own intervals or else the global ones; a disabled
      one never. *)
  Theorem property_schedule_exact w g pts p' g' :
    reachable w -> w_active w = Some g -> quiet_attachments call g ->
    sample_points (w_plan w) g pts = ((p', g'), Ok tt) ->
    forall name o s, attached g name o s ->
    (s_enabled s = true ->
       exists out,
         sampled sub leb (own_or_global (s_interval s) (g_interval g))
           (own_or_global (s_time_interval s) (g_time g)) (s_last_time s)
           (callback_points pts) out /\
         calls_of g' o = calls_of g o ++ map (fun x => (x.1.2, x.2)) out) /\
    (s_enabled s = false -> calls_of g' o = calls_of g o).
  Proof.
    intros [Hp Hg]%reachable_inv Ha Hq E name o s Hatt. rewrite Ha in Hg.
    destruct (points_lemma zero sub leb fname call handle transport _ _ _ _ _ Hp Hg Hq E) as (_ & _ & _ & _ & H).
    destruct (H name o s Hatt) as (s' & _ & _ & H').
    split; intros Hen; rewrite Hen in H'.
    - destruct H' as (out & H1 & H2 & _). eauto.
    - apply H'.
  Qed.

  (** C24.  Consecutive samples of a property scheduled by time only are at least one
      interval apart, and the first is at least one interval after the previous trigger
      (or after zero). *)
  Theorem time_samples_spaced w g pts p' g' name o s d :
    reachable w -> w_active w = Some g -> quiet_attachments call g ->
    sample_points (w_plan w) g pts = ((p', g'), Ok tt) ->
    attached g name o s ->
    own_or_global (s_interval s) (g_interval g) = None ->
    own_or_global (s_time_interval s) (g_time g) = Some d ->
    exists new, calls_of g' o = calls_of g o ++ new /\
      (forall i s1 t1 s2 t2, new !! i = Some (s1, t1) -> new !! S i = Some (s2, t2) ->
         leb d (sub t2 t1) = true) /\
      (forall s1 t1, head new = Some (s1, t1) ->
         match s_last_time s with
         | Some l => leb d (sub t1 l) = true
         | None => leb d t1 = true
         end).
  Proof.
    intros [Hp Hg]%reachable_inv Ha Hq E Hatt Hi Hd. rewrite Ha in Hg.
    destruct (points_lemma zero sub leb fname call handle transport _ _ _ _ _ Hp Hg Hq E) as (_ & _ & _ & _ & H).
    destruct (H name o s Hatt) as (s' & _ & _ & H').
    destruct (s_enabled s).
    - destruct H' as (out & H1 & H2 & _). rewrite Hi, Hd in H1.
      destruct (sampled_spacing sub leb _ _ _ _ H1) as [S1 S2].
      eexists. split; [exact H2|]. split.
      + intros i s1 t1 s2 t2. rewrite !list_lookup_fmap.
        destruct (out !! i) as [[[a1 ?] ?]|] eqn:E1; [|done].
        destruct (out !! S i) as [[[a2 ?] ?]|] eqn:E2; [|done].
        simpl. intros [= -> ->] [= -> ->]. by eapply S1.
      + intros s1 t1. destruct out as [|[[a1 ?] ?] out]; [done|]. simpl.
        intros [= -> ->]. by eapply S2.
    - exists []. destruct H' as [-> _]. by rewrite app_nil_r.
  Qed.

  (** C25.  If the stored records of an attachment are the most recent [max_records] of
      the history [l0] (for a fresh attachment, both are empty), then after any sequence
      of sampling points they are the most recent of [l0] followed by the successful
      samples, in order. *)
  Theorem stored_records_most_recent w g pts p' g' name o s l0 l :
    reachable w -> w_active w = Some g -> quiet_attachments call g ->
    sample_points (w_plan w) g pts = ((p', g'), Ok tt) ->
    attached g name o s -> s_enabled s = true -> s_store s = true ->
    get_property_records g name = Ok l -> most_recent (s_max s) l0 l ->
    exists out l',
      sampled sub leb (own_or_global (s_interval s) (g_interval g))
        (own_or_global (s_time_interval s) (g_time g)) (s_last_time s)
        (callback_points pts) out /\
      get_property_records g' name = Ok l' /\
      most_recent (s_max s) (l0 ++ successes call name (s_callback s) out) l'.
  Proof.
    intros [Hp Hg]%reachable_inv Ha Hq E Hatt Hen Hst Hl Hr. rewrite Ha in Hg.
    destruct (points_lemma zero sub leb fname call handle transport _ _ _ _ _ Hp Hg Hq E) as (_ & _ & _ & _ & H).
    destruct (H name o s Hatt) as (s' & _ & _ & H'). rewrite Hen in H'.
    destruct H' as (out & H1 & _ & H3 & _).
    unfold get_property_records in *. destruct (dget (g_records g) name) as [l1|] eqn:El; [|done].
    injection Hl as ->. destruct (H3 Hst l0 l eq_refl Hr) as (l' & Hl' & Hr').
    exists out, l'. split; [done|]. by rewrite Hl'.
  Qed.

  (** C26.  Whatever the user and the callbacks do, the result table is rectangular. *)
  Theorem results_rectangular w g :
    reachable w -> w_active w = Some g -> rectangular (g_results g).
  Proof. intros [_ Hg]%reachable_inv Ha. rewrite Ha in Hg. apply Hg. Qed.

  (** C26.  At any sampling point, from any state and with any callbacks, one row is added
      if the global schedule is due and none otherwise; a disabled field is NaN in it. *)
  Theorem result_row_exact p g o st step t p' g' r :
    sample_properties p g o st step t = ((p', g'), r) ->
    (due sub leb (g_interval g) (g_time g) (g_last_summary g) step t /\
     more_rows (g_results g) (g_results g') [(o, step, t)] (field_value transport (g_builtin g)))
    \/ (~ due sub leb (g_interval g) (g_time g) (g_last_summary g) step t /\
        g_results g' = g_results g).
  Proof. apply row_lemma. Qed.

  (** C26, C23.  Over a sequence of sampling points the rows added are exactly the due
      points of the global schedule, in order. *)
  Theorem result_rows_exact w g pts p' g' :
    reachable w -> w_active w = Some g -> quiet_attachments call g ->
    sample_points (w_plan w) g pts = ((p', g'), Ok tt) ->
    exists out,
      sampled sub leb (g_interval g) (g_time g) (g_last_summary g) (summary_points pts) out /\
      more_rows (g_results g) (g_results g') out (field_value transport (g_builtin g)).
  Proof.
    intros [Hp Hg]%reachable_inv Ha Hq E. rewrite Ha in Hg.
    by destruct (points_lemma zero sub leb fname call handle transport _ _ _ _ _ Hp Hg Hq E) as (_ & _ & _ & H & _).
  Qed.

  (** C27.  After any history: names are distinct and not reserved, each attachment
      carries its own name, and the plan and the active tracker agree. *)
  Theorem attachments_consistent w :
    reachable w ->
    NoDup (dkeys (p_attached (w_plan w))) /\
    (forall name s, (name, s) ∈ p_attached (w_plan w) ->
       s_name s = name /\ name ∉ builtin_fields) /\
    dkeys (p_builtin (w_plan w)) = builtin_fields /\
    (forall g, w_active w = Some g -> agree (w_plan w) g).
  Proof.
    intros [Hp Hg]%reachable_inv. split; [apply Hp|]. split; [|split].
    - intros name s Hin. by destruct (pi_specs _ _ _ _ Hp name s Hin).
    - apply Hp.
    - intros g Ha. rewrite Ha in Hg. apply Hg.
  Qed.

  (** C27.  A rejected call changes nothing, in the plan or in the active tracker. *)
  Theorem rejected_call_changes_nothing w c w' x :
    reachable w -> kmc_control w c = (w', Err x) -> w' = w.
  Proof.
    intros Hw%reachable_inv H.
    by destruct (control_inv zero sub leb fname call handle _ _ _ _ Hw H) as (_ & _ & [?|[_ ?]]).
  Qed.

  (** C27.  [attach] is accepted exactly when the function is callable, the intervals and
      the maximum are positive, and the name is free and not reserved. *)
  Theorem attach_accepted_iff w a :
    reachable w ->
    (exists w', kmc_control w (DoAttach a) = (w', Ok tt)) <->
    exists cb, a_func a = Func cb /\
      (a_interval a = None \/ exists n, a_interval a = Some (IntArg n) /\ (0 < n)%Z) /\
      (forall d, a_time a = Some d -> leb d zero = false) /\
      (a_max a = None \/ exists n, a_max a = Some (IntArg n) /\ (0 < n)%Z) /\
      let name := property_name fname (a_name a) cb in
      name ∉ builtin_fields /\ name ∉ dkeys (p_attached (w_plan w)).
  Proof. intros Hw%reachable_inv. by apply (attach_accepted_lemma zero sub leb fname call handle). Qed.

  (** C27.  An accepted [attach] adds exactly one attachment, last, with the settings
      asked for. *)
  Theorem attach_effect w a w' :
    reachable w -> kmc_control w (DoAttach a) = (w', Ok tt) ->
    exists name s cb, a_func a = Func cb /\
      p_attached (w_plan w') = p_attached (w_plan w) ++ [(name, s)] /\
      s_name s = name /\ s_callback s = cb /\
      a_interval a = option_map IntArg (s_interval s) /\ s_time_interval s = a_time a /\
      s_store s = a_store a /\ a_max a = option_map IntArg (s_max s) /\
      s_enabled s = a_enabled a /\ s_on_error s = a_on_error a.
  Proof. intros Hw%reachable_inv. by apply attach_effect_lemma. Qed.

  (** C27.  What every accepted call changes in the plan, and that it changes nothing
      else there. *)
  Theorem control_effects w c w' :
    reachable w -> kmc_control w c = (w', Ok tt) ->
    let p := w_plan w in let p' := w_plan w' in
    match c with
    | SetFrequency i d =>
        i = option_map IntArg (p_interval p') /\ p_time p' = d /\
        p_builtin p' = p_builtin p /\ p_attached p' = p_attached p
    | DoAttach _ => p_interval p' = p_interval p /\ p_time p' = p_time p /\
        p_builtin p' = p_builtin p
    | Detach name =>
        p_interval p' = p_interval p /\ p_time p' = p_time p /\ p_builtin p' = p_builtin p /\
        name ∈ dkeys (p_attached p) /\
        p_attached p' = List.filter (fun ns => negb (bool_decide (fst ns = name))) (p_attached p)
    | ClearAttachments =>
        p_interval p' = p_interval p /\ p_time p' = p_time p /\ p_builtin p' = p_builtin p /\
        p_attached p' = []
    | SetEnabled name b =>
        p_interval p' = p_interval p /\ p_time p' = p_time p /\
        (if bool_decide (name ∈ builtin_fields)
         then p_builtin p' = map (fun nb => if bool_decide (fst nb = name) then (fst nb, b) else nb)
                               (p_builtin p) /\ p_attached p' = p_attached p
         else p_builtin p' = p_builtin p /\ name ∈ dkeys (p_attached p) /\
              p_attached p' = map (fun ns => if bool_decide (fst ns = name)
                                             then (fst ns, with_enabled (snd ns) b) else ns)
                                (p_attached p))
    end.
  Proof. intros Hw%reachable_inv. by apply other_effects_lemma. Qed.

  (** C28.  One sampling point with callbacks that may raise: either every attachment is
      handled (called iff due; a record only for a returned value; the trigger history
      advances also for a failure its handler accepted), or sampling stops with
      CallbackExecutionError at the first failure whose handler is missing, raises or
      declines: the attachments before it are handled, it stores nothing, and those after
      it are untouched. *)
  Theorem failing_callbacks_contained w g o st step t :
    reachable w -> w_active w = Some g -> quiet_attachments call g ->
    exists g' r, sample_properties (w_plan w) g o st step t = ((w_plan w, g'), r) /\
      ((r = Ok tt /\
        forall name ob s, attached g name ob s ->
        exists out, happens sub leb call handle g s st step t out /\ out <> Stopped /\
          effect g g' name ob s step t out) \/
       (r = Err CallbackExecutionError /\
        exists before name ob s after,
          g_props g = before ++ (name, ob) :: after /\
          g_objects g !! ob = Some s /\ happens sub leb call handle g s st step t Stopped /\
          effect g g' name ob s step t Stopped /\
          (forall name' ob' s', (name', ob') ∈ before -> g_objects g !! ob' = Some s' ->
             exists out, happens sub leb call handle g s' st step t out /\ out <> Stopped /\
               effect g g' name' ob' s' step t out) /\
          (forall name' ob', (name', ob') ∈ after -> untouched g g' name' ob'))).
  Proof.
    intros [Hp Hg]%reachable_inv Ha Hq. rewrite Ha in Hg.
    destruct (point_lemma zero sub leb fname call handle transport _ _ o st step t Hp Hg Hq)
      as (g' & r & E & _ & _ & _ & _ & _ & _ & _ & Hpt).
    exists g', r. split; [done|].
    destruct Hpt as [[-> H]|(-> & before & n & ob & s & after & H1 & H2 & H3 & H4 & H5 & H6)].
    - left. split; [done|]. intros name ob s [Hin Hs]. by apply H.
    - right. split; [done|]. exists before, n, ob, s, after. done.
  Qed.

  (** C29.  A new run always starts with the plan's attachments and settings and no
      sampling history; without any global schedule it samples once per pass. *)
  Theorem runs_start_fresh w n :
    reachable w ->
    exists g : sampling T V, tracker_for_run zero leb fname (w_plan w) n = Ok g /\
      agree (w_plan w) g /\
      (forall name o s, attached g name o s -> s_last_step s = 0%Z /\ s_last_time s = None) /\
      dkeys (g_records g) = dkeys (p_attached (w_plan w)) /\
      (forall name l, dget (g_records g) name = Some l -> l = []) /\
      g_last_summary g = None /\ g_results g = Results [] [] [] [] [] [] [] /\
      g_calls g = [] /\ g_time g = p_time (w_plan w) /\
      g_interval g = (if bool_decide (p_interval (w_plan w) = None) &&
                         match p_time (w_plan w) with None => true | Some _ => false end
                      then Some (Z.max (Z.of_nat n) 1) else p_interval (w_plan w)).
  Proof. apply fresh_run_lemma. Qed.
End PropertyProps.

(** A concrete setting: integer times; callback 0 returns the step, callback 1 fails at
    step 4 and otherwise returns 7, callback 2 always fails, callback 3 detaches itself;
    handler 0 accepts every error. *)
Definition ex_fname (cb : nat) : option string :=
  match cb with 0 => Some "zero" | 1 => Some "one" | 2 => Some "two" | 3 => Some "self" | _ => None end%string.
Definition ex_call (cb : nat) (st : unit) (step t : Z) : list (control Z) * result Z :=
  match cb with
  | 0 => ([], Ok step)
  | 1 => ([], if (step =? 4)%Z then Err ValueError else Ok 7%Z)
  | 2 => ([], Err RuntimeError)
  | _ => ([Detach "self"%string], Ok 1%Z)
  end.
Definition ex_handle (h : nat) (x : exn) (st : unit) (step t : Z) : result bool := Ok true.
Definition ex_transport (o : unit) (t : Z) (name : string) : option Z := Some t.
Definition ex_acts := acts 0%Z Z.sub Z.leb ex_fname ex_call ex_handle ex_transport new_world.
Definition ex_args (cb : nat) (i : option int_arg) (d : option Z) (max : option int_arg)
    (h : option nat) : attach_args Z := Attach (Func cb) i d None true max h true.
Definition ex_setup : list (action Z unit unit) :=
  [Control (SetFrequency (Some (IntArg 2)) None);
   Control (DoAttach (ex_args 0 None (Some 5%Z) (Some (IntArg 2)) None));
   Control (DoAttach (ex_args 1 None None None (Some 0)));
   Control (SetEnabled "msd" false);
   StartRun 3].
Definition ex_points : list (unit * unit * Z * Z) :=
  [(tt, tt, 1, 3); (tt, tt, 2, 4); (tt, tt, 3, 9); (tt, tt, 4, 10); (tt, tt, 5, 13); (tt, tt, 6, 20)]%Z.

Example property_example :
  match w_active (ex_acts ex_setup) with
  | None => False
  | Some g =>
      quiet_attachments ex_call g /\
      attached g "zero" 0 (Spec "zero" 0 None (Some 5%Z) true (Some 2%Z) true None 0 None) /\
      exists p' g',
        sample_points 0%Z Z.sub Z.leb ex_fname ex_call ex_handle ex_transport
          (w_plan (ex_acts ex_setup)) g ex_points = ((p', g'), Ok tt) /\
        calls_of g' 0 = [(2, 4); (3, 9); (4, 10); (6, 20)]%Z /\
        calls_of g' 1 = [(2, 4); (4, 10); (6, 20)]%Z /\
        get_property_records g' "zero" = Ok [PRecord "zero"%string 4 10 4; PRecord "zero"%string 6 20 6]%Z /\
        get_property_records g' "one" = Ok [PRecord "one"%string 2 4 7; PRecord "one"%string 6 20 7]%Z /\
        c_time (g_results g') = [4; 10; 20]%Z /\
        c_msd (g_results g') = [None; None; None] /\
        c_jump (g_results g') = [Some 4; Some 10; Some 20]%Z
  end.
Proof.
  vm_compute. split; [|split; [|by eexists _, _]].
  - intros name o s [_ Hs] st step t. vm_compute in Hs.
    destruct o as [|[|o]]; [injection Hs as <-; done..|done].
  - split; [constructor|done].
Qed.

(** The other outcome of a sampling point: callback 2 has no handler. *)
Example failing_example :
  let w := ex_acts [Control (DoAttach (ex_args 2 (Some (IntArg 1)) None None None));
                    Control (DoAttach (ex_args 0 (Some (IntArg 1)) None None None)); StartRun 3] in
  match w_active w with
  | None => False
  | Some g =>
      quiet_attachments ex_call g /\
      snd (sample_properties 0%Z Z.sub Z.leb ex_fname ex_call ex_handle ex_transport (w_plan w) g
             tt tt 1%Z 1%Z) = Err CallbackExecutionError
  end.
Proof.
  vm_compute. split; [|done].
  intros name o s [_ Hs] st step t. vm_compute in Hs.
  destruct o as [|[|o]]; [injection Hs as <-; done..|done].
Qed.

(** C27 examples: an accepted and a rejected call. *)
Example control_example :
  let w := ex_acts ex_setup in
  snd (kmc_control 0%Z Z.leb ex_fname w (DoAttach (ex_args 2 None None None None))) = Ok tt /\
  snd (kmc_control 0%Z Z.leb ex_fname w (DoAttach (ex_args 1 None None None None))) = Err ValueError /\
  snd (kmc_control 0%Z Z.leb ex_fname w (Detach "nothing")) = Err ValueError /\
  dkeys (p_attached (w_plan (ex_acts (ex_setup ++ [Control (Detach "zero")])))) = ["one"%string] /\
  snd (kmc_control 0%Z Z.leb ex_fname w (SetEnabled "one" false)) = Ok tt.
Proof. by vm_compute. Qed.

(** C28 fails for a callback that detaches itself: the failure is a KeyError outside the
    error handling, not a CallbackExecutionError, and no handler is asked. *)
Theorem failure_is_always_callback_error_refuted :
  exists (call : nat -> unit -> Z -> Z -> list (control Z) * result Z) w g x g' p',
    reachable 0%Z Z.sub Z.leb ex_fname call ex_handle ex_transport w /\
    w_active w = Some g /\
    (forall cb st step t, exists v, snd (call cb st step t) = Ok v) /\
    sample_properties 0%Z Z.sub Z.leb ex_fname call ex_handle ex_transport (w_plan w) g tt tt 1%Z 1%Z
      = ((p', g'), Err x) /\ x <> CallbackExecutionError.
Proof.
  set (call := fun (cb : nat) (st : unit) (step t : Z) => ([@Detach Z "self"%string], Ok 1%Z)).
  eexists call, (acts 0%Z Z.sub Z.leb ex_fname call ex_handle ex_transport new_world
           [Control (DoAttach (ex_args 3 (Some (IntArg 1)) None None (Some 0))); StartRun 3]).
  eexists _, KeyError, _, _.
  split; [by eexists|]. split; [by vm_compute|]. split; [by eexists|].
  split; [by vm_compute|done].
Qed.

(** A callback detached by an earlier callback of the same sampling point is still called
    at that point. *)
Theorem detached_callback_not_called_refuted :
  exists (call : nat -> unit -> Z -> Z -> list (control Z) * result Z) w g g' p' o r,
    reachable 0%Z Z.sub Z.leb ex_fname call ex_handle ex_transport w /\
    w_active w = Some g /\
    sample_properties 0%Z Z.sub Z.leb ex_fname call ex_handle ex_transport (w_plan w) g tt tt 1%Z 1%Z
      = ((p', g'), r) /\
    ("zero"%string, o) ∈ g_props g /\ "zero"%string ∉ dkeys (g_props g') /\
    calls_of g' o = [(1, 1)]%Z.
Proof.
  set (call := fun (cb : nat) (st : unit) (step t : Z) =>
     (if Nat.eqb cb 1 then [@Detach Z "zero"%string] else [], @Ok Z 1%Z)).
  eexists call, (acts 0%Z Z.sub Z.leb ex_fname call ex_handle ex_transport new_world
           [Control (DoAttach (ex_args 1 (Some (IntArg 1)) None None None));
            Control (DoAttach (ex_args 0 (Some (IntArg 1)) None None None)); StartRun 3]).
  eexists _, _, _, 1, _.
  split; [by eexists|]. split; [by vm_compute|]. split; [by vm_compute|].
  split; [|split; [|by vm_compute]].
  - vm_compute. right. left.
  - apply (bool_decide_unpack _). by vm_compute.
Qed.

(** The global schedule of the plan and of the active tracker can differ: clearing the
    frequency stops sampling in the running tracker, while a new run of the same plan
    samples once per pass. *)
Theorem schedules_agree_refuted :
  exists w g g',
    reachable 0%Z Z.sub Z.leb ex_fname ex_call ex_handle ex_transport w /\
    w_active w = Some g /\ g_interval g = None /\ g_time g = None /\
    tracker_for_run 0%Z Z.leb ex_fname (w_plan w) 3 = Ok (g' : sampling Z Z) /\
    g_interval g' = Some 3%Z.
Proof.
  eexists (ex_acts [StartRun 3; Control (SetFrequency None None)]), _, _.
  split; [by eexists|]. by vm_compute.
Qed.

Print Assumptions property_schedule_exact.
Print Assumptions time_samples_spaced.
Print Assumptions stored_records_most_recent.
Print Assumptions results_rectangular.
Print Assumptions result_row_exact.
Print Assumptions result_rows_exact.
Print Assumptions attachments_consistent.
Print Assumptions rejected_call_changes_nothing.
Print Assumptions attach_accepted_iff.
Print Assumptions attach_effect.
Print Assumptions control_effects.
Print Assumptions failing_callbacks_contained.
Print Assumptions runs_start_fresh.
Print Assumptions failure_is_always_callback_error_refuted.
Print Assumptions detached_callback_not_called_refuted.
Print Assumptions schedules_agree_refuted.
