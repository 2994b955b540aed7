(** C50: what a whole run records.  [run_simulation] is [KMC.run] with an arbitrary rate
    model and selection; [w] is the property state of the KMC object after any public
    calls. *)
From Coq Require Import QArith.
From Verif Require Import Py ActiveSiteModel EventModel StateModel HopModel KmcModel
  KmcSpec KmcProofs TrackerModel PropertyModel PropertySpec PropertyProofs TransportModel
  TransportSpec RunModel RunProofs.
Local Open Scope nat_scope.

Section RunProps.
  Context {T : Type}.
  Variable zero : T.
  Variable add sub : T -> T -> T.
  Variable leb : T -> T -> bool.
  Context {M : Type}.
  Variable model_apply : M -> event -> list Z -> result M.
  Variable compute_probability : M -> list Z -> event -> result T.
  Variable select : list T -> T -> T -> result (nat * T).
  Variable fname : nat -> option string.
  Context {V : Type}.
  Variable call : nat -> state T -> Z -> T -> list (control T) * result V.
  Variable handle : nat -> exn -> state T -> Z -> T -> result bool.
  Variable transport : list vec * list nat -> T -> string -> option V.
  Notation reachable := (reachable zero sub leb fname call handle transport).
  Notation run_simulation := (run_simulation zero add sub leb model_apply compute_probability
    select fname call handle transport).
  Notation production := (production zero add sub leb model_apply compute_probability
    select fname call handle transport).
  Notation equilibrate := (equilibrate zero add model_apply compute_probability select).

  (** C50.  A completed run takes one sample after each production step, from the state
      and the tracker tables that a production of that many steps ends with; the step
      number counts equilibration too.  The table has exactly the due samples of the
      global schedule, and every enabled attachment is called at exactly its due
      samples. *)
  Theorem run_samples_every_step str mobile w eqp kp draws k k' tr' :
    reachable w ->
    (forall name s, (name, s) ∈ p_attached (w_plan w) -> quiet call (s_callback s)) ->
    run_simulation str mobile w eqp kp draws k = Ok (k', tr') ->
    let pl := pass_length (symbols str) mobile in
    let n_eq := Z.to_nat eqp * pl in
    exists k1 tr1 g0 g pts,
      equilibrate n_eq 0 draws k = Ok k1 /\
      tracker_for_run zero leb fname (w_plan w) pl = Ok g0 /\
      create str mobile (World (w_plan w) (Some g0)) (occupations (k_state k1)) (k_lookup k1)
        = Ok tr1 /\
      production str (Z.to_nat kp * pl) n_eq draws k1 tr1 = Ok (k', tr') /\
      w_active (t_sampling tr') = Some g /\ w_plan (t_sampling tr') = w_plan w /\
      length pts = Z.to_nat kp * pl /\
      (forall j o st s t, pts !! j = Some (o, st, s, t) ->
        exists kj trj, production str (S j) n_eq draws k1 tr1 = Ok (kj, trj) /\
          o = (t_displacement trj, t_hops trj) /\ st = k_state kj /\
          s = step (k_state kj) /\ t = time (k_state kj) /\
          s = (step (k_state k) + Z.of_nat (n_eq + S j))%Z) /\
      (exists out,
        sampled sub leb (g_interval g0) (g_time g0) None (summary_points pts) out /\
        more_rows (Results [] [] [] [] [] [] []) (g_results g) out
          (field_value transport (p_builtin (w_plan w)))) /\
      (forall name o s, attached g0 name o s -> s_enabled s = true ->
        exists out,
          sampled sub leb (own_or_global (s_interval s) (g_interval g0))
            (own_or_global (s_time_interval s) (g_time g0)) None
            (callback_points pts) out /\
          calls_of g o = map (fun x => (x.1.2, x.2)) out).
  Proof. apply run_exact_lemma. Qed.

  (** C50.  Without a user schedule, a run of any number of passes adds exactly one row
      per production pass, from any starting step (none if the structure holds no mobile
      ion). *)
  Theorem one_row_per_pass str mobile w eqp kp draws k k' tr' :
    reachable w ->
    p_interval (w_plan w) = None -> p_time (w_plan w) = None ->
    (forall name s, (name, s) ∈ p_attached (w_plan w) -> quiet call (s_callback s)) ->
    (0 <= step (k_state k))%Z ->
    run_simulation str mobile w eqp kp draws k = Ok (k', tr') ->
    exists g, w_active (t_sampling tr') = Some g /\
      length (c_time (g_results g)) =
        if bool_decide (pass_length (symbols str) mobile = 0) then 0 else Z.to_nat kp.
  Proof. apply one_row_per_pass_lemma. Qed.
End RunProps.
Print Assumptions run_samples_every_step.
Print Assumptions one_row_per_pass.

(** Two sites, one ion hopping between them, each hop 1/5 of a 10 A cell; every event is
    taken with the waiting time drawn. *)
Definition r_str : structure :=
  Structure ["Na"; "Zr"]%string [Vec (1#10) 0 0; Vec (3#10) 0 0]
    (Vec 10 0 0, Vec 0 10 0, Vec 0 0 10).
Definition r_lib : event_lib :=
  match generate_event_dependencies (add_event empty_lib (Event [0; 1]%Z [])) with
  | Ok l => l | Err _ => empty_lib end.
Definition r_kmc : kmc Q unit :=
  Kmc r_lib (Some (HopLookup [0; 0]%Z [1; 1]%Z)) (State [0; 1]%Z 0%Q 0%Z) tt [1%Q] [1%Q].
Definition r_rate (_ : unit) (_ : list Z) (_ : event) : result Q := Ok 1%Q.
Definition r_apply (m : unit) (_ : event) (_ : list Z) : result unit := Ok m.
Definition r_select (_ : list Q) (_ dt : Q) : result (nat * Q) := Ok (0, dt).
Definition r_params : transport_params := TransportParams 3 2 1000 1 300.
Definition r_call (cb : nat) (_ : state Q) (s : Z) (_ : Q) : list (control Q) * result Q :=
  ([], Ok (inject_Z s)).
Definition r_handle (_ : nat) (_ : exn) (_ : state Q) (_ : Z) (_ : Q) : result bool := Ok true.
Definition r_transport (o : list vec * list nat) (t : Q) (name : string) : option Q :=
  transport_value r_params (fst o) (snd o) t name.
Definition r_fname (_ : nat) : option string := Some "probe"%string.
Definition r_run (w : world Q Q) eqp kp (k : kmc Q unit) :=
  run_simulation 0%Q Qplus Qminus Qle_bool r_apply r_rate r_select r_fname r_call r_handle
    r_transport r_str "Na" w eqp kp (fun _ => (0%Q, 2%Q)) k.
Definition r_world : world Q Q :=
  acts 0%Q Qminus Qle_bool r_fname r_call r_handle r_transport new_world
    [Control (DoAttach (Attach (Func 0) (Some (IntArg 2)) None None true None None true))].

Example run_example :
  reachable 0%Q Qminus Qle_bool r_fname r_call r_handle r_transport r_world /\
  p_interval (w_plan r_world) = None /\ p_time (w_plan r_world) = None /\
  length (p_attached (w_plan r_world)) = 1 /\
  (forall name s, (name, s) ∈ p_attached (w_plan r_world) -> quiet r_call (s_callback s)) /\
  exists k' tr' g, r_run r_world 1 3 r_kmc = Ok (k', tr') /\
    w_active (t_sampling tr') = Some g /\
    map Qred (c_time (g_results g)) = [2; 4; 6]%Q /\
    map (fun c => c.1.2) (g_calls g) = [2; 4]%Z /\
    map (option_map Qred) (c_msd (g_results g)) = [Some 4; Some 0; Some 4]%Q.
Proof.
  split; [by eexists|]. do 3 (split; [reflexivity|]). split.
  { intros name s _ st stp t. done. }
  do 3 eexists. split; [vm_compute; reflexivity|]. split; [vm_compute; reflexivity|].
  split; [vm_compute; reflexivity|]. split; vm_compute; reflexivity.
Qed.

(** The diffusivity a run reports is not the displacement of that run over the time of
    that run: a second [run()] of the same object restarts the displacements but keeps
    the clock.  Here both runs last 2 time units with one hop of 2 A; the second reports
    half the tracer diffusivity of the first. *)
Theorem diffusivity_of_second_run_refuted :
  exists w k1 tr1 g1 d1 k2 tr2 g2 d2,
    r_run w 0 1 r_kmc = Ok (k1, tr1) /\ r_run (t_sampling tr1) 0 1 k1 = Ok (k2, tr2) /\
    (time (k_state k1) - time (k_state r_kmc) == time (k_state k2) - time (k_state k1))%Q /\
    map len2 (t_displacement tr1) = map len2 (t_displacement tr2) /\
    w_active (t_sampling tr1) = Some g1 /\ w_active (t_sampling tr2) = Some g2 /\
    c_tracer (g_results g1) = [Some d1] /\ c_tracer (g_results g2) = [Some d2] /\
    ~ (d1 == d2)%Q /\ (d1 == d2 * 2)%Q.
Proof.
  exists new_world. do 8 eexists.
  split; [vm_compute; reflexivity|]. split; [vm_compute; reflexivity|].
  split; [vm_compute; reflexivity|]. split; [vm_compute; reflexivity|].
  split; [vm_compute; reflexivity|]. split; [vm_compute; reflexivity|].
  split; [vm_compute; reflexivity|]. split; [vm_compute; reflexivity|].
  split; [by intros H; vm_compute in H|]. vm_compute; reflexivity.
Qed.
Print Assumptions diffusivity_of_second_run_refuted.
