(** C102, C103: what the trajectory of a run depends on. *)
From Coq Require Import QArith.
From Verif Require Import Py ActiveSiteModel EventModel StateModel HopModel KmcModel
  TrackerModel PropertyModel PropertySpec TransportModel RunModel RunProps
  TrajectoryModel TrajectorySpec TrajectoryProofs.
Local Open Scope nat_scope.

Section TrajectoryProps.
  Context {T : Type}.
  Variable zero : T.
  Variable add : T -> T -> T.
  Context {M : Type}.
  Variable model_apply : M -> event -> list Z -> result M.
  Variable compute_probability : M -> list Z -> event -> result T.
  Variable select : list T -> T -> T -> result (nat * T).
  (** Two sets of callbacks, error handlers, callback names and transport formulas. *)
  Variable sub sub2 : T -> T -> T.
  Variable leb leb2 : T -> T -> bool.
  Variable fname fname2 : nat -> option string.
  Context {V V2 : Type}.
  Variable call : nat -> state T -> Z -> T -> list (control T) * result V.
  Variable call2 : nat -> state T -> Z -> T -> list (control T) * result V2.
  Variable handle handle2 : nat -> exn -> state T -> Z -> T -> result bool.
  Variable transport : list vec * list nat -> T -> string -> option V.
  Variable transport2 : list vec * list nat -> T -> string -> option V2.
  Notation run := (run_simulation zero add sub leb model_apply compute_probability
    select fname call handle transport).
  Notation run2 := (run_simulation zero add sub2 leb2 model_apply compute_probability
    select fname2 call2 handle2 transport2).

  (** C102.  What is measured, how often, and what the callbacks do to the property
      settings does not touch the trajectory: two completed runs of the same object with
      the same random numbers end in the same engine state, clock included, with the same
      sites, displacements and hop counts of every ion. *)
  Theorem measuring_leaves_trajectory str mobile (w : world T V) (w2 : world T V2) eqp kp draws
      (k k1 k2 : kmc T M) t1 t2 :
    run str mobile w eqp kp draws k = Ok (k1, t1) ->
    run2 str mobile w2 eqp kp draws k = Ok (k2, t2) ->
    k1 = k2 /\ same_tables t1 t2.
  Proof.
    intros H1 H2.
    destruct (runs_agree _ _ _ _ _ _ _ _ _ _ _ _ _ _ _ _ _ _ _ _ _ _ _ _ _ _ _ _ _ _
      (same_refl k) H1 H2) as (_ & G2 & _ & G4). split; [by apply G4|exact G2].
  Qed.

  (** C102.  A run that completes with callbacks attached also completes, with the same
      result, on an object without them. *)
  Theorem unmeasured_run_completes str mobile (w : world T V) (w2 : world T V2) eqp kp draws
      (k k1 : kmc T M) t1 :
    reachable zero sub2 leb2 fname2 call2 handle2 transport2 w2 ->
    p_attached (w_plan w2) = [] ->
    run str mobile w eqp kp draws k = Ok (k1, t1) ->
    exists t2, run2 str mobile w2 eqp kp draws k = Ok (k1, t2) /\ same_tables t1 t2.
  Proof. exact (unmeasured_follows zero add model_apply compute_probability select sub leb
    fname call handle transport sub2 leb2 fname2 call2 handle2 transport2
    str mobile w w2 eqp kp draws k k1 t1). Qed.

  (** C102.  Equilibration passes move the ions exactly as production passes would: only
      the clock stays. *)
  Theorem equilibration_moves_as_production str mobile (w : world T V) (w2 : world T V2) eqp kp
      draws (k k1 k2 : kmc T M) t1 t2 :
    (0 <= eqp)%Z -> (0 <= kp)%Z ->
    run str mobile w eqp kp draws k = Ok (k1, t1) ->
    run2 str mobile w2 0 (eqp + kp) draws k = Ok (k2, t2) ->
    same_configuration k1 k2 /\ step (k_state k1) = step (k_state k2).
  Proof. exact (equilibration_agrees zero add model_apply compute_probability select sub leb
    fname call handle transport sub2 leb2 fname2 call2 handle2 transport2
    str mobile w w2 eqp kp draws k k1 k2 t1 t2). Qed.

  (** C102.  A longer run passes through the shorter one: the shorter run completes, its
      table and its callback calls are the beginning of those of the longer one. *)
  Theorem longer_run_extends_shorter str mobile (w : world T V) eqp kp n draws (k k' : kmc T M) t' :
    (0 <= kp)%Z -> (0 <= n)%Z ->
    run str mobile w eqp (kp + n) draws k = Ok (k', t') ->
    exists k1 t1 g1 g', run str mobile w eqp kp draws k = Ok (k1, t1) /\
      w_active (t_sampling t1) = Some g1 /\ w_active (t_sampling t') = Some g' /\
      table_prefix (g_results g1) (g_results g') /\
      g_calls g1 `prefix_of` g_calls g' /\
      step (k_state k') =
        (step (k_state k1) + n * Z.of_nat (pass_length (symbols str) mobile))%Z.
  Proof. exact (longer_lemma zero add sub leb model_apply compute_probability select
    fname call handle transport str mobile w eqp kp n draws k k' t'). Qed.

  Variable seeded : Z -> nat -> T * T.
  Notation run_call := (run_call zero add sub leb model_apply compute_probability
    select fname call handle transport seeded).
  Notation run_calls := (run_calls zero add sub leb model_apply compute_probability
    select fname call handle transport seeded).

  (** C103.  Without a seed, a call that goes on with the random numbers where the last
      one stopped continues the trajectory: two calls leave the engine, clock included,
      as one call of all the passes does, and the hops they count add up. *)
  Theorem two_calls_as_one str mobile eqp kp1 kp2 f (k : kmc T M) w w' oa ob oc ta tb tc :
    (0 <= kp1)%Z -> (0 <= kp2)%Z ->
    let pl := pass_length (symbols str) mobile in
    run_call str mobile eqp kp1 None f (k, w) = Ok (oa, ta) ->
    run_call str mobile 0 kp2 None
      (fun m => f (Z.to_nat eqp * pl + Z.to_nat kp1 * pl + m)) oa = Ok (ob, tb) ->
    run_call str mobile eqp (kp1 + kp2) None f (k, w') = Ok (oc, tc) ->
    fst ob = fst oc /\ total_hops tc = total_hops ta + total_hops tb.
  Proof. exact (joined_calls_lemma zero add sub leb model_apply compute_probability select
    fname call handle transport seeded str mobile eqp kp1 kp2 f k w w' oa ob oc ta tb tc). Qed.

  (** C103.  With a seed, calls that start from the same configuration give the same
      trajectory, at whatever time and step and with whatever is measured. *)
  Theorem seeded_calls_repeat str mobile eqp kp s f1 f2 (k1 k2 : kmc T M) w1 w2 o1 o2 t1 t2 :
    same_configuration k1 k2 ->
    run_call str mobile eqp kp (Some s) f1 (k1, w1) = Ok (o1, t1) ->
    run_call str mobile eqp kp (Some s) f2 (k2, w2) = Ok (o2, t2) ->
    same_configuration (fst o1) (fst o2) /\ same_tables t1 t2.
  Proof. exact (seeded_calls_lemma zero add sub leb model_apply compute_probability select
    fname call handle transport seeded str mobile eqp kp s f1 f2 k1 k2 w1 w2 o1 o2 t1 t2). Qed.

  (** C103.  If a seeded call ends in the configuration it started from, every further
      call, however many, repeats it: no new sample of the trajectory is drawn. *)
  Theorem seeded_calls_cycle str mobile eqp kp s fresh f0 (k : kmc T M) w k1 w1 t1 o ts :
    run_call str mobile eqp kp (Some s) f0 (k, w) = Ok ((k1, w1), t1) ->
    same_configuration k k1 ->
    run_calls str mobile eqp kp (Some s) fresh (k1, w1) = Ok (o, ts) ->
    same_configuration k (fst o) /\ Forall (same_tables t1) ts.
  Proof. exact (cycle_lemma zero add sub leb model_apply compute_probability select
    fname call handle transport seeded str mobile eqp kp s fresh f0 k w k1 w1 t1 o ts). Qed.
End TrajectoryProps.
Print Assumptions measuring_leaves_trajectory.
Print Assumptions unmeasured_run_completes.
Print Assumptions equilibration_moves_as_production.
Print Assumptions longer_run_extends_shorter.
Print Assumptions two_calls_as_one.
Print Assumptions seeded_calls_repeat.
Print Assumptions seeded_calls_cycle.

(** Three sites, one ion, a hop between the first two and one between the last two; the
    first random number is the index of the event. *)
Definition tj_str : structure :=
  Structure ["Na"; "Zr"; "Zr"]%string [Vec (1#10) 0 0; Vec (3#10) 0 0; Vec (5#10) 0 0]
    (Vec 10 0 0, Vec 0 10 0, Vec 0 0 10).
Definition tj_lib : event_lib :=
  match generate_event_dependencies
    (add_event (add_event empty_lib (Event [0; 1]%Z [])) (Event [1; 2]%Z [])) with
  | Ok l => l | Err _ => empty_lib end.
Definition tj_kmc : kmc Q unit :=
  Kmc tj_lib (Some (HopLookup [0; 0; 0]%Z [1; 1; 1]%Z)) (State [0; 1; 1]%Z 0%Q 0%Z) tt
    [1; 1]%Q [1; 2]%Q.
Definition tj_select (_ : list Q) (u dt : Q) : result (nat * Q) := Ok (Z.to_nat (Qnum u), dt).
(** Numbers that take the first event, then the second, then the first again, ... *)
Definition tj_draws (i : nat) : Q * Q := (if Nat.even i then 0 else 1, 2)%Q.
Definition tj_seeded (_ : Z) : nat -> Q * Q := tj_draws.
Definition tj_run (w : world Q Q) eqp kp (k : kmc Q unit) :=
  run_simulation 0%Q Qplus Qminus Qle_bool r_apply r_rate tj_select r_fname r_call r_handle
    r_transport tj_str "Na" w eqp kp tj_draws k.
Definition tj_call eqp kp seed fresh (o : kmc Q unit * world Q Q) :=
  run_call 0%Q Qplus Qminus Qle_bool r_apply r_rate tj_select r_fname r_call r_handle
    r_transport tj_seeded tj_str "Na" eqp kp seed fresh o.
Definition tj_calls eqp kp seed fresh (o : kmc Q unit * world Q Q) :=
  run_calls 0%Q Qplus Qminus Qle_bool r_apply r_rate tj_select r_fname r_call r_handle
    r_transport tj_seeded tj_str "Na" eqp kp seed fresh o.

(** The hypotheses hold for a run with a callback every two steps, a run without
    callbacks, and runs of more passes. *)
Example trajectory_example :
  exists k1 t1 t2 k3 t3 k4 t4 g1 g3,
    tj_run r_world 1 2 tj_kmc = Ok (k1, t1) /\ tj_run new_world 1 2 tj_kmc = Ok (k1, t2) /\
    tj_run new_world 0 3 tj_kmc = Ok (k3, t3) /\ tj_run r_world 1 3 tj_kmc = Ok (k4, t4) /\
    p_attached (w_plan (new_world : world Q Q)) = [] /\
    occupations (k_state k1) = [1; 1; 0]%Z /\ t_hops t1 = [1]%nat /\
    Qred (time (k_state k1)) = 4%Q /\ Qred (time (k_state k3)) = 6%Q /\
    w_active (t_sampling t1) = Some g1 /\ w_active (t_sampling t4) = Some g3 /\
    length (c_time (g_results g1)) = 2 /\ length (c_time (g_results g3)) = 3 /\
    length (g_calls g1) = 1 /\ length (g_calls g3) = 2.
Proof.
  do 9 eexists. do 4 (split; [vm_compute; reflexivity|]). split; [done|].
  repeat (split; [vm_compute; reflexivity|]). vm_compute; reflexivity.
Qed.

(** Without a seed and with the numbers continued: both hops are made. *)
Example calls_example :
  exists oa ob oc ta tb tc,
    tj_call 0 1 None tj_draws (tj_kmc, new_world) = Ok (oa, ta) /\
    tj_call 0 1 None (fun m => tj_draws (0 + 1 + m)) oa = Ok (ob, tb) /\
    tj_call 0 2 None tj_draws (tj_kmc, new_world) = Ok (oc, tc) /\
    occupations (k_state (fst ob)) = [1; 1; 0]%Z /\
    total_hops ta = 1 /\ total_hops tb = 1 /\ total_hops tc = 2.
Proof.
  do 6 eexists. repeat (split; [vm_compute; reflexivity|]). vm_compute; reflexivity.
Qed.

(** With a seed the generator starts again at every call: two calls of one pass are not
    one call of two passes.  Here the ion goes there and back instead of two sites on. *)
Theorem seeded_calls_continue_refuted :
  exists o1 ts o2 t2,
    tj_calls 0 1 (Some 1%Z) [tj_draws; tj_draws] (tj_kmc, new_world) = Ok (o1, ts) /\
    tj_call 0 2 (Some 1%Z) tj_draws (tj_kmc, new_world) = Ok (o2, t2) /\
    length ts = 2 /\ step (k_state (fst o1)) = step (k_state (fst o2)) /\
    occupations (k_state (fst o1)) = [0; 1; 1]%Z /\
    occupations (k_state (fst o2)) = [1; 1; 0]%Z.
Proof.
  do 4 eexists. repeat (split; [vm_compute; reflexivity|]). vm_compute; reflexivity.
Qed.
Print Assumptions seeded_calls_continue_refuted.

(** Two sites: after two hops the ion is back, and three further calls repeat the first. *)
Definition tj_calls2 eqp kp seed fresh (o : kmc Q unit * world Q Q) :=
  run_calls 0%Q Qplus Qminus Qle_bool r_apply r_rate r_select r_fname r_call r_handle
    r_transport tj_seeded r_str "Na" eqp kp seed fresh o.
Example cycle_example :
  exists o1 t1 o ts,
    tj_calls2 0 2 (Some 1%Z) [tj_draws] (r_kmc, r_world) = Ok (o1, [t1]) /\
    same_configuration r_kmc (fst o1) /\ t_hops t1 = [2]%nat /\
    tj_calls2 0 2 (Some 1%Z) [tj_draws; tj_draws; tj_draws] o1 = Ok (o, ts) /\
    length ts = 3 /\ Qred (time (k_state (fst o))) = 16%Q.
Proof.
  do 4 eexists. split; [vm_compute; reflexivity|].
  split; [by repeat split|]. repeat (split; [vm_compute; reflexivity|]). vm_compute; reflexivity.
Qed.
