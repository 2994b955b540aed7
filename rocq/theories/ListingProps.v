(** C106: the list of calculations and the values sampled last. *)
From Verif Require Import Py PyLemmas PropertyModel PropertySpec PropertyProofs PropertyProps
  ListingModel ListingSpec ListingProofs.
Local Open Scope nat_scope.

Section ListingProps.
  Context {T : Type}.
  Variable zero : T.
  Variable sub : T -> T -> T.
  Variable leb : T -> T -> bool.
  Variable fname : nat -> option string.
  Context {V St Obs : Type}.
  Variable call : nat -> St -> Z -> T -> list (control T) * result V.
  Variable handle : nat -> exn -> St -> Z -> T -> result bool.
  Variable transport : Obs -> T -> string -> option V.
  Notation reachable := (reachable zero sub leb fname call handle transport).
  Notation sample_properties := (sample_properties zero sub leb fname call handle transport).
  Notation sample_points := (sample_points zero sub leb fname call handle transport).
  Notation kmc_control := (kmc_control zero leb fname).

  (** C106.  After any history, every built-in field and every attached property is listed
      exactly once, as calculated or as not calculated. *)
  Theorem everything_is_listed_once (w : world T V) :
    reachable w ->
    let l := plan_listing (w_plan w) in
    (built_in_enabled l ++ built_in_disabled l ≡ₚ builtin_fields) /\
    (attached_enabled l ++ attached_disabled l ≡ₚ dkeys (p_attached (w_plan w))) /\
    NoDup (built_in_enabled l ++ built_in_disabled l ++ attached_enabled l ++ attached_disabled l).
  Proof. exact (listing_partition_lemma zero sub leb fname call handle transport w). Qed.

  (** C106.  The simulation and the tracker of its current run list the same. *)
  Theorem tracker_lists_the_same (w : world T V) g :
    reachable w -> w_active w = Some g -> tracker_listing g = Ok (plan_listing (w_plan w)).
  Proof. exact (tracker_listing_lemma zero sub leb fname call handle transport w g). Qed.

  (** C106.  An accepted [set_property_enabled] moves that name to the list asked for and
      no other name. *)
  Theorem enabling_moves_one_name (w : world T V) name b w' :
    reachable w -> kmc_control w (SetEnabled name b) = (w', Ok tt) ->
    listed (plan_listing (w_plan w')) name b /\
    forall n f, n <> name ->
      (listed (plan_listing (w_plan w')) n f <-> listed (plan_listing (w_plan w)) n f).
  Proof. exact (enabling_lemma zero sub leb fname call handle transport w name b w'). Qed.

  (** C106.  What is listed is what the run does: over any sampling points, the attached
      properties listed as enabled are called at their due points and those listed as
      disabled never, and each new row has the computed value of the built-in fields listed
      as enabled and NaN for those listed as disabled. *)
  Theorem listing_tells_sampling (w : world T V) g pts p' g' :
    reachable w -> w_active w = Some g -> quiet_attachments call g ->
    sample_points (w_plan w) g pts = ((p', g'), Ok tt) ->
    let l := plan_listing (w_plan w) in
    (forall name, name ∈ attached_enabled l -> exists o s out, attached g name o s /\
       sampled sub leb (own_or_global (s_interval s) (g_interval g))
         (own_or_global (s_time_interval s) (g_time g)) (s_last_time s) (callback_points pts) out /\
       calls_of g' o = calls_of g o ++ map (fun x => (x.1.2, x.2)) out) /\
    (forall name, name ∈ attached_disabled l ->
       exists o s, attached g name o s /\ calls_of g' o = calls_of g o) /\
    exists rows,
      sampled sub leb (g_interval g) (g_time g) (g_last_summary g) (summary_points pts) rows /\
      (forall name, name ∈ built_in_enabled l ->
         column (g_results g') name =
         column (g_results g) name ++ map (fun x => transport x.1.1 x.2 name) rows) /\
      (forall name, name ∈ built_in_disabled l ->
         column (g_results g') name = column (g_results g) name ++ map (fun _ => None) rows).
  Proof. exact (listing_lemma zero sub leb fname call handle transport w g pts p' g'). Qed.

  (** C106.  The current values can be read as soon as there is a row, and only then; right
      after a row is added they are the values of that row, whatever the callbacks do. *)
  Theorem current_info_is_last_row (w : world T V) g :
    reachable w -> w_active w = Some g ->
    (c_time (g_results g) = [] -> current_info g = Err ValueError) /\
    (c_time (g_results g) <> [] -> exists v, current_info g = Ok v) /\
    forall o st step t p' g' r,
      sample_properties (w_plan w) g o st step t = ((p', g'), r) ->
      due sub leb (g_interval g) (g_time g) (g_last_summary g) step t ->
      current_info g' =
        Ok (t, field_value transport (g_builtin g) o t "msd",
            field_value transport (g_builtin g) o t "jump_diffusivity",
            field_value transport (g_builtin g) o t "tracer_diffusivity",
            field_value transport (g_builtin g) o t "conductivity",
            field_value transport (g_builtin g) o t "havens_ratio",
            field_value transport (g_builtin g) o t "correlation_factor").
  Proof. exact (current_lemma zero sub leb fname call handle transport w g). Qed.
End ListingProps.
Print Assumptions everything_is_listed_once.
Print Assumptions tracker_lists_the_same.
Print Assumptions enabling_moves_one_name.
Print Assumptions listing_tells_sampling.
Print Assumptions current_info_is_last_row.

(** The setting of PropertyProps.v: "msd" switched off, two callbacks, a run started, one of
    the callbacks switched off, six points. *)
Definition li_setup : list (action Z unit unit) := ex_setup ++ [Control (SetEnabled "one" false)].
Example listing_example :
  let w := ex_acts li_setup in
  plan_listing (w_plan w) =
    Listing ["jump_diffusivity"; "tracer_diffusivity"; "conductivity"; "havens_ratio";
             "correlation_factor"] ["msd"] ["zero"] ["one"]%string /\
  match w_active w with
  | None => False
  | Some g =>
      quiet_attachments ex_call g /\ current_info g = Err ValueError /\
      exists p' g',
        sample_points 0%Z Z.sub Z.leb ex_fname ex_call ex_handle ex_transport (w_plan w) g ex_points
          = ((p', g'), Ok tt) /\
        current_info g' = Ok (20%Z, None, Some 20%Z, Some 20%Z, Some 20%Z, Some 20%Z, Some 20%Z) /\
        latest_value g' "zero" = Some 6%Z /\ latest_value g' "one" = None
  end.
Proof.
  vm_compute. split; [done|]. split; [|split; [done|by eexists _, _]].
  intros name o s [_ Hs] st step t. vm_compute in Hs.
  destruct o as [|[|o]]; [injection Hs as <-; done..|done].
Qed.
