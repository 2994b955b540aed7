(** C109: the report after a pass. *)
From Verif Require Import Py PyLemmas PropertyModel PropertySpec PropertyProofs PropertyProps
  ListingModel ListingSpec ReportModel ReportProofs.
Local Open Scope nat_scope.

Section ReportProps.
  Context {T : Type}.
  Variable zero : T.
  Variable sub : T -> T -> T.
  Variable leb : T -> T -> bool.
  Variable fname : nat -> option string.
  Context {V St Obs : Type}.
  Variable call : nat -> St -> Z -> T -> list (control T) * result V.
  Variable handle : nat -> exn -> St -> Z -> T -> result bool.
  Variable transport : Obs -> T -> string -> option V.
  Notation reachable := (reachable zero sub leb fname call handle transport).
  Notation sample_points := (sample_points zero sub leb fname call handle transport).

  (** C109.  After any history the report does not fail.  With no row in the result table it
      says so; otherwise it is the pass, the last row of the table field by field with the
      units of the fields, and one line per attached property in the order they were attached. *)
  Theorem report_is_the_last_row (w : world T V) g pass :
    reachable w -> w_active w = Some g ->
    (c_time (g_results g) = [] -> show_current_info pass g = Ok None) /\
    (c_time (g_results g) <> [] ->
     exists t m j d c h f,
       last (c_time (g_results g)) = Some t /\ last (c_msd (g_results g)) = Some m /\
       last (c_jump (g_results g)) = Some j /\ last (c_tracer (g_results g)) = Some d /\
       last (c_conductivity (g_results g)) = Some c /\ last (c_havens (g_results g)) = Some h /\
       last (c_correlation (g_results g)) = Some f /\
       show_current_info pass g = Ok (Some
         ([("pass", PassCell pass, ""); ("time", TimeCell t, "s");
           ("msd", ValueCell m, "Angstrom^2"); ("jump_diffusivity", ValueCell j, "cm^2/s");
           ("tracer_diffusivity", ValueCell d, "cm^2/s"); ("conductivity", ValueCell c, "mS/cm");
           ("havens_ratio", ValueCell h, "dimensionless");
           ("correlation_factor", ValueCell f, "dimensionless")]%string ++
          map (fun n => (n, ValueCell (latest_value g n), "user-defined"%string))
            (dkeys (p_attached (w_plan w)))))).
  Proof. exact (report_lemma zero sub leb fname call handle transport w g pass). Qed.

  (** C109.  In that report the line of an attached property shows the value of its last
      successful sample, whatever [max_records] is; a property that is disabled or does not
      store shows what it showed before the points; NaN if there is no such sample.  [l0] is
      the history before the points, as in C25 (empty for a fresh attachment). *)
  Theorem report_shows_last_sample (w : world T V) g pts p' g' name o s l0 l pass rows :
    reachable w -> w_active w = Some g -> quiet_attachments call g ->
    sample_points (w_plan w) g pts = ((p', g'), Ok tt) ->
    attached g name o s ->
    get_property_records g name = Ok l -> most_recent (s_max s) l0 l ->
    show_current_info pass g' = Ok (Some rows) ->
    exists out,
      sampled sub leb (own_or_global (s_interval s) (g_interval g))
        (own_or_global (s_time_interval s) (g_time g)) (s_last_time s)
        (callback_points pts) out /\
      forall c u, (name, c, u) ∈ drop 8 rows <->
        u = "user-defined"%string /\
        c = ValueCell (option_map r_value (last
              (if s_enabled s && s_store s
               then l0 ++ successes call name (s_callback s) out else l0))).
  Proof.
    exact (points_shown_lemma zero sub leb fname call handle transport
             w g pts p' g' name o s l0 l pass rows).
  Qed.
End ReportProps.

(** The setting of PropertyProps.v: "msd" switched off, two callbacks, the second failing at
    step 4 with a handler that goes on, six points. *)
Example report_example :
  let w := ex_acts ex_setup in
  match w_active w with
  | None => False
  | Some g =>
      quiet_attachments ex_call g /\ show_current_info 1 g = Ok None /\
      get_property_records g "zero" = Ok [] /\ most_recent (Some 2%Z) (@nil (record Z Z)) [] /\
      exists p' g',
        sample_points 0%Z Z.sub Z.leb ex_fname ex_call ex_handle ex_transport (w_plan w) g ex_points
          = ((p', g'), Ok tt) /\
        show_current_info 1 g' = Ok (Some
          [("pass", PassCell 1, ""); ("time", TimeCell 20%Z, "s");
           ("msd", ValueCell None, "Angstrom^2"); ("jump_diffusivity", ValueCell (Some 20%Z), "cm^2/s");
           ("tracer_diffusivity", ValueCell (Some 20%Z), "cm^2/s");
           ("conductivity", ValueCell (Some 20%Z), "mS/cm");
           ("havens_ratio", ValueCell (Some 20%Z), "dimensionless");
           ("correlation_factor", ValueCell (Some 20%Z), "dimensionless");
           ("zero", ValueCell (Some 6%Z), "user-defined");
           ("one", ValueCell (Some 7%Z), "user-defined")]%string)
  end.
Proof.
  vm_compute. split.
  { intros name o s [_ Hs] st step t. vm_compute in Hs.
    destruct o as [|[|o]]; [injection Hs as <-; done..|done]. }
  split; [done|]. split; [done|]. split; [by exists []|]. by eexists _, _.
Qed.

(** C109 fails for "every line of the report has its own name": "time" is not a reserved name,
    so a callback of that name gives a second line "time". *)
Definition named_time (cb : nat) : option string := Some "time"%string.
Theorem report_lines_have_distinct_names_refuted :
  exists (w : world Z Z) g rows,
    reachable 0%Z Z.sub Z.leb named_time ex_call ex_handle ex_transport w /\ w_active w = Some g /\
    show_current_info 1 g = Ok (Some rows) /\
    ("time", TimeCell 5%Z, "s")%string ∈ rows /\
    ("time", ValueCell (Some 3%Z), "user-defined")%string ∈ rows.
Proof.
  pose (w := acts 0%Z Z.sub Z.leb named_time ex_call ex_handle ex_transport new_world
    [Control (DoAttach (ex_args 0 None None None None)); StartRun 3; Sample tt tt 3%Z 5%Z]).
  exists w. eexists _, _. split; [by eexists|]. split; [by vm_compute|]. split; [by vm_compute|].
  split; [by do 1 right; left|by do 8 right; left].
Qed.
Print Assumptions report_is_the_last_row.
Print Assumptions report_shows_last_sample.
Print Assumptions report_lines_have_distinct_names_refuted.
