(** The report logged after a pass (results.py:17-45; tracker.py:45-48, 371-376, 487-507;
    units.py:35-73; property.py:111-113).  The layout of the printed table is not modelled: a
    report is its rows. *)
From Verif Require Import Py PropertyModel ListingModel.
Local Open Scope nat_scope.

(** units.py:35-63; only the entries that are read below. *)
Definition unit_conventions : dict string string :=
  [("time", "s"); ("msd", "Angstrom^2"); ("jump_diffusivity", "cm^2/s");
   ("tracer_diffusivity", "cm^2/s"); ("conductivity", "mS/cm");
   ("havens_ratio", "dimensionless"); ("correlation_factor", "dimensionless")]%string.

(** units.py:65-73. *)
Definition transport_units : result (dict string string) :=
  rmapM (fun n => let* u := dgetitem unit_conventions n in Ok (n, u))
    ["time"; "msd"; "jump_diffusivity"; "tracer_diffusivity"; "conductivity"; "havens_ratio";
     "correlation_factor"]%string.

(** property.py:111-113. *)
Definition builtin_units : result (dict string string) :=
  let* units := transport_units in
  rmapM (fun n => let* u := dgetitem units n in Ok (n, u)) builtin_fields.

(** tracker.py:45-48, 207-209. *)
Definition result_units : result (dict string string) :=
  let* units := builtin_units in
  Ok (fold_left (fun d nu => dset d (fst nu) (snd nu)) units [("time", "s")%string]).

(** results.py:17-25. *)
Definition summary_fields : list string :=
  ["time"; "msd"; "jump_diffusivity"; "tracer_diffusivity"; "conductivity"; "havens_ratio";
   "correlation_factor"]%string.

Section Report.
  Context {T V : Type}.

  (** What a row shows. *)
  Inductive cell := PassCell (pass : Z) | TimeCell (t : T) | ValueCell (v : option V).
  Definition row : Type := string * cell * string.

  (** The result table as a dictionary of columns (tracker.py:35-43, 100). *)
  Definition result_columns (r : results T V) : dict string (list cell) :=
    [("time", map TimeCell (c_time r)); ("jump_diffusivity", map ValueCell (c_jump r));
     ("tracer_diffusivity", map ValueCell (c_tracer r));
     ("conductivity", map ValueCell (c_conductivity r));
     ("correlation_factor", map ValueCell (c_correlation r));
     ("havens_ratio", map ValueCell (c_havens r)); ("msd", map ValueCell (c_msd r))]%string.

  (** results.py:27-45. *)
  Definition format_tracker_summary (pass : Z) (columns : dict string (list cell))
      (units : dict string string) (attached_values : dict string cell) : result (list row) :=
    let* fields := rmapM (fun field =>
                      let* column := dgetitem columns field in
                      let* value := last_item column in
                      let* u := dgetitem units field in
                      Ok (field, value, u)) summary_fields in
    Ok ([("pass"%string, PassCell pass, ""%string)] ++ fields ++
        map (fun nv => (fst nv, snd nv, "user-defined"%string)) attached_values).

  (** tracker.py:487-507; [None] is the message that nothing was sampled. *)
  Definition show_current_info (pass : Z) (g : sampling T V) : result (option (list row)) :=
    match c_time (g_results g) with
    | [] => Ok None
    | _ =>
        let values := fold_left (fun d n => dset d n (ValueCell (latest_value g n)))
                        (dkeys (g_props g)) [] in
        let* units := result_units in
        let* rows := format_tracker_summary pass (result_columns (g_results g)) units values in
        Ok (Some rows)
    end.
End Report.
Arguments cell : clear implicits.
Arguments row : clear implicits.
