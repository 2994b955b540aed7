(** What a user can ask about the properties of a simulation: the list of calculations
    (property.py:155-178, 285-294; tracker.py:296-305; kmc.py:365-373) and the values sampled
    last (tracker.py:371-376, 492-512). *)
From Verif Require Import Py PropertyModel.
Local Open Scope nat_scope.

(** The dictionary returned by [list_property_calculations]. *)
Record listing := Listing {
  built_in_enabled : list string;
  built_in_disabled : list string;
  attached_enabled : list string;
  attached_disabled : list string;
}.

(** property.py:155-178; [attached] has the flag [enabled] of every attached property. *)
Definition describe (builtin : dict string bool) (attached : dict string bool) : listing :=
  let on n := match dget builtin n with Some b => b | None => true end in
  {| built_in_enabled := List.filter on builtin_fields;
     built_in_disabled := List.filter (fun n => negb (on n)) builtin_fields;
     attached_enabled := map fst (List.filter snd attached);
     attached_disabled := map fst (List.filter (fun nb => negb (snd nb)) attached) |}.

Section Listing.
  Context {T V : Type}.

  (** property.py:289-294, kmc.py:370-373. *)
  Definition plan_listing (p : plan T) : listing :=
    describe (p_builtin p) (map (fun ns => (fst ns, s_enabled (snd ns))) (p_attached p)).

  (** tracker.py:300-305. *)
  Definition tracker_listing (g : sampling T V) : result listing :=
    let* flags := rmapM (fun no => match g_objects g !! (snd no) with
                                   | Some s => Ok (fst no, s_enabled s)
                                   | None => Err RuntimeError (* not reachable *)
                                   end) (g_props g) in
    Ok (describe (g_builtin g) flags).

  (** [l[-1]]. *)
  Definition last_item {A} (l : list A) : result A :=
    match last l with Some x => Ok x | None => Err IndexError end.

  (** tracker.py:492-512. *)
  Definition current_info (g : sampling T V)
    : result (T * option V * option V * option V * option V * option V * option V) :=
    let r := g_results g in
    match c_time r with
    | [] => Err ValueError
    | _ =>
        let* t := last_item (c_time r) in
        let* m := last_item (c_msd r) in
        let* j := last_item (c_jump r) in
        let* d := last_item (c_tracer r) in
        let* c := last_item (c_conductivity r) in
        let* h := last_item (c_havens r) in
        let* f := last_item (c_correlation r) in
        Ok (t, m, j, d, c, h, f)
    end.

  (** tracker.py:371-376; [None] is NaN. *)
  Definition latest_value (g : sampling T V) (name : string) : option V :=
    match dget (g_records g) name with
    | None => None
    | Some l => match last l with None => None | Some r => Some (r_value r) end
    end.
End Listing.
