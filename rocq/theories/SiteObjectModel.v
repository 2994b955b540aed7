(** A site-energy model object through any sequence of calls, with what a call that raises
    has already changed (site_energy.py:181-405).  The functions of SiteEnergyModel.v are
    used for the single assignments; here their order and their failures count. *)
From Coq Require Import Reals QArith.
From Verif Require Import Py ActiveSiteModel EventModel SiteEnergyModel.
Local Open Scope nat_scope.

Section SiteObject.
  Variable text : ext_value -> string.
  Variable parse_int : string -> option Z.
  Variable parse_float : string -> option Q.
  Context {Rt : Type}.
  (** What [runtime_ref] makes, or the fixed value when no reference is given. *)
  Variable make_runtime : result Rt.
  Variable compute_fn : Rt -> list ext_value -> list change -> event -> list Z -> result R.
  Variable apply_fn : option (Rt -> list ext_value -> list change -> event -> list Z -> result Rt).

  (** The attributes set by lines 139-166 that later calls change: the bound order (in
      [o_config]), the tables, the external occupation, the evaluator; [None] as in the
      code. *)
  Record object := Object {
    o_config : se_config;
    o_lookup : option (list Z);
    o_states : option state_lookup;
    o_by_site : option (list (option state_lookup));
    o_external : option (dtype * list ext_value);
    o_runtime : option Rt;
  }.

  (** lines 139-166. *)
  Definition new_object (c : se_config) (rt : option Rt) : object :=
    Object c None None None None rt.

  (** lines 181-186. *)
  Definition o_resolve (o : object) : object * result Rt :=
    match o_runtime o with
    | Some rt => (o, Ok rt)
    | None =>
        match make_runtime with
        | Ok rt => (Object (o_config o) (o_lookup o) (o_states o) (o_by_site o) (o_external o)
                      (Some rt), Ok rt)
        | Err x => (o, Err x)
        end
    end.

  (** lines 209-236, assignment by assignment; [None] for the events: no event library is
      given, lines 354-356. *)
  Definition o_initialize (o : object) (given : option (string * nat)) (occ : list Z)
      (lib : option (list event)) : object * result unit :=
    match set_site_order (o_config o) given with
    | Err x => (o, Err x)
    | Ok c =>
        let o := Object c (o_lookup o) (o_states o) (o_by_site o) (o_external o) (o_runtime o) in
        match validate_site_order c (length occ) with
        | Err x => (o, Err x)
        | Ok _ =>
            match build_site_lookup c (length occ) with
            | Err x => (o, Err x)
            | Ok l =>
                let g := build_state_lookup (state_mapping c) in
                let b := build_by_site c (length occ) g in
                let o := Object c (Some l) g b (o_external o) (o_runtime o) in
                match build_external text parse_int parse_float c (Tables l g b) occ with
                | Err x => (o, Err x)
                | Ok da =>
                    let o := Object c (Some l) g b (Some da) (o_runtime o) in
                    match rmapM (validate_event (Tables l g b) occ) (default [] lib) with
                    | Err x => (o, Err x)
                    | Ok _ =>
                        let '(o, r) := o_resolve o in
                        (o, rbind r (fun _ => Ok tt))
                    end
                end
            end
        end
    end.

  (** lines 263-265, then the tables and the external occupation; the last two cases are
      the same test. *)
  Definition o_ensure (o : object) (occ : list Z)
    : object * result (tables * (dtype * list ext_value)) :=
    let '(o, r) :=
      match o_lookup o, o_external o with
      | Some _, Some _ => (o, Ok tt)
      | _, _ => o_initialize o None occ None
      end in
    match r with
    | Err x => (o, Err x)
    | Ok _ =>
        match o_lookup o, o_external o with
        | Some l, Some da => (o, Ok (Tables l (o_states o) (o_by_site o), da))
        | _, _ => (o, Err RuntimeError)
        end
    end.

  (** lines 366-384. *)
  Definition o_compute (o : object) (occ : list Z) (e : event) : object * result R :=
    let '(o, r) := o_ensure o occ in
    match r with
    | Err x => (o, Err x)
    | Ok (t, da) =>
        match changes_from_pre_state t e occ with
        | Err x => (o, Err x)
        | Ok [] => (o, Ok 0%R)
        | Ok changes =>
            let '(o, rt) := o_resolve o in
            (o, let* rt := rt in
                let* raw := compute_fn rt (snd da) changes e occ in
                Ok (raw * unit_factor (energy_units (o_config o)))%R)
        end
    end.

  (** The assignments of line 404-405 until one raises. *)
  Fixpoint stores (d : dtype) (a : list ext_value) (l : list change)
    : list ext_value * result unit :=
    match l with
    | [] => (a, Ok tt)
    | ch :: l =>
        match store text parse_int parse_float d a (ch_external ch) (ch_new ch) with
        | Err x => (a, Err x)
        | Ok a => stores d a l
        end
    end.

  (** lines 386-405.  Simplification: an [apply_fn] that raises leaves the evaluator as it
      was. *)
  Definition o_apply (o : object) (e : event) (occ : list Z) : object * result unit :=
    let '(o, r) := o_ensure o occ in
    match r with
    | Err x => (o, Err x)
    | Ok (t, da) =>
        match changes_from_post_state t e occ with
        | Err x => (o, Err x)
        | Ok [] => (o, Ok tt)
        | Ok changes =>
            let '(o, told) :=
              match apply_fn with
              | None => (o, Ok (o_runtime o))
              | Some f =>
                  let '(o, rt) := o_resolve o in
                  (o, let* rt := rt in let* rt := f rt (snd da) changes e occ in Ok (Some rt))
              end in
            match told with
            | Err x => (o, Err x)
            | Ok rt =>
                let '(a, r) := stores (fst da) (snd da) changes in
                (Object (o_config o) (o_lookup o) (o_states o) (o_by_site o)
                   (Some (fst da, a)) rt, r)
            end
        end
    end.

  (** The calls a caller can make, and the object after them; exceptions are caught. *)
  Inductive call :=
    | Initialize (given : option (string * nat)) (occ : list Z) (lib : option (list event))
    | Compute (occ : list Z) (e : event)
    | Apply (e : event) (occ : list Z).
  Definition o_call (o : object) (c : call) : object :=
    match c with
    | Initialize given occ lib => fst (o_initialize o given occ lib)
    | Compute occ e => fst (o_compute o occ e)
    | Apply e occ => fst (o_apply o e occ)
    end.
  Definition o_calls (o : object) (l : list call) : object := fold_left o_call l o.
End SiteObject.
Arguments object : clear implicits.
