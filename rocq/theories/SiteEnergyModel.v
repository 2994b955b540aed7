(** Model of kmcpy/models/site_energy.py: the external occupation cache of
    [SiteEnergyModel], its translation tables, [compute] and [apply_event]. *)
From Coq Require Import Reals QArith Qround.
From Verif Require Import Py Json ActiveSiteModel EventModel StateModel.
Local Open Scope nat_scope.

(** Values of the external occupation: integers, finite floats, text. *)
Inductive ext_value := EInt (z : Z) | EFloat (q : Q) | EStr (s : string).

(** Python's [==]: an integer equals a float of the same value. *)
Definition ext_eqb (a b : ext_value) : bool :=
  match a, b with
  | EInt x, EInt y => (x =? y)%Z
  | EInt x, EFloat q => Qeq_bool (inject_Z x) q
  | EFloat q, EInt y => Qeq_bool q (inject_Z y)
  | EFloat p, EFloat q => Qeq_bool p q
  | EStr s, EStr t => String.eqb s t
  | _, _ => false
  end.

(** The numpy element types that occur; [DText n] is the fixed-width text type [<Un].
    Overflow of 64-bit integers and rounding are not modelled. *)
Inductive dtype := DInt | DFloat | DObject | DText (n : nat).

(** [float] to [int] conversion: toward zero. *)
Definition trunc (q : Q) : Z := if Qle_bool 0 q then Qfloor q else Qceiling q.

(** A one-dimensional array. *)
Record narray := NArray { a_dtype : dtype; a_values : list ext_value }.

(** Energy units, site_energy.py:22-25 and 564-572. *)
Inductive units := MeV | EV.
Definition unit_factor (u : units) : R := match u with MeV => 1%R | EV => 1000%R end.

(** The attributes set by [__init__] (lines 96-165) that matter for evaluation.  The
    mappings are the normalised ones; an active-site order is represented by its
    fingerprint and its number of active sites. *)
Record se_config := SeConfig {
  site_mapping : option (dict Z Z);
  state_mapping : option (dict Z ext_value);
  state_mapping_by_site : option (dict Z (dict Z ext_value));
  initial_array : option narray;
  external_size : option Z;
  external_fill : ext_value;
  external_dtype : option dtype;
  site_order : option (string * nat);
  site_order_hash : option string;
  energy_units : units;
}.

(** ** Mapping arguments, lines 590-624 *)
(** A mapping with keys of any JSON kind, or a sequence. *)
Inductive mapping_arg (A : Type) :=
  | ByKey (l : list (json * A))
  | BySequence (l : list A).
Arguments ByKey {A} l. Arguments BySequence {A} l.

Definition int_keys {A} (l : list (json * A)) : result (list (Z * A)) :=
  rmapM (fun kv => let* k := py_int (fst kv) in Ok (k, snd kv)) l.
Definition indexed {A} (l : list A) : list (Z * A) :=
  map (fun p => (Z.of_nat (fst p), snd p)) (enumerate l).

(** lines 590-597. *)
Definition normalize_site_mapping (a : option (mapping_arg json)) : result (option (dict Z Z)) :=
  match a with
  | None => Ok None
  | Some (ByKey l) =>
      let* ps := rmapM (fun kv => let* k := py_int (fst kv) in
                                  let* v := py_int (snd kv) in Ok (k, v)) l in
      Ok (Some (dof_pairs ps))
  | Some (BySequence l) =>
      let* vs := rmapM py_int l in Ok (Some (dof_pairs (indexed vs)))
  end.

(** lines 600-607. *)
Definition normalize_state_mapping (a : option (mapping_arg ext_value))
  : result (option (dict Z ext_value)) :=
  match a with
  | None => Ok None
  | Some (ByKey l) => let* ps := int_keys l in Ok (Some (dof_pairs ps))
  | Some (BySequence l) => Ok (Some (dof_pairs (indexed l)))
  end.

(** lines 610-624; [... or {}]. *)
Definition or_empty (o : option (dict Z ext_value)) : dict Z ext_value :=
  match o with Some d => d | None => [] end.
Definition normalize_by_site (a : option (mapping_arg (option (mapping_arg ext_value))))
  : result (option (dict Z (dict Z ext_value))) :=
  match a with
  | None => Ok None
  | Some (ByKey l) =>
      let* ps := rmapM (fun kv => let* k := py_int (fst kv) in
                                  let* m := normalize_state_mapping (snd kv) in
                                  Ok (k, or_empty m)) l in
      Ok (Some (dof_pairs ps))
  | Some (BySequence l) =>
      let given := List.filter (fun p => match snd p with Some _ => true | None => false end)
                     (indexed l) in
      let* ps := rmapM (fun p => let* m := normalize_state_mapping (snd p) in
                                 Ok (fst p, or_empty m)) given in
      Ok (Some (dof_pairs ps))
  end.

(** ** Lookup tables *)
Definition zmax (x : Z) (l : list Z) : Z := fold_left Z.max l x.
Definition zmin (x : Z) (l : list Z) : Z := fold_left Z.min l x.
Definition list_zmax (l : list Z) : option Z :=
  match l with [] => None | x :: l' => Some (zmax x l') end.

(** lines 668-696. *)
Definition build_site_lookup (c : se_config) (n_sites : nat) : result (list Z) :=
  let* lookup :=
    (match site_mapping c with
     | None => Ok (map Z.of_nat (seq 0 n_sites))
     | Some m => rmapM (fun i => match dget m (Z.of_nat i) with
                                 | Some p => Ok p
                                 | None => Err ValueError
                                 end) (seq 0 n_sites)
     end) in
  if existsb (fun p => (p <? 0)%Z) lookup then Err ValueError
  else
    let upper_bound :=
      match initial_array c with
      | Some a => Some (Z.of_nat (length (a_values a)))
      | None => external_size c
      end in
    match upper_bound, list_zmax lookup with
    | Some ub, Some mx => if (ub <=? mx)%Z then Err ValueError else Ok lookup
    | _, _ => Ok lookup
    end.

(** lines 699-709. *)
Definition external_length (c : se_config) (lookup : list Z) (fallback : nat) : Z :=
  match external_size c with
  | Some s => s
  | None => match list_zmax lookup with
            | None => Z.of_nat fallback
            | Some mx => (mx + 1)%Z
            end
  end.

(** lines 49-54 and 712-726: a dense array with an offset; [None] is the missing
    marker. *)
Record state_lookup := StateLookup { sl_values : list (option ext_value); sl_offset : Z }.
Definition build_state_lookup (m : option (dict Z ext_value)) : option state_lookup :=
  match m with
  | None => None
  | Some [] => Some (StateLookup [] 0%Z)
  | Some ((kv :: rest) as d) =>
      let lo := zmin (fst kv) (map fst rest) in
      let hi := zmax (fst kv) (map fst rest) in
      Some (StateLookup
              (fold_left (fun vs p => <[Z.to_nat (fst p - lo) := Some (snd p)]> vs) d
                 (replicate (Z.to_nat (hi - lo + 1)) None))
              lo)
  end.

(** lines 729-742. *)
Definition build_by_site (c : se_config) (n_sites : nat) (global : option state_lookup)
  : option (list (option state_lookup)) :=
  match state_mapping_by_site c with
  | None => None
  | Some d =>
      Some (map (fun i => match dget d (Z.of_nat i) with
                          | Some m => build_state_lookup (Some m)
                          | None => global
                          end) (seq 0 n_sites))
  end.

(** lines 769-787. *)
Definition state_lookup_value (sl : state_lookup) (s : Z) : result ext_value :=
  let i := (s - sl_offset sl)%Z in
  if ((i <? 0) || (Z.of_nat (length (sl_values sl)) <=? i))%Z then Err ValueError
  else match sl_values sl !! Z.to_nat i with
       | Some (Some v) => Ok v
       | _ => Err ValueError
       end.

(** lines 745-766. *)
Definition external_value (global : option state_lookup)
    (by_site : option (list (option state_lookup))) (site s : Z) : result ext_value :=
  let* lookup :=
    (match by_site with
     | None => Ok global
     | Some l => match py_get l site with Ok x => Ok x | Err _ => Err ValueError end
     end) in
  match lookup with
  | None => Ok (EInt s)
  | Some sl => state_lookup_value sl s
  end.

(** lines 790-808. *)
Definition is_int (v : ext_value) : bool := match v with EInt _ => true | _ => false end.
Definition is_number (v : ext_value) : bool :=
  match v with EInt _ | EFloat _ => true | EStr _ => false end.
Definition resolve_dtype (c : se_config) (values : list ext_value) : dtype :=
  match external_dtype c with
  | Some d => d
  | None =>
      match initial_array c with
      | Some a => a_dtype a
      | None =>
          match values with
          | [] => if is_int (external_fill c) then DInt else DObject
          | _ => if forallb is_int values then DInt
                 else if forallb is_number values then DFloat
                 else DObject
          end
      end
  end.

(** One local occupation change, lines 29-46. *)
Record change := Change {
  ch_site : Z; ch_external : Z;
  ch_old_state : Z; ch_new_state : Z;
  ch_old : ext_value; ch_new : ext_value;
}.

(** The translation tables built by [initialize_state]. *)
Record tables := Tables {
  t_lookup : list Z;
  t_states : option state_lookup;
  t_by_site : option (list (option state_lookup));
}.

(** lines 296-299 and 331-351. *)
Definition one_change (t : tables) (x : Z * Z * Z) : result (option change) :=
  let '(site, old_state, new_state) := x in
  let* p := py_get (t_lookup t) site in
  let* old := external_value (t_states t) (t_by_site t) site old_state in
  let* new := external_value (t_states t) (t_by_site t) site new_state in
  Ok (if ext_eqb old new then None
      else Some (Change site p old_state new_state old new)).
Definition mapped_changes (t : tables) (l : list (Z * Z * Z)) : result (list change) :=
  let* cs := rmapM (one_change t) l in Ok (omap (fun o => o) cs).

(** lines 309-318: [occ] is the state before the hop. *)
Definition changes_from_pre_state (t : tables) (e : event) (occ : list Z)
  : result (list change) :=
  let* ft := unpack2 (mobile_ion_indices e) in
  let* x := py_get occ (fst ft) in
  let* y := py_get occ (snd ft) in
  mapped_changes t [(fst ft, x, y); (snd ft, y, x)].

(** lines 320-329: [occ] is the state after the hop. *)
Definition changes_from_post_state (t : tables) (e : event) (occ : list Z)
  : result (list change) :=
  let* ft := unpack2 (mobile_ion_indices e) in
  let* x := py_get occ (fst ft) in
  let* y := py_get occ (snd ft) in
  mapped_changes t [(fst ft, y, x); (snd ft, x, y)].

(** lines 238-261: the order given by the simulation must be the one the model was
    built for. *)
Definition with_order (c : se_config) (h : string) (n : nat) : se_config :=
  SeConfig (site_mapping c) (state_mapping c) (state_mapping_by_site c) (initial_array c)
    (external_size c) (external_fill c) (external_dtype c) (Some (h, n)) (Some h)
    (energy_units c).
Definition set_site_order (c : se_config) (given : option (string * nat)) : result se_config :=
  match given with
  | None => Ok c
  | Some (h, n) =>
      match site_order_hash c with
      | Some h' => if String.eqb h h' then Ok (with_order c h n) else Err ValueError
      | None => Ok (with_order c h n)
      end
  end.
Definition validate_site_order (c : se_config) (n : nat) : result unit :=
  match site_order c with
  | None => Ok tt
  | Some (_, k) => if Nat.eqb k n then Ok tt else Err ValueError
  end.

(** lines 353-364. *)
Definition validate_event (t : tables) (occ : list Z) (e : event) : result unit :=
  match changes_from_pre_state t e occ with
  | Ok _ => Ok tt
  | Err IndexError | Err KeyError | Err ValueError => Err ValueError
  | Err x => Err x
  end.

Section SiteEnergy.
  (** numpy's conversions between text and numbers. *)
  Variable text : ext_value -> string.
  Variable parse_int : string -> option Z.
  Variable parse_float : string -> option Q.

  (** What assigning a value to an array element stores. *)
  Definition cast (d : dtype) (v : ext_value) : result ext_value :=
    match d, v with
    | DObject, _ => Ok v
    | DInt, EInt z => Ok (EInt z)
    | DInt, EFloat q => Ok (EInt (trunc q))
    | DInt, EStr s => match parse_int s with Some z => Ok (EInt z) | None => Err ValueError end
    | DFloat, EInt z => Ok (EFloat (inject_Z z))
    | DFloat, EFloat q => Ok (EFloat q)
    | DFloat, EStr s => match parse_float s with Some q => Ok (EFloat q) | None => Err ValueError end
    | DText n, _ => Ok (EStr (String.substring 0 n (text v)))
    end.

  (** The external evaluator object and the user's functions.  Simplifications: the
      functions do not modify the external occupation or the simulation state, and
      [compute_fn] does not change the evaluator. *)
  Context {Rt : Type}.
  Variable resolve_runtime : result Rt.
  Variable compute_fn : Rt -> list ext_value -> list change -> event -> list Z -> result R.
  Variable apply_fn : option (Rt -> list ext_value -> list change -> event -> list Z -> result Rt).

  (** What [initialize_state] caches: the tables, the external occupation and the
      evaluator. *)
  Record cache := Cache {
    sc_tables : tables;
    sc_dtype : dtype;
    sc_external : list ext_value;
    sc_runtime : Rt;
  }.

  (** [array[i] = value]. *)
  Definition store (d : dtype) (a : list ext_value) (i : Z) (v : ext_value)
    : result (list ext_value) :=
    let* w := cast d v in py_set a i w.

  (** lines 267-294. *)
  Definition build_external (c : se_config) (t : tables) (occ : list Z)
    : result (dtype * list ext_value) :=
    let* values := rmapM (fun p => external_value (t_states t) (t_by_site t)
                                     (Z.of_nat (fst p)) (snd p))
                     (enumerate occ) in
    let d := resolve_dtype c values in
    let* start :=
      (match initial_array c with
       | Some a => rmapM (cast d) (a_values a)
       | None =>
           let n := external_length c (t_lookup t) (length occ) in
           if (n <? 0)%Z then Err ValueError
           else let* w := cast d (external_fill c) in Ok (replicate (Z.to_nat n) w)
       end) in
    let* a := rfold (fun a p => let* i := py_get (t_lookup t) (Z.of_nat (fst p)) in
                                store d a i (snd p))
                start (enumerate values) in
    Ok (d, a).

  (** lines 209-236. *)
  Definition initialize_state (c : se_config) (given : option (string * nat))
      (occ : list Z) (lib : event_lib) : result cache :=
    let* c := set_site_order c given in
    let* _ := validate_site_order c (length occ) in
    let* lookup := build_site_lookup c (length occ) in
    let global := build_state_lookup (state_mapping c) in
    let t := Tables lookup global (build_by_site c (length occ) global) in
    let* da := build_external c t occ in
    let* _ := rmapM (validate_event t occ) (events lib) in
    let* rt := resolve_runtime in
    Ok (Cache t (fst da) (snd da) rt).

  (** lines 366-384, in meV.  After [initialize_state] the tables exist
      ([_ensure_initialized] does nothing). *)
  Definition se_compute (c : se_config) (m : cache) (occ : list Z) (e : event) : result R :=
    let* changes := changes_from_pre_state (sc_tables m) e occ in
    match changes with
    | [] => Ok 0%R
    | _ => let* raw := compute_fn (sc_runtime m) (sc_external m) changes e occ in
           Ok (raw * unit_factor (energy_units c))%R
    end.

  (** lines 386-405; [occ] is the state after the hop. *)
  Definition se_apply (m : cache) (e : event) (occ : list Z) : result cache :=
    let* changes := changes_from_post_state (sc_tables m) e occ in
    match changes with
    | [] => Ok m
    | _ =>
        let* rt := (match apply_fn with
                    | None => Ok (sc_runtime m)
                    | Some f => f (sc_runtime m) (sc_external m) changes e occ
                    end) in
        let* a := rfold (fun a ch => store (sc_dtype m) a (ch_external ch) (ch_new ch))
                    (sc_external m) changes in
        Ok (Cache (sc_tables m) (sc_dtype m) a rt)
    end.
End SiteEnergy.
Arguments cache : clear implicits.
