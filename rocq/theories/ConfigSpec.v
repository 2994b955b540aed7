(** Vocabulary for the statements about configurations. *)
From Coq Require Import QArith Ascii.
From Verif Require Import Py Json ConfigModel.
Local Open Scope nat_scope.
Local Open Scope string_scope.

Definition field_names (s : section) : list string :=
  match s with Sys => system_field_names | Run => runtime_field_names end.

(** The value of a field: the given one, or that of the starting point. *)
Definition choose (given base : fields) (k : string) : option value :=
  match dget given k with Some v => Some v | None => dget base k end.

(* ------------------------------------------------------------------ *)
(** ** Valid values *)

Definition number_with (p : Q -> Prop) (v : value) : Prop := exists q, number v = Some q /\ p q.
Definition above_zero (v : value) : Prop := number_with (fun q => 0 < q)%Q v.
Definition not_negative (v : value) : Prop := number_with (fun q => 0 <= q)%Q v.
(** A whole number: an integer or a boolean. *)
Definition whole (v : value) : Prop := (exists z, v = V (JInt z)) \/ exists b, v = V (JBool b).
Definition no_value (v : value) : Prop := v = V JNull.
Definition valid_schedule (interval time : value) : Prop :=
  (no_value interval \/ whole interval /\ above_zero interval) /\ (no_value time \/ above_zero time).
(** Three entries: a list, a tuple, a text or a dictionary of length 3. *)
Definition three_entries (v : value) : Prop :=
  match v with
  | Tup l | V (JList l) => length l = 3
  | V (JStr s) => String.length s = 3
  | V (JObj l) => length l = 3
  | _ => False
  end.
Definition valid_toggles (v : value) : Prop :=
  exists l, v = V (JObj l) /\
    forall k j, (k, j) ∈ l -> k ∈ builtin_property_fields /\ exists b, j = JBool b.
(** A key of a callback specification, [None] when it is missing. *)
Definition key_or_none (l : list (string * json)) (k : string) : value :=
  V (match dget l k with Some j => j | None => JNull end).
Definition valid_callback (j : json) : Prop :=
  exists l, j = JObj l /\
    (forall k, k ∈ dkeys l -> k ∈ callback_keys) /\
    (exists s c, dget l "callable" = Some (JStr s) /\ c ∈ list_ascii_of_string s /\ is_blank c = false) /\
    valid_schedule (key_or_none l "interval") (key_or_none l "time_interval") /\
    (no_value (key_or_none l "max_records") \/
     whole (key_or_none l "max_records") /\ above_zero (key_or_none l "max_records")) /\
    (forall k, k = "store" \/ k = "enabled" -> forall x, dget l k = Some x -> exists b, x = JBool b).

(** Values, field by field. *)
Definition valid_system (f : string -> option value) : Prop :=
  (exists v, f "dimension" = Some v /\ number_with (fun q => q == 1 \/ q == 2 \/ q == 3)%Q v) /\
  (exists v, f "supercell_shape" = Some v /\ three_entries v).
Definition valid_runtime (f : string -> option value) : Prop :=
  (exists v, f "temperature" = Some v /\ above_zero v) /\
  (exists v, f "attempt_frequency" = Some v /\ above_zero v) /\
  (exists v, f "equilibration_passes" = Some v /\ not_negative v) /\
  (exists v, f "kmc_passes" = Some v /\ above_zero v) /\
  (exists i t, f "property_sampling_interval" = Some i /\ f "property_sampling_time_interval" = Some t /\
     valid_schedule i t) /\
  (exists v, f "builtin_property_enabled" = Some v /\ valid_toggles v) /\
  (exists l, f "property_callbacks" = Some (V (JList l)) /\ forall j, j ∈ l -> valid_callback j).
Definition valid_section (s : section) (f : string -> option value) : Prop :=
  match s with Sys => valid_system f | Run => valid_runtime f end.

(** A proper instance: its own fields, in order, with valid values. *)
Definition instance (s : section) (d : fields) : Prop :=
  dkeys d = field_names s /\ valid_section s (dget d).
Definition proper (c : configuration) : Prop :=
  exists s r, c = Configuration (Obj Sys s) (Obj Run r) /\ instance Sys s /\ instance Run r.

(** A starting point of a call: nothing, or a proper instance. *)
Definition start (s : section) (arg : option object) (base : fields) : Prop :=
  arg = None /\ base = defaults s \/ arg = Some (Obj s base) /\ instance s base.

(* ------------------------------------------------------------------ *)
(** ** Copies of a configuration *)

(** [c'] has the fields [f] of [c] changed as [f] says. *)
Definition changed (f : string -> value -> value) (c c' : configuration) : Prop :=
  exists s r, c = Configuration (Obj Sys s) (Obj Run r) /\
    c' = Configuration (Obj Sys (map (fun kv => (fst kv, f (fst kv) (snd kv))) s))
                       (Obj Run (map (fun kv => (fst kv, f (fst kv) (snd kv))) r)).

(** The entries of a list, tuple, text or dictionary, as a list. *)
Definition as_list (v : value) : value :=
  match v with
  | Tup l | V (JList l) => V (JList l)
  | V (JStr s) => V (JList (map (fun c => JStr (String c EmptyString)) (list_ascii_of_string s)))
  | V (JObj l) => V (JList (map (fun kv => JStr (fst kv)) l))
  | v => v
  end.
Definition shape_listed (k : string) (v : value) : value :=
  if String.eqb k "supercell_shape" then as_list v else v.
(** The file paths are forgotten. *)
Definition default_path (k : string) : value := if String.eqb k "initial_state_file" then V JNull else V (JStr "").
Definition is_path (k : string) : bool := bool_decide (k ∈ loader_field_names).
Definition recorded (paths : bool) (k : string) (v : value) : value :=
  if negb paths && is_path k then default_path k else shape_listed k v.
(** Written to a file, tuples become lists. *)
Definition written (paths : bool) (k : string) (v : value) : value := V (jsonify (recorded paths k v)).

(** No key of the file is the name of a field. *)
Definition no_field_names (l : list (string * json)) : Prop :=
  forall k, k ∈ dkeys l -> k ∉ system_field_names /\ k ∉ runtime_field_names.

(** The part of a file that is read: for a named section, what it contains, or, when it has an
    entry "type", the entry of the requested task or else of the task that "type" names; without
    a section name, the whole file if it has a field name or no section "kmc", else "kmc". *)
Definition section_part (file : list (string * json)) (name : string) (task : option string)
    (d : list (string * json)) : Prop :=
  exists l, dget file name = Some (JObj l) /\
    ((dget l "type" = None /\ d = l) \/
     exists ty t, dget l "type" = Some ty /\ (task = Some t \/ task = None /\ ty = JStr t) /\
       dget l t = Some (JObj d)).
Definition selected_part (file : list (string * json)) (name task : option string)
    (d : list (string * json)) : Prop :=
  match name with
  | Some s => section_part file s task d
  | None => (dget file "kmc" = None \/ ~ no_field_names file) /\ d = file \/
            no_field_names file /\ section_part file "kmc" task d
  end.
