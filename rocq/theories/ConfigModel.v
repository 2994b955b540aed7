(** Model of kmcpy/simulator/config.py and of the configuration part of
    kmcpy/cli/run_kmc.py. *)
From Coq Require Import QArith Ascii.
From Verif Require Import Py Json.
Local Open Scope nat_scope.
Local Open Scope string_scope.

(** A field value: a JSON value, or a tuple of JSON values.  Other Python objects are not
    modelled. *)
Inductive value := V (j : json) | Tup (l : list json).
(** What [json.dump] and the YAML writer make of it. *)
Definition jsonify (v : value) : json := match v with V j => j | Tup l => JList l end.

(** lines 25-30. *)
Definition loader_field_names : list string :=
  ["structure_file"; "model_file"; "event_file"; "initial_state_file"].

(** lines 151-174: the fields of [SystemConfig] with their defaults; the names are those of
    lines 32-46. *)
Definition system_defaults : dict string value :=
  [("structure_file", V (JStr ""));
   ("supercell_shape", Tup [JInt 1; JInt 1; JInt 1]);
   ("dimension", V (JInt 3));
   ("mobile_ion_specie", V (JStr "Li"));
   ("mobile_ion_charge", V (JFloat 1));
   ("elementary_hop_distance", V (JFloat 1));
   ("model_type", V (JStr "composite_lce"));
   ("model_file", V (JStr ""));
   ("event_file", V (JStr ""));
   ("site_mapping", V JNull);
   ("convert_to_primitive_cell", V (JBool false));
   ("initial_state_file", V JNull);
   ("initial_occupations", V JNull)].

(** lines 211-227, with the names of lines 48-59. *)
Definition runtime_defaults : dict string value :=
  [("temperature", V (JFloat 300));
   ("attempt_frequency", V (JFloat 10000000000000));
   ("equilibration_passes", V (JInt 1000));
   ("kmc_passes", V (JInt 10000));
   ("random_seed", V JNull);
   ("name", V (JStr "DefaultSimulation"));
   ("property_sampling_interval", V JNull);
   ("property_sampling_time_interval", V JNull);
   ("builtin_property_enabled", V (JObj []));
   ("property_callbacks", V (JList []))].

(** lines 32-61. *)
Definition system_field_names : list string :=
  ["structure_file"; "supercell_shape"; "dimension"; "mobile_ion_specie"; "mobile_ion_charge";
   "elementary_hop_distance"; "model_type"; "model_file"; "event_file"; "site_mapping";
   "convert_to_primitive_cell"; "initial_state_file"; "initial_occupations"].
Definition runtime_field_names : list string :=
  ["temperature"; "attempt_frequency"; "equilibration_passes"; "kmc_passes"; "random_seed"; "name";
   "property_sampling_interval"; "property_sampling_time_interval"; "builtin_property_enabled";
   "property_callbacks"].
Definition is_system_field (k : string) : bool := bool_decide (k ∈ system_field_names).
Definition is_runtime_field (k : string) : bool := bool_decide (k ∈ runtime_field_names).

(* ------------------------------------------------------------------ *)
(** ** Python operations on field values *)

(** [x in [1, 2, 3]]: numbers are compared by value, booleans are numbers. *)
Definition number (v : value) : option Q :=
  match v with
  | V (JInt z) => Some (inject_Z z)
  | V (JFloat q) => Some q
  | V (JBool b) => Some (if b then 1%Q else 0%Q)
  | _ => None
  end.
Definition in_1_2_3 (v : value) : bool :=
  match number v with
  | Some q => Qeq_bool q 1 || Qeq_bool q 2 || Qeq_bool q 3
  | None => false
  end.

(** [len(x)], of ASCII text. *)
Definition py_len (v : value) : result nat :=
  match v with
  | Tup l | V (JList l) => Ok (length l)
  | V (JStr s) => Ok (String.length s)
  | V (JObj l) => Ok (length l)
  | _ => Err TypeError
  end.

(** [list(x)]. *)
Definition py_list_of (v : value) : result (list json) :=
  match v with
  | Tup l | V (JList l) => Ok l
  | V (JStr s) => Ok (map (fun c => JStr (String c EmptyString)) (list_ascii_of_string s))
  | V (JObj l) => Ok (map (fun kv => JStr (fst kv)) l)
  | _ => Err TypeError
  end.

(** [x <= 0] and [x < 0]. *)
Definition le_zero (v : value) : result bool :=
  match number v with Some q => Ok (Qle_bool q 0) | None => Err TypeError end.
Definition lt_zero (v : value) : result bool :=
  match number v with Some q => Ok (negb (Qle_bool 0 q)) | None => Err TypeError end.

(** property.py:48-57 (with [isinstance(x, int)], true of booleans). *)
Definition is_none (v : value) : bool := match v with V JNull => true | _ => false end.
Definition is_int (v : value) : bool := match v with V (JInt _) | V (JBool _) => true | _ => false end.
Definition check_schedule (interval time_interval : value) : result unit :=
  let* _ := (if is_none interval then Ok tt
             else if negb (is_int interval) then Err TypeError
             else let* b := le_zero interval in if b then Err ValueError else Ok tt) in
  if is_none time_interval then Ok tt
  else let* b := le_zero time_interval in if b then Err ValueError else Ok tt.

(** property.py:103-110. *)
Definition builtin_property_fields : list string :=
  ["msd"; "jump_diffusivity"; "tracer_diffusivity"; "conductivity"; "havens_ratio"; "correlation_factor"].

(** lines 128-141. *)
Definition validate_builtin_property_enabled (v : value) : result unit :=
  match v with
  | V (JObj l) =>
      rfold (fun _ (kv : string * json) =>
               if negb (bool_decide (fst kv ∈ builtin_property_fields)) then Err ValueError
               else match snd kv with JBool _ => Ok tt | _ => Err TypeError end) tt l
  | _ => Err TypeError
  end.

(** [s.strip()] is not empty, on ASCII text. *)
Definition is_blank (c : ascii) : bool :=
  let n := nat_of_ascii c in (Nat.leb 9 n && Nat.leb n 13) || (Nat.leb 28 n && Nat.leb n 32).
Definition has_text (s : string) : bool := existsb (fun c => negb (is_blank c)) (list_ascii_of_string s).

(** lines 255-294: one callback specification. *)
Definition callback_keys : list string :=
  ["callable"; "name"; "interval"; "time_interval"; "store"; "max_records"; "enabled"].
Definition jget (l : list (string * json)) (k : string) : value :=
  V (match dget l k with Some j => j | None => JNull end).
Definition check_bool_key (l : list (string * json)) (k : string) : result unit :=
  match dget l k with
  | None | Some (JBool _) => Ok tt
  | Some _ => Err TypeError
  end.
Definition validate_callback (j : json) : result unit :=
  match j with
  | JObj l =>
      if negb (forallb (fun k => bool_decide (k ∈ callback_keys)) (dkeys l)) then Err ValueError else
      let* _ := match dget l "callable" with
                | Some (JStr s) => if has_text s then Ok tt else Err ValueError
                | _ => Err ValueError
                end in
      let* _ := check_schedule (jget l "interval") (jget l "time_interval") in
      let m := jget l "max_records" in
      let* _ := (if is_none m then Ok tt
                 else if negb (is_int m) then Err TypeError
                 else let* b := le_zero m in if b then Err ValueError else Ok tt) in
      let* _ := check_bool_key l "store" in
      check_bool_key l "enabled"
  | _ => Err TypeError
  end.

(* ------------------------------------------------------------------ *)
(** ** The two dataclasses *)

(** An instance is the list of its fields with their values. *)
Notation fields := (dict string value).
Definition attr (d : fields) (k : string) : result value :=
  match dget d k with Some v => Ok v | None => Err AttributeError end.

(** lines 176-190. *)
Definition system_post_init (d : fields) : result unit :=
  let* dim := attr d "dimension" in
  if negb (in_1_2_3 dim) then Err ValueError else
  let* s := attr d "supercell_shape" in
  let* n := py_len s in
  if negb (Nat.eqb n 3) then Err ValueError else Ok tt.

(** lines 229-294. *)
Definition runtime_post_init (d : fields) : result unit :=
  let* t := attr d "temperature" in
  let* b := le_zero t in
  if b then Err ValueError else
  let* f := attr d "attempt_frequency" in
  let* b := le_zero f in
  if b then Err ValueError else
  let* e := attr d "equilibration_passes" in
  let* b := lt_zero e in
  if b then Err ValueError else
  let* p := attr d "kmc_passes" in
  let* b := le_zero p in
  if b then Err ValueError else
  let* i := attr d "property_sampling_interval" in
  let* ti := attr d "property_sampling_time_interval" in
  let* _ := check_schedule i ti in
  let* be := attr d "builtin_property_enabled" in
  let* _ := validate_builtin_property_enabled be in
  let* cs := attr d "property_callbacks" in
  match cs with
  | V (JList l) => rfold (fun _ c => validate_callback c) tt l
  | _ => Err TypeError
  end.

Inductive section := Sys | Run.
Definition defaults (s : section) : fields := match s with Sys => system_defaults | Run => runtime_defaults end.
Definition post_init (s : section) (d : fields) : result unit :=
  match s with Sys => system_post_init d | Run => runtime_post_init d end.

(** A dataclass call [cls] with the given fields and those of [base] for the rest: with the
    defaults as base it is the constructor, with an instance as base it is
    [dataclasses.replace].  An unexpected keyword is a TypeError. *)
Definition build (s : section) (base given : fields) : result fields :=
  if negb (forallb (fun k => din base k) (dkeys given)) then Err TypeError else
  let d := map (fun kv => (fst kv, match dget given (fst kv) with Some v => v | None => snd kv end)) base in
  let* _ := post_init s d in
  Ok d.

(** What may be passed as [system_config] or [runtime_config]: an instance of one of the two
    classes, or, since nothing checks it, any value. *)
Inductive object := Obj (s : section) (d : fields) | Plain (v : value).

(** lines 343-392.  [given] are the keyword arguments other than the two configurations. *)
Record configuration := Configuration { c_system : object; c_runtime : object }.

Definition create_or_update (s : section) (arg : option object) (given : fields) : result object :=
  match arg with
  | None | Some (Plain (V JNull)) => let* d := build s (defaults s) given in Ok (Obj s d)
  | Some o =>
      match given with
      | [] => Ok o
      | _ => match o with
             | Obj s' d => let* d' := build s' d given in Ok (Obj s' d')
             | Plain _ => Err TypeError
             end
      end
  end.

Definition absent (arg : option object) : bool :=
  match arg with None | Some (Plain (V JNull)) => true | _ => false end.

Definition configuration_new (system_config runtime_config : option object) (given : fields)
  : result configuration :=
  if absent system_config && absent runtime_config && Nat.eqb (length given) 0 then Err ValueError else
  let system_fields := List.filter (fun kv => is_system_field (fst kv)) given in
  let runtime_fields :=
    List.filter (fun kv => negb (is_system_field (fst kv)) && is_runtime_field (fst kv)) given in
  let unknown := List.filter (fun kv => negb (is_system_field (fst kv)) && negb (is_runtime_field (fst kv))) given in
  if negb (Nat.eqb (length unknown) 0) then Err ValueError else
  let* s := create_or_update Sys system_config system_fields in
  let* r := create_or_update Run runtime_config runtime_fields in
  Ok (Configuration s r).

(** A call with keyword arguments only, where the two configurations may be among them. *)
Definition as_object (v : option value) : option object := option_map Plain v.
Definition is_config_key (k : string) : bool := String.eqb k "system_config" || String.eqb k "runtime_config".
Definition call_with_kwargs (kw : fields) : result configuration :=
  configuration_new (as_object (dget kw "system_config")) (as_object (dget kw "runtime_config"))
    (List.filter (fun kv => negb (is_config_key (fst kv))) kw).

(* ------------------------------------------------------------------ *)
(** ** Access to fields, lines 529-672 *)

Definition accessors : dict string (section * string) :=
  [("temperature", (Run, "temperature"));
   ("name", (Run, "name"));
   ("kmc_passes", (Run, "kmc_passes"));
   ("equilibration_passes", (Run, "equilibration_passes"));
   ("attempt_frequency", (Run, "attempt_frequency"));
   ("random_seed", (Run, "random_seed"));
   ("property_sampling_interval", (Run, "property_sampling_interval"));
   ("property_sampling_time_interval", (Run, "property_sampling_time_interval"));
   ("builtin_property_enabled", (Run, "builtin_property_enabled"));
   ("property_callbacks", (Run, "property_callbacks"));
   ("structure_file", (Sys, "structure_file"));
   ("mobile_ion_specie", (Sys, "mobile_ion_specie"));
   ("supercell_shape", (Sys, "supercell_shape"));
   ("dimension", (Sys, "dimension"));
   ("model_type", (Sys, "model_type"));
   ("model_file", (Sys, "model_file"));
   ("event_file", (Sys, "event_file"));
   ("site_mapping", (Sys, "site_mapping"));
   ("elementary_hop_distance", (Sys, "elementary_hop_distance"));
   ("mobile_ion_charge", (Sys, "mobile_ion_charge"));
   ("convert_to_primitive_cell", (Sys, "convert_to_primitive_cell"));
   ("initial_state_file", (Sys, "initial_state_file"));
   ("initial_occupations", (Sys, "initial_occupations"))].
(** [config.k]. *)
Definition object_attr (o : object) (k : string) : result value :=
  match o with Obj _ d => attr d k | Plain _ => Err AttributeError end.
Definition get_field (c : configuration) (k : string) : result value :=
  match dget accessors k with
  | Some (Sys, f) => object_attr (c_system c) f
  | Some (Run, f) => object_attr (c_runtime c) f
  | None => Err AttributeError
  end.

(* ------------------------------------------------------------------ *)
(** ** Dictionaries *)

(** lines 192-202.  [asdict] copies the values. *)
Definition system_as_dict (d : fields) (include_loader_paths : bool) : result fields :=
  let* shape := attr d "supercell_shape" in
  let* l := py_list_of shape in
  let data := dset d "supercell_shape" (V (JList l)) in
  Ok (if include_loader_paths then data
      else fold_left (fun data k => ddel data k) loader_field_names data).

(** lines 296-310; [dict(x)] of a dictionary is a copy of it. *)
Definition copied_dict (v : value) : result value :=
  match v with V (JObj l) => Ok (V (JObj l)) | _ => Err TypeError end.
Definition copied_callbacks (v : value) : result value :=
  match v with
  | V (JList l) =>
      let* l := rmapM (fun j => match j with JObj d => Ok (JObj d) | _ => Err TypeError end) l in
      Ok (V (JList l))
  | _ => Err TypeError
  end.
Definition runtime_as_dict (d : fields) : result fields :=
  rmapM (fun k => let* v := attr d k in
                  let* v := (if String.eqb k "builtin_property_enabled" then copied_dict v
                             else if String.eqb k "property_callbacks" then copied_callbacks v
                             else Ok v) in
                  Ok (k, v))
    runtime_field_names.

(** [d.update(e)]. *)
Definition dupdate {A} (d e : dict string A) : dict string A :=
  fold_left (fun d kv => dset d (fst kv) (snd kv)) e d.

(** lines 394-413. *)
Definition as_dict (c : configuration) (include_loader_paths : bool) : result fields :=
  let result := [("@module", V (JStr "kmcpy.simulator.config")); ("@class", V (JStr "Configuration"))] in
  match c_system c, c_runtime c with
  | Obj Sys s, Obj Run r =>
      let* s := system_as_dict s include_loader_paths in
      let result := dupdate result s in
      let* r := runtime_as_dict r in
      Ok (dupdate result r)
  | _, _ => Err AttributeError
  end.
(** lines 415-421. *)
Definition as_record_dict (c : configuration) : result fields := as_dict c false.
Definition as_input_dict (c : configuration) : result fields := as_dict c true.

(** lines 428-440, on a dictionary. *)
Definition starts_at (k : string) : bool :=
  match k with String c _ => Ascii.eqb c "@" | EmptyString => false end.
Definition from_dict (d : fields) : result configuration :=
  call_with_kwargs (List.filter (fun kv => negb (starts_at (fst kv))) d).

(* ------------------------------------------------------------------ *)
(** ** Files *)

(** lines 92-125.  [task_type] may be any value found under "type"; a list or dictionary
    cannot be looked up. *)
Definition task_key (j : json) : result (option string) :=
  match j with
  | JStr s => Ok (Some s)
  | JList _ | JObj _ => Err TypeError
  | _ => Ok None
  end.
Definition extract_section_data (raw : list (string * json)) (section : string) (task_type : option string)
  : result (list (string * json)) :=
  match dget raw section with
  | None => Err ValueError
  | Some data =>
      let* data := match data with
                   | JObj l =>
                       match dget l "type" with
                       | None => Ok data
                       | Some ty =>
                           let* k := match task_type with
                                     | Some t => Ok (Some t)
                                     | None => task_key ty
                                     end in
                           match k with
                           | Some t => match dget l t with Some x => Ok x | None => Err ValueError end
                           | None => Err ValueError
                           end
                       end
                   | _ => Ok data
                   end in
      match data with JObj l => Ok l | _ => Err ValueError end
  end.

(** lines 442-463. *)
Definition extract_file_config_data (raw : json) (section task_type : option string)
  : result (list (string * json)) :=
  match raw with
  | JObj d =>
      match section with
      | Some s => extract_section_data d s task_type
      | None =>
          if existsb (fun k => is_system_field k || is_runtime_field k) (dkeys d) then Ok d
          else if negb (din d "kmc") then Ok d
          else extract_section_data d "kmc" task_type
      end
  | _ => Err ValueError
  end.

(** lines 85-89 and 467-498: the file is its value; only the format matters of its name. *)
Inductive file_format := Json | Yaml | UnknownFormat.
Definition of_json (d : list (string * json)) : fields := map (fun kv => (fst kv, V (snd kv))) d.
Definition from_file (fmt : file_format) (content : json) (section task_type : option string)
  : result configuration :=
  match fmt with
  | UnknownFormat => Err ValueError
  | _ => let* d := extract_file_config_data content section task_type in from_dict (of_json d)
  end.

(** lines 500-548: the new content of the file.  [existing] is what is there: no file, a
    file that cannot be read, or a value. *)
Inductive existing_file := Missing | Unreadable | Content (j : json).
Definition to_json (d : fields) : json := JObj (map (fun kv => (fst kv, jsonify (snd kv))) d).
Definition to_file (c : configuration) (fmt : file_format) (existing : existing_file)
    (include_loader_paths : bool) (section : option string) (task_type : string) : result json :=
  match fmt with
  | UnknownFormat => Err ValueError
  | _ =>
      let* data := as_dict c include_loader_paths in
      match section with
      | None => Ok (to_json data)
      | Some s =>
          match fmt with
          | Yaml =>
              let* old := match existing with
                          | Missing | Unreadable => Ok []
                          | Content (JObj d) => Ok d
                          | Content _ => Err ValueError
                          end in
              Ok (JObj (dset old s (JObj (dof_pairs [("type", JStr task_type); (task_type, to_json data)]))))
          | _ => Err ValueError
          end
      end
  end.

(** lines 550-560. *)
Definition with_changes (s : section) (c : configuration) (changes : fields) : result configuration :=
  let replaced (o : object) := match o with
                               | Obj s' d => let* d := build s' d changes in Ok (Obj s' d)
                               | Plain _ => Err TypeError
                               end in
  match s with
  | Run => let* r := replaced (c_runtime c) in configuration_new (Some (c_system c)) (Some r) []
  | Sys => let* y := replaced (c_system c) in configuration_new (Some y) (Some (c_runtime c)) []
  end.

(* ------------------------------------------------------------------ *)
(** ** Starting a simulation *)

Section FromConfig.
  Context {Loaded St Kmc : Type}.
  (** kmc.py:227-245: structure, site order, model, event library and hop states. *)
  Variable load : configuration -> result Loaded.
  (** [State.from_occupations], [State.from_file] and the constructor. *)
  Variable from_occupations from_state_file : Loaded -> value -> result St.
  Variable construct : Loaded -> St -> result Kmc.

  Definition value_truthy (v : value) : bool :=
    match v with V j => truthy j | Tup l => negb (Nat.eqb (length l) 0) end.

  (** kmc.py:214-275. *)
  Definition from_config (c : configuration) : result Kmc :=
    let* m := get_field c "site_mapping" in
    if is_none m then Err ValueError else
    let* a := load c in
    let* occ := get_field c "initial_occupations" in
    let* file := get_field c "initial_state_file" in
    let* st := (if negb (is_none occ) then from_occupations a occ
                else if value_truthy file then from_state_file a file
                else Err ValueError) in
    construct a st.

  (** cli/run_kmc.py:82-145: what argparse accepts, [None] for an option that is not given.
      The text of the options is parsed by argparse and [ast]. *)
  Record cli_args := CliArgs {
    cli_input : option json;   (** the content of the input file, a YAML or JSON value *)
    cli_supercell_shape : option (Z * Z * Z);
    cli_model_file : option string;
    cli_structure_file : option string;
    cli_event_file : option string;
    cli_site_mapping : option (list (string * json));
    cli_attempt_frequency : Q;
    cli_temperature : Q;
    cli_convert_to_primitive_cell : bool;
  }.
  Definition optional {A} (k : string) (f : A -> value) (o : option A) : fields :=
    match o with Some x => [(k, f x)] | None => [] end.
  (** cli/run_kmc.py:182-193. *)
  Definition cli_fields (a : cli_args) : fields :=
    (optional "supercell_shape" (fun t => let '(x, y, z) := t in Tup [JInt x; JInt y; JInt z]) (cli_supercell_shape a) ++
     optional "model_file" (fun s => V (JStr s)) (cli_model_file a) ++
     optional "structure_file" (fun s => V (JStr s)) (cli_structure_file a) ++
     optional "event_file" (fun s => V (JStr s)) (cli_event_file a) ++
     optional "site_mapping" (fun m => V (JObj m)) (cli_site_mapping a) ++
     [("attempt_frequency", V (JFloat (cli_attempt_frequency a)));
      ("temperature", V (JFloat (cli_temperature a)));
      ("convert_to_primitive_cell", V (JBool (cli_convert_to_primitive_cell a)))])%list.
  (** cli/run_kmc.py:160-193; any failure to read the file is reported as a ValueError. *)
  Definition cli_configuration (a : cli_args) : result configuration :=
    match cli_input a with
    | Some content =>
        match from_file Yaml content None None with Ok c => Ok c | Err _ => Err ValueError end
    | None => configuration_new None None (cli_fields a)
    end.
  (** cli/run_kmc.py:195-202, up to [kmc.run()]. *)
  Definition cli_start (a : cli_args) : result Kmc :=
    let* c := cli_configuration a in from_config c.
End FromConfig.
