(** Model of [SiteEnergyModel] in kmcpy/models/site_energy.py as an object that is built, saved and
    loaded.  [SiteEnergyModel] has its evaluation. *)
From Coq Require Import Reals QArith.
From Verif Require Import Py Json ActiveSiteModel EventModel StateModel MatcherModel SiteEnergyModel ParamModel.
From Verif Require LocalBarrierModel.
Local Open Scope string_scope.

(** A function or evaluator of the user: the object itself, its name in a module, and the keyword
    arguments for it. *)
Record callable (A : Type) := Callable {
  live : option A;
  name_of : option string;
  keywords : list (string * json);
}.
Arguments Callable {A}. Arguments live {A}. Arguments name_of {A}. Arguments keywords {A}.

(** site_energy.py:581-585.  [str] of a value that is not text is not modelled. *)
Definition optional_ref (j : json) : result (option string) :=
  match j with
  | JNull => Ok None
  | JStr s => Ok (let token := LocalBarrierModel.py_strip s in if String.eqb token "" then None else Some token)
  | _ => Err TypeError
  end.
(** [dict(x or {})].  Lists of pairs are not modelled. *)
Definition keyword_dict (j : json) : result (list (string * json)) :=
  match j with
  | JObj l => Ok l
  | _ => if truthy j then Err TypeError else Ok []
  end.

(** Values of mappings and arrays: other JSON values (null, lists) are not modelled. *)
Definition ext_json (v : ext_value) : json :=
  match v with EInt z => JInt z | EFloat q => JFloat q | EStr s => JStr s end.
Definition json_ext (j : json) : result ext_value :=
  match j with JInt z => Ok (EInt z) | JFloat q => Ok (EFloat q) | JStr s => Ok (EStr s) | _ => Err TypeError end.

(** Mapping arguments as JSON values. *)
Definition mapping_of {A} (f : json -> result A) (j : json) : result (option (mapping_arg A)) :=
  match j with
  | JNull => Ok None
  | JObj l => let* l := rmapM (fun kv => let* a := f (snd kv) in Ok (JStr (fst kv), a)) l in Ok (Some (ByKey l))
  | JList l => let* l := rmapM f l in Ok (Some (BySequence l))
  | _ => Err TypeError
  end.
(** A dictionary with integer keys as JSON object. *)
Definition int_object {A} (f : A -> json) (d : dict Z A) : json := JObj (map (fun kv => (py_str_int (fst kv), f (snd kv))) d).
Definition or_null {A} (f : A -> json) (o : option A) : json := match o with Some a => f a | None => JNull end.

Section SiteFiles.
  (** numpy's text for a number. *)
  Variable text : ext_value -> string.
  (** SHA-256 of the canonical JSON text of site mapping, size and length (site_energy.py:641-665). *)
  Variable site_hash : option (list (Z * Z)) * option Z * option Z -> string.
  (** [np.dtype(x)]. *)
  Variable np_dtype : json -> result dtype.

  (** [np.asarray] of a list.  Text of numbers has width 21 (integers) or 32 (floats). *)
  Definition as_array (l : list ext_value) : narray :=
    if forallb SiteEnergyModel.is_int l && negb (Nat.eqb (length l) 0) then NArray DInt l
    else if forallb SiteEnergyModel.is_number l
    then NArray DFloat (map (fun v => match v with EInt z => EFloat (inject_Z z) | _ => v end) l)
    else
      let width v := match v with EInt _ => 21 | EFloat _ => 32 | EStr s => max 1 (String.length s) end in
      NArray (DText (list_max (map width l)))
        (map (fun v => match v with EStr s => EStr s | _ => EStr (text v) end) l).

  Context {Fc Fa Ro : Type}.
  (** The attributes set by [__init__] (site_energy.py:96-165) without the caches. *)
  Record se_object := SeObject {
    o_compute : callable Fc;
    o_apply : callable Fa;
    o_runtime : callable Ro;
    o_site_mapping : option (dict Z Z);
    o_state_mapping : option (dict Z ext_value);
    o_by_site : option (dict Z (dict Z ext_value));
    o_initial : option narray;
    o_size : option Z;
    o_fill : ext_value;
    o_dtype : json;
    o_order : option order;
    o_order_hash : option string;
    o_units : units;
    o_name : json;
  }.
  (** The arguments of [__init__]. *)
  Record se_args := SeArgs {
    a_compute : option Fc * json * json;
    a_apply : option Fa * json * json;
    a_runtime : option Ro * json * json;
    a_site_mapping : option (mapping_arg json);
    a_state_mapping : option (mapping_arg ext_value);
    a_by_site : option (mapping_arg (option (mapping_arg ext_value)));
    a_initial : option (list ext_value + narray);
    a_size : json;
    a_fill : ext_value;
    a_dtype : json;
    a_order : option order;
    a_order_hash : json;
    a_units : json;
    a_name : json;
  }.

  Definition new_callable {A} (x : option A * json * json) : result (callable A) :=
    let '(a, ref, kwargs) := x in
    let* ref := optional_ref ref in
    let* kwargs := keyword_dict kwargs in
    Ok (Callable a ref kwargs).
  (** site_energy.py:564-568. *)
  Definition energy_units_of (j : json) : result units :=
    match j with
    | JStr s => let token := LocalBarrierModel.py_lower (LocalBarrierModel.py_strip s) in
                if String.eqb token "mev" then Ok MeV else if String.eqb token "ev" then Ok EV else Err ValueError
    | _ => Err ValueError
    end.
  (** site_energy.py:119-158. *)
  Definition new_object (a : se_args) : result se_object :=
    let* compute := new_callable (a_compute a) in
    let* apply := new_callable (a_apply a) in
    let* runtime := new_callable (a_runtime a) in
    let* sites := normalize_site_mapping (a_site_mapping a) in
    let* states := normalize_state_mapping (a_state_mapping a) in
    let* by_site := normalize_by_site (a_by_site a) in
    let initial := match a_initial a with
                   | None => None
                   | Some (inl l) => Some (as_array l)
                   | Some (inr array) => Some array
                   end in
    let* size := (match a_size a with JNull => Ok None | j => rmap Some (py_int j) end) in
    let* hash := optional_ref (a_order_hash a) in
    if match a_order a, hash with
       | Some o, Some h => negb (String.eqb h (o_fp o))
       | _, _ => false
       end
    then Err ValueError else
    let* u := energy_units_of (a_units a) in
    Ok (SeObject compute apply runtime sites states by_site initial size (a_fill a) (a_dtype a) (a_order a)
          (match a_order a with Some o => Some (o_fp o) | None => hash end) u (a_name a)).

  (** site_energy.py:173-180 and 641-665. *)
  Definition external_site_order_hash (o : se_object) : string :=
    site_hash (sorted (fun x y => (fst x <=? fst y)%Z) <$> o_site_mapping o, o_size o,
               (fun a => Z.of_nat (length (a_values a))) <$> o_initial o).

  (** site_energy.py:238-251. *)
  Definition set_order (o : se_object) (given : option order) : result se_object :=
    match given with
    | None => Ok o
    | Some x =>
        if match o_order_hash o with Some h => negb (String.eqb (o_fp x) h) | None => false end then Err ValueError
        else Ok (SeObject (o_compute o) (o_apply o) (o_runtime o) (o_site_mapping o) (o_state_mapping o) (o_by_site o)
                   (o_initial o) (o_size o) (o_fill o) (o_dtype o) (Some x) (Some (o_fp x)) (o_units o) (o_name o))
    end.

  (** site_energy.py:407-433.  The JSON text of a dictionary has the text of its keys. *)
  Definition units_json (u : units) : json := JStr (match u with MeV => "meV" | EV => "eV" end).
  Definition object_as_dict (o : se_object) : dict string json :=
    [("@module", JStr "kmcpy.models.site_energy");
     ("@class", JStr "SiteEnergyModel");
     ("name", o_name o);
     ("compute_ref", or_null JStr (name_of (o_compute o)));
     ("compute_kwargs", JObj (keywords (o_compute o)));
     ("apply_ref", or_null JStr (name_of (o_apply o)));
     ("apply_kwargs", JObj (keywords (o_apply o)));
     ("runtime_ref", or_null JStr (name_of (o_runtime o)));
     ("runtime_kwargs", JObj (keywords (o_runtime o)));
     ("site_mapping", or_null (int_object JInt) (o_site_mapping o));
     ("state_mapping", or_null (int_object ext_json) (o_state_mapping o));
     ("state_mapping_by_site", or_null (int_object (int_object ext_json)) (o_by_site o));
     ("initial_occupation", or_null (fun a => JList (map ext_json (a_values a))) (o_initial o));
     ("external_size", or_null JInt (o_size o));
     ("external_fill_value", ext_json (o_fill o));
     ("external_dtype", o_dtype o);
     ("active_site_order", or_null (fun x => JObj (order_as_dict x)) (o_order o));
     ("active_site_order_hash", or_null JStr (o_order_hash o));
     ("external_site_order_hash", JStr (external_site_order_hash o));
     ("units", units_json (o_units o))].

  (** site_energy.py:627-638. *)
  Definition order_arg (j : json) : result (option order) :=
    match j with
    | JNull => Ok None
    | JObj d => rmap Some (order_from_dict d)
    | _ => Err TypeError
    end.
  Definition array_arg (j : json) : result (option (list ext_value + narray)) :=
    match j with
    | JNull => Ok None
    | JList l => let* l := rmapM json_ext l in Ok (Some (inl l))
    | _ => Err TypeError
    end.
  (** site_energy.py:435-469.  [str] of a stored hash that is not text is not modelled: it is
      refused. *)
  Definition from_payload (d : dict string json) : result se_object :=
    let get key := match dget d key with Some j => j | None => JNull end in
    let* sites := mapping_of Ok (get "site_mapping") in
    let* states := mapping_of json_ext (get "state_mapping") in
    let* by_site := mapping_of (mapping_of json_ext) (get "state_mapping_by_site") in
    let* initial := array_arg (get "initial_occupation") in
    let* fill := (match dget d "external_fill_value" with Some j => json_ext j | None => Ok (EInt 0) end) in
    let* order := order_arg (get "active_site_order") in
    let* o := new_object (SeArgs (None, get "compute_ref", get "compute_kwargs") (None, get "apply_ref", get "apply_kwargs")
                (None, get "runtime_ref", get "runtime_kwargs") sites states by_site initial (get "external_size") fill
                (get "external_dtype") order (get "active_site_order_hash")
                (match dget d "units" with Some j => j | None => JStr "eV" end)
                (match dget d "name" with Some j => j | None => JStr "SiteEnergyModel" end)) in
    match get "external_site_order_hash" with
    | JNull => Ok o
    | JStr h => if String.eqb h (external_site_order_hash o) then Ok o else Err ValueError
    | _ => Err ValueError
    end.
  Definition object_from_dict (j : json) : result se_object :=
    match j with
    | JObj d =>
        match dget d "model_type", dget d "site_energy" with
        | Some (JStr "site_energy"), Some (JObj d') => from_payload d'
        | Some (JStr "site_energy"), Some _ => Err AttributeError
        | _, _ => from_payload d
        end
    | _ => Err ValueError
    end.
  (** site_energy.py:471-483. *)
  Definition object_from_file (p : path) (fs : files) : result se_object :=
    let* j := loadfn p fs in
    match j with
    | JObj d =>
        match dget d "filetype" with
        | Some (JStr "kmcpy.model_file") =>
            match dget d "model_type" with
            | Some (JStr "site_energy") => object_from_dict (match dget d "site_energy" with Some j => j | None => JNull end)
            | _ => Err ValueError
            end
        | _ => object_from_dict j
        end
    | _ => object_from_dict j
    end.
  Definition object_to (p : path) (o : se_object) (fs : files) : files * result unit :=
    dumpfn p (Ok (JObj (object_as_dict o))) fs.

  (** ** Evaluation *)

  (** The settings evaluation reads.  [np.dtype] raises when the external occupation is built, here
      at once. *)
  Definition config_of (o : se_object) : result se_config :=
    let* d := (match o_dtype o with JNull => Ok None | j => rmap Some (np_dtype j) end) in
    Ok (SeConfig (o_site_mapping o) (o_state_mapping o) (o_by_site o) (o_initial o) (o_size o) (o_fill o) d
          ((fun x => (o_fp x, length (o_a2o x))) <$> o_order o) (o_order_hash o) (o_units o)).

  (** Importing a name (site_energy.py:497-515), and calling with keyword arguments. *)
  Variable import_compute : string -> result Fc.
  Variable import_apply : string -> result Fa.
  Variable import_runtime : string -> list (string * json) -> result Ro.
  Variable call_compute : Fc -> list (string * json) -> option Ro -> list ext_value -> list change -> event -> list Z -> result R.
  Variable call_apply : Fa -> list (string * json) -> option Ro -> list ext_value -> list change -> event -> list Z -> result (option Ro).

  (** site_energy.py:182-207. *)
  Definition runtime_of (o : se_object) : result (option Ro) :=
    match live (o_runtime o), name_of (o_runtime o) with
    | Some r, _ => Ok (Some r)
    | None, Some s => rmap Some (import_runtime s (keywords (o_runtime o)))
    | None, None => Ok None
    end.
  Definition compute_of (o : se_object) (r : option Ro) (ext : list ext_value) (cs : list change) (e : event) (occ : list Z) : result R :=
    let* f := (match live (o_compute o), name_of (o_compute o) with
               | Some f, _ => Ok f
               | None, Some s => import_compute s
               | None, None => Err RuntimeError
               end) in
    call_compute f (keywords (o_compute o)) r ext cs e occ.
  Definition apply_of (o : se_object) : option (option Ro -> list ext_value -> list change -> event -> list Z -> result (option Ro)) :=
    match live (o_apply o), name_of (o_apply o) with
    | Some f, _ => Some (call_apply f (keywords (o_apply o)))
    | None, Some s => Some (fun r ext cs e occ => let* f := import_apply s in call_apply f (keywords (o_apply o)) r ext cs e occ)
    | None, None => None
    end.

  Variable parse_int : string -> option Z.
  Variable parse_float : string -> option Q.
  (** A run: the model is initialised with an order, then asked for energies of events and told of
      accepted events; the answers in order, and the exception that ended it. *)
  Inductive step := Ask (e : event) (occ : list Z) | Tell (e : event) (occ : list Z).
  Fixpoint answers (o : se_object) (c : se_config) (m : cache (option Ro)) (l : list step) : list R * result unit :=
    match l with
    | [] => ([], Ok tt)
    | Ask e occ :: l' =>
        match se_compute (compute_of o) c m occ e with
        | Ok x => let (xs, r) := answers o c m l' in (x :: xs, r)
        | Err err => ([], Err err)
        end
    | Tell e occ :: l' =>
        match se_apply text parse_int parse_float (apply_of o) m e occ with
        | Ok m' => answers o c m' l'
        | Err err => ([], Err err)
        end
    end.
  Definition session (o : se_object) (given : option order) (occ : list Z) (lib : event_lib) (l : list step) : list R * result unit :=
    match set_order o given with
    | Err e => ([], Err e)
    | Ok o =>
        match config_of o with
        | Err e => ([], Err e)
        | Ok c =>
            match initialize_state text parse_int parse_float (runtime_of o) c None occ lib with
            | Err e => ([], Err e)
            | Ok m => answers o c m l
            end
        end
    end.
End SiteFiles.
Arguments se_object : clear implicits. Arguments se_args : clear implicits.
