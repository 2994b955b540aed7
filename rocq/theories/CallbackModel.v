(** Model of references to functions (kmcpy/simulator/kmc.py:167-188, kmcpy/models/site_energy.py:498-515),
    of the properties of a run configured by file (kmcpy/simulator/kmc.py:190-211) and of calling a
    function with the keywords it accepts (kmcpy/models/site_energy.py:366-399 and 518-552). *)
From Coq Require Import QArith Ascii.
From Verif Require Import Py Json PropertyModel ConfigModel.
Local Open Scope string_scope.

(** [s.split(c, 1)], if [c] occurs in [s]. *)
Fixpoint split_first (c : ascii) (s : string) : option (string * string) :=
  match s with
  | "" => None
  | String x s' =>
      if Ascii.eqb x c then Some ("", s')
      else match split_first c s' with Some (a, b) => Some (String x a, b) | None => None end
  end.
(** [s.rpartition(c)] without the separator, if [c] occurs in [s]. *)
Fixpoint split_last (c : ascii) (s : string) : option (string * string) :=
  match s with
  | "" => None
  | String x s' =>
      match split_last c s' with
      | Some (a, b) => Some (String x a, b)
      | None => if Ascii.eqb x c then Some ("", s') else None
      end
  end.
(** [s.split(c)]. *)
Fixpoint split_all (c : ascii) (s : string) : list string :=
  match s with
  | "" => [""]
  | String x s' =>
      if Ascii.eqb x c then "" :: split_all c s'
      else match split_all c s' with h :: t => String x h :: t | [] => [String x ""] end
  end.

Section References.
  (** Python objects, imported modules, attributes and what can be called. *)
  Context {Obj : Type}.
  Variable import_module : string -> result Obj.
  Variable getattr : Obj -> string -> result Obj.
  Variable callable : Obj -> bool.

  (** The loop [for attr in attr_path.split(".")] and the test after it. *)
  Definition load (module_path attr_path : string) : result Obj :=
    let* module := import_module module_path in
    let* o := rfold getattr module (split_all "." attr_path) in
    if callable o then Ok o else Err TypeError.
  (** kmc.py:167-188. *)
  Definition resolve_callback_reference (ref : string) : result Obj :=
    match split_first ":" ref with
    | Some (m, a) => load m a
    | None =>
        match split_last "." ref with
        | Some (m, a) => if String.eqb m "" then Err ValueError else load m a
        | None => Err ValueError
        end
    end.
  (** site_energy.py:498-515. *)
  Definition resolve_callable_reference (ref : string) : result Obj :=
    let '(m, a) := match split_first ":" ref with
                   | Some ma => ma
                   | None => match split_last "." ref with Some ma => ma | None => ("", ref) end
                   end in
    if String.eqb m "" || String.eqb a "" then Err ValueError else load m a.

  (** The number of a callable object and its [__name__]. *)
  Variable identity : Obj -> nat.
  Variable fname : nat -> option string.

  (** Values of the configuration as arguments of [attach]. *)
  Definition int_arg_of (v : value) : option int_arg :=
    match v with
    | V JNull => None
    | V (JInt z) => Some (IntArg z)
    | V (JBool b) => Some (IntArg (if b then 1 else 0))
    | _ => Some OtherArg
    end.
  Definition time_of (v : value) : result (option Q) :=
    if is_none v then Ok None else match number v with Some q => Ok (Some q) | None => Err TypeError end.
  (** The name is not validated; names that are not text are not modelled (an error here). *)
  Definition name_of (v : value) : result (option string) :=
    match v with V JNull => Ok None | V (JStr s) => Ok (Some s) | _ => Err TypeError end.
  Definition flag_of (l : list (string * json)) (k : string) : result bool :=
    match dget l k with None => Ok true | Some (JBool b) => Ok b | Some _ => Err TypeError end.
  (** kmc.py:200-211. *)
  Definition configure_callback (p : plan Q) (j : json) : result (plan Q) :=
    match j with
    | JObj l =>
        match dget l "callable" with
        | Some (JStr ref) =>
            let* o := resolve_callback_reference ref in
            let* d := time_of (jget l "time_interval") in
            let* n := name_of (jget l "name") in
            let* store := flag_of l "store" in
            let* enabled := flag_of l "enabled" in
            let* pn := plan_attach 0%Q Qle_bool fname p
              (Attach (Func (identity o)) (int_arg_of (jget l "interval")) d n store (int_arg_of (jget l "max_records")) None enabled) in
            Ok (fst pn)
        | Some _ => Err TypeError
        | None => Err KeyError
        end
    | _ => Err TypeError
    end.
  (** kmc.py:190-211, on the property plan of the new object ([bool(enabled)] of a boolean). *)
  Definition configure_properties (d : fields) (p : plan Q) : result (plan Q) :=
    let* i := attr d "property_sampling_interval" in
    let* ti := attr d "property_sampling_time_interval" in
    let* p := (if is_none i && is_none ti then Ok p
               else let* t := time_of ti in plan_frequency 0%Q Qle_bool p (int_arg_of i) t) in
    let* be := attr d "builtin_property_enabled" in
    let* p := (match be with
               | V (JObj l) => rfold (fun p kv => match snd kv with JBool b => plan_enable p (fst kv) b | _ => Err TypeError end) p l
               | _ => Err AttributeError
               end) in
    let* cs := attr d "property_callbacks" in
    match cs with
    | V (JList l) => rfold configure_callback p l
    | _ => Err TypeError
    end.
End References.

(** ** Calls with keywords *)
(** A parameter (inspect): name, kind and whether it has a default. *)
Inductive kind := PositionalOnly | PositionalOrKeyword | VarPositional | KeywordOnly | VarKeyword.
Record param := Param { p_name : string; p_kind : kind; p_default : bool }.
Section Keywords.
  Context {A : Type}.
  Definition takes_any (sig : list param) : bool :=
    existsb (fun p => match p_kind p with VarKeyword => true | _ => false end) sig.
  Definition accepted (sig : list param) : list string :=
    map p_name (List.filter (fun p => match p_kind p with PositionalOrKeyword | KeywordOnly => true | _ => false end) sig).
  (** Python's binding of keyword arguments to a signature. *)
  Definition py_call (sig : list param) (args : dict string A) : result (dict string A) :=
    if negb (takes_any sig) && negb (forallb (fun k => bool_decide (k ∈ accepted sig)) (dkeys args)) then Err TypeError
    else if forallb (fun p => match p_kind p with
                              | PositionalOnly => p_default p
                              | PositionalOrKeyword | KeywordOnly => p_default p || bool_decide (p_name p ∈ dkeys args)
                              | VarPositional | VarKeyword => true
                              end) sig then Ok args else Err TypeError.
  (** site_energy.py:518-552, up to calling the function. *)
  Definition call_with_supported_keywords (sig : list param) (kwargs : dict string A) (user : list string) : result (dict string A) :=
    if takes_any sig then py_call sig kwargs
    else if existsb (fun k => negb (bool_decide (k ∈ accepted sig))) user then Err TypeError
    else py_call sig (List.filter (fun kv => bool_decide (fst kv ∈ accepted sig)) kwargs).
  (** site_energy.py:371-383: the arguments of [compute_fn], in a dictionary display. *)
  Definition call_compute (sig : list param) (standard user : dict string A) : result (dict string A) :=
    call_with_supported_keywords sig (fold_left (fun d kv => dset d (fst kv) (snd kv)) user standard) (dkeys user).
  (** site_energy.py:395-402: the arguments of [apply_fn], in a call. *)
  Definition call_apply (sig : list param) (standard user : dict string A) : result (dict string A) :=
    if existsb (fun k => bool_decide (k ∈ dkeys standard)) (dkeys user) then Err TypeError
    else py_call sig (standard ++ user)%list.
End Keywords.
