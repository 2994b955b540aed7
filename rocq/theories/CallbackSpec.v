(** Vocabulary for references to functions, configured properties and calls with keywords. *)
From Coq Require Import QArith Ascii.
From Verif Require Import Py Json PropertyModel ConfigModel CallbackModel.
Local Open Scope string_scope.

(** A character does not occur in a text. *)
Definition without (c : ascii) (s : string) : Prop := c ∉ list_ascii_of_string s.
Fixpoint joined (sep : string) (l : list string) : string :=
  match l with [] => "" | [x] => x | x :: l' => x ++ sep ++ joined sep l' end.
(** What a reference names: a module, and attributes from it on.  Either "module:a.b" or "module.a". *)
Definition names (ref m : string) (attrs : list string) : Prop :=
  (without ":" m /\ attrs <> [] /\ Forall (without ".") attrs /\ ref = m ++ ":" ++ joined "." attrs)
  \/ (without ":" ref /\ m <> "" /\ exists a, without "." a /\ attrs = [a] /\ ref = m ++ "." ++ a).

Section Spec.
  Context {Obj : Type}.
  Variable import_module : string -> result Obj.
  Variable getattr : Obj -> string -> result Obj.
  Variable callable : Obj -> bool.
  (** Following attributes. *)
  Inductive leads : Obj -> list string -> Obj -> Prop :=
    | leads_here o : leads o [] o
    | leads_on o a o' l o'' : getattr o a = Ok o' -> leads o' l o'' -> leads o (a :: l) o''.
  Definition refers (ref : string) (o : Obj) : Prop :=
    exists m attrs root, names ref m attrs /\ import_module m = Ok root /\ leads root attrs o /\ callable o = true.

  Variable identity : Obj -> nat.
  Variable fname : nat -> option string.
  (** The value of a key, null if it is absent. *)
  Definition given (l : list (string * json)) (k : string) : json := match dget l k with Some j => j | None => JNull end.
  Definition integer_given (j : json) (i : option Z) : Prop :=
    match j with JNull => i = None | JInt z => i = Some z | JBool b => i = Some (if b then 1%Z else 0%Z) | _ => False end.
  Definition time_given (j : json) (t : option Q) : Prop :=
    match j with JNull => t = None | JInt z => t = Some (inject_Z z) | JFloat q => t = Some q | JBool b => t = Some (if b then 1%Q else 0%Q) | _ => False end.
  (** The name: the one given unless it is empty, else that of the function. *)
  Definition named (j : json) (o : Obj) (n : string) : Prop :=
    match j with
    | JStr s => if String.eqb s "" then n = match fname (identity o) with Some f => f | None => "attached_property" end else n = s
    | JNull => n = match fname (identity o) with Some f => f | None => "attached_property" end
    | _ => False
    end.
  Definition flag_given (l : list (string * json)) (k : string) (b : bool) : Prop :=
    match dget l k with None => b = true | Some j => j = JBool b end.
  (** The attached property that a callback entry of the configuration asks for. *)
  Definition asks_for (j : json) (s : spec Q) : Prop :=
    exists l ref o, j = JObj l /\ given l "callable" = JStr ref /\ refers ref o
      /\ s_callback s = identity o /\ named (given l "name") o (s_name s)
      /\ integer_given (given l "interval") (s_interval s) /\ time_given (given l "time_interval") (s_time_interval s)
      /\ flag_given l "store" (s_store s) /\ integer_given (given l "max_records") (s_max s) /\ flag_given l "enabled" (s_enabled s)
      /\ s_on_error s = None /\ s_last_step s = 0%Z /\ s_last_time s = None.
  (** The properties that a configuration asks for: overall sampling, built-in fields and callbacks. *)
  Definition configured (d : fields) (p : plan Q) : Prop :=
    exists i t be cs specs,
      dget d "property_sampling_interval" = Some (V i) /\ dget d "property_sampling_time_interval" = Some (V t)
      /\ dget d "builtin_property_enabled" = Some (V (JObj be)) /\ dget d "property_callbacks" = Some (V (JList cs))
      /\ integer_given i (p_interval p) /\ time_given t (p_time p)
      /\ dkeys (p_builtin p) = builtin_fields
      /\ (forall k, k ∈ builtin_fields -> dget (p_builtin p) k = Some (match dget (rev be) k with Some (JBool b) => b | _ => true end))
      /\ Forall2 asks_for cs specs /\ NoDup (map s_name specs) /\ Forall (fun s => s_name s ∉ builtin_fields) specs
      /\ p_attached p = map (fun s => (s_name s, s)) specs.
End Spec.

(** The parameters of a function that must be given. *)
Definition required (sig : list param) (n : string) : Prop :=
  exists p, p ∈ sig /\ p_name p = n /\ p_default p = false /\ (p_kind p = PositionalOrKeyword \/ p_kind p = KeywordOnly).
Definition callable_by_keyword (sig : list param) : Prop := forall p, p ∈ sig -> p_kind p = PositionalOnly -> p_default p = true.
Definition takes (sig : list param) (k : string) : Prop :=
  exists p, p ∈ sig /\ (p_kind p = VarKeyword \/ p_name p = k /\ (p_kind p = PositionalOrKeyword \/ p_kind p = KeywordOnly)).
