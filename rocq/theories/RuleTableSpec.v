(** Vocabulary for the statements about editing a table of local barrier rules. *)
From Coq Require Import QArith.
From Verif Require Import Py Json LocalBarrierModel LocalBarrierSpec.
Local Open Scope string_scope.

(** A number that is not a bool, and its value. *)
Definition numeric (j : json) (q : Q) : Prop := (exists z, j = JInt z /\ q = inject_Z z) \/ j = JFloat q.
Definition empty_text (s : string) : Prop := py_strip s = "".

(** The entries of the [properties] argument; none if it is left out. *)
Definition entries (properties : option (list (string * json))) : list (string * json) := default [] properties.

(** The [barrier] and [properties] arguments are usable: something is given, every value is a
    number and no property has an empty name. *)
Definition usable (barrier : option json) (properties : option (list (string * json))) : Prop :=
  (barrier <> None \/ entries properties <> []) /\
  (forall j, barrier = Some j -> exists q, numeric j q) /\
  (forall k j, (k, j) ∈ entries properties -> ~ empty_text k /\ exists q, numeric j q).
(** [d] holds what was given; an entry "barrier" of [properties] goes before the [barrier] argument. *)
Definition holds_what_was_given (barrier : option json) (properties : option (list (string * json)))
    (d : dict string Q) : Prop :=
  forall k q, dget d k = Some q <->
    (exists j, (k, j) ∈ entries properties /\ numeric j q) \/
    (k = "barrier" /\ (forall j, (k, j) ∉ entries properties) /\ exists j, barrier = Some j /\ numeric j q).

(** The name of a new rule: the given one unless it is missing or empty. *)
Definition named (m : lb_model) (name : option string) (n : string) : Prop :=
  match name with
  | Some s => if String.eqb s "" then n = "rule_" ++ py_str_int (Z.of_nat (length (lb_rules m))) else n = s
  | None => n = "rule_" ++ py_str_int (Z.of_nat (length (lb_rules m)))
  end.

(** [m'] is [m] with the rule [r] at the end of its table. *)
Definition appended (m m' : lb_model) (r : rule) : Prop :=
  lb_rules m' = (lb_rules m ++ [r])%list /\ lb_site_species m' = lb_site_species m /\
  lb_default_properties m' = lb_default_properties m /\ lb_default_property m' = lb_default_property m /\
  lb_probability_mode m' = lb_probability_mode m /\ lb_probability_property m' = lb_probability_property m /\
  lb_name m' = lb_name m.

(** How a user writes a selection of sites, a state, a species list, a pattern, a bound. *)
Inductive writes_sites : json -> selector -> Prop :=
| ws_canonical : writes_sites (JStr "canonical") Canonical
| ws_local_env : writes_sites (JStr "local_env") LocalEnv
| ws_mobile_ion : writes_sites (JStr "mobile_ion") MobileIon
| ws_from : writes_sites (JStr "from") FromSite
| ws_to : writes_sites (JStr "to") ToSite
| ws_all : writes_sites (JStr "all") AllSites
| ws_list l : l <> [] -> writes_sites (JList (map JInt l)) (Sites l).
Inductive writes_state : json -> Z -> Prop :=
| wst_index z : (0 <= z)%Z -> writes_state (JInt z) z
| wst_occupied : writes_state (JStr "occupied") 0
| wst_vacant : writes_state (JStr "vacant") 1.
Inductive writes_species : json -> list string -> Prop :=
| wsp_one s : writes_species (JStr s) [s]
| wsp_list l : l <> [] -> Forall (fun s => ~ empty_text s) l -> writes_species (JList (map JStr l)) l.
Inductive writes_cell : json -> option Z -> Prop :=
| wc_state j z : writes_state j z -> writes_cell j (Some z)
| wc_any : writes_cell (JStr "*") None.

(** Bounds of a count rule: non-negative, and either an exact number or a range. *)
Definition proper_bounds (count min_count max_count : option Z) : Prop :=
  (forall z, count = Some z \/ min_count = Some z \/ max_count = Some z -> (0 <= z)%Z) /\
  (count <> None <-> min_count = None /\ max_count = None).

(** The outcome of a helper: the new rule is put at the end, or nothing changes. *)
Definition adds (m : lb_model) (out : lb_model * result string) (acceptable : Prop) (is_the_rule : rule -> Prop) : Prop :=
  (acceptable -> exists m' r, out = (m', Ok (r_name r)) /\ appended m m' r /\ is_the_rule r) /\
  (~ acceptable -> exists x, out = (m, Err x)).

(** The rules of the table that hold. *)
Definition some_rule_holds (m : lb_model) (occ : list Z) (e : EventModel.event) : Prop :=
  exists r, r ∈ lb_rules m /\ rule_holds (lb_site_species m) r occ e.

(** The default value of a property, used when no rule holds. *)
Definition default_of (m : lb_model) (k : string) : option Q :=
  match lb_default_properties m with Some d => dget d k | None => None end.
