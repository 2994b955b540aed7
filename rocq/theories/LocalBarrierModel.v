(** Model of kmcpy/models/local_barrier_model.py.  Floats of the rule tables are
    rationals (json layer), rates are real numbers.  A dictionary with integer keys
    given in memory is represented by the object with the same keys written in decimal,
    as in the saved file. *)
From Coq Require Import Reals QArith Qreals.
From stdpp Require Import strings.
From Verif Require Import Py Json ActiveSiteModel EventModel StateModel HopModel LceModel CompositeModel.
Local Open Scope string_scope.

(** [str.strip()] and [str.lower()] on ASCII text. *)
Definition is_blank (a : Ascii.ascii) : bool :=
  let n := Ascii.nat_of_ascii a in
  (Nat.eqb n 32 || (Nat.leb 9 n && Nat.leb n 13) || (Nat.leb 28 n && Nat.leb n 31))%bool.
Fixpoint lstrip (s : string) : string :=
  match s with
  | EmptyString => EmptyString
  | String a s' => if is_blank a then lstrip s' else s
  end.
Fixpoint rstrip (s : string) : string :=
  match s with
  | EmptyString => EmptyString
  | String a s' =>
      match rstrip s' with
      | EmptyString => if is_blank a then EmptyString else String a EmptyString
      | t => String a t
      end
  end.
Definition py_strip (s : string) : string := rstrip (lstrip s).
Definition lower_ascii (a : Ascii.ascii) : Ascii.ascii :=
  let n := Ascii.nat_of_ascii a in
  if (Nat.leb 65 n && Nat.leb n 90)%bool then Ascii.ascii_of_nat (n + 32) else a.
Fixpoint py_lower (s : string) : string :=
  match s with
  | EmptyString => EmptyString
  | String a s' => String (lower_ascii a) (py_lower s')
  end.

(** lines 64-72. *)
Definition state_value_aliases : dict string Z :=
  [("occupied", 0); ("match", 0); ("template", 0); ("vacant", 1); ("vacancy", 1);
   ("mismatch", 1); ("other", 1)]%Z.

(** lines 94-107, on a payload value (a list or a tuple is [JList]). *)
Definition index_entry (j : json) : result Z :=
  match j with JInt z => Ok z | _ => Err TypeError end.
Definition normalize_index_sequence (j : option json) (allow_empty : bool) : result (list Z) :=
  match j with
  | Some (JList []) => if allow_empty then Ok [] else Err ValueError
  | Some (JList l) => rmapM index_entry l
  | _ => Err TypeError
  end.

(** lines 110-120. *)
Fixpoint canonical_from (seen : list Z) (l : list Z) : list Z :=
  match l with
  | [] => []
  | s :: l' =>
      if bool_decide (s ∈ seen) then canonical_from seen l'
      else s :: canonical_from (s :: seen) l'
  end.
Definition canonical_site_indices (mobile env : list Z) : list Z :=
  canonical_from [] (mobile ++ env).

(** lines 123-134.  The indices of an [Event] are integers already. *)
Definition event_indices (e : event) : result (list Z * list Z * list Z) :=
  match mobile_ion_indices e with
  | [] => Err ValueError
  | _ => Ok (mobile_ion_indices e, local_env_indices e,
             canonical_site_indices (mobile_ion_indices e) (local_env_indices e))
  end.

(** lines 137-159. *)
Definition normalize_state_value (j : json) : result Z :=
  match j with
  | JBool _ => Err TypeError
  | JInt z => if (z <? 0)%Z then Err ValueError else Ok z
  | JStr s =>
      let token := py_lower (py_strip s) in
      match dget state_value_aliases token with
      | Some v => Ok v
      | None =>
          let* z := py_int_str token in
          if (z <? 0)%Z then Err ValueError else Ok z
      end
  | _ => Err ValueError
  end.
Definition opt_json (j : option json) : json := match j with Some j => j | None => JNull end.

(** lines 162-167. *)
Definition normalize_occupations (j : option json) : result (list Z) :=
  match j with
  | Some (JList []) => Err ValueError
  | Some (JList l) => rmapM normalize_state_value l
  | _ => Err TypeError
  end.

(** lines 170-182; a wildcard is [None]. *)
Definition pattern_entry (j : json) : result (option Z) :=
  match j with
  | JStr s => if String.eqb (py_strip s) "*" then Ok None
              else rmap Some (normalize_state_value j)
  | _ => rmap Some (normalize_state_value j)
  end.
Definition normalize_pattern (j : option json) : result (list (option Z)) :=
  match j with
  | Some (JList []) => Err ValueError
  | Some (JList l) => rmapM pattern_entry l
  | _ => Err TypeError
  end.

(** lines 193-195 and 209-211: a number that is not a bool. *)
Definition number (j : json) : result Q :=
  match j with
  | JInt z => Ok (inject_Z z)
  | JFloat q => Ok q
  | _ => Err TypeError
  end.

(** lines 185-196. *)
Definition property_entry (kv : string * json) : result (string * Q) :=
  if String.eqb (py_strip (fst kv)) "" then Err ValueError
  else let* q := number (snd kv) in Ok (fst kv, q).
Definition normalize_properties (l : list (string * json)) : result (dict string Q) :=
  match l with
  | [] => Err ValueError
  | _ => let* ps := rmapM property_entry l in Ok (dof_pairs ps)
  end.

(** lines 199-202, with the type test of line 186. *)
Definition normalize_optional_properties (j : json) : result (option (dict string Q)) :=
  match j with
  | JNull => Ok None
  | JObj l => rmap Some (normalize_properties l)
  | _ => Err ValueError
  end.

(** [d.setdefault(k, v)]. *)
Definition dsetdefault {V} (d : dict string V) (k : string) (v : V) : dict string V :=
  if din d k then d else dset d k v.

(** lines 205-212.  [dict(x)] is modelled for objects, empty lists and empty strings;
    lists of pairs are not. *)
Definition properties_from_rule (rule : list (string * json)) : result (dict string Q) :=
  let* properties :=
    match dget rule "properties" with
    | None => Ok []
    | Some (JObj l) => Ok l
    | Some (JList []) => Ok []
    | Some (JStr "") => Ok []
    | Some (JStr _) => Err ValueError
    | Some _ => Err TypeError
    end in
  let* properties :=
    match dget rule "barrier" with
    | None => Ok properties
    | Some b => let* q := number b in Ok (dsetdefault properties "barrier" (JFloat q))
    end in
  normalize_properties properties.

(** lines 74-81: the site selectors, and an explicit list of sites. *)
Inductive selector :=
  | Canonical | LocalEnv | MobileIon | FromSite | ToSite | AllSites
  | Sites (l : list Z).
Definition site_selectors : dict string selector :=
  [("canonical", Canonical); ("local_env", LocalEnv); ("mobile_ion", MobileIon);
   ("from", FromSite); ("to", ToSite); ("all", AllSites)].

(** lines 215-226. *)
Definition normalize_sites_spec (j : option json) (default : selector) : result selector :=
  match j with
  | None | Some JNull => Ok default
  | Some (JStr s) =>
      match dget site_selectors (py_strip s) with
      | Some sel => Ok sel
      | None => Err ValueError
      end
  | Some j => rmap Sites (normalize_index_sequence (Some j) false)
  end.

(** lines 229-250: the present keys of COUNT_KEYS (line 91). *)
Record constraints := Constraints {
  c_count : option Z;
  c_min : option Z;
  c_max : option Z;
}.
Definition count_entry (rule : list (string * json)) (key : string) : result (option Z) :=
  match dget rule key with
  | None => Ok None
  | Some (JInt z) => if (z <? 0)%Z then Err ValueError else Ok (Some z)
  | Some _ => Err TypeError
  end.
Definition normalize_count_constraints (rule : list (string * json)) : result constraints :=
  let* c := count_entry rule "count" in
  let* lo := count_entry rule "min_count" in
  let* hi := count_entry rule "max_count" in
  match c, lo, hi with
  | None, None, None => Err ValueError
  | Some _, Some _, _ | Some _, _, Some _ => Err ValueError
  | _, _, _ => Ok (Constraints c lo hi)
  end.

(** lines 253-260. *)
Definition count_matches (count : Z) (c : constraints) : bool :=
  (match c_count c with Some z => count =? z | None => true end &&
   match c_min c with Some z => negb (count <? z) | None => true end &&
   match c_max c with Some z => negb (z <? count) | None => true end)%Z%bool.

(** lines 263-287. *)
Definition species_entry (kv : string * json) : result (Z * string) :=
  let* state := normalize_state_value (JStr (fst kv)) in
  match snd kv with
  | JStr sp => if String.eqb (py_strip sp) "" then Err ValueError else Ok (state, sp)
  | _ => Err ValueError
  end.
Definition site_entry (kv : string * json) : result (Z * dict Z string) :=
  let* site := match py_int_str (fst kv) with Ok z => Ok z | Err _ => Err TypeError end in
  match snd kv with
  | JObj l => let* m := rmapM species_entry l in Ok (site, dof_pairs m)
  | _ => Err TypeError
  end.
Definition normalize_site_species (j : json) : result (dict Z (dict Z string)) :=
  match j with
  | JNull => Ok []
  | JObj l => let* m := rmapM site_entry l in Ok (dof_pairs m)
  | _ => Err TypeError
  end.

(** lines 290-297. *)
Definition site_species_as_dict (d : dict Z (dict Z string)) : json :=
  JObj (map (fun sm : Z * dict Z string =>
    (py_str_int (fst sm),
     JObj (map (fun ss : Z * string => (py_str_int (fst ss), JStr (snd ss))) (snd sm)))) d).

(** lines 83-89 and 300-321. *)
Inductive rule_type := TConstant | TExact | TPattern | TStateCount | TSpeciesCount.
Definition rule_types : dict string rule_type :=
  [("constant", TConstant); ("exact", TExact); ("pattern", TPattern);
   ("state_count", TStateCount); ("species_count", TSpeciesCount)].
Definition coerce_rule_type (rule : list (string * json)) : result rule_type :=
  match dget rule "type" with
  | None | Some JNull =>
      Ok (if din rule "occupations" && din rule "mobile_ion_indices" then TExact
          else if din rule "pattern" then TPattern
          else if din rule "species" then TSpeciesCount
          else if din rule "state" || din rule "occupation" then TStateCount
          else TConstant)
  | Some (JStr s) =>
      match dget rule_types (py_strip s) with
      | Some t => Ok t
      | None => Err ValueError
      end
  | Some _ => Err ValueError
  end.

(** The normalised rule dictionary: the keys "name", "properties", the optional keys
    "mobile_ion_indices" and "local_env_indices", and those of the rule's type. *)
Inductive rule_kind :=
  | KConstant
  | KExact (occupations : list Z) (canonical : list Z)
  | KPattern (sites : selector) (pattern : list (option Z))
  | KStateCount (sites : selector) (state : Z) (c : constraints)
  | KSpeciesCount (sites : selector) (species : list string) (c : constraints).
Record rule := Rule {
  r_name : string;
  r_properties : dict string Q;
  r_mobile : option (list Z);
  r_env : option (list Z);
  r_kind : rule_kind;
}.

(** lines 379-390. *)
Definition species_item (j : json) : result string :=
  match j with
  | JStr s => if String.eqb (py_strip s) "" then Err ValueError else Ok s
  | _ => Err ValueError
  end.
Definition normalize_species (j : option json) : result (list string) :=
  match j with
  | Some (JStr s) => Ok [s]
  | Some (JList ((_ :: _) as l)) => rmapM species_item l
  | _ => Err ValueError
  end.

Section LocalBarrier.
  (** [str(x)] of a name that is not text (line 330). *)
  Variable show : json -> string.

  (** line 330. *)
  Definition rule_name (r : list (string * json)) (default_name : string) : string :=
    match dget r "name" with
    | None => default_name
    | Some j => if Json.truthy j then match j with JStr s => s | _ => show j end
                else default_name
    end.

  (** lines 324-393. *)
  Definition normalize_rule (j : json) (default_name : string) : result rule :=
    match j with
    | JObj r =>
        let* ty := coerce_rule_type r in
        let name := rule_name r default_name in
        let* props := properties_from_rule r in
        let* mobile :=
          match dget r "mobile_ion_indices" with
          | None => Ok None
          | Some j => rmap Some (normalize_index_sequence (Some j) false)
          end in
        let* env :=
          match dget r "local_env_indices" with
          | None => Ok None
          | Some j => rmap Some (normalize_index_sequence (Some j) true)
          end in
        match ty with
        | TConstant => Ok (Rule name props mobile env KConstant)
        | TExact =>
            let* mi := normalize_index_sequence (dget r "mobile_ion_indices") false in
            let* le := normalize_index_sequence (dget r "local_env_indices") true in
            let canonical := canonical_site_indices mi le in
            let* occ := normalize_occupations (dget r "occupations") in
            if Nat.eqb (length occ) (length canonical)
            then Ok (Rule name props (Some mi) (Some le) (KExact occ canonical))
            else Err ValueError
        | TPattern =>
            let* sites := normalize_sites_spec (dget r "sites") Canonical in
            let* p := normalize_pattern (dget r "pattern") in
            Ok (Rule name props mobile env (KPattern sites p))
        | TStateCount =>
            let* sites := normalize_sites_spec (dget r "sites") LocalEnv in
            let* st := match dget r "occupation" with
                       | Some j => normalize_state_value j
                       | None => normalize_state_value (opt_json (dget r "state"))
                       end in
            let* c := normalize_count_constraints r in
            Ok (Rule name props mobile env (KStateCount sites st c))
        | TSpeciesCount =>
            let* sites := normalize_sites_spec (dget r "sites") LocalEnv in
            let* sp := normalize_species (dget r "species") in
            let* c := normalize_count_constraints r in
            Ok (Rule name props mobile env (KSpeciesCount sites sp c))
        end
    | _ => Err TypeError
    end.

  (** The object's attributes (lines 532-550).  [lb_keys] is [_exact_rule_keys], a set:
      only membership is used. *)
  Definition exact_key : Type := list Z * list Z * list Z.
  Record lb_model := LbModel {
    lb_name : json;
    lb_default_property : json;
    lb_probability_mode : json;
    lb_probability_property : json;
    lb_site_species : dict Z (dict Z string);
    lb_default_properties : option (dict string Q);
    lb_rules : list rule;
    lb_keys : list exact_key;
  }.
  Definition with_rules (m : lb_model) (rules : list rule) (keys : list exact_key) : lb_model :=
    {| lb_name := lb_name m; lb_default_property := lb_default_property m;
       lb_probability_mode := lb_probability_mode m;
       lb_probability_property := lb_probability_property m;
       lb_site_species := lb_site_species m;
       lb_default_properties := lb_default_properties m;
       lb_rules := rules; lb_keys := keys |}.

  (** lines 654-661; [None] for the other rule types. *)
  Definition exact_key_for_rule (r : rule) : option exact_key :=
    match r_kind r with
    | KExact occ canonical =>
        Some (match r_mobile r with Some l => l | None => [] end, canonical, occ)
    | _ => None
    end.

  (** lines 663-676.  When it raises, nothing has been assigned. *)
  Definition add_rule (m : lb_model) (j : json) : result lb_model :=
    let* r := normalize_rule j ("rule_" ++ py_str_int (Z.of_nat (length (lb_rules m)))) in
    match exact_key_for_rule r with
    | Some key =>
        if bool_decide (key ∈ lb_keys m) then Err ValueError
        else Ok (with_rules m (lb_rules m ++ [r])%list (lb_keys m ++ [key])%list)
    | None => Ok (with_rules m (lb_rules m ++ [r])%list (lb_keys m))
    end.

  (** lines 648-652. *)
  Definition supported_mode : json := JStr "barrier_arrhenius".
  Definition validate_probability_mode (m : lb_model) : result unit :=
    match lb_probability_mode m with
    | JStr s => if String.eqb s "barrier_arrhenius" then Ok tt else Err ValueError
    | _ => Err ValueError
    end.

  (** lines 832-841: [build] as the constructor calls it (rules only). *)
  Definition build_rules (m : lb_model) (rules : json) : result lb_model :=
    let* _ := validate_probability_mode m in
    match rules with
    | JNull => Ok (with_rules m [] [])
    | JList l => rfold add_rule (with_rules m [] []) l
    | _ => Err TypeError
    end.

  (** lines 521-553; an omitted optional argument is [JNull]. *)
  Definition lb_new (rules name default_properties default_barrier default_property
      probability_mode probability_property site_species : json) : result lb_model :=
    let* ss := normalize_site_species site_species in
    let* dp := normalize_optional_properties default_properties in
    let* dp := match default_barrier with
               | JNull => Ok dp
               | j => let* q := number j in
                      Ok (Some (dsetdefault (match dp with Some d => d | None => [] end)
                                  "barrier" q))
               end in
    let m := {| lb_name := name; lb_default_property := default_property;
                lb_probability_mode := probability_mode;
                lb_probability_property := probability_property;
                lb_site_species := ss; lb_default_properties := dp;
                lb_rules := []; lb_keys := [] |} in
    match rules with
    | JNull => Ok m
    | _ => build_rules m rules
    end.

  (** lines 561-574. *)
  Definition constant_barrier (barrier name : json) : result lb_model :=
    lb_new JNull name JNull barrier (JStr "barrier") supported_mode (JStr "barrier") JNull.

  (** lines 843-864. *)
  Definition selected_sites (sites : selector) (e : event) (occ : list Z) : result (list Z) :=
    let* mec := event_indices e in
    let '(mobile, env, canonical) := mec in
    match sites with
    | Sites l => Ok l
    | Canonical => Ok canonical
    | LocalEnv => Ok env
    | MobileIon => Ok mobile
    | FromSite => let* s := py_get mobile 0%Z in Ok [s]
    | ToSite => let* s := py_get mobile 1%Z in Ok [s]
    | AllSites => Ok (map Z.of_nat (seq 0 (length occ)))
    end.

  (** lines 866-874. *)
  Definition occupation_pattern (sites : list Z) (occ : list Z) : result (list Z) :=
    rmapM (py_get occ) sites.

  (** lines 876-888. *)
  Definition agrees (constraint : option (list Z)) (actual : list Z) : bool :=
    match constraint with Some l => bool_decide (l = actual) | None => true end.
  Definition event_constraints_match (r : rule) (e : event) : result bool :=
    let* mec := event_indices e in
    let '(mobile, env, _) := mec in
    Ok (agrees (r_mobile r) mobile && agrees (r_env r) env)%bool.

  (** lines 890-902. *)
  Definition species_for_site (ss : dict Z (dict Z string)) (site occupation : Z)
    : result string :=
    match dget ss site with
    | None => Err ValueError
    | Some m => match dget m occupation with Some s => Ok s | None => Err ValueError end
    end.

  (** lines 932-935. *)
  Fixpoint pattern_matches (expected : list (option Z)) (actual : list Z) : bool :=
    match expected, actual with
    | x :: es, a :: l =>
        (match x with None => true | Some z => z =? a end)%Z && pattern_matches es l
    | _, _ => true
    end.

  (** line 940. *)
  Fixpoint count_state (st : Z) (l : list Z) : Z :=
    match l with
    | [] => 0
    | v :: l' => ((if v =? st then 1 else 0) + count_state st l')%Z
    end.

  (** lines 947-951. *)
  Fixpoint count_species (ss : dict Z (dict Z string)) (wanted : list string)
      (pairs : list (Z * Z)) : result Z :=
    match pairs with
    | [] => Ok 0%Z
    | (site, o) :: rest =>
        let* sp := species_for_site ss site o in
        let* n := count_species ss wanted rest in
        Ok ((if str_in sp wanted then 1 else 0) + n)%Z
    end.

  (** lines 904-954. *)
  Definition rule_matches (ss : dict Z (dict Z string)) (r : rule) (occ : list Z) (e : event)
    : result bool :=
    let* c := event_constraints_match r e in
    if negb c then Ok false
    else match r_kind r with
         | KConstant => Ok true
         | KExact occupations canonical =>
             let* mec := event_indices e in
             if negb (bool_decide (snd mec = canonical)) then Ok false
             else let* p := occupation_pattern (snd mec) occ in
                  Ok (bool_decide (p = occupations))
         | KPattern sites expected =>
             let* l := selected_sites sites e occ in
             let* p := occupation_pattern l occ in
             if Nat.eqb (length p) (length expected) then Ok (pattern_matches expected p)
             else Err ValueError
         | KStateCount sites st c =>
             let* l := selected_sites sites e occ in
             let* p := occupation_pattern l occ in
             Ok (count_matches (count_state st p) c)
         | KSpeciesCount sites species c =>
             let* l := selected_sites sites e occ in
             let* p := occupation_pattern l occ in
             let* n := count_species ss species (zip l p) in
             Ok (count_matches n c)
         end.

  (** lines 962-979; the exception text also reads the occupations. *)
  Fixpoint first_match (ss : dict Z (dict Z string)) (rules : list rule) (occ : list Z)
      (e : event) : result (option (dict string Q)) :=
    match rules with
    | [] => Ok None
    | r :: rest =>
        let* b := rule_matches ss r occ e in
        if b then Ok (Some (r_properties r)) else first_match ss rest occ e
    end.
  Definition matched_properties (m : lb_model) (occ : list Z) (e : event)
    : result (dict string Q) :=
    let* found := first_match (lb_site_species m) (lb_rules m) occ e in
    match found with
    | Some p => Ok p
    | None =>
        match lb_default_properties m with
        | Some p => Ok p
        | None =>
            let* mec := event_indices e in
            let* _ := occupation_pattern (snd mec) occ in
            Err KeyError
        end
    end.

  (** lines 981-996: a key that is not text is in no property dictionary, and a list or
      an object is not hashable. *)
  Definition lb_compute (m : lb_model) (occ : list Z) (e : event) (property_name : json)
    : result Q :=
    let* props := matched_properties m occ e in
    match (if Json.truthy property_name then property_name else lb_default_property m) with
    | JStr s => dgetitem props s
    | JList _ | JObj _ => Err TypeError
    | _ => Err KeyError
    end.

  (** lines 998-1019.  [v] is the attempt frequency; at [T = 0] the division raises,
      also for an event that cannot hop. *)
  Definition lb_probability (m : lb_model) (lk : option lookup) (v temperature : R)
      (occ : list Z) (e : event) : result R :=
    let* _ := validate_probability_mode m in
    let* barrier := lb_compute m occ e (lb_probability_property m) in
    let* codes := event_codes lk e in
    let* direction := event_direction occ e codes in
    let hop_factor := if (direction =? 0)%Z then 0%R else 1%R in
    if Req_EM_T (k_B * temperature) 0 then Err ZeroDivisionError
    else Ok (hop_factor * v * exp (- Q2R barrier / (k_B * temperature)))%R.

  (** The model inside the engine: [BaseModel.initialize_state] and [apply_event] do
      nothing (base.py:86-110). *)
  Definition lb_initialize (_ : list Z) (_ : event_lib) : result unit := Ok tt.
  Definition lb_apply (u : unit) (_ : event) (_ : list Z) : result unit := Ok u.
  Definition lb_rate (m : lb_model) (lk : option lookup) (v temperature : R)
      (_ : unit) (occ : list Z) (e : event) : result R :=
    lb_probability m lk v temperature occ e.

  (** lines 576-610: the entry dictionary made from an event and a state. *)
  Definition entry_from_event_state (e : event) (occ : list Z) (properties : list (string * json))
      (name : option json) : result (list (string * json)) :=
    let* mec := event_indices e in
    let '(mobile, env, canonical) := mec in
    let* o := rmapM (py_get occ) canonical in
    Ok ([("type", JStr "exact"); ("mobile_ion_indices", JList (map JInt mobile));
         ("local_env_indices", JList (map JInt env)); ("occupations", JList (map JInt o));
         ("properties", JObj properties)]
        ++ match name with Some n => [("name", n)] | None => [] end)%list.

  (** lines 631-636, for entries that are dictionaries. *)
  Definition exact_rule_of_entry (index : nat) (entry : list (string * json)) : json :=
    JObj (dsetdefault (dset entry "type" (JStr "exact")) "name"
            (JStr ("exact_" ++ py_str_int (Z.of_nat index)))).
  (** lines 612-646. *)
  Definition from_exact_entries (entries : list (list (string * json)))
      (name default_properties default_barrier default_property probability_mode
       probability_property site_species : json) : result lb_model :=
    lb_new (JList (map (fun ie => exact_rule_of_entry (fst ie) (snd ie)) (enumerate entries)))
      name default_properties default_barrier default_property probability_mode
      probability_property site_species.

  (** lines 396-416. *)
  Definition properties_as_dict (d : dict string Q) : json :=
    JObj (map (fun kv : string * Q => (fst kv, JFloat (snd kv))) d).
  Definition type_name (k : rule_kind) : string :=
    match k with
    | KConstant => "constant" | KExact _ _ => "exact" | KPattern _ _ => "pattern"
    | KStateCount _ _ _ => "state_count" | KSpeciesCount _ _ _ => "species_count"
    end.
  Definition opt_item {A} (key : string) (f : A -> json) (o : option A) : list (string * json) :=
    match o with Some a => [(key, f a)] | None => [] end.
  Definition ints (l : list Z) : json := JList (map JInt l).
  Definition sites_as_json (s : selector) : json :=
    match s with
    | Canonical => JStr "canonical" | LocalEnv => JStr "local_env"
    | MobileIon => JStr "mobile_ion" | FromSite => JStr "from" | ToSite => JStr "to"
    | AllSites => JStr "all" | Sites l => ints l
    end.
  Definition pattern_as_json (p : list (option Z)) : json :=
    JList (map (fun x => match x with Some z => JInt z | None => JStr "*" end) p).
  Definition species_as_json (l : list string) : json :=
    match l with [s] => JStr s | _ => JList (map JStr l) end.
  Definition kind_items (k : rule_kind) : list (string * json) :=
    let counts c :=
      (opt_item "count" JInt (c_count c) ++ opt_item "min_count" JInt (c_min c)
       ++ opt_item "max_count" JInt (c_max c))%list in
    match k with
    | KConstant => []
    | KExact occ _ => [("occupations", ints occ)]
    | KPattern sites p => [("pattern", pattern_as_json p); ("sites", sites_as_json sites)]
    | KStateCount sites st c =>
        ("sites", sites_as_json sites) :: ("state", JInt st) :: counts c
    | KSpeciesCount sites sp c =>
        ("sites", sites_as_json sites) :: ("species", species_as_json sp) :: counts c
    end.
  Definition rule_as_dict (r : rule) : json :=
    JObj ([("name", JStr (r_name r)); ("type", JStr (type_name (r_kind r)));
           ("properties", properties_as_dict (r_properties r))]
          ++ opt_item "mobile_ion_indices" ints (r_mobile r)
          ++ opt_item "local_env_indices" ints (r_env r)
          ++ kind_items (r_kind r))%list.

  (** lines 1037-1053. *)
  Definition lb_as_dict (m : lb_model) : list (string * json) :=
    [("@module", JStr "kmcpy.models.local_barrier_model");
     ("@class", JStr "LocalBarrierModel");
     ("name", lb_name m);
     ("default_property", lb_default_property m);
     ("probability_mode", lb_probability_mode m);
     ("probability_property", lb_probability_property m);
     ("default_properties",
      match lb_default_properties m with Some d => properties_as_dict d | None => JNull end);
     ("site_species", site_species_as_dict (lb_site_species m));
     ("rules", JList (map rule_as_dict (lb_rules m)))].

  (** lines 1061-1080. *)
  Definition get_or (d : list (string * json)) (k : string) (default : json) : json :=
    match dget d k with Some j => j | None => default end.
  Definition lb_from_dict (j : json) : result lb_model :=
    match j with
    | JObj d =>
        let* d :=
          match dget d "model_type" with
          | Some (JStr s) =>
              if String.eqb s "local_barrier" then
                match dget d "local_barrier" with
                | Some (JObj d') => Ok d'
                | Some _ => Err AttributeError
                | None => Ok d
                end
              else Ok d
          | _ => Ok d
          end in
        lb_new (get_or d "rules" (JList [])) (get_or d "name" (JStr "LocalBarrierModel"))
          (get_or d "default_properties" JNull) (get_or d "default_barrier" JNull)
          (get_or d "default_property" (JStr "barrier"))
          (get_or d "probability_mode" supported_mode)
          (get_or d "probability_property" (JStr "barrier"))
          (get_or d "site_species" JNull)
    | _ => Err ValueError
    end.
  (** The helpers that write a rule and add it (lines 678-804).  An argument that is None
      leaves its key out; they return the name of the new rule, [self.rules[-1]["name"]]. *)
  Definition add_written (m : lb_model) (rule : list (string * json)) : lb_model * result string :=
    match add_rule m (JObj rule) with
    | Err x => (m, Err x)
    | Ok m' => (m', match last (lb_rules m') with Some r => Ok (r_name r) | None => Err IndexError end)
    end.
  (** [dict(properties or {})]. *)
  Definition properties_or_empty (properties : option (list (string * json))) : json :=
    JObj (match properties with Some l => l | None => [] end).
  Definition given (key : string) (o : option json) : list (string * json) := opt_item key (fun j => j) o.
  (** lines 678-705. *)
  Definition add_exact_rule (m : lb_model) (mobile env occupations : list json) (barrier : option json)
      (properties : option (list (string * json))) (name : option json) : lb_model * result string :=
    add_written m
      ([("type", JStr "exact"); ("mobile_ion_indices", JList mobile); ("local_env_indices", JList env);
        ("occupations", JList occupations); ("properties", properties_or_empty properties)]
       ++ given "barrier" barrier ++ given "name" name)%list.
  (** lines 707-741. *)
  Definition add_state_count_rule (m : lb_model) (state : json) (barrier : option json)
      (properties : option (list (string * json))) (name : option json) (sites : json)
      (count min_count max_count : option json) : lb_model * result string :=
    add_written m
      ([("type", JStr "state_count"); ("sites", sites); ("state", state); ("properties", properties_or_empty properties)]
       ++ given "barrier" barrier ++ given "name" name
       ++ given "count" count ++ given "min_count" min_count ++ given "max_count" max_count)%list.
  (** lines 743-777. *)
  Definition add_species_count_rule (m : lb_model) (species : json) (barrier : option json)
      (properties : option (list (string * json))) (name : option json) (sites : json)
      (count min_count max_count : option json) : lb_model * result string :=
    add_written m
      ([("type", JStr "species_count"); ("sites", sites); ("species", species); ("properties", properties_or_empty properties)]
       ++ given "barrier" barrier ++ given "name" name
       ++ given "count" count ++ given "min_count" min_count ++ given "max_count" max_count)%list.
  (** lines 779-804. *)
  Definition add_pattern_rule (m : lb_model) (pattern : list json) (barrier : option json)
      (properties : option (list (string * json))) (name : option json) (sites : json) : lb_model * result string :=
    add_written m
      ([("type", JStr "pattern"); ("sites", sites); ("pattern", JList pattern); ("properties", properties_or_empty properties)]
       ++ given "barrier" barrier ++ given "name" name)%list.

  (** [float(x)]: the text of a number is a parameter. *)
  Variable parse_float : string -> result Q.
  Definition py_float (j : json) : result Q :=
    match j with
    | JInt z => Ok (inject_Z z)
    | JFloat q => Ok q
    | JBool b => Ok (if b then 1 else 0)%Q
    | JStr s => parse_float s
    | _ => Err TypeError
    end.
  Definition with_defaults (m : lb_model) (d : option (dict string Q)) : lb_model :=
    {| lb_name := lb_name m; lb_default_property := lb_default_property m;
       lb_probability_mode := lb_probability_mode m; lb_probability_property := lb_probability_property m;
       lb_site_species := lb_site_species m; lb_default_properties := d;
       lb_rules := lb_rules m; lb_keys := lb_keys m |}.
  (** lines 825-828: an attribute is assigned if the argument is not None. *)
  Definition or_given (old new : json) : json := match new with JNull => old | _ => new end.
  Definition with_names (m : lb_model) (default_property mode probability_property : json) : lb_model :=
    {| lb_name := lb_name m; lb_default_property := or_given (lb_default_property m) default_property;
       lb_probability_mode := or_given (lb_probability_mode m) mode;
       lb_probability_property := or_given (lb_probability_property m) probability_property;
       lb_site_species := lb_site_species m; lb_default_properties := lb_default_properties m;
       lb_rules := lb_rules m; lb_keys := lb_keys m |}.
  Definition with_species (m : lb_model) (ss : dict Z (dict Z string)) : lb_model :=
    {| lb_name := lb_name m; lb_default_property := lb_default_property m;
       lb_probability_mode := lb_probability_mode m; lb_probability_property := lb_probability_property m;
       lb_site_species := ss; lb_default_properties := lb_default_properties m;
       lb_rules := lb_rules m; lb_keys := lb_keys m |}.
  (** lines 840-841: the rules added before the one that is refused stay. *)
  Fixpoint add_all (m : lb_model) (l : list json) : lb_model * result unit :=
    match l with
    | [] => (m, Ok tt)
    | j :: l' => match add_rule m j with Ok m' => add_all m' l' | Err x => (m, Err x) end
    end.
  (** lines 806-841, called by a user; an omitted argument is [JNull].  The object as it is
      left, also when the call raises: each assignment before the exception stays. *)
  Definition build (m : lb_model) (rules default_properties default_barrier default_property
      probability_mode probability_property site_species : json) : lb_model * result unit :=
    match normalize_optional_properties default_properties with
    | Err x => (m, Err x)
    | Ok dp =>
        let m := match dp with Some d => with_defaults m (Some d) | None => m end in
        match (match default_barrier with
               | JNull => (m, Ok tt)
               | j =>
                   let d := match lb_default_properties m with Some d => d | None => [] end in
                   match py_float j with
                   | Err x => (with_defaults m (Some d), Err x)
                   | Ok q => (with_defaults m (Some (dsetdefault d "barrier" q)), Ok tt)
                   end
               end) with
        | (m, Err x) => (m, Err x)
        | (m, Ok _) =>
            let m := with_names m default_property probability_mode probability_property in
            match (match site_species with
                   | JNull => Ok m
                   | j => rmap (with_species m) (normalize_site_species j)
                   end) with
            | Err x => (m, Err x)
            | Ok m =>
                match validate_probability_mode m with
                | Err x => (m, Err x)
                | Ok _ =>
                    match rules with
                    | JNull => (with_rules m [] [], Ok tt)
                    | JList l => add_all (with_rules m [] []) l
                    | _ => (m, Err TypeError)
                    end
                end
            end
        end
    end.
End LocalBarrier.
