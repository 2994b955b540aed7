(** Vocabulary for the statements about local barrier rules. *)
From Coq Require Import QArith.
From Verif Require Import Py Json EventModel EventSpec LocalBarrierModel.

(** The elements of a list without repetitions, in order of first appearance. *)
Fixpoint distinct (l : list Z) : list Z :=
  match l with
  | [] => []
  | x :: l' => x :: List.filter (fun y => negb (y =? x)%Z) (distinct l')
  end.

(** Site [s] holds state [v] (Python indexing). *)
Definition holds (occ : list Z) (s v : Z) : Prop := py_get occ s = Ok v.

(** The sites a selector stands for, for an event in a system of [n] sites. *)
Definition designates (sel : selector) (e : event) (n : nat) (l : list Z) : Prop :=
  match sel with
  | Canonical => l = distinct (mobile_ion_indices e ++ local_env_indices e)
  | LocalEnv => l = local_env_indices e
  | MobileIon => l = mobile_ion_indices e
  | FromSite => exists rest s, mobile_ion_indices e = s :: rest /\ l = [s]
  | ToSite => exists rest f s, mobile_ion_indices e = f :: s :: rest /\ l = [s]
  | AllSites => length l = n /\ forall i, i < n -> l !! i = Some (Z.of_nat i)
  | Sites l' => l = l'
  end.

(** A count within the bounds of a rule. *)
Definition within (c : constraints) (n : nat) : Prop :=
  (forall k, c_count c = Some k -> Z.of_nat n = k) /\
  (forall k, c_min c = Some k -> (k <= Z.of_nat n)%Z) /\
  (forall k, c_max c = Some k -> (Z.of_nat n <= k)%Z).

(** The rule is meant for this event. *)
Definition concerns (r : rule) (e : event) : Prop :=
  (r_mobile r = None \/ r_mobile r = Some (mobile_ion_indices e)) /\
  (r_env r = None \/ r_env r = Some (local_env_indices e)).

(** The species table gives site [s] in state [v] the label [lab]. *)
Definition labelled (ss : dict Z (dict Z string)) (s v : Z) (lab : string) : Prop :=
  exists m, dget ss s = Some m /\ dget m v = Some lab.

(** What the user manual says about a matching rule. *)
Definition condition (ss : dict Z (dict Z string)) (k : rule_kind) (occ : list Z) (e : event)
  : Prop :=
  match k with
  | KConstant => True
  | KExact occupations canonical =>
      canonical = distinct (mobile_ion_indices e ++ local_env_indices e) /\
      Forall2 (holds occ) canonical occupations
  | KPattern sel p =>
      exists l, designates sel e (length occ) l /\
        Forall2 (fun s x => match x with Some v => holds occ s v | None => True end) l p
  | KStateCount sel st c =>
      exists l vs, designates sel e (length occ) l /\ Forall2 (holds occ) l vs /\
        within c (count_occ Z.eq_dec vs st)
  | KSpeciesCount sel wanted c =>
      exists l vs labels, designates sel e (length occ) l /\ Forall2 (holds occ) l vs /\
        Forall2 (fun sv lab => labelled ss (fst sv) (snd sv) lab) (zip l vs) labels /\
        within c (length (List.filter (fun lab => bool_decide (lab ∈ wanted)) labels))
  end.
Definition rule_holds (ss : dict Z (dict Z string)) (r : rule) (occ : list Z) (e : event)
  : Prop :=
  concerns r e /\ condition ss (r_kind r) occ e.

(** [p] are the properties the rule table prescribes: those of the first rule that
    holds, or the default ones if no rule holds. *)
Definition prescribed (m : lb_model) (occ : list Z) (e : event) (p : dict string Q) : Prop :=
  (exists i r, lb_rules m !! i = Some r /\ rule_holds (lb_site_species m) r occ e /\
     (forall j r', j < i -> lb_rules m !! j = Some r' ->
        ~ rule_holds (lb_site_species m) r' occ e) /\ p = r_properties r) \/
  ((forall r, r ∈ lb_rules m -> ~ rule_holds (lb_site_species m) r occ e) /\
   lb_default_properties m = Some p).

Definition readable (occ : list Z) (l : list Z) : Prop :=
  forall s, s ∈ l -> exists v, holds occ s v.

(** Every rule meant for the event can be evaluated: sites in range, patterns as long as
    their site lists, species known. *)
Definition well_posed (m : lb_model) (occ : list Z) (e : event) : Prop :=
  (exists f t, mobile_ion_indices e = [f; t]) /\
  readable occ (mobile_ion_indices e) /\ readable occ (local_env_indices e) /\
  forall r, r ∈ lb_rules m -> concerns r e ->
    match r_kind r with
    | KConstant | KExact _ _ => True
    | KPattern sel p => forall l, designates sel e (length occ) l ->
        readable occ l /\ length l = length p
    | KStateCount sel _ _ => forall l, designates sel e (length occ) l -> readable occ l
    | KSpeciesCount sel _ _ => forall l, designates sel e (length occ) l ->
        forall s, s ∈ l -> exists v lab, holds occ s v /\ labelled (lb_site_species m) s v lab
    end.

(** Every way of making and extending a model object. *)
Inductive built (show : json -> string) : lb_model -> Prop :=
| built_new rules name dp db dprop mode pprop ss m :
    lb_new show rules name dp db dprop mode pprop ss = Ok m -> built show m
| built_add m j m' : built show m -> add_rule show m j = Ok m' -> built show m'
| built_build parse_float m rules dp db dprop mode pprop ss m' : built show m ->
    build show parse_float m rules dp db dprop mode pprop ss = (m', Ok tt) -> built show m'.

(** The rules that concern [e] look only at the event's own sites. *)
Definition reads_own (r : rule) (e : event) : Prop :=
  match r_kind r with
  | KConstant | KExact _ _ => True
  | KPattern sel _ | KStateCount sel _ _ | KSpeciesCount sel _ _ =>
      match sel with
      | AllSites => False
      | Sites l => forall s, s ∈ l -> touches e s
      | _ => True
      end
  end.
Definition local_rules (m : lb_model) (es : list event) : Prop :=
  forall r e, r ∈ lb_rules m -> e ∈ es -> concerns r e -> reads_own r e.

(** The rules that concern [e] do not look at its two endpoints. *)
Definition ignores_endpoints (r : rule) (e : event) : Prop :=
  match r_kind r with
  | KConstant => True
  | KExact _ _ => False
  | KPattern sel _ | KStateCount sel _ _ | KSpeciesCount sel _ _ =>
      exists l, (sel = Sites l \/ sel = LocalEnv /\ l = local_env_indices e) /\
        forall s, s ∈ l -> (0 <= s)%Z /\ s ∉ mobile_ion_indices e
  end.

(** The two states have the same contents on the event's own sites. *)
Definition same_contents (e : event) (occ occ' : list Z) : Prop :=
  forall s, touches e s -> py_get occ' s = py_get occ s.
