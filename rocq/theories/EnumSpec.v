(** Vocabulary for the statements about local environments and hop endpoints. *)
From Coq Require Import QArith.
From Verif Require Import Py ActiveSiteModel BasisModel LatticeModel LatticeSpec EnumModel.
Local Open Scope nat_scope.

(** A species that is allowed and, when names are given, has one of them. *)
Definition permitted (variable_species : option (list spval)) (allowed : list species) (s : species) : Prop :=
  s ∈ allowed /\
  match variable_species with
  | None => True
  | Some names => exists t, t ∈ names /\ species_label t ∈ species_tokens (SObj s)
  end.

Definition allows (la : lattice) (i : Z) (l : list species) : Prop :=
  (0 <= i)%Z /\ la_allowed la !! Z.to_nat i = Some (Some l).

(** The variable sites: the given ones, or the local sites with a choice. *)
Definition variable_sites_are (act : lattice) (variable_species : option (list spval))
    (local : list Z) (given : option (list Z)) (vars : list Z) : Prop :=
  match given with
  | Some l => vars = l
  | None =>
      vars `sublist_of` local /\
      forall i, i ∈ vars <->
        i ∈ local /\ exists l j k s t, allows act i l /\ j <> k /\ l !! j = Some s /\ l !! k = Some t /\
          permitted variable_species l s /\ permitted variable_species l t
  end.

(** One permitted species for every variable site. *)
Definition assignment (act : lattice) (variable_species : option (list spval)) (vars : list Z)
    (cs : list species) : Prop :=
  Forall2 (fun i s => exists l, allows act i l /\ permitted variable_species l s) vars cs.

Definition label (s : species) : string := species_label (SObj s).
Definition how_many (x : string) (l : list string) : Z := Z.of_nat (length (List.filter (String.eqb x) l)).

(** Every name occurs as often as requested, and no other name occurs. *)
Definition meets (counts : option (list (spval * Z))) (cs : list species) : Prop :=
  match counts with
  | None => True
  | Some req =>
      (forall k n, (k, n) ∈ req -> how_many (species_label k) (map label cs) = n) /\
      (forall s, s ∈ cs -> exists k n, (k, n) ∈ req /\ species_label k = label s)
  end.
(** No name is requested twice or zero times. *)
Definition proper_counts (counts : option (list (spval * Z))) : Prop :=
  match counts with
  | None => True
  | Some req => NoDup (map (fun kv => species_label (fst kv)) req) /\ forall k n, (k, n) ∈ req -> n <> 0%Z
  end.
Definition total (counts : list (spval * Z)) : Z := fold_right (fun kv n => (snd kv + n)%Z) 0%Z counts.

(** Site [i] holds the code of species [s]. *)
Definition holds (act : lattice) (data : list Z) (i : Z) (s : species) : Prop :=
  exists l k, allows act i l /\ l !! k = Some s /\ data !! Z.to_nat i = Some (code (la_basis act) k).

(** The values before the assignment: the first species everywhere, or the reading of the
    base structure. *)
Definition base_values (act : lattice) (base : option (list site)) (tol : Q) (b : list Z) : Prop :=
  match base with
  | None => length b = length (la_template act) /\ forall j, j < length b -> b !! j = Some (code (la_basis act) 0)
  | Some s => get_occ_from_structure act s tol (1, 1, 1) None = Ok (Occupation (la_basis act) b)
  end.

(** The result [r] is the assignment [cs]. *)
Definition shows (act : lattice) (vars : list Z) (cs : list species) (b : list Z) (r : enumeration) : Prop :=
  oc_basis (en_full r) = la_basis act /\
  length (oc_data (en_full r)) = length b /\
  (forall k i s, vars !! k = Some i -> cs !! k = Some s ->
     holds act (oc_data (en_full r)) i s /\ dget (en_species r) i = Some (label s)) /\
  (forall j, Z.of_nat j ∉ vars -> oc_data (en_full r) !! j = b !! j).

(** No variable site is listed twice. *)
Definition no_repeats (local : list Z) (given : option (list Z)) : Prop :=
  match given with Some l => NoDup l | None => NoDup local end.

Definition sites_in_range (act : lattice) (local : list Z) : Prop :=
  forall i, i ∈ local -> (0 <= i < Z.of_nat (length (la_template act)))%Z.

(** Fixed sites are occupied by an allowed species. *)
Definition fixed_sites_occupied (la : lattice) (template : list site) (o : order) : Prop :=
  forall k s, template !! k = Some s -> Z.of_nat k ∉ o_a2o o ->
    ~ is_vacancy (fst s) /\
    exists l t, la_allowed la !! k = Some (Some l) /\ t ∈ l /\ species_equivalent (SObj (fst s)) (SObj t) = true.

(** The second allowed species of an active site is the vacancy. *)
Definition second_is_vacancy (act : lattice) (i : Z) : Prop :=
  exists l s, allows act i l /\ l !! 1 = Some s /\ is_vacancy s.

(** The active values an environment argument stands for. *)
Definition environment_values (act : lattice) (o : order) (env : environment) (d : list Z) : Prop :=
  length d = length (la_template act) /\
  match env with
  | FromEnumeration e => en_full e = Occupation (la_basis act) d
  | FromOccupation oc => select_active_values o (oc_data oc) = Ok d
  | FromValues l => select_active_values o l = Ok d
  end.

(** The first allowed species of a site, and a name two species share. *)
Definition first_species (act : lattice) (i : Z) (s : species) : Prop :=
  exists l, allows act i l /\ l !! 0 = Some s.
Definition same_name (a b : species) : Prop :=
  exists t, t ∈ species_tokens (SObj b) /\ species_label (SStr t) ∈ species_tokens (SObj a).
(** The position of an active site. *)
Definition position (act : lattice) (i : Z) (p : coords) : Prop :=
  exists s, la_template act !! Z.to_nat i = Some (s, p).

(** Every value is the code of an allowed species. *)
Definition all_codes (act : lattice) (d : list Z) : Prop :=
  forall j v, d !! j = Some v -> exists s, holds act d (Z.of_nat j) s.

(** The atoms of the unit cell with active values [data]: the template's atom at a fixed
    site, the species held at an active site unless it is a vacancy. *)
Definition atom (la act : lattice) (o : order) (data : list Z) (s : species) (p : coords) : Prop :=
  exists k t, cell_site (la_template la) (1, 1, 1) k = Some t /\ p = snd t /\
    (Z.of_nat k ∉ o_a2o o /\ s = fst t \/
     exists a, o_a2o o !! a = Some (Z.of_nat k) /\ holds act data (Z.of_nat a) s /\ ~ is_vacancy s).
