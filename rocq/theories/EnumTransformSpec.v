(** Vocabulary for enumeration by a transformation. *)
From Coq Require Import QArith.
From Verif Require Import Py Json ActiveSiteModel BasisModel LatticeModel LatticeSpec EnumModel EnumSpec EnumTransformModel.
Local Open Scope nat_scope.

(** What site [i] offers the transformation.  A variable site: the permitted atoms, each with one over the number
    of permitted species, the vacancy included in that number.  Any other site: the atom of the base, if any. *)
Definition offered (act : lattice) (variable_species : option (list spval)) (vars b : list Z) (i : nat)
    (o : option occupant) : Prop :=
  (Z.of_nat i ∈ vars ->
     exists l choices d, allows act (Z.of_nat i) l /\ NoDup choices /\
       (forall s, s ∈ choices <-> permitted variable_species l s) /\ NoDup (map fst d) /\
       (forall s q, (s, q) ∈ d <-> s ∈ choices /\ ~ is_vacancy s /\ q = (1 / inject_Z (Z.of_nat (length choices)))%Q) /\
       d <> [] /\ o = Some (Partial d)) /\
  (Z.of_nat i ∉ vars ->
     exists s, holds act b (Z.of_nat i) s /\ (is_vacancy s /\ o = None \/ ~ is_vacancy s /\ o = Some (Whole s))).
(** The sites offered, in the order of the active sites from [i] on. *)
Inductive offers (P : nat -> option occupant -> Prop) : nat -> list site -> list dsite -> Prop :=
  | offers_none i : offers P i [] []
  | offers_site i s rest o dis : P i (Some o) -> offers P (S i) rest dis -> offers P i (s :: rest) ((o, snd s) :: dis)
  | offers_gap i s rest dis : P i None -> offers P (S i) rest dis -> offers P i (s :: rest) dis.

(** What an ordered structure may have at a site of a disordered one: one of its species, or nothing when the
    occupancies do not fill the site. *)
Definition occupancy (l : dict species Q) : Q := fold_right (fun e q => snd e + q)%Q 0%Q l.
Definition fills (o : occupant) (c : option species) : Prop :=
  match o, c with
  | Whole s, Some t => t = s
  | Whole _, None => False
  | Partial l, Some t => t ∈ map fst l
  | Partial l, None => (occupancy l < 1)%Q
  end.
Inductive filled : list dsite -> list site -> Prop :=
  | filled_none : filled [] []
  | filled_atom o p s dis l : fills o (Some s) -> filled dis l -> filled ((o, p) :: dis) ((s, p) :: l)
  | filled_empty o p dis l : fills o None -> filled dis l -> filled ((o, p) :: dis) l.
(** An ordering of a disordered structure, in any order and periodic images of the atoms. *)
Definition ordering (dis : list dsite) (s : list site) : Prop := exists l, filled dis l /\ same_crystal l s.

(** The structure of an entry. *)
Inductive structure_of : entry -> crystal -> Prop :=
  | structure_plain c : structure_of (EStructure c) c
  | structure_dict d c : dget d "structure" = Some (TStructure c) -> structure_of (EDict d) c.
Inductive entries_of : transformed -> list entry -> Prop :=
  | entries_one c : entries_of (One c) [EStructure c]
  | entries_many l : entries_of (Many l) l.
(** The metadata of a result: what the entry says beside its structure, and the source when it does not say one. *)
Definition metadata_of (e : entry) (m : dict string tval) : Prop :=
  forall k, dget m k =
    match e with
    | EDict d => if decide (k = "structure"%string) then None else
                 match dget d k with
                 | Some v => Some v
                 | None => if decide (k = "source"%string) then Some (TOther (JStr "transformation")) else None
                 end
    | _ => if decide (k = "source"%string) then Some (TOther (JStr "transformation")) else None
    end.
(** A dictionary has no key twice. *)
Definition proper_entry (e : entry) : Prop := match e with EDict d => NoDup (map fst d) | _ => True end.

(** Going through a list in order, passing over some entries and keeping at most [max] of the others. *)
Inductive taken {A B} (skip : A -> Prop) (keep : A -> B -> Prop) : nat -> list A -> list B -> Prop :=
  | taken_none max : taken skip keep max [] []
  | taken_full l : taken skip keep 0 l []
  | taken_skip max x l rs : skip x -> taken skip keep (S max) l rs -> taken skip keep (S max) (x :: l) rs
  | taken_keep max x l r rs : keep x r -> taken skip keep max l rs -> taken skip keep (S max) (x :: l) (r :: rs).

(** What is asked of the transformation. *)
Definition request_is (r : ranked) (max : Z) (q : ranked) : Prop :=
  match r with RInt n => q = RInt n | RBool b => q = if b then RInt max else RBool false end.

(** An entry read as the values [occ], with species [cs] at the variable sites. *)
Definition entry_reads (act : lattice) (tol : Q) (vars : list Z) (e : entry) (occ : occupation) (cs : list species) : Prop :=
  exists c, structure_of e c /\ get_occ_from_structure act (cr_sites c) tol (cr_shape c) None = Ok occ /\
    Forall2 (holds act (oc_data occ)) vars cs.
(** The result [r] of an entry: its values, the labels of its variable sites and its metadata. *)
Definition entry_result (act : lattice) (tol : Q) (local vars : list Z) (counts : option (list (spval * Z))) (e : entry)
    (r : enumeration * dict string tval) : Prop :=
  exists cs, entry_reads act tol vars e (en_full (fst r)) cs /\ meets counts cs /\
    en_local_sites (fst r) = local /\ en_variable_sites (fst r) = vars /\
    Forall2 (fun i s => dget (en_species (fst r)) i = Some (label s)) vars cs /\
    Forall2 (fun i v => oc_data (en_full (fst r)) !! Z.to_nat i = Some v) local (en_local (fst r)) /\
    (proper_entry e -> metadata_of e (snd r)).
Definition entry_passed_over (act : lattice) (tol : Q) (vars : list Z) (counts : option (list (spval * Z))) (e : entry) : Prop :=
  exists occ cs, entry_reads act tol vars e occ cs /\ ~ meets counts cs.

(** What the transformation is given in a call. *)
Definition asked (act : lattice) (variable_species : option (list spval)) (local : list Z) (given : option (list Z))
    (base : option (list site)) (tol : Q) (r : ranked) (max : Z) (dis : list dsite) (q : ranked) : Prop :=
  exists vars b, variable_sites_are act variable_species local given vars /\ base_values act base tol b /\
    offers (offered act variable_species vars b) 0 (la_template act) dis /\ request_is r max q.
(** It answers with orderings of what it is given, in the same cell; with all of them. *)
Definition answers_orderings (dis : list dsite) (es : list entry) : Prop :=
  forall e, e ∈ es -> exists c, structure_of e c /\ cr_shape c = (1, 1, 1) /\ ordering dis (cr_sites c).
Definition answers_all (dis : list dsite) (es : list entry) : Prop :=
  forall l, filled dis l -> exists e c, e ∈ es /\ structure_of e c /\ cr_shape c = (1, 1, 1) /\ same_crystal l (cr_sites c).
