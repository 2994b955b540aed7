(** Vocabulary for the statements about event generation. *)
From Coq Require Import QArith Qabs Qminmax.
From Verif Require Import Py ActiveSiteModel EventModel MatcherModel MatcherSpec GeneratorModel.
Local Open Scope nat_scope.

(* ------------------------------------------------------------------ *)
(** ** Supercells *)

Definition add3 (s t : image3) : image3 :=
  let '(a, b, c) := s in let '(d, e, f) := t in ((a + d)%Z, (b + e)%Z, (c + f)%Z).
Notation "x +v y" := (add3 x y) (at level 50, left associativity).
Definition negate (t : image3) : image3 := let '(a, b, c) := t in ((- a)%Z, (- b)%Z, (- c)%Z).

Definition positive (n : image3) : Prop := let '(n1, n2, n3) := n in (0 < n1 /\ 0 < n2 /\ 0 < n3)%Z.
Definition volume (n : image3) : Z := let '(n1, n2, n3) := n in (n1 * n2 * n3)%Z.
Definition inside (n a : image3) : Prop :=
  let '(n1, n2, n3) := n in let '(x, y, z) := a in
  (0 <= x < n1 /\ 0 <= y < n2 /\ 0 <= z < n3)%Z.
(** Two cells that are the same cell of the periodic supercell. *)
Definition congruent (n a b : image3) : Prop :=
  let '(n1, n2, n3) := n in let '(x, y, z) := a in let '(u, v, w) := b in
  exists i j k, (u = x + i * n1 /\ v = y + j * n2 /\ w = z + k * n3)%Z.

(** The number, in the supercell, of primitive site [p] in cell [a]; cells are counted
    periodically. *)
Definition site_number (n : image3) (p : nat) (a : image3) : Z :=
  let '(n1, n2, n3) := n in let '(x, y, z) := a in
  (Z.of_nat p * (n1 * n2 * n3) + ((x mod n1) * n2 + y mod n2) * n3 + z mod n3)%Z.

(** The site [k] moved by the lattice translation [t]. *)
Definition moved (n t : image3) (k k' : Z) : Prop :=
  exists p a, inside n a /\ k = site_number n p a /\ k' = site_number n p (a +v t).
Definition event_moved (n t : image3) (e e' : event) : Prop :=
  Forall2 (moved n t) (mobile_ion_indices e) (mobile_ion_indices e') /\
  Forall2 (moved n t) (local_env_indices e) (local_env_indices e').

(* ------------------------------------------------------------------ *)
(** ** Selection of sites *)

Definition named (s : gsite) (t : string) : Prop :=
  t = sp_str (gs_species s) \/ sp_symbol (gs_species s) = Some t \/ sp_element (gs_species s) = Some t.
Definition includes (i : identifier) (t : string) : Prop :=
  match i with IdOne s => t = s | IdMany l => t ∈ l end.
Definition selects (kind : selection_kind) (i : identifier) (s : gsite) : Prop :=
  match kind with
  | BySpecies => exists t, named s t /\ includes i t
  | ByLabel => includes i (gs_label s)
  end.

(** A token and, when it is an element symbol with a charge, the symbol alone. *)
Definition element_symbol (s : string) : Prop :=
  exists c, is_upper c = true /\
    (s = String c EmptyString \/ exists d, is_lower d = true /\ s = String c (String d EmptyString)).
Definition charge_text (s : string) : Prop :=
  exists digits sign, Forall (fun c => is_digit c = true) digits /\ is_sign sign = true /\
    s = string_of_list_ascii (digits ++ [sign]).
Definition variant (t v : string) : Prop :=
  v = t \/ element_symbol v /\ exists ch, charge_text ch /\ t = (v ++ ch)%string.

(** The identifiers name species: there is one, and each shares a variant with a mobile
    species. *)
Definition names_species (ids : list identifier) (mobile : list string) : Prop :=
  (exists i t, i ∈ ids /\ includes i t) /\
  forall i t, i ∈ ids -> includes i t -> exists m v, m ∈ mobile /\ variant t v /\ variant m v.

(** A mapping entry that allows a vacancy: one of its species is written "X" or "vacancy",
    in small or capital letters. *)
Definition vacancy_text (s : string) : bool := String.eqb (upper s) "X" || String.eqb (upper s) "VACANCY".
Definition allows_vacancy (v : allowedval) : bool := existsb vacancy_text (mapping_values v).
(** The mobile species: the given ones, or those that can be vacant. *)
Definition mobile_names (given : option (list string)) (mapping : list (spval * allowedval))
    (mobile : list string) : Prop :=
  match given with
  | Some l => mobile = l
  | None => mobile <> [] /\
      mobile = map (fun kv => str_of (fst kv)) (List.filter (fun kv => allows_vacancy (snd kv)) mapping)
  end.

(* ------------------------------------------------------------------ *)
(** ** Requests *)

(** The arguments of [generate_events]. *)
Record request := Request {
  rq_full : list gsite;
  rq_identifiers : option (list identifier);
  rq_shape : option (list Z);
  rq_cutoffs : option cutoff_dict;
  rq_mobile : option (list string);
  rq_mapping : list (spval * allowedval);
  rq_cutoff : option Q;
  rq_rtol : Q;
  rq_atol : Q;
  rq_nearest : bool;
}.

(** The cutoff of a pair of species: that of its last entry, in either order. *)
Definition pair_eqb (a b : string) (e : (string * string) * Q) : bool :=
  bool_decide (fst e = (a, b)) || bool_decide (fst e = (b, a)).
Definition cutoff_for (cutoffs : cutoff_dict) (a b : string) : Q :=
  match List.filter (pair_eqb a b) (rev cutoffs) with e :: _ => snd e | [] => 0%Q end.

(** The shape, with its default. *)
Definition shape_of (rq : request) (n : image3) : Prop :=
  positive n /\ match rq_shape rq with None => n = (2, 1, 1)%Z | Some l => l = list_of_image n end.

(** The kind of selection and the two identifiers. *)
Definition selection_of (rq : request) (kind : selection_kind) (initial target : identifier) : Prop :=
  exists mobile, mobile_names (rq_mobile rq) (rq_mapping rq) mobile /\
  match rq_identifiers rq with
  | None => kind = BySpecies /\ initial = IdMany mobile /\ target = IdMany mobile
  | Some ids => ids = [initial; target] /\ (kind = BySpecies <-> names_species ids mobile)
  end.

(** The sites that can hold several species, in the order of the primitive cell. *)
Definition active_cell (parse : string -> result species) (fp : fp_payload -> string) (rq : request)
    (cell : list gsite) : Prop :=
  exists o, from_structure_and_mapping parse fp (map gs_species (rq_full rq)) (rq_mapping rq) None = Ok o /\
    Forall2 (fun p s => rq_full rq !! Z.to_nat p = Some s) (o_prim_active o) cell.

(** The cutoffs: the given ones, or one cutoff between the mobile and all active species. *)
Definition cutoffs_of (rq : request) (cell : list gsite) (c : cutoff_dict) : Prop :=
  match rq_cutoffs rq with
  | Some l => c = l
  | None =>
      exists mobile r, mobile_names (rq_mobile rq) (rq_mapping rq) mobile /\
        (exists s, s ∈ cell /\ selects BySpecies (IdMany mobile) s) /\
        r = match rq_cutoff rq with Some x => if Qeq_bool x 0 then 4%Q else x | None => 4%Q end /\
        c = (m ← List.filter (fun s => site_matches_species_identifier s (IdMany mobile)) cell;
             s ← cell; [((species_string m, species_string s), r)])
  end.

(** Every site has its own local index. *)
Definition distinct_local_indices (l : list gsite) : Prop := NoDup (map gs_local l).

(** The radius of the neighbour search: the largest cutoff. *)
Definition search_radius (c : cutoff_dict) : Q := fold_right (fun e m => Qmax (snd e) m) 0%Q (rev c).

Section Search.
  Context {P : Type}.
  Variable get_neighbors : list gsite -> nat -> Q -> list (near P).

  (** The neighbours closer than the cutoff of the two species. *)
  Definition close (cell : list gsite) (c : cutoff_dict) (p : nat) (x : near P) : bool :=
    match cell !! p, cell !! nr_site x with
    | Some s, Some t => negb (Qle_bool (cutoff_for c (species_string s) (species_string t)) (nr_distance x))
    | _, _ => false
    end.
  Definition neighbours (cell : list gsite) (c : cutoff_dict) (p : nat) : list (near P) :=
    List.filter (close cell c p) (get_neighbors cell p (search_radius c)).
  (** [n] describes the neighbour [x]. *)
  Definition describes (cell : list gsite) (n : neighbor P) (x : near P) : Prop :=
    nb_index n = nr_site x /\ nb_image n = nr_image x /\ nb_coords n = nr_coords x /\
    exists s, cell !! nr_site x = Some s /\ nb_species n = species_string s /\
      nb_local n = gs_local s /\ nb_label n = gs_label s.
  (** The neighbour search answers with sites of the cell. *)
  Definition search_in_cell (cell : list gsite) : Prop :=
    forall p r x, x ∈ get_neighbors cell p r -> nr_site x < length cell.
  (** When [q] in image [t] is near [p], [p] in image [-t] is near [q]. *)
  Definition search_symmetric (cell : list gsite) : Prop :=
    forall p r x, p < length cell -> x ∈ get_neighbors cell p r ->
      nr_site x < length cell /\
      exists y, y ∈ get_neighbors cell (nr_site x) r /\ nr_site y = p /\
        nr_image y = negate (nr_image x) /\ (nr_distance y == nr_distance x)%Q.
End Search.

(** The event in which the ion of primitive site [p] in cell [a] hops to its neighbour
    [target]; [env] is the environment. *)
Definition hop {P} (n : image3) (p : nat) (a : image3) (env : list (neighbor P)) (target : neighbor P) : event :=
  Event [site_number n p a; site_number n (nb_index target) (a +v nb_image target)]
    (map (fun x => site_number n (nb_index x) (a +v nb_image x)) env).

Section Arrangement.
  Context {P : Type}.
  Variable distance : P -> P -> Q.
  Variable rtol atol : Q.
  Notation d a b := (distance (nb_coords a) (nb_coords b)).

  (** Site by site, two lists of neighbours have the same distances within the tolerances. *)
  Definition same_distances (ref env : list (neighbor P)) : Prop :=
    forall i j a b x y, i <> j -> ref !! i = Some a -> ref !! j = Some b -> env !! i = Some x -> env !! j = Some y ->
      (Qabs (d a b - d x y) <= atol + rtol * Qabs (d x y))%Q.
  Definition same_species (ref env : list (neighbor P)) : Prop := map nb_species env = map nb_species ref.
  (** The sum of all differences between distances. *)
  Definition deviation (ref env : list (neighbor P)) : Q :=
    fold_right Qplus 0%Q (zip_with (fun a x =>
      fold_right Qplus 0%Q (zip_with (fun b y => Qabs (d a b - d x y)) ref env)) ref env).

  (** [env] is listed in the order of [ref]: same species, and same distances or, where the
      nearest order is asked for and no order has them, the order of least deviation. *)
  Definition arranged (nearest : bool) (ref env : list (neighbor P)) : Prop :=
    same_species ref env /\
    (same_distances ref env \/
     nearest = true /\
     (forall env', Permutation env' env -> same_species ref env' -> ~ same_distances ref env') /\
     (forall env', Permutation env' env -> same_species ref env' -> (deviation ref env <= deviation ref env')%Q)).
  (** Some order of [l] has the species and distances of [ref]. *)
  Definition alike (ref l : list (neighbor P)) : Prop :=
    exists env, Permutation env l /\ same_species ref env /\ same_distances ref env.
End Arrangement.

(* ------------------------------------------------------------------ *)
(** ** Runs *)

(** What a request stands for: the active cell, the shape, the selection and the cutoffs. *)
Definition resolved (parse : string -> result species) (fp : fp_payload -> string) (rq : request)
    (cell : list gsite) (n : image3) (kind : selection_kind) (initial target : identifier)
    (c : cutoff_dict) : Prop :=
  shape_of rq n /\ selection_of rq kind initial target /\ active_cell parse fp rq cell /\ cutoffs_of rq cell c.

Section Run.
  Context {P : Type}.
  Variable parse : string -> result species.
  Variable fp : fp_payload -> string.
  Variable get_neighbors : list gsite -> nat -> Q -> list (near P).
  Variable order_leb : neighbor P -> neighbor P -> bool.
  Variable distance : P -> P -> Q.
  Variable round8 : Q -> Q.

  Definition run (rq : request) : result (@generated P) :=
    generate_events parse fp get_neighbors order_leb distance round8 (rq_full rq) (rq_identifiers rq)
      (rq_shape rq) (rq_cutoffs rq) (rq_mobile rq) (Some (rq_mapping rq)) (rq_cutoff rq)
      (rq_rtol rq) (rq_atol rq) (rq_nearest rq).

  (** [l] lists the neighbours of [p]. *)
  Definition neighbourhood (cell : list gsite) (c : cutoff_dict) (p : nat) (l : list (neighbor P)) : Prop :=
    exists xs, Permutation xs (neighbours get_neighbors cell c p) /\ Forall2 (describes cell) l xs.

  (** Two lists with the same number of neighbours of every species. *)
  Definition same_composition (l l' : list (neighbor P)) : Prop :=
    Permutation (map nb_species l) (map nb_species l').

  (** [r] is the first of the selected sites with the composition of its neighbourhood. *)
  Definition first_of_its_kind (cell : list gsite) (c : cutoff_dict) (kind : selection_kind)
      (initial : identifier) (r : nat) : Prop :=
    forall lr q s lq, neighbourhood cell c r lr -> q < r -> cell !! q = Some s -> selects kind initial s ->
      neighbourhood cell c q lq -> ~ same_composition lq lr.

  (** Every neighbourhood has the shape of the first one with its composition. *)
  Definition neighbourhoods_alike (rq : request) (cell : list gsite) (c : cutoff_dict)
      (kind : selection_kind) (initial : identifier) : Prop :=
    forall r sr lr p sp lp, r < p -> cell !! r = Some sr -> cell !! p = Some sp ->
      selects kind initial sr -> selects kind initial sp ->
      neighbourhood cell c r lr -> neighbourhood cell c p lp -> same_composition lr lp ->
      first_of_its_kind cell c kind initial r ->
      alike distance (rq_rtol rq) (rq_atol rq) lr lp.

  (** Some selected site has a neighbour that can be hopped to. *)
  Definition some_hop (cell : list gsite) (c : cutoff_dict) (kind : selection_kind)
      (initial target : identifier) : Prop :=
    exists p s x t, cell !! p = Some s /\ selects kind initial s /\ x ∈ neighbours get_neighbors cell c p /\
      cell !! nr_site x = Some t /\ selects kind target t.

  (** The environment the generator keeps for the copies of a site. *)
  Definition environment (g : @generated P) (s : gsite) (env : list (neighbor P)) : Prop :=
    dget (g_info g) (gs_local s) = Some env.
End Run.
