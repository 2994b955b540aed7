(** Vocabulary for the statements about local environments. *)
From Coq Require Import QArith Qabs.
From Verif Require Import Py Json ActiveSiteModel ActiveSiteSpec BasisModel LatticeModel MatcherModel LocalEnvModel.
Local Open Scope nat_scope.

(* ------------------------------------------------------------------ *)
(** ** Local site orders *)

(** The two orders that can be given by name. *)
Definition default_order : local_order :=
  LocalOrder "kmcpy_default" ["species_string"%string] false (1 # 1000).
Definition nasicon_order : local_order :=
  LocalOrder "nasicon_nat_commun_2022" ["species"; "cartesian_x"]%string true (1 # 1000).

(** What a dictionary leaves out is taken from the order of that name, or, for another name,
    from the default order. *)
Definition base_of (name : string) : local_order :=
  if String.eqb name (lo_name nasicon_order) then nasicon_order else default_order.
Definition given {A} (x : option A) (d : A) : A := match x with Some a => a | None => d end.

(** The order used: the one given, with the choice about the centre replaced if one is
    passed. *)
Definition rule_used (o : local_order) (exclude : option bool) : local_order :=
  LocalOrder (lo_name o) (lo_keys o) (given exclude (lo_exclude o)) (lo_tol o).

(** The keys the sites can be sorted by. *)
Definition known_keys : list string :=
  ["species_string"; "species"; "cartesian_x"; "cartesian_y"; "cartesian_z"]%string.

(* ------------------------------------------------------------------ *)
(** ** Positions *)

(** The same position, as numbers. *)
Definition point_eq (p q : point) : Prop :=
  let '(x, y, z) := p in let '(x', y', z') := q in (x == x')%Q /\ (y == y')%Q /\ (z == z')%Q.

(** The image [t] of a site at [f] lies within [r] of [c]. *)
Definition reaches (m : cell) (f : coords) (t : image) (c : point) (r : Q) : Prop :=
  (0 <= r)%Q /\ (norm2 (vsub (to_cart m (shift f t)) c) <= r * r)%Q.

(** The periodic search finds each image of each site within the radius, once, and nothing
    else. *)
Definition search_exact (sphere : cell -> list coords -> point -> Q -> list (nat * image)) (m : cell) : Prop :=
  forall fs c r, NoDup (sphere m fs c r) /\
    forall i t, (i, t) ∈ sphere m fs c r <-> exists f, fs !! i = Some f /\ reaches m f t c r.

(** Where the centre is: on the given site, or at the given fractional coordinates. *)
Definition centre_is (m : cell) (template : list site) (center : center_arg) (c : point) : Prop :=
  match center with
  | CIndex i => exists k s, i = Z.of_nat k /\ template !! k = Some s /\ point_eq c (to_cart m (snd s))
  | CPoint [x; y; z] => point_eq c (to_cart m (x, y, z))
  | _ => False
  end.

(** The active site [a] is site [i] of the template. *)
Definition active_is (o : order) (a i : nat) : Prop := o_a2o o !! a = Some (Z.of_nat i).

(** The image [t] of template site [i] at [f] is left out: the order leaves out the centre,
    and the site is the one given as the centre or lies on it. *)
Definition left_out (rule : local_order) (m : cell) (center : center_arg) (i : nat) (f : coords) (t : image)
    (c : point) : Prop :=
  lo_exclude rule = true /\ (center = CIndex (Z.of_nat i) \/ reaches m f t c (lo_tol rule)).

(** The image [t] of active site [a] belongs to the environment. *)
Definition belongs_to_environment (o : order) (rule : local_order) (m : cell) (template : list site)
    (center : center_arg) (c : point) (cutoff : Q) (a : nat) (t : image) : Prop :=
  exists i s, active_is o a i /\ template !! i = Some s /\ reaches m (snd s) t c cutoff /\
    ~ left_out rule m center i (snd s) t c.

(** [keys] lists what belongs to the environment, in its order: number and image. *)
Definition listed (m : cell) (template : list site) (center : center_arg) (cutoff : Q) (e : local_lattice)
    (keys : list (nat * image)) : Prop :=
  NoDup keys /\ length keys = length (ll_sites e) /\ length keys = length (ll_indices e) /\
  (forall a t, (a, t) ∈ keys <->
     belongs_to_environment (ll_order e) (ll_rule e) m template center (ll_center e) cutoff a t).

(** The centre can be used: an active site, or three coordinates. *)
Definition usable_centre (o : order) (center : center_arg) : Prop :=
  match center with
  | CIndex i => i ∈ o_a2o o
  | CPoint l => length l = 3
  | COther => False
  end.

(** Site [k] of the environment is the image [t] of active site [a]: its species without
    charge, its position relative to the centre, its number. *)
Definition describes (m : cell) (template : list site) (e : local_lattice) (k a : nat) (t : image) : Prop :=
  ll_indices e !! k = Some (Z.of_nat a) /\
  exists i sp f symbol x, active_is (ll_order e) a i /\ template !! i = Some (sp, f) /\
    sp_symbol sp = Some symbol /\
    ll_sites e !! k = Some (Species symbol (Some symbol) None, x) /\
    point_eq x (vsub (to_cart m (shift f t)) (ll_center e)).

(* ------------------------------------------------------------------ *)
(** ** Order of the sites *)

Section Order.
  Variable electronegativity : string -> option Q.

  Definition less_electronegative (a b : string) : Prop :=
    match electronegativity a, electronegativity b with
    | Some x, Some y => (x < y)%Q
    | Some _, None => True
    | None, _ => False
    end.

  Definition coordinate (key : string) (p : point) : option Q :=
    let '(x, y, z) := p in
    if String.eqb key "cartesian_x" then Some x
    else if String.eqb key "cartesian_y" then Some y
    else if String.eqb key "cartesian_z" then Some z else None.

  (** [s] is smaller than [t] in the given key: the text of the species, the species (less
      electronegative first, then by symbol), a coordinate. *)
  Definition less_in (key : string) (s t : species * point) : Prop :=
    let a := sp_str (fst s) in let b := sp_str (fst t) in
    key = "species_string"%string /\ String.ltb a b = true \/
    key = "species"%string /\
      (less_electronegative a b \/
       ~ less_electronegative b a /\ String.ltb a b = true) \/
    exists x y, coordinate key (snd s) = Some x /\ coordinate key (snd t) = Some y /\ (x < y)%Q.

  (** [s] comes before [t]: smaller in the first key in which they differ. *)
  Fixpoint comes_before (keys : list string) (s t : species * point) : Prop :=
    match keys with
    | [] => False
    | k :: keys' => less_in k s t \/ ~ less_in k t s /\ comes_before keys' s t
    end.

  (** The keys tell any two sites of the environment apart. *)
  Definition told_apart (keys : list string) (sites : list (species * point)) : Prop :=
    forall j k s t, j <> k -> sites !! j = Some s -> sites !! k = Some t ->
      comes_before keys s t \/ comes_before keys t s.
End Order.

(** [fs] lists the coordinates of the active sites. *)
Definition positions (o : order) (template : list site) (fs : list coords) : Prop :=
  forall a i s, active_is o a i -> template !! i = Some s -> exists f, fs !! a = Some f /\ point_eq f (snd s).

(** Something belongs to the environment. *)
Definition something_belongs (o : order) (rule : local_order) (m : cell) (template : list site)
    (center : center_arg) (cutoff : Q) : Prop :=
  exists c a t, centre_is m template center c /\ belongs_to_environment o rule m template center c cutoff a t.

(* ------------------------------------------------------------------ *)
(** ** The same crystal *)

(** Fractional coordinates moved by [v] and by some whole lattice vectors. *)
Definition moved_by (v : coords) (f f' : coords) : Prop :=
  exists t : image, point_eq f' (shift (vadd f v) t).

(** The same sites in the same order, all moved by [v], each perhaps given by another image;
    and the same centre in it. *)
Definition same_sites (v : coords) (template template' : list site) : Prop :=
  Forall2 (fun s s' => fst s' = fst s /\ moved_by v (snd s) (snd s')) template template'.
Definition same_centre (v : coords) (c c' : center_arg) : Prop :=
  match c, c' with
  | CIndex i, CIndex i' => i' = i
  | CPoint [x; y; z], CPoint [x'; y'; z'] => moved_by v (x, y, z) (x', y', z')
  | _, _ => False
  end.

(** The same environment: the same sites at the same positions relative to the centre, in the
    same order. *)
Definition same_environment (e e' : local_lattice) : Prop :=
  ll_indices e' = ll_indices e /\
  Forall2 (fun s s' => fst s' = fst s /\ point_eq (snd s) (snd s')) (ll_sites e) (ll_sites e') /\
  la_allowed (ll_lattice e') = la_allowed (ll_lattice e) /\
  la_basis (ll_lattice e') = la_basis (ll_lattice e).

(** The hash is that of the species and rounded positions of the sites, in order. *)
Definition hashed (round8 : Q -> Q) (site_hash : list (string * point) -> string) (e : local_lattice) : Prop :=
  length (ll_signature e) = length (ll_sites e) /\
  (forall k sp x y z, ll_sites e !! k = Some (sp, (x, y, z)) ->
     ll_signature e !! k = Some (sp_str sp, (round8 x, round8 y, round8 z))) /\
  ll_hash e = site_hash (ll_signature e).

(* ------------------------------------------------------------------ *)
(** ** Mappings *)

(** The keys of the mapping, as species, are different. *)
Definition distinct_keys (parse : string -> result species) (mapping : list (spval * allowedval)) : Prop :=
  forall i j kv kv' k, mapping !! i = Some kv -> mapping !! j = Some kv' ->
    normalize_species parse (fst kv) = Ok k -> normalize_species parse (fst kv') = Ok k -> i = j.

(** When a key of the mapping applies to a species, it applies to its element. *)
Definition keys_name_elements (parse : string -> result species) (mapping : list (spval * allowedval))
    (template : list site) : Prop :=
  forall s kv k symbol, s ∈ template -> kv ∈ mapping -> normalize_species parse (fst kv) = Ok k ->
    sp_symbol (fst s) = Some symbol -> species_equivalent (SObj (fst s)) (SObj k) = true ->
    species_equivalent (SObj (Species symbol (Some symbol) None)) (SObj k) = true.

(* ------------------------------------------------------------------ *)
(** ** Matching *)

(** One index per site; the constructor and matching keep it so. *)
Definition indexed (e : local_lattice) : Prop := length (ll_indices e) = length (ll_sites e).

(** [p] sends site [i] of the reference to site [p[i]] of the other environment: each site
    once, the same species, all distances within the tolerances. *)
Definition keeps_species (ref e : local_lattice) (p : list nat) : Prop :=
  length (ll_sites e) = length (ll_sites ref) /\ length p = length (ll_sites ref) /\ NoDup p /\
  forall i c, p !! i = Some c -> exists s t, ll_sites ref !! i = Some s /\ ll_sites e !! c = Some t /\
    sp_str (fst s) = sp_str (fst t).
Definition fits_reference (distance : point -> point -> Q) (rtol atol : Q) (ref e : local_lattice) (p : list nat) : Prop :=
  keeps_species ref e p /\
  forall i j c d s s' t t', i <> j -> p !! i = Some c -> p !! j = Some d ->
    ll_sites ref !! i = Some s -> ll_sites ref !! j = Some s' -> ll_sites e !! c = Some t -> ll_sites e !! d = Some t' ->
    (Qabs (distance (snd s) (snd s') - distance (snd t) (snd t')) <= atol + rtol * Qabs (distance (snd t) (snd t')))%Q.

(** [e'] is [e] with its sites in the order [p]: site [k] of [e'] is site [p[k]] of [e]. *)
Definition rearranged (e : local_lattice) (p : list nat) (e' : local_lattice) : Prop :=
  Permutation p (seq 0 (length (ll_sites e))) /\
  length (ll_sites e') = length p /\ length (ll_indices e') = length p /\
  (forall k i, p !! k = Some i -> ll_sites e' !! k = ll_sites e !! i /\ ll_indices e' !! k = ll_indices e !! i) /\
  ll_lattice e' = ll_lattice e /\ ll_order e' = ll_order e /\ ll_rule e' = ll_rule e /\
  ll_center e' = ll_center e /\ ll_center_index e' = ll_center_index e.

(** [p] takes the reference onto the environment without changing any distance: rotations,
    reflections and renumberings do so. *)
Definition congruent_by (distance : point -> point -> Q) (ref e : local_lattice) (p : list nat) : Prop :=
  keeps_species ref e p /\
  forall i j c d s s' t t', p !! i = Some c -> p !! j = Some d ->
    ll_sites ref !! i = Some s -> ll_sites ref !! j = Some s' -> ll_sites e !! c = Some t -> ll_sites e !! d = Some t' ->
    (distance (snd s) (snd s') == distance (snd t) (snd t'))%Q.
