(** Vocabulary for the statements about site-energy models. *)
From Coq Require Import Reals QArith.
From Verif Require Import Py EventModel EventSpec SiteEnergyModel.
Local Open Scope nat_scope.

(** The user's mapping of active site [i]. *)
Definition site_of (c : se_config) (i : nat) : option Z :=
  match site_mapping c with
  | None => Some (Z.of_nat i)
  | Some m => dget m (Z.of_nat i)
  end.

(** Different active sites are mapped to different external sites. *)
Definition injective_sites (c : se_config) (n : nat) : Prop :=
  forall i j p, i < n -> j < n -> site_of c i = Some p -> site_of c j = Some p -> i = j.

(** The user's mapping of state code [s] at site [i]: the site's own table if there is
    one, else the common table, else the code itself. *)
Definition value_of (c : se_config) (i : nat) (s : Z) : option ext_value :=
  let own := match state_mapping_by_site c with
             | Some d => dget d (Z.of_nat i)
             | None => None
             end in
  match own with
  | Some m => dget m s
  | None => match state_mapping c with
            | Some m => dget m s
            | None => Some (EInt s)
            end
  end.

(** Dictionaries have each key once. *)
Definition proper_dicts (c : se_config) : Prop :=
  (forall m, site_mapping c = Some m -> NoDup (dkeys m)) /\
  (forall m, state_mapping c = Some m -> NoDup (dkeys m)) /\
  (forall d, state_mapping_by_site c = Some d -> NoDup (dkeys d) /\
     forall i m, dget d i = Some m -> NoDup (dkeys m)).

(** The value position [p] has before any site is written. *)
Definition starting_value (c : se_config) (p : nat) : option ext_value :=
  match initial_array c with
  | Some a => a_values a !! p
  | None => Some (external_fill c)
  end.

(** One unit of energy in meV. *)
Definition in_mev (u : units) : R := match u with MeV => 1%R | EV => 1000%R end.

(** The order the simulation gives is the one the model was built for. *)
Definition accepts_order (c : se_config) (given : option (string * nat)) (n : nat) : Prop :=
  match given with
  | Some (h, k) => k = n /\ forall h', site_order_hash c = Some h' -> h' = h
  | None => forall h k, site_order c = Some (h, k) -> k = n
  end.

(** A complete configuration without a starting array or element type of its own: every
    site has a position inside the array, every code a value, and every event moves
    between two sites that can show each other's codes. *)
Definition usable (c : se_config) (occ : list Z) (es : list event) : Prop :=
  initial_array c = None /\ external_dtype c = None /\ is_number (external_fill c) = true /\
  (forall s, external_size c = Some s -> (0 <= s)%Z) /\
  (forall i, i < length occ -> exists p, site_of c i = Some (Z.of_nat p) /\
     forall s, external_size c = Some s -> (Z.of_nat p < s)%Z) /\
  (forall i s, occ !! i = Some s -> exists v, value_of c i s = Some v) /\
  forall e, e ∈ es -> exists f g x y,
    mobile_ion_indices e = [Z.of_nat f; Z.of_nat g] /\
    occ !! f = Some x /\ occ !! g = Some y /\
    value_of c f y <> None /\ value_of c g x <> None.

Section SiteEnergySpec.
  Variable text : ext_value -> string.
  Variable parse_int : string -> option Z.
  Variable parse_float : string -> option Q.
  Notation cast := (cast text parse_int parse_float).

  (** The external array [a] with element type [d] shows the occupations [occ]: at the
      external site of every active site the (converted) mapped value of its code, up to
      Python equality, and elsewhere the (converted) starting value. *)
  Definition mirrors (c : se_config) (d : dtype) (a : list ext_value) (occ : list Z) : Prop :=
    (forall i s, occ !! i = Some s -> exists p v w x,
       site_of c i = Some (Z.of_nat p) /\ value_of c i s = Some v /\ cast d v = Ok w /\
       a !! p = Some x /\ ext_eqb x w = true) /\
    (forall p x, a !! p = Some x ->
       (forall i, i < length occ -> site_of c i <> Some (Z.of_nat p)) ->
       exists v, starting_value c p = Some v /\ cast d v = Ok x).

  (** Equal values convert to equal values: true unless a text array is given numbers. *)
  Definition text_only_for_text (c : se_config) (d : dtype) : Prop :=
    match d with
    | DText _ => forall i s v, value_of c i s = Some v -> exists t, v = EStr t
    | _ => True
    end.

  (** The energy difference of an event is determined by its changes and by the contents
      of the event's own sites, external and internal. *)
  Definition local_function {Rt} (c : se_config) (n : nat)
      (f : Rt -> list ext_value -> list change -> event -> list Z -> result R) : Prop :=
    forall rt rt' a a' chs e occ occ', length occ = n -> length occ' = n ->
      (forall i p, touches e (Z.of_nat i) -> i < n -> site_of c i = Some (Z.of_nat p) ->
         a !! p = a' !! p /\ occ !! i = occ' !! i) ->
      f rt a chs e occ = f rt' a' chs e occ'.

  (** The callable evaluates differences of the energy [H]: the energy of the array with
      the changes stored, minus its energy now. *)
  Definition difference_of {Rt} (H : list ext_value -> R) (d : dtype)
      (f : Rt -> list ext_value -> list change -> event -> list Z -> result R) : Prop :=
    forall rt a chs e occ a',
      rfold (fun a ch => store text parse_int parse_float d a (ch_external ch) (ch_new ch))
        a chs = Ok a' ->
      f rt a chs e occ = Ok (H a' - H a)%R.

  (** An energy function that does not distinguish equal Python values. *)
  Definition same_values (a b : list ext_value) : Prop :=
    Forall2 (fun x y => ext_eqb x y = true) a b.
  Definition respects_values (H : list ext_value -> R) : Prop :=
    forall a b, same_values a b -> H a = H b.
End SiteEnergySpec.
