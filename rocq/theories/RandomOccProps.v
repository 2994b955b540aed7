(** C107: random occupations. *)
From Coq Require Import QArith.
From Verif Require Import Py Json BasisModel RandomOccModel RandomOccSpec RandomOccProofs.
Local Open Scope nat_scope.

(** C107.  A random occupation has the number of sites asked for, in the basis asked for.
    One number is drawn for each site in turn, after reseeding if there is a seed, and the
    site is occupied if its number is less than the fill fraction, else vacant. *)
Theorem random_occupation_site_by_site :
  forall G (seeded : Z -> G) draw n a fill seed g g' o,
  random_occupation seeded draw n a fill seed g = (g', Ok o) ->
  g' = after draw (Z.to_nat n) (start seeded seed g) /\
  Z.of_nat (length (oc_data o)) = n /\ basis_of a = Ok (oc_basis o) /\
  forall i, (Z.of_nat i < n)%Z ->
    oc_data o !! i = Some (if is_less (number draw (start seeded seed g) i) fill
                           then occupied_value (oc_basis o) else vacant_value (oc_basis o)).
Proof. intros G seeded draw. exact (site_lemma seeded draw). Qed.
Print Assumptions random_occupation_site_by_site.

(** C107.  It is valid: every value is one of the basis.  As many sites are occupied as
    numbers are less than the fill fraction; all other sites are vacant. *)
Theorem random_occupation_is_valid :
  forall G (seeded : Z -> G) draw n a fill seed g g' o,
  (forall b, a = Object b -> proper_basis b) ->
  random_occupation seeded draw n a fill seed g = (g', Ok o) ->
  validate o = Ok tt /\
  count_occupied o = length (List.filter (fun x => is_less x fill)
                       (map (number draw (start seeded seed g)) (seq 0 (Z.to_nat n)))) /\
  count_occupied o + count_vacant o = Z.to_nat n.
Proof. intros G seeded draw. exact (count_less_lemma seeded draw). Qed.
Print Assumptions random_occupation_is_valid.

(** C107.  A fill fraction of zero or less leaves every site vacant, one of one or more
    fills every site, whatever is drawn. *)
Theorem fill_fraction_limits :
  forall G (seeded : Z -> G) draw n a fill seed g g' o,
  unit_numbers draw ->
  random_occupation seeded draw n a fill seed g = (g', Ok o) ->
  ((fill <= 0)%Q -> o = zeros (Z.to_nat n) (oc_basis o)) /\
  ((1 <= fill)%Q -> o = ones (Z.to_nat n) (oc_basis o)).
Proof. intros G seeded draw. exact (full_lemma seeded draw). Qed.
Print Assumptions fill_fraction_limits.

(** C107.  With a seed, the answer and the generator after the call do not depend on what
    was drawn before. *)
Theorem seeded_occupation_repeats :
  forall G (seeded : Z -> G) draw n a fill s g g', (0 <= s < 4294967296)%Z ->
  random_occupation seeded draw n a fill (Some s) g = random_occupation seeded draw n a fill (Some s) g'.
Proof. intros G seeded draw. exact (seed_lemma seeded draw). Qed.
Print Assumptions seeded_occupation_repeats.

(** C107.  From the same numbers, a larger fill fraction fills more sites and empties
    none, in whatever bases. *)
Theorem larger_fraction_only_adds :
  forall G (seeded : Z -> G) draw n a a' fill fill' seed g g1 g2 o o',
  (fill <= fill')%Q ->
  random_occupation seeded draw n a fill seed g = (g1, Ok o) ->
  random_occupation seeded draw n a' fill' seed g = (g2, Ok o') ->
  g1 = g2 /\ no_more_atoms o o'.
Proof. intros G seeded draw. exact (nested_lemma seeded draw). Qed.
Print Assumptions larger_fraction_only_adds.

(** C107.  From the same numbers, the occupation in another basis is the conversion of the
    occupation in the first. *)
Theorem random_occupation_in_another_basis :
  forall G (seeded : Z -> G) draw n a b' fill seed g g' o,
  random_occupation seeded draw n a fill seed g = (g', Ok o) ->
  exists o', random_occupation seeded draw n (Object b') fill seed g = (g', Ok o') /\
    oc_basis o' = b' /\ oc_data o' = oc_data (to_basis o b').
Proof. intros G seeded draw. exact (basis_lemma seeded draw). Qed.
Print Assumptions random_occupation_in_another_basis.

(** C107.  Without a seed, calls one after another go on with the numbers: together they
    give what one call for all the sites gives. *)
Theorem unseeded_calls_continue :
  forall G (seeded : Z -> G) draw n m a fill g g1 g2 o1 o2,
  random_occupation seeded draw n a fill None g = (g1, Ok o1) ->
  random_occupation seeded draw m a fill None g1 = (g2, Ok o2) ->
  exists o, random_occupation seeded draw (n + m)%Z a fill None g = (g2, Ok o) /\
    oc_basis o = oc_basis o1 /\ oc_data o = (oc_data o1 ++ oc_data o2)%list.
Proof. intros G seeded draw. exact (concat_lemma seeded draw). Qed.
Print Assumptions unseeded_calls_continue.

(** C107.  What is refused: a seed numpy does not take, a negative number of sites, a basis
    that does not exist; nothing else.  With the first nothing is drawn. *)
Theorem random_occupation_refuses :
  forall G (seeded : Z -> G) draw n a fill seed g,
  (forall g' x, random_occupation seeded draw n a fill seed g = (g', Err x) -> x = ValueError) /\
  ((exists g' x, random_occupation seeded draw n a fill seed g = (g', Err x)) <->
   (exists s, seed = Some s /\ (s < 0 \/ 4294967296 <= s)%Z) \/ (n < 0)%Z \/
   (exists name, a = Named name /\ name <> "occupation"%string /\ name <> "chebyshev"%string)) /\
  (forall s, seed = Some s -> (s < 0 \/ 4294967296 <= s)%Z ->
   fst (random_occupation seeded draw n a fill seed g) = g).
Proof. intros G seeded draw. exact (refuses_lemma seeded draw). Qed.
Print Assumptions random_occupation_refuses.

(** A generator for the examples: it counts in tenths. *)
Definition tenths (g : Z) : Q * Z := ((g mod 10)%Z # 10, (g + 3)%Z).
Lemma tenths_unit : unit_numbers tenths.
Proof.
  intros g. cbn. pose proof (Z.mod_pos_bound g 10 eq_refl). unfold Qle, Qlt. cbn. lia.
Qed.

(** C107, refuted: a seeded call does not disturb other users of numpy's generator.  It
    puts the global generator into the state of the seed, and later unseeded occupations
    follow from it. *)
Theorem seeded_call_is_private_refuted :
  exists G (seeded : Z -> G) draw n fill s g g1,
    unit_numbers draw /\
    fst (random_occupation seeded draw n (Named "chebyshev") fill (Some s) g) = g1 /\
    snd (random_occupation seeded draw n (Named "chebyshev") fill None g1)
      <> snd (random_occupation seeded draw n (Named "chebyshev") fill None g).
Proof.
  exists Z, (fun s => s), tenths, 2%Z, (1 # 2), 0%Z, 1%Z. eexists.
  split; [exact tenths_unit|]. split; [reflexivity|]. vm_compute. intros H. discriminate H.
Qed.
Print Assumptions seeded_call_is_private_refuted.

(** C107, refuted: a call that is refused leaves the generator alone.  A basis name that
    does not exist is noticed only after reseeding and drawing. *)
Theorem refused_call_draws_nothing_refuted :
  exists G (seeded : Z -> G) draw n name fill g g1 x,
    unit_numbers draw /\
    random_occupation seeded draw n (Named name) fill None g = (g1, Err x) /\ g1 <> g.
Proof.
  exists Z, (fun s => s), tenths, 2%Z, "spin"%string, (1 # 2), 1%Z. do 2 eexists.
  split; [exact tenths_unit|]. split; [reflexivity|]. by vm_compute.
Qed.
Print Assumptions refused_call_draws_nothing_refuted.

(** C107, refuted: the fill fraction is the fraction of sites occupied. *)
Theorem fill_fraction_is_exact_refuted :
  exists G (seeded : Z -> G) draw n fill g g' o,
    unit_numbers draw /\
    random_occupation seeded draw n (Named "occupation") fill None g = (g', Ok o) /\
    (inject_Z n * fill == 1)%Q /\ count_occupied o = 2.
Proof.
  exists Z, (fun s => s), tenths, 2%Z, (1 # 2), 1%Z. do 2 eexists.
  split; [exact tenths_unit|]. split; [reflexivity|]. by vm_compute.
Qed.
Print Assumptions fill_fraction_is_exact_refuted.

(** Not vacuous: four sites at two fractions and in two bases. *)
Example random_example :
  random_occupation (fun s => s) tenths 4 (Named "chebyshev") (1 # 2) (Some 1%Z) 77%Z
    = (13%Z, Ok (Occupation (ChebyshevBasis 2) [0; 0; 1; 0]%Z)) /\
  random_occupation (fun s => s) tenths 4 (Named "occupation") (8 # 10) (Some 1%Z) 5%Z
    = (13%Z, Ok (Occupation OccupationBasis [1; 1; 1; 1]%Z)).
Proof. by vm_compute. Qed.
