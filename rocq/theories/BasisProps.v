(** Properties C42 and C56. *)
From Coq Require Import Reals Lra.
From Verif Require Import Py PyLemmas Json BasisModel BasisSpec BasisProofs.
Local Open Scope nat_scope.

(* ---------------- C42 ---------------- *)
(** A checked occupation holds only values of its basis; anything else is a ValueError. *)
Theorem checked_occupations_are_legal :
  forall data b,
  (forall o, occupation_new data b true = Ok o <-> o = Occupation b data /\ legal (Occupation b data)) /\
  (forall x, occupation_new data b true = Err x -> x = ValueError).
Proof. exact (fun data b => conj (new_checked_lemma data b) (new_error_lemma data b)). Qed.
Print Assumptions checked_occupations_are_legal.

(** Between two-state bases a conversion keeps every atom and every vacancy, and
    converting back gives the original object. *)
Theorem conversion_keeps_the_pattern :
  forall o b, two_state (oc_basis o) -> two_state b -> legal o ->
  oc_basis (to_basis o b) = b /\ legal (to_basis o b) /\ same_pattern o (to_basis o b).
Proof.
  exact (fun o b H H' Hl => conj (f_equal oc_basis (to_basis_conv o b)) (convert_pattern_lemma o b H H' Hl)).
Qed.
Print Assumptions conversion_keeps_the_pattern.

Theorem conversion_round_trip :
  forall o b, two_state (oc_basis o) -> two_state b -> legal o ->
  to_basis (to_basis o b) (oc_basis o) = o.
Proof. exact convert_back_lemma. Qed.
Print Assumptions conversion_round_trip.

(** The named converters of both classes agree with the general conversion. *)
Theorem named_converters_agree :
  forall v, v = 0%Z \/ v = 1%Z ->
  to_chebyshev v = convert_to OccupationBasis v (ChebyshevBasis 2) /\
  from_occupation v = convert_to OccupationBasis v (ChebyshevBasis 2) /\
  to_occupation v = convert_to (ChebyshevBasis 2) v OccupationBasis /\
  from_chebyshev v = convert_to (ChebyshevBasis 2) v OccupationBasis.
Proof. exact explicit_converters. Qed.
Print Assumptions named_converters_agree.

(** Equivalence across bases is equality of the patterns. *)
Theorem equivalence_is_same_pattern :
  forall a b, two_state (oc_basis a) -> two_state (oc_basis b) -> legal a -> legal b ->
  equivalent_to a b = true <-> same_pattern a b.
Proof. exact equivalent_lemma. Qed.
Print Assumptions equivalence_is_same_pattern.

(** The index lists are exactly the atoms and the vacancies, the counts are their
    lengths, and together they are all the sites. *)
Theorem counts_and_indices :
  forall o,
  lists_exactly (get_occupied_indices o) (occupied_at o) /\
  lists_exactly (get_vacant_indices o) (vacant_at o) /\
  get_match_indices o = get_occupied_indices o /\ get_mismatch_indices o = get_vacant_indices o /\
  count_occupied o = length (get_occupied_indices o) /\ count_vacant o = length (get_vacant_indices o) /\
  count_match o = count_occupied o /\ count_mismatch o = count_vacant o /\
  (two_state (oc_basis o) -> legal o -> count_occupied o + count_vacant o = length (oc_data o)).
Proof. exact counts_lemma. Qed.
Print Assumptions counts_and_indices.

(** A flip swaps atom and vacancy at the sites named an odd number of times and leaves
    every other site alone. *)
Theorem flip_swaps_the_named_sites :
  forall o indices o',
  two_state (oc_basis o) -> legal o -> flip o indices = Ok o' ->
  oc_basis o' = oc_basis o /\ length (oc_data o') = length (oc_data o) /\ legal o' /\
  forall k, k < length (oc_data o) ->
    if Nat.odd (times_named (length (oc_data o)) k indices)
    then (occupied_at o' k <-> vacant_at o k) /\ (vacant_at o' k <-> occupied_at o k)
    else oc_data o' !! k = oc_data o !! k.
Proof. exact flip_lemma. Qed.
Print Assumptions flip_swaps_the_named_sites.

Theorem flip_twice_is_identity :
  forall o indices o',
  two_state (oc_basis o) -> legal o -> flip o indices = Ok o' -> flip o' indices = Ok o.
Proof. exact flip_twice_lemma. Qed.
Print Assumptions flip_twice_is_identity.

Theorem zeros_are_vacant_ones_are_occupied :
  forall n b,
  length (oc_data (zeros n b)) = n /\ length (oc_data (ones n b)) = n /\
  forall i, i < n -> vacant_at (zeros n b) i /\ occupied_at (ones n b) i.
Proof. exact zeros_ones_lemma. Qed.
Print Assumptions zeros_are_vacant_ones_are_occupied.

(** A saved basis loads as itself. *)
Theorem basis_round_trip :
  forall b, match b with ChebyshevBasis n => (2 <= n)%Z | OccupationBasis => True end ->
  basis_from_dict (basis_as_dict b) = Ok b.
Proof. exact dict_lemma. Qed.
Print Assumptions basis_round_trip.

(** Example: five sites, atoms at 0, 2 and 3, in both bases. *)
Definition x_occ : occupation := Occupation OccupationBasis [1; 0; 1; 1; 0]%Z.
Definition x_cheb : occupation := Occupation (ChebyshevBasis 2) [0; 1; 0; 0; 1]%Z.
Example two_state_bases :
  occupation_new [1; 0; 1; 1; 0]%Z OccupationBasis true = Ok x_occ
  /\ occupation_new [1; 0; 2; 1; 0]%Z OccupationBasis true = Err ValueError
  /\ legal x_occ /\ two_state (oc_basis x_occ) /\ two_state (oc_basis x_cheb)
  /\ to_basis x_occ (ChebyshevBasis 2) = x_cheb
  /\ equivalent_to x_occ x_cheb = true
  /\ get_occupied_indices x_cheb = [0; 2; 3] /\ count_vacant x_cheb = 2
  /\ flip x_occ [0; -1; 2; 2; 2; -5]%Z = Ok (Occupation OccupationBasis [1; 0; 0; 1; 1]%Z)
  /\ flip x_occ [5]%Z = Err IndexError
  /\ basis_from_dict (basis_as_dict (ChebyshevBasis 4)) = Ok (ChebyshevBasis 4).
Proof.
  split; [reflexivity|]. split; [reflexivity|]. split.
  { apply validate_legal. reflexivity. }
  split; [by left|]. split; [by right|]. repeat (split; [vm_compute; reflexivity|]). reflexivity.
Qed.

(** None of this carries over to three states per site: flipping twice loses the third
    state, the two conversion methods disagree about it, atoms and vacancies no longer
    make up all sites, and different occupations are called equivalent. *)
Theorem flip_twice_with_three_states_refuted :
  exists o indices o',
  oc_basis o = ChebyshevBasis 3 /\ legal o /\ flip o indices = Ok o' /\ flip o' indices <> Ok o.
Proof.
  exists (Occupation (ChebyshevBasis 3) [2]%Z), [0%Z], (Occupation (ChebyshevBasis 3) [0]%Z).
  split; [done|]. split; [by apply validate_legal|]. split; [done|]. vm_compute. discriminate.
Qed.
Print Assumptions flip_twice_with_three_states_refuted.

Theorem conversions_of_a_third_state_agree_refuted :
  exists v, legal_value (ChebyshevBasis 3) v /\
  means_occupied OccupationBasis (convert_to (ChebyshevBasis 3) v OccupationBasis) /\
  means_vacant OccupationBasis (to_occupation v).
Proof. exists 2%Z. by vm_compute. Qed.
Print Assumptions conversions_of_a_third_state_agree_refuted.

Theorem equivalence_with_three_states_refuted :
  exists a b, oc_basis a = ChebyshevBasis 3 /\ oc_basis b = ChebyshevBasis 3 /\ legal a /\ legal b /\
  equivalent_to a b = true /\ oc_data a <> oc_data b /\
  count_occupied b + count_vacant b < length (oc_data b).
Proof.
  exists (Occupation (ChebyshevBasis 3) [0; 1]%Z), (Occupation (ChebyshevBasis 3) [2; 1]%Z).
  do 2 (split; [done|]). do 2 (split; [by apply validate_legal|]). split; [done|]. split; [done|].
  vm_compute. lia.
Qed.
Print Assumptions equivalence_with_three_states_refuted.

(** Assignment checks after it has written: a rejected value stays in the object. *)
Theorem rejected_assignment_changes_nothing_refuted :
  exists o i v o', legal o /\ setitem o i v = (Err ValueError, o') /\ ~ legal o'.
Proof.
  exists x_occ, 0%Z, 7%Z, (Occupation OccupationBasis [7; 0; 1; 1; 0]%Z).
  split; [by apply validate_legal|]. split; [reflexivity|]. intros H. apply validate_legal in H. done.
Qed.
Print Assumptions rejected_assignment_changes_nothing_refuted.

(** Asking for the basis an occupation already has, by name, can make it illegal. *)
Theorem conversion_to_own_basis_stays_legal_refuted :
  exists o o', legal o /\ to_basis_named o (basis_name (oc_basis o)) = Ok o' /\ ~ legal o'.
Proof.
  exists (Occupation (ChebyshevBasis 3) [2]%Z), (Occupation (ChebyshevBasis 2) [2]%Z).
  split; [by apply validate_legal|]. split; [reflexivity|]. intros H. apply validate_legal in H. done.
Qed.
Print Assumptions conversion_to_own_basis_stays_legal_refuted.

(* ---------------- C56 ---------------- *)
(** One row of site functions per state, as long as the advertised number of functions. *)
Theorem site_function_table_shape :
  forall b n row, row ∈ site_basis_values b n ->
  length (site_basis_values b n) = n /\ length row = num_site_basis_functions b n.
Proof. exact shape_lemma. Qed.
Print Assumptions site_function_table_shape.

(** Every function of a site's state is one, and only one, combination of a constant
    and the Chebyshev site functions. *)
Theorem chebyshev_site_functions_are_complete :
  forall max_states n f, 2 <= n -> length f = n ->
  exists c0 c, length c = n - 1 /\ reproduces (site_basis_values (ChebyshevBasis max_states) n) c0 c f.
Proof. exact complete_lemma. Qed.
Print Assumptions chebyshev_site_functions_are_complete.

Theorem chebyshev_coefficients_are_unique :
  forall max_states n f c0 c d0 d, 2 <= n ->
  reproduces (site_basis_values (ChebyshevBasis max_states) n) c0 c f ->
  reproduces (site_basis_values (ChebyshevBasis max_states) n) d0 d f -> c0 = d0 /\ c = d.
Proof. exact unique_lemma. Qed.
Print Assumptions chebyshev_coefficients_are_unique.

Theorem occupation_site_function_is_complete_for_two_states :
  forall f0 f1, exists c0 c1, reproduces (site_basis_values OccupationBasis 2) c0 [c1] [f0; f1].
Proof. exact occupation_two_lemma. Qed.
Print Assumptions occupation_site_function_is_complete_for_two_states.

(** Example: three states; the table is [(-1, 1), (0, -1), (1, 1)]. *)
Example three_states :
  reproduces (site_basis_values (ChebyshevBasis 3) 3) 2 [1; 3]%R [4; -1; 6]%R.
Proof.
  split; [done|]. intros [|[|[|i]]] row y Hr Hy; simpl in Hr, Hy; try done;
    injection Hr as <-; injection Hy as <-; (split; [done|]); unfold encoded; simpl; lra.
Qed.

(** The occupation basis cannot tell the second from the third species of a site. *)
Theorem occupation_site_function_is_complete_refuted :
  exists f, length f = 3 /\ forall c0 c, ~ reproduces (site_basis_values OccupationBasis 3) c0 c f.
Proof.
  exists [0; 0; 1]%R. split; [done|]. intros c0 c [_ H].
  destruct (H 1 _ 0%R eq_refl eq_refl) as [Hl H1]. destruct (H 2 _ 1%R eq_refl eq_refl) as [_ H2].
  destruct c as [|a [|]]; try done. simpl in H1, H2. lra.
Qed.
Print Assumptions occupation_site_function_is_complete_refuted.
