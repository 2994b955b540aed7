(** Properties C43, C44, C59 and C60. *)
From Coq Require Import QArith Qabs.
From Verif Require Import Py PyLemmas MatcherModel MatcherSpec MatcherProofs.
Local Open Scope nat_scope.

(** Examples: sites on a line. *)
Definition line (x y : Q) : Q := Qabs (x - y).
Definition made_of (species : list string) (coords : list Q) : cluster :=
  match cluster_new line None species coords None None with Ok c => c | Err _ => Cluster [] [] [] [] end.
Definition bent : cluster := made_of ["Na"; "Na"; "O"]%string [0; 1; 3]%Q.
Definition bent_shuffled : cluster :=
  match cluster_new line (Some [7; 9; 8]%Z) ["O"; "Na"; "Na"]%string [3; 1; 0]%Q None None with
  | Ok c => c | Err _ => Cluster [] [] [] [] end.
Definition straight : cluster := made_of ["Na"; "Na"; "O"]%string [0; 2; 1]%Q.
Definition stretched : cluster := made_of ["Na"; "Na"; "O"]%string [0; 20; 10]%Q.
Definition tol : Q := 1 # 1000.

Lemma line_sym x y : (line x y == line y x)%Q.
Proof. unfold line. by rewrite Qabs_Qminus. Qed.

(** Clusters built from coordinates have the shape the theorems ask for. *)
Theorem clusters_are_proper {P} (distance : P -> P -> Q) site_indices species coords roles matrix c :
  cluster_new distance site_indices species coords roles matrix = Ok c -> proper c.
Proof. exact (cluster_new_proper distance site_indices species coords roles matrix c). Qed.
Print Assumptions clusters_are_proper.
Theorem clusters_from_coordinates_are_symmetric {P} (distance : P -> P -> Q) site_indices species coords roles c :
  (forall x y, (distance x y == distance y x)%Q) ->
  cluster_new distance site_indices species coords roles None = Ok c -> symmetric c.
Proof. exact (cluster_new_symmetric distance site_indices species coords roles c). Qed.
Print Assumptions clusters_from_coordinates_are_symmetric.

Example cluster_example :
  cluster_new line None ["Na"; "Na"; "O"]%string [0; 1; 3]%Q None None = Ok bent /\
  proper bent /\ symmetric bent /\ proper bent_shuffled /\ symmetric bent_shuffled /\
  proper straight /\ symmetric straight /\ proper stretched /\ symmetric stretched.
Proof.
  assert (E1 : cluster_new line None ["Na"; "Na"; "O"]%string [0; 1; 3]%Q None None = Ok bent) by (vm_compute; reflexivity).
  assert (E2 : cluster_new line (Some [7; 9; 8]%Z) ["O"; "Na"; "Na"]%string [3; 1; 0]%Q None None = Ok bent_shuffled) by (vm_compute; reflexivity).
  assert (E3 : cluster_new line None ["Na"; "Na"; "O"]%string [0; 2; 1]%Q None None = Ok straight) by (vm_compute; reflexivity).
  assert (E4 : cluster_new line None ["Na"; "Na"; "O"]%string [0; 20; 10]%Q None None = Ok stretched) by (vm_compute; reflexivity).
  split; [exact E1|]. repeat split;
    first [exact (proj1 (cluster_new_proper _ _ _ _ _ _ _ E1)) | idtac].
  all: first
    [ exact (proj2 (proj2 (proj2 (cluster_new_proper _ _ _ _ _ _ _ E1))))
    | exact (cluster_new_symmetric _ _ _ _ _ _ line_sym E1)
    | exact (proj2 (proj2 (proj2 (cluster_new_proper _ _ _ _ _ _ _ E2))))
    | exact (cluster_new_symmetric _ _ _ _ _ _ line_sym E2)
    | exact (proj2 (proj2 (proj2 (cluster_new_proper _ _ _ _ _ _ _ E3))))
    | exact (cluster_new_symmetric _ _ _ _ _ _ line_sym E3)
    | exact (proj2 (proj2 (proj2 (cluster_new_proper _ _ _ _ _ _ _ E4))))
    | exact (cluster_new_symmetric _ _ _ _ _ _ line_sym E4)
    | vm_compute; reflexivity ].
Qed.

(** C43: a match is found exactly when some permutation keeps labels and distances. *)
Theorem match_found_iff round8 rtol atol ref cand :
  proper ref -> proper cand -> symmetric ref -> symmetric cand ->
  (exists m, cluster_match round8 ref rtol atol cand false false = Ok m) <->
  exists p, fits rtol atol ref cand p.
Proof. exact (found_iff_lemma round8 rtol atol ref cand). Qed.
Print Assumptions match_found_iff.

(** C43: what is returned is such a permutation, and the uniqueness flag is exact. *)
Theorem match_is_a_fit round8 rtol atol ref cand :
  proper ref -> proper cand -> symmetric ref -> symmetric cand ->
  forall require_unique nearest m,
  cluster_match round8 ref rtol atol cand require_unique nearest = Ok m ->
  (exists p, fits rtol atol ref cand p) ->
  fits rtol atol ref cand (reference_to_candidate m) /\ score m = 0%Q /\
  (is_unique m = true <-> forall p, fits rtol atol ref cand p -> p = reference_to_candidate m).
Proof. exact (found_lemma round8 rtol atol ref cand). Qed.
Print Assumptions match_is_a_fit.

(** C43: when uniqueness is required, success means there is exactly one. *)
Theorem unique_match_iff round8 rtol atol ref cand :
  proper ref -> proper cand -> symmetric ref -> symmetric cand ->
  forall nearest, (exists p, fits rtol atol ref cand p) ->
  (exists m, cluster_match round8 ref rtol atol cand true nearest = Ok m) <->
  exists p, forall p', fits rtol atol ref cand p' <-> p' = p.
Proof. exact (unique_iff_lemma round8 rtol atol ref cand). Qed.
Print Assumptions unique_match_iff.

(** C43: the inverse permutation and the reordered candidate are those of the
    permutation returned. *)
Theorem match_reports_its_permutation round8 rtol atol ref cand :
  proper ref -> proper cand -> symmetric ref -> symmetric cand ->
  forall require_unique nearest m,
  cluster_match round8 ref rtol atol cand require_unique nearest = Ok m ->
  label_preserving ref cand (reference_to_candidate m) /\
  inverse_of (reference_to_candidate m) (candidate_to_reference m) /\
  in_reference_order cand (reference_to_candidate m) (ordered_candidate m).
Proof. exact (match_reports round8 rtol atol ref cand). Qed.
Print Assumptions match_reports_its_permutation.

(** C43: the only failure is a ValueError. *)
Theorem match_fails_with_value_error round8 rtol atol ref cand :
  proper ref -> proper cand -> symmetric ref -> symmetric cand ->
  forall require_unique nearest e,
  cluster_match round8 ref rtol atol cand require_unique nearest = Err e -> e = ValueError.
Proof. exact (match_error round8 rtol atol ref cand). Qed.
Print Assumptions match_fails_with_value_error.

Example match_example :
  (match cluster_match id bent tol tol bent_shuffled true false with
   | Ok m => reference_to_candidate m = [2; 1; 0] /\ candidate_to_reference m = [2; 1; 0]%Z /\
             ordered_candidate_indices m = [8; 9; 7]%Z /\ is_unique m = true
   | Err _ => False end) /\
  (match cluster_match id straight tol tol straight false false with
   | Ok m => is_unique m = false
   | Err _ => False end) /\
  cluster_match id straight tol tol straight true false = Err ValueError /\
  cluster_match id straight tol tol bent false false = Err ValueError.
Proof. vm_compute. repeat split; reflexivity. Qed.

(** C43 needs symmetric distances: with an explicit matrix that is not symmetric only
    half of the entries are compared. *)
Theorem asymmetric_match_is_sound_refuted :
  exists ref cand m, proper ref /\ proper cand /\ symmetric ref /\
    cluster_match id ref tol tol cand true false = Ok m /\
    ~ fits tol tol ref cand (reference_to_candidate m).
Proof.
  exists (Cluster [0; 1]%Z ["Na"; "O"]%string [""; ""]%string [[0; 1]; [1; 0]]%Q),
         (Cluster [0; 1]%Z ["Na"; "O"]%string [""; ""]%string [[0; 5]; [1; 0]]%Q).
  eexists. split; [|split; [|split; [|split; [vm_compute; reflexivity|]]]].
  - split; [reflexivity|]. split; [reflexivity|]. split; [reflexivity|].
    intros [|[|i]] row H; simpl in H; [injection H as <-; reflexivity|injection H as <-; reflexivity|discriminate].
  - split; [reflexivity|]. split; [reflexivity|]. split; [reflexivity|].
    intros [|[|i]] row H; simpl in H; [injection H as <-; reflexivity|injection H as <-; reflexivity|discriminate].
  - intros [|[|i]] [|[|j]] x y Hx Hy; simpl in Hx, Hy; try discriminate; injection Hx as <-; injection Hy as <-; reflexivity.
  - intros [_ H]. specialize (H 0 1 0 1 1%Q 5%Q). assert (E : Qle_bool (Qabs (1 - 5)) (tol + tol * Qabs 5) = true).
    { apply Qle_bool_iff. apply H; try reflexivity. discriminate. }
    vm_compute in E. discriminate.
Qed.
Print Assumptions asymmetric_match_is_sound_refuted.

(** C44: without a fit, the nearest mode returns a label-preserving permutation of least
    total error, and reports that error. *)
Theorem nearest_match_is_optimal round8 rtol atol ref cand :
  proper ref -> proper cand -> symmetric ref -> symmetric cand ->
  Permutation (cl_labels ref) (cl_labels cand) ->
  (forall p, ~ fits rtol atol ref cand p) ->
  forall require_unique, exists m,
  cluster_match round8 ref rtol atol cand require_unique true = Ok m /\
  label_preserving ref cand (reference_to_candidate m) /\
  total_error ref cand (reference_to_candidate m) (score m) /\
  (forall p x, label_preserving ref cand p -> total_error ref cand p x -> (score m <= x)%Q) /\
  inverse_of (reference_to_candidate m) (candidate_to_reference m) /\
  in_reference_order cand (reference_to_candidate m) (ordered_candidate m) /\
  is_unique m = true.
Proof. exact (nearest_result round8 rtol atol ref cand). Qed.
Print Assumptions nearest_match_is_optimal.

(** C44: the nearest mode fails only when no permutation keeps the labels. *)
Theorem nearest_match_fails_iff round8 rtol atol ref cand :
  proper ref -> proper cand -> symmetric ref -> symmetric cand ->
  (cluster_match round8 ref rtol atol cand false true = Err ValueError <->
   forall p, ~ label_preserving ref cand p).
Proof. exact (nearest_fails_lemma round8 rtol atol ref cand). Qed.
Print Assumptions nearest_match_fails_iff.

Example nearest_example :
  match cluster_match id bent tol tol straight false true with
  | Ok m => reference_to_candidate m = [0; 1; 2] /\ Qeq (score m) 8 /\ is_unique m = true
  | Err _ => False end.
Proof. vm_compute. repeat split; reflexivity. Qed.

(** C44: the flag of a nearest match says "unique" even when another permutation has the
    same error. *)
Theorem nearest_unique_flag_refuted :
  exists ref cand m q x, cluster_match id ref tol tol cand true true = Ok m /\ is_unique m = true /\
    label_preserving ref cand q /\ q <> reference_to_candidate m /\
    nearest_score ref cand q = Ok x /\ (x == score m)%Q.
Proof.
  exists straight, stretched. eexists. exists [1; 0; 2]. eexists.
  split; [vm_compute; reflexivity|]. split; [reflexivity|]. split.
  - split; [reflexivity|]. split; [reflexivity|]. split.
    + apply (bool_decide_eq_true_1 (NoDup [1; 0; 2])). vm_compute. reflexivity.
    + intros [|[|[|i]]] c H; simpl in H; try discriminate; injection H as <-; eexists; split; reflexivity.
  - split; [discriminate|]. split; [vm_compute; reflexivity|]. vm_compute. reflexivity.
Qed.
Print Assumptions nearest_unique_flag_refuted.

(** C59: listing the candidate's sites in another order changes neither whether it matches
    nor, when the match is unique, the sites in reference order. *)
Theorem match_ignores_candidate_order round8 rtol atol ref cand s cand' :
  proper ref -> proper cand -> symmetric ref -> symmetric cand -> reordered cand s cand' ->
  (exists m, cluster_match round8 ref rtol atol cand false false = Ok m) <->
  (exists m, cluster_match round8 ref rtol atol cand' false false = Ok m).
Proof. exact (order_found_lemma round8 rtol atol ref cand s cand'). Qed.
Print Assumptions match_ignores_candidate_order.
Theorem unique_match_is_canonical round8 rtol atol ref cand s cand' m :
  proper ref -> proper cand -> symmetric ref -> symmetric cand -> reordered cand s cand' ->
  forall require_unique,
  cluster_match round8 ref rtol atol cand require_unique false = Ok m -> is_unique m = true ->
  exists m', cluster_match round8 ref rtol atol cand' require_unique false = Ok m' /\
    ordered_candidate m' = ordered_candidate m /\ is_unique m' = true.
Proof. exact (order_lemma round8 rtol atol ref cand s cand' m). Qed.
Print Assumptions unique_match_is_canonical.

Definition bent_named : cluster :=
  match cluster_new line (Some [8; 9; 7]%Z) ["Na"; "Na"; "O"]%string [0; 1; 3]%Q None None with
  | Ok c => c | Err _ => Cluster [] [] [] [] end.
Example order_example :
  reordered bent_named [2; 1; 0] bent_shuffled /\
  match cluster_match id bent tol tol bent_named true false, cluster_match id bent tol tol bent_shuffled true false with
  | Ok m, Ok m' => ordered_candidate m' = ordered_candidate m /\ ordered_candidate_indices m = [8; 9; 7]%Z /\
                   reference_to_candidate m <> reference_to_candidate m'
  | _, _ => False end.
Proof.
  split.
  - split; [exact (proj1 (proj2 (proj2 (proj2 cluster_example))))|].
    split; [apply (bool_decide_eq_true_1 (Permutation [2; 1; 0] [0; 1; 2])); vm_compute; reflexivity|]. split; [reflexivity|].
    intros [|[|[|i]]] k H; simpl in H; try discriminate; injection H as <-; (split; [reflexivity|]); (split; [reflexivity|]);
      (split; [reflexivity|]); intros [|[|[|j]]] l H; simpl in H; try discriminate; injection H as <-; vm_compute; reflexivity.
  - vm_compute. repeat split; try reflexivity. discriminate.
Qed.

(** C59: without uniqueness the order reported does depend on how the candidate is listed. *)
Theorem ambiguous_match_is_canonical_refuted :
  exists ref cand s cand' m m', reordered cand s cand' /\
    cluster_match id ref tol tol cand false false = Ok m /\
    cluster_match id ref tol tol cand' false false = Ok m' /\
    ordered_candidate_indices m' <> ordered_candidate_indices m.
Proof.
  exists straight,
    (Cluster [5; 6; 7]%Z (cl_species straight) (cl_roles straight) (cl_dist straight)), [1; 0; 2],
    (Cluster [6; 5; 7]%Z (cl_species straight) (cl_roles straight) (cl_dist straight)).
  eexists. eexists. split; [|split; [vm_compute; reflexivity|split; [vm_compute; reflexivity|]]].
  - split; [|split; [|split]].
    + split; [reflexivity|]. split; [reflexivity|]. split; [reflexivity|].
      exact (proj2 (proj2 (proj2 (proj1 (proj2 (proj2 (proj2 (proj2 (proj2 cluster_example))))))))).
    + apply (bool_decide_eq_true_1 (Permutation [1; 0; 2] [0; 1; 2])); vm_compute; reflexivity.
    + reflexivity.
    + intros [|[|[|i]]] k H; simpl in H; try discriminate; injection H as <-; (split; [reflexivity|]); (split; [reflexivity|]);
        (split; [reflexivity|]); intros [|[|[|j]]] l H; simpl in H; try discriminate; injection H as <-; vm_compute; reflexivity.
  - vm_compute. discriminate.
Qed.
Print Assumptions ambiguous_match_is_canonical_refuted.

(** C60: two clusters are equal exactly when some permutation keeps labels, and distances
    within the default tolerances. *)
Theorem clusters_equal_iff round8 a b :
  proper a -> proper b -> symmetric a -> symmetric b ->
  cluster_eq round8 a b = true <-> exists p, fits (1 # 1000) (1 # 1000) a b p.
Proof. exact (eq_iff_fits round8 a b). Qed.
Print Assumptions clusters_equal_iff.
Theorem equality_ignores_site_order round8 a s b :
  proper a -> symmetric a -> reordered a s b ->
  cluster_eq round8 a b = true /\ cluster_eq round8 b a = true.
Proof. exact (eq_reordered_lemma round8 a s b). Qed.
Print Assumptions equality_ignores_site_order.
Theorem equality_is_reflexive round8 c : proper c -> symmetric c -> cluster_eq round8 c c = true.
Proof. exact (fun P S => proj1 (eq_reordered_lemma round8 c _ c P S (proper_refl_reordered c P))). Qed.
Print Assumptions equality_is_reflexive.

Example equality_example :
  cluster_eq id bent_named bent_shuffled = true /\ cluster_eq id bent straight = false.
Proof. vm_compute. split; reflexivity. Qed.

(** C60: the tolerance is relative to the right-hand side, so equality is neither symmetric
    nor transitive. *)
Theorem equality_is_symmetric_refuted :
  exists a b, cluster_eq id a b = true /\ cluster_eq id b a = false.
Proof.
  exists (made_of ["Na"; "O"]%string [0; 1000]%Q), (made_of ["Na"; "O"]%string [0; 1001002 # 1000]%Q).
  vm_compute. split; reflexivity.
Qed.
Print Assumptions equality_is_symmetric_refuted.
Theorem equality_is_transitive_refuted :
  exists a b c, cluster_eq id a b = true /\ cluster_eq id b c = true /\ cluster_eq id a c = false.
Proof.
  exists (made_of ["Na"; "O"]%string [0; 10]%Q), (made_of ["Na"; "O"]%string [0; 10011 # 1000]%Q),
    (made_of ["Na"; "O"]%string [0; 10022 # 1000]%Q).
  vm_compute. repeat split; reflexivity.
Qed.
Print Assumptions equality_is_transitive_refuted.
