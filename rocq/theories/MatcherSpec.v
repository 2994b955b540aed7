(** Vocabulary for the statements about cluster matching. *)
From Coq Require Import QArith Qabs.
From Verif Require Import Py MatcherModel.
Local Open Scope nat_scope.

Definition size (c : cluster) : nat := length (cl_species c).

(** The shapes the constructor enforces. *)
Definition proper (c : cluster) : Prop :=
  length (cl_indices c) = size c /\ length (cl_roles c) = size c /\
  length (cl_dist c) = size c /\ forall i row, cl_dist c !! i = Some row -> length row = size c.

(** The distance between sites [i] and [j]. *)
Definition dist_at (c : cluster) (i j : nat) : option Q :=
  match cl_dist c !! i with Some row => row !! j | None => None end.
Definition symmetric (c : cluster) : Prop :=
  forall i j x y, dist_at c i j = Some x -> dist_at c j i = Some y -> (x == y)%Q.

(** [p] sends site [i] of the reference to a site [p[i]] of the candidate with the same
    species and role, and uses every candidate site once. *)
Definition label_preserving (ref cand : cluster) (p : list nat) : Prop :=
  length p = size ref /\ size cand = size ref /\ NoDup p /\
  forall i c, p !! i = Some c ->
    exists l, cl_labels ref !! i = Some l /\ cl_labels cand !! c = Some l.

(** All distances agree within the tolerances. *)
Definition distances_agree (rtol atol : Q) (ref cand : cluster) (p : list nat) : Prop :=
  forall i j c d a b, i <> j -> p !! i = Some c -> p !! j = Some d ->
    dist_at ref i j = Some a -> dist_at cand c d = Some b ->
    (Qabs (a - b) <= atol + rtol * Qabs b)%Q.

Definition fits (rtol atol : Q) (ref cand : cluster) (p : list nat) : Prop :=
  label_preserving ref cand p /\ distances_agree rtol atol ref cand p.

(** The total error of a permutation: the sum of all distance differences. *)
Definition error_row (ref cand : cluster) (p : list nat) (i : nat) (x : Q) : Prop :=
  exists l, length l = size ref /\ x = fold_right Qplus 0%Q l /\
    forall j e, l !! j = Some e ->
      exists c d a b, p !! i = Some c /\ p !! j = Some d /\
        dist_at ref i j = Some a /\ dist_at cand c d = Some b /\ e = Qabs (a - b).
Definition total_error (ref cand : cluster) (p : list nat) (x : Q) : Prop :=
  exists l, length l = size ref /\ x = fold_right Qplus 0%Q l /\
    forall i e, l !! i = Some e -> error_row ref cand p i e.

(** [c'] is [c] with its sites listed in another order: its site [i] is site [s[i]]
    of [c]. *)
Definition reordered (c : cluster) (s : list nat) (c' : cluster) : Prop :=
  proper c' /\ Permutation s (seq 0 (size c)) /\ size c' = size c /\
  forall i k, s !! i = Some k ->
    cl_indices c' !! i = cl_indices c !! k /\ cl_species c' !! i = cl_species c !! k /\
    cl_roles c' !! i = cl_roles c !! k /\
    forall j l, s !! j = Some l -> dist_at c' i j = dist_at c k l.

(** The candidate in the order of the reference. *)
Definition in_reference_order (cand : cluster) (p : list nat) (out : cluster) : Prop :=
  reordered cand p out.

(** [inv] is the inverse of the permutation [p]. *)
Definition inverse_of (p : list nat) (inv : list Z) : Prop :=
  length inv = length p /\ forall i c, p !! i = Some c <-> inv !! c = Some (Z.of_nat i).
