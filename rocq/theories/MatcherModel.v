(** Model of the cluster matching of kmcpy/structure/cluster.py (Cluster, ClusterMatch,
    ClusterMatcher).  Distances are exact rationals. *)
From Coq Require Import QArith Qabs.
From Verif Require Import Py.
Local Open Scope nat_scope.

(** lines 180-263.  Coordinates, metadata, the Molecule and the symmetry symbol take no
    part in matching and are left out. *)
Notation label := (string * string)%type.
Record cluster := Cluster {
  cl_indices : list Z;
  cl_species : list string;
  cl_roles : list string;
  cl_dist : list (list Q);
}.

(** lines 305-308. *)
Definition cl_labels (c : cluster) : list label := zip (cl_species c) (cl_roles c).

Section Cluster.
  (** [np.linalg.norm] of a difference of two positions. *)
  Context {P : Type}.
  Variable distance : P -> P -> Q.

  (** lines 335-342. *)
  Definition build_distance_matrix (coords : list P) : list (list Q) :=
    map (fun x => map (fun y => distance x y) coords) coords.

  (** lines 209-255, from species and coordinates. *)
  Definition cluster_new (site_indices : option (list Z)) (species : list string)
      (coords : list P) (roles : option (list string)) (matrix : option (list (list Q)))
    : result cluster :=
    let n := length species in
    if negb (Nat.eqb (length coords) n) then Err ValueError else
    let indices := match site_indices with
                   | Some l => l
                   | None => map Z.of_nat (seq 0 n)
                   end in
    if negb (Nat.eqb (length indices) n) then Err ValueError else
    let roles := match roles with Some l => l | None => replicate n ""%string end in
    if negb (Nat.eqb (length roles) n) then Err ValueError else
    match matrix with
    | None => Ok (Cluster indices species roles (build_distance_matrix coords))
    | Some m =>
        if Nat.eqb (length m) n && forallb (fun row => Nat.eqb (length row) n) m
        then Ok (Cluster indices species roles m)
        else Err ValueError
    end.
End Cluster.

(** [l[i]] for an index that is not negative. *)
Definition at_nat {A} (l : list A) (i : nat) : result A :=
  match l !! i with Some x => Ok x | None => Err IndexError end.
Definition entry (m : list (list Q)) (i j : nat) : result Q :=
  let* row := at_nat m i in at_nat row j.

(** Python's [sorted]; the keys compared here are never equal. *)
Section Sort.
  Context {A : Type} (leb : A -> A -> bool).
  Fixpoint insert (x : A) (l : list A) : list A :=
    match l with
    | [] => [x]
    | y :: l' => if leb x y then x :: y :: l' else y :: insert x l'
    end.
  Definition sorted (l : list A) : list A := fold_right insert [] l.
End Sort.

(** Comparison of labels: pairs of (ASCII) text. *)
Definition label_leb (a b : label) : bool :=
  match String.compare (fst a) (fst b) with
  | Lt => true
  | Gt => false
  | Eq => String.leb (snd a) (snd b)
  end.

(** lines 310-316. *)
Definition label_counts (labels : list label) : dict label nat :=
  fold_left (fun d l => dset d l (match dget d l with Some n => n | None => 0 end + 1)) labels [].
Definition signature (c : cluster) : list (label * nat) :=
  sorted (fun a b => label_leb (fst a) (fst b)) (label_counts (cl_labels c)).

(** lines 504-506 and 578-580. *)
Definition by_label (labels : list label) : dict label (list nat) :=
  fold_left (fun d e => dset d (snd e)
                          ((match dget d (snd e) with Some l => l | None => [] end) ++ [fst e]))
    (enumerate labels) [].

(** [np.isclose] on finite numbers. *)
Definition isclose (rtol atol a b : Q) : bool :=
  Qle_bool (Qabs (a - b)) (atol + rtol * Qabs b).

(** lines 429-438. *)
Record match_result := Match {
  reference_to_candidate : list nat;
  candidate_to_reference : list Z;
  ordered_candidate : cluster;
  is_unique : bool;
  score : Q;
}.
Definition ordered_candidate_indices (m : match_result) : list Z :=
  cl_indices (ordered_candidate m).

(** [itertools.permutations] and [itertools.product]. *)
Fixpoint picks {A} (l : list A) : list (A * list A) :=
  match l with
  | [] => []
  | x :: l' => (x, l') :: map (fun p => (fst p, x :: snd p)) (picks l')
  end.
Fixpoint permutations_fuel {A} (n : nat) (l : list A) : list (list A) :=
  match n with
  | 0 => [[]]
  | S n' => p ← picks l; map (cons (fst p)) (permutations_fuel n' (snd p))
  end.
Definition permutations {A} (l : list A) : list (list A) := permutations_fuel (length l) l.
Fixpoint product {A} (ls : list (list A)) : list (list A) :=
  match ls with
  | [] => [[]]
  | l :: ls' => x ← l; map (cons x) (product ls')
  end.

Section Matcher.
  (** [np.round(x, 8)]. *)
  Variable round8 : Q -> Q.
  (** lines 444-452. *)
  Variable reference : cluster.
  Variable rtol atol : Q.

  (** lines 541-553.  The index in the key makes all keys different. *)
  Fixpoint row_compare (a b : list Q) : comparison :=
    match a, b with
    | [], [] => Eq
    | [], _ => Lt
    | _, [] => Gt
    | x :: a', y :: b' => match (x ?= y)%Q with Eq => row_compare a' b' | c => c end
    end.
  Definition key_leb (a b : nat * list Q * nat) : bool :=
    let '(n, r, i) := a in
    let '(n', r', i') := b in
    match Nat.compare n n' with
    | Lt => true
    | Gt => false
    | Eq => match row_compare r r' with Lt => true | Gt => false | Eq => Nat.leb i i' end
    end.
  Definition assignment_key (groups : dict label (list nat)) (index : nat)
    : result (nat * list Q * nat) :=
    let* row := at_nat (cl_dist reference) index in
    let* lab := at_nat (cl_labels reference) index in
    let* members := dgetitem groups lab in
    Ok (length members, map round8 (sorted Qle_bool row), index).
  Definition reference_assignment_order (groups : dict label (list nat)) : result (list nat) :=
    let* keys := rmapM (assignment_key groups) (seq 0 (length (cl_species reference))) in
    Ok (map snd (sorted key_leb keys)).

  (** lines 555-572. *)
  Definition is_partial_distance_match (candidate : cluster) (ref_index candidate_index : nat)
      (assigned : list (option nat)) : result bool :=
    rfold (fun (ok : bool) (e : nat * option nat) =>
             if ok then
               match snd e with
               | None => Ok true
               | Some other =>
                   let* a := entry (cl_dist reference) ref_index (fst e) in
                   let* b := entry (cl_dist candidate) candidate_index other in
                   Ok (isclose rtol atol a b)
               end
             else Ok false)
      true (enumerate assigned).

  (** lines 513-536; [todo] is the rest of [reference_order]. *)
  Fixpoint backtrack (candidate : cluster) (groups : dict label (list nat))
      (stop_after : option nat) (todo : list nat) (assigned : list (option nat))
      (used : list nat) (matches : list (list (option nat))) : result (list (list (option nat))) :=
    if match stop_after with Some n => Nat.leb n (length matches) | None => false end
    then Ok matches
    else
      match todo with
      | [] => Ok (matches ++ [assigned])
      | ref_index :: todo' =>
          let* lab := at_nat (cl_labels reference) ref_index in
          let* members := dgetitem groups lab in
          rfold (fun matches candidate_index =>
                   if bool_decide (candidate_index ∈ used) then Ok matches
                   else
                     let* ok := is_partial_distance_match candidate ref_index candidate_index
                                  assigned in
                     if ok
                     then backtrack candidate groups stop_after todo'
                            (<[ref_index := Some candidate_index]> assigned)
                            (candidate_index :: used) matches
                     else Ok matches)
            matches members
      end.

  (** lines 498-539; [int(None)] is a TypeError. *)
  Definition complete (l : list (option nat)) : result (list nat) :=
    rmapM (fun o => match o with Some i => Ok i | None => Err TypeError end) l.
  Definition matching_permutations (candidate : cluster) (stop_after : option nat)
    : result (list (list nat)) :=
    let groups := by_label (cl_labels candidate) in
    let* order := reference_assignment_order groups in
    let* found := backtrack candidate groups stop_after order
                    (replicate (length (cl_species reference)) None) [] [] in
    rmapM complete found.

  (** lines 607-616. *)
  Definition qsum (l : list Q) : Q := fold_right Qplus 0%Q l.
  Definition permuted (m : list (list Q)) (p : list nat) : result (list (list Q)) :=
    rmapM (fun i => let* row := at_nat m i in rmapM (at_nat row) p) p.
  Definition matrix_error (a b : list (list Q)) : Q :=
    qsum (zip_with (fun r s => qsum (zip_with (fun x y => Qabs (x - y)) r s)) a b).
  Definition nearest_score (candidate : cluster) (p : list nat) : result Q :=
    let* m := permuted (cl_dist candidate) p in
    Ok (matrix_error (cl_dist reference) m).

  (** lines 597-606. *)
  Definition fill_groups (groups : list (list nat)) (choice : list (list nat)) : list nat :=
    fold_left (fun l (gc : list nat * list nat) =>
                 fold_left (fun l (rc : nat * nat) => <[fst rc := snd rc]> l)
                   (zip (fst gc) (snd gc)) l)
      (zip groups choice) (replicate (length (cl_species reference)) 0).

  (** lines 574-623. *)
  Definition reference_group (lab : label) : list nat :=
    map fst (List.filter (fun e => bool_decide (snd e = lab)) (enumerate (cl_labels reference))).
  Definition nearest_permutation (candidate : cluster) : result (list nat * Q) :=
    let groups := by_label (cl_labels candidate) in
    let labels := sorted label_leb (dkeys groups) in
    let* members := rmapM (dgetitem groups) labels in
    let refs := map reference_group labels in
    let* best :=
      rfold (fun best choice =>
               let p := fill_groups refs choice in
               let* s := nearest_score candidate p in
               Ok (match best with
                   | Some (_, s') => if Qle_bool s' s then best else Some (p, s)
                   | None => Some (p, s)
                   end))
        None (product (map permutations members)) in
    match best with Some ps => Ok ps | None => Err ValueError end.

  (** lines 625-660; the match's fingerprint is that of [ordered_candidate]. *)
  Definition build_match (candidate : cluster) (p : list nat) (unique : bool) (score : Q)
    : result match_result :=
    let* inverse := rfold (fun l e => if Nat.ltb (snd e) (length l) then Ok (<[snd e := Z.of_nat (fst e)]> l)
                                      else Err IndexError)
                      (replicate (length p) (-1)%Z) (enumerate p) in
    let* indices := rmapM (at_nat (cl_indices candidate)) p in
    let* species := rmapM (at_nat (cl_species candidate)) p in
    let* roles := rmapM (at_nat (cl_roles candidate)) p in
    let* matrix := permuted (cl_dist candidate) p in
    Ok (Match p inverse (Cluster indices species roles matrix) unique score).

  (** lines 491-496 and 454-475. *)
  Definition cluster_match (candidate : cluster) (require_unique find_nearest : bool)
    : result match_result :=
    if negb (bool_decide (signature reference = signature candidate)) then Err ValueError else
    let* found := matching_permutations candidate (Some 2) in
    match found with
    | p :: rest =>
        let unique := Nat.eqb (length found) 1 in
        if require_unique && negb unique then Err ValueError
        else build_match candidate p unique 0%Q
    | [] =>
        if find_nearest then
          let* ps := nearest_permutation candidate in
          build_match candidate (fst ps) true (snd ps)
        else Err ValueError
    end.
End Matcher.

(** lines 375-384: [a == b], for clusters. *)
Definition cluster_eq (round8 : Q -> Q) (a b : cluster) : bool :=
  if negb (Nat.eqb (length (cl_indices a)) (length (cl_indices b))) then false
  else match cluster_match round8 a (1 # 1000) (1 # 1000) b false false with
       | Ok _ => true
       | Err _ => false
       end.
