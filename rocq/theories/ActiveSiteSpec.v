(** Vocabulary for the statements about active-site orders. *)
From Coq Require Import Sorted QArith.
From Verif Require Import Py ActiveSiteModel.
Local Open Scope nat_scope.

(** Number of unit cells of a supercell shape. *)
Definition cells (shape : list Z) : Z := fold_right Z.mul 1%Z shape.

(** Strictly increasing. *)
Definition increasing : list Z -> Prop := StronglySorted Z.lt.

(** The two index lists split 0..n-1. *)
Definition splits (n : Z) (active fixed : list Z) : Prop :=
  increasing active /\ increasing fixed /\
  forall k, ((0 <= k < n)%Z <-> k ∈ active \/ k ∈ fixed) /\ ~ (k ∈ active /\ k ∈ fixed).

(** An order that some template, mapping and shape produced. *)
Definition built (parse : string -> result species) (fp : fp_payload -> string)
    (template : list species) (mapping : list (spval * allowedval))
    (shape : option (list Z)) (o : order) : Prop :=
  from_structure_and_mapping parse fp template mapping shape = Ok o.

(** Equality up to the attached template (which the source excludes from [==]). *)
Definition same_order (o1 o2 : order) : Prop :=
  o_prim_count o1 = o_prim_count o2 /\ o_orig_count o1 = o_orig_count o2 /\
  o_prim_active o1 = o_prim_active o2 /\ o_a2o o1 = o_a2o o2 /\
  o_a2p o1 = o_a2p o2 /\ o_fixed o1 = o_fixed o2 /\ o_shape o1 = o_shape o2 /\
  o_species o1 = o_species o2 /\ o_allowed o1 = o_allowed o2 /\ o_fp o1 = o_fp o2.

(** What the fingerprint of an order is computed from. *)
Definition payload_of (o : order) : fp_payload :=
  {| f_prim_count := o_prim_count o; f_orig_count := o_orig_count o;
     f_prim_active := o_prim_active o; f_a2o := o_a2o o; f_a2p := o_a2p o;
     f_shape := o_shape o; f_species := o_species o; f_allowed := o_allowed o |}.

(** [x] is the smallest entry of [l] and [i] its first position. *)
Definition first_minimum (l : list Q) (i : nat) (x : Q) : Prop :=
  l !! i = Some x /\ (forall j y, l !! j = Some y -> (x <= y)%Q) /\
  (forall j y, j < i -> l !! j = Some y -> (x < y)%Q).

(** The periodic nearest template position of an input site, within tolerance. *)
Definition placed {S} (distances : S -> list Q) (tol : Q) (s : S) (k : Z) : Prop :=
  exists d, first_minimum (distances s) (Z.to_nat k) d /\ (0 <= k)%Z /\ (d <= tol)%Q.
