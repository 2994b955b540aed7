(** Vocabulary for the statements about hop state codes. *)
From Verif Require Import Py ActiveSiteModel ActiveSiteSpec EventModel.

(** The labels the code base counts as a vacancy. *)
Definition vacancy_name (s : string) : Prop :=
  s ∈ ["X"; "Vacancy"; "vacancy"; "Va"; "VA"]%string.

(** [c] is the last position of a label satisfying [P], or -1 without one. *)
Definition last_position (P : string -> Prop) (labels : list string) (c : Z) : Prop :=
  (c = (-1)%Z /\ forall s, s ∈ labels -> ~ P s) \/
  exists n s, c = Z.of_nat n /\ labels !! n = Some s /\ P s /\
    forall m s', labels !! m = Some s' -> P s' -> m <= n.

(** At most one position satisfies [P]. *)
Definition at_most_one (P : string -> Prop) (labels : list string) : Prop :=
  forall i j s s', labels !! i = Some s -> labels !! j = Some s' -> P s -> P s' -> i = j.

(** The allowed species of active site [a]: those of its own primitive site. *)
Definition site_labels (o : order) (a : nat) (labels : list string) : Prop :=
  exists k, o_a2o o !! a = Some k /\
            o_allowed o !! Z.to_nat (k / cells (o_shape o)) = Some labels.

(** Active site [a] currently holds a species whose label satisfies [P]. *)
Definition holds (o : order) (occ : list Z) (a : nat) (P : string -> Prop) : Prop :=
  exists labels c s, site_labels o a labels /\ occ !! a = Some c /\ (0 <= c)%Z /\
    labels !! Z.to_nat c = Some s /\ P s.

(** Every active site's state code names one of its allowed species. *)
Definition codes_in_range (o : order) (occ : list Z) : Prop :=
  forall a labels, site_labels o a labels ->
    exists c, occ !! a = Some c /\ (0 <= c < Z.of_nat (length labels))%Z.

(** Each site allows the mobile species at most once and one vacancy label. *)
Definition unambiguous (o : order) (mobile : string) : Prop :=
  forall a labels, site_labels o a labels ->
    at_most_one (eq mobile) labels /\ at_most_one vacancy_name labels.
