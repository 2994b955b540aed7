(** Vocabulary for the statements about event libraries. *)
From Verif Require Import Py Json ActiveSiteModel EventModel.

(** Event [e] names site [s] as an endpoint or in its local environment. *)
Definition touches (e : event) (s : Z) : Prop :=
  s ∈ mobile_ion_indices e \/ s ∈ local_env_indices e.

(** Two events have a site in common. *)
Definition share_site (e1 e2 : event) : Prop := exists s, touches e1 s /\ touches e2 s.

(** How often [e] names [s]. *)
Definition mentions (e : event) (s : Z) : nat :=
  count_occ Z.eq_dec (mobile_ion_indices e) s + count_occ Z.eq_dec (local_env_indices e) s.

(** The index list a site should have: event by event, the event's index once per
    mention. *)
Fixpoint index_list (first : nat) (es : list event) (s : Z) : list nat :=
  match es with
  | [] => []
  | e :: es' => repeat first (mentions e s) ++ index_list (S first) es' s
  end.

(** [answers] are exact dependency answers for the events [es]: increasing lists
    of exactly the indices of the events sharing a site. *)
Definition exact_dependencies (es : list event) (answers : nat -> list nat) : Prop :=
  forall i ei, es !! i = Some ei ->
    Sorted.StronglySorted lt (answers i) /\
    forall j, j ∈ answers i <-> exists ej, es !! j = Some ej /\ share_site ei ej.

(** All site indices of all events lie in the active-site range. *)
Definition indices_in_range (es : list event) (n : nat) : Prop :=
  forall e s, e ∈ es -> touches e s -> (0 <= s < Z.of_nat n)%Z.

(** The events an operation contributes. *)
Definition added (op : lib_op) : list event :=
  match op with OpAdd e => [e] | _ => [] end.

(** What a library becomes when written and read back: an empty dependency matrix
    is read back as "no dependencies". *)
Definition reloaded (lib : event_lib) : event_lib :=
  {| events := events lib;
     event_dependencies :=
       match event_dependencies lib with Some (r :: m) => Some (r :: m) | _ => None end;
     site_to_events := site_to_events lib;
     index_metadata := index_metadata lib |}.

