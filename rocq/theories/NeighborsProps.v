(** Properties of neighbour lists (C89). *)
From Coq Require Import QArith.
From Verif Require Import Py Json NeighborsModel NeighborsSpec NeighborsProofs.
Local Open Scope Q_scope.

(** Fixed cutoffs: the neighbours of a site are the copies closer than the cutoff of the two
    species, each once, with its distance and the metadata of its site. *)
Theorem cutoff_neighbours get_neighbors structure d c n out s :
  geometry (length structure) d -> complete_search structure d get_neighbors ->
  get_cutoff_neighbor_info get_neighbors structure n (prepare_cutoff_neighbor_lookup (Some c)) = Ok out -> species_of structure n s ->
  NoDup (copies out)
  /\ (forall m z, (m, z) ∈ copies out <-> (m, z) <> (n, (0, 0, 0)%Z) /\ exists t q, species_of structure m t /\ last_for c s t = Some q /\ d n m z < q)
  /\ (forall i, i ∈ out -> i_weight i == d n (i_index i) (i_image i) /\ metadata_of structure (i_index i) (i_metadata i)).
Proof. exact (fun Hg Hs => cutoff_spec get_neighbors structure d Hg Hs c n out s). Qed.
Print Assumptions cutoff_neighbours.
(** Ranges. *)
Theorem range_neighbours get_neighbors structure d c n out s :
  geometry (length structure) d -> complete_search structure d get_neighbors ->
  get_range_cutoff_neighbor_info get_neighbors structure n (prepare_range_cutoff_neighbor_lookup (Some c)) = Ok out -> species_of structure n s ->
  NoDup (copies out)
  /\ (forall m z, (m, z) ∈ copies out <-> (m, z) <> (n, (0, 0, 0)%Z) /\ exists t low high, species_of structure m t /\ last_for c s t = Some (low, high) /\ low < d n m z < high)
  /\ (forall i, i ∈ out -> i_weight i == d n (i_index i) (i_image i) /\ metadata_of structure (i_index i) (i_metadata i)).
Proof. exact (fun Hg Hs => range_spec' get_neighbors structure d Hg Hs c n out s). Qed.
Print Assumptions range_neighbours.
(** A copy of one site is a neighbour of another if the opposite copy of that one is its neighbour. *)
Theorem cutoff_neighbours_both_ways get_neighbors structure d c n m out out' z :
  geometry (length structure) d -> complete_search structure d get_neighbors ->
  get_cutoff_neighbor_info get_neighbors structure n (prepare_cutoff_neighbor_lookup (Some c)) = Ok out ->
  get_cutoff_neighbor_info get_neighbors structure m (prepare_cutoff_neighbor_lookup (Some c)) = Ok out' ->
  (m, z) ∈ copies out <-> (n, opposite z) ∈ copies out'.
Proof. exact (fun Hg Hs => cutoff_sym get_neighbors structure d Hg Hs c n m out out' z). Qed.
Print Assumptions cutoff_neighbours_both_ways.
Theorem range_neighbours_both_ways get_neighbors structure d c n m out out' z :
  geometry (length structure) d -> complete_search structure d get_neighbors ->
  get_range_cutoff_neighbor_info get_neighbors structure n (prepare_range_cutoff_neighbor_lookup (Some c)) = Ok out ->
  get_range_cutoff_neighbor_info get_neighbors structure m (prepare_range_cutoff_neighbor_lookup (Some c)) = Ok out' ->
  (m, z) ∈ copies out <-> (n, opposite z) ∈ copies out'.
Proof. exact (fun Hg Hs => range_sym get_neighbors structure d Hg Hs c n m out out' z). Qed.
Print Assumptions range_neighbours_both_ways.
(** The search returns if every site has the metadata that some site has. *)
Theorem neighbours_are_found get_neighbors structure d n : complete_search structure d get_neighbors ->
  full_metadata structure -> (n < length structure)%nat -> forall l r,
  (exists out, get_cutoff_neighbor_info get_neighbors structure n l = Ok out)
  /\ exists out, get_range_cutoff_neighbor_info get_neighbors structure n r = Ok out.
Proof. exact (fun Hs => search_runs get_neighbors structure d Hs n). Qed.
Print Assumptions neighbours_are_found.

Definition ex_props (l : string) (i : Z) : dict string json := [("wyckoff_sequence"%string, JInt 0); ("local_index"%string, JInt i); ("label"%string, JStr l)].
Definition ex_sites : list site := [Site "Na+" (ex_props "Na1" 0); Site "Cl-" (ex_props "Cl1" 1)].
Definition ex_cutoffs : list ((string * string) * Q) := [(("Na+", "Cl-"), 1); (("Cl-", "Na+"), 3)]%string.
Example neighbours_example :
  geometry (length ex_sites) ex_d /\ complete_search ex_sites ex_d ex_get /\ full_metadata ex_sites
  /\ exists out, get_cutoff_neighbor_info ex_get ex_sites 0 (prepare_cutoff_neighbor_lookup (Some ex_cutoffs)) = Ok out
    /\ copies out = [(1%nat, (-1, 0, 0)%Z); (1%nat, (0, 0, 0)%Z)].
Proof.
  split; [apply ex_geometry|]. split; [apply ex_search|]. split.
  - intros _ s k Hs Hk. apply elem_of_cons in Hs as [->|Hs]; [|apply elem_of_list_singleton in Hs as ->];
      (destruct Hk as [Hk|[_ Hk]]; [|done]); repeat (apply elem_of_cons in Hk as [->|Hk]; [by eexists|]); by apply elem_of_nil in Hk.
  - eexists. split; [vm_compute; reflexivity|]. reflexivity.
Qed.
Example range_neighbours_example :
  (exists out, get_range_cutoff_neighbor_info ex_get ex_sites 1 (prepare_range_cutoff_neighbor_lookup (Some [(("Na+", "Cl-")%string, (1, 3))])) = Ok out
    /\ copies out = [(0%nat, (0, 0, 0)%Z); (0%nat, (1, 0, 0)%Z)])
  /\ get_range_cutoff_neighbor_info ex_get ex_sites 1 (prepare_range_cutoff_neighbor_lookup (Some [(("Na+", "Cl-")%string, (2, 3))])) = Ok [].
Proof. split; [eexists; split; [vm_compute; reflexivity|reflexivity]|]. vm_compute. reflexivity. Qed.
(** Metadata on some sites only makes the search fail. *)
Theorem neighbours_are_always_found_refuted : exists structure,
  complete_search structure ex_d ex_get
  /\ get_cutoff_neighbor_info ex_get structure 0 (prepare_cutoff_neighbor_lookup (Some ex_cutoffs)) = Err KeyError.
Proof. exists [Site "Na+" (ex_props "Na1" 0); Site "Cl-" []]. split; [apply ex_search|]. vm_compute. reflexivity. Qed.
Print Assumptions neighbours_are_always_found_refuted.
(** The cutoff given for a pair of species is used only if the pair is not given again in the
    other order. *)
Theorem given_cutoff_is_used_refuted : exists c : list ((string * string) * Q), exists a b q,
  NoDup (map fst c) /\ ((a, b), q) ∈ c /\ last_for c a b <> Some q.
Proof.
  exists ex_cutoffs, "Na+"%string, "Cl-"%string, 1. split; [repeat constructor; set_solver|]. split; [left|]. by vm_compute.
Qed.
Print Assumptions given_cutoff_is_used_refuted.
(** Presets: only one name is known, and its file is not part of the package. *)
Theorem presets_cannot_be_loaded data_file preset : data_file "vesta_cutoffs.yaml"%string = None ->
  prepare_range_cutoff_neighbor_lookup_from_preset data_file preset
  = if String.eqb preset "vesta_2019" then Err FileNotFoundError else Err ValueError.
Proof. exact (preset_fails data_file preset). Qed.
Print Assumptions presets_cannot_be_loaded.
