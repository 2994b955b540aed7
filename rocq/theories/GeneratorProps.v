(** Properties C47 and C62 to C67. *)
From Coq Require Import QArith Qabs.
From Verif Require Import Py PyLemmas ActiveSiteModel ActiveSiteSpec EventModel EventSpec LatticeProps
  MatcherModel MatcherSpec GeneratorModel GeneratorSpec GeneratorProofs.
Local Open Scope nat_scope.

(* ---------------- C47 ---------------- *)
(** The sum of a cell and an image is brought into the supercell by a multiple of the
    shape; the label, if any, is appended. *)
Theorem supercell_tuple_is_periodic n a t extra :
  positive n ->
  exists u, normalize_supercell_tuple (list_of_image a) (list_of_image t) (list_of_image n) extra =
              Ok (list_of_image u ++ match extra with Some x => [x] | None => [] end) /\
    inside n u /\ congruent n (a +v t) u.
Proof. exact (tuple_lemma n a t extra). Qed.
Print Assumptions supercell_tuple_is_periodic.
(** Two sums give the same cell exactly when they differ by a multiple of the shape. *)
Theorem supercell_tuple_identifies_cells n a t b u :
  positive n ->
  (normalize_supercell_tuple (list_of_image a) (list_of_image t) (list_of_image n) None =
   normalize_supercell_tuple (list_of_image b) (list_of_image u) (list_of_image n) None <->
   congruent n (a +v t) (b +v u)).
Proof. exact (tuple_identifies_lemma n a t b u). Qed.
Print Assumptions supercell_tuple_identifies_cells.

Example supercell_tuple_example :
  positive (2, 1, 3)%Z /\
  normalize_supercell_tuple [1; 0; 0]%Z [-2; 5; -1]%Z [2; 1; 3]%Z (Some 7%Z) = Ok [1; 0; 2; 7]%Z /\
  normalize_supercell_tuple [1; 0; 0]%Z [0; 0]%Z [2; 1; 3]%Z None = Err ValueError.
Proof. vm_compute. done. Qed.

(** The site index of a supercell finds exactly the site with a given cell, label and local
    index; it is refused exactly when two sites of the unit cell have the same label and
    local index. *)
Theorem site_index_is_exact cell n :
  positive n ->
  ((exists index, build_site_index (kmc_supercell cell (shape3 (list_of_image n))) false = Ok index) <->
   NoDup (map (fun s => (gs_label s, gs_local s)) cell)) /\
  forall index, build_site_index (kmc_supercell cell (shape3 (list_of_image n))) false = Ok index ->
    forall x y z label local k,
      dget index (x, y, z, label, local) = Some k <->
      exists p s, cell !! p = Some s /\ gs_label s = label /\ gs_local s = local /\
        inside n (x, y, z) /\ Z.of_nat k = site_number n p (x, y, z).
Proof. exact (index_exact_lemma cell n). Qed.
Print Assumptions site_index_is_exact.

(* ---------------- the example ---------------- *)
(** A chain of period 4 with sodium at 0 and 2, and a zirconium site.  The labels of the
    sodium sites are "Na1" and "Na2". *)
Definition chain_site (p : nat) : list (near Q) :=
  match p with
  | O => [Near 1%nat (0, 0, 0)%Z 2 2; Near 1%nat (-1, 0, 0)%Z 2 (-2); Near 0%nat (1, 0, 0)%Z 4 4; Near 0%nat (-1, 0, 0)%Z 4 (-4)]
  | _ => [Near 0%nat (1, 0, 0)%Z 2 4; Near 0%nat (0, 0, 0)%Z 2 0; Near 1%nat (1, 0, 0)%Z 4 6; Near 1%nat (-1, 0, 0)%Z 4 (-2)]
  end%Q.
Definition chain (cell : list gsite) (p : nat) (r : Q) : list (near Q) :=
  List.filter (fun x => Qle_bool (nr_distance x) r) (chain_site p).
Definition by_position (a b : neighbor Q) : bool := Qle_bool (nb_coords a) (nb_coords b).
Definition line_distance (x y : Q) : Q := Qabs (x - y).
Definition chain_full : list gsite :=
  [GSite (el "Na") "Na1" 0; GSite (el "Zr") "Zr1" 1; GSite (el "Na") "Na2" 2]%string.
Definition chain_cell : list gsite := [GSite (el "Na") "Na1" 0; GSite (el "Na") "Na2" 2]%string.
Definition chain_request (full : list gsite) (shape : list Z) (cutoff : Q) (nearest : bool) : request :=
  Request full None (Some shape) None None ex_mapping (Some cutoff) (1 # 1000) (1 # 1000) nearest.
Definition chain_run (rq : request) : result generated :=
  run ex_parse ex_fp chain by_position line_distance (fun x => x) rq.

Definition chain_cutoffs (r : Q) : cutoff_dict := repeat (("Na", "Na")%string, r) 4.

Lemma line_distance_sym x y : (line_distance x y == line_distance y x)%Q.
Proof. unfold line_distance. by rewrite Qabs_Qminus. Qed.
Example chain_example :
  resolved ex_parse ex_fp (chain_request chain_full [2; 1; 1]%Z 3 false) chain_cell (2, 1, 1)%Z BySpecies
    (IdMany ["Na"]%string) (IdMany ["Na"]%string) (chain_cutoffs 3) /\
  distinct_local_indices chain_full /\ search_in_cell chain chain_cell /\ search_symmetric chain chain_cell /\
  match chain_run (chain_request chain_full [2; 1; 1]%Z 3 false) with
  | Ok g => map mobile_ion_indices (events (g_lib g)) = [[0; 3]; [0; 2]; [1; 2]; [1; 3]; [2; 0]; [2; 1]; [3; 1]; [3; 0]]%Z /\
            map local_env_indices (events (g_lib g)) = [[3; 2]; [3; 2]; [2; 3]; [2; 3]; [0; 1]; [0; 1]; [1; 0]; [1; 0]]%Z
  | Err _ => False
  end.
Proof.
  split; [|split; [|split; [|split]]].
  - split; [done|]. split; [|split].
    + exists ["Na"]%string. split; [vm_compute; split; [discriminate|reflexivity]|]. done.
    + eexists. split; [vm_compute; reflexivity|]. repeat constructor.
    + exists ["Na"]%string, 3%Q. split; [vm_compute; split; [discriminate|reflexivity]|]. split; [|split; [done|vm_compute; reflexivity]].
      exists (GSite (el "Na") "Na1" 0)%string. split; [left|]. exists "Na"%string. split; [by left|]. left.
  - apply (bool_decide_eq_true_1 (NoDup (map gs_local chain_full))). vm_compute. reflexivity.
  - intros p r x Hx. apply elem_of_list_In, filter_In in Hx as [Hx _]. destruct p; simpl in Hx; naive_solver lia.
  - intros p r x Hp Hx. apply elem_of_list_In, filter_In in Hx as [Hx Hr].
    assert (H : exists y, y ∈ chain_site (nr_site x) /\ nr_site y = p /\ nr_image y = negate (nr_image x) /\ nr_distance y = nr_distance x).
    { destruct p as [|[|p]]; simpl in Hp; [| |lia]; simpl in Hx; destruct Hx as [<-|[<-|[<-|[<-|[]]]]];
        first [ eexists; split; [left|done] | eexists; split; [right; left|done]
               | eexists; split; [do 2 right; left|done] | eexists; split; [do 3 right; left|done] ]. }
    split; [destruct p; simpl in Hx; naive_solver lia|]. destruct H as (y & Hy & Hp' & Hi & He). exists y. split; [|by rewrite He].
    apply elem_of_list_In, filter_In. split; [by apply elem_of_list_In|]. by rewrite He.
  - vm_compute. done.
Qed.

(* ---------------- C62 ---------------- *)
(** A run needs a positive shape, a selection, active sites and cutoffs, and they are
    determined by the arguments. *)
Theorem generation_resolves_request {P} parse fp (get_neighbors : list gsite -> nat -> Q -> list (near P)) order_leb
    (distance : P -> P -> Q) round8 rq :
  (forall g, run parse fp get_neighbors order_leb distance round8 rq = Ok g ->
     exists cell n kind initial target c, resolved parse fp rq cell n kind initial target c) /\
  forall cell n kind i t c cell' n' kind' i' t' c',
    resolved parse fp rq cell n kind i t c -> resolved parse fp rq cell' n' kind' i' t' c' ->
    cell = cell' /\ n = n' /\ kind = kind' /\ i = i' /\ t = t' /\ c = c'.
Proof. exact (resolves_lemma parse fp get_neighbors order_leb distance round8 rq). Qed.
Print Assumptions generation_resolves_request.
(** It then succeeds exactly when the neighbourhoods of equal composition have the same shape,
    or the nearest order is asked for, and there is a hop. *)
Theorem generation_succeeds_iff {P} parse fp (get_neighbors : list gsite -> nat -> Q -> list (near P)) order_leb (distance : P -> P -> Q) round8
    rq cell n kind initial target c :
  (forall x y, (distance x y == distance y x)%Q) ->
  resolved parse fp rq cell n kind initial target c ->
  distinct_local_indices (rq_full rq) ->
  search_in_cell get_neighbors cell ->
  ((exists g, run parse fp get_neighbors order_leb distance round8 rq = Ok g) <->
   (rq_nearest rq = true \/ neighbourhoods_alike get_neighbors distance rq cell c kind initial) /\
   some_hop get_neighbors cell c kind initial target).
Proof. intros Hd Hr Hl Hs. exact (succeeds_lemma parse fp get_neighbors order_leb distance round8 Hd rq cell n kind initial target c Hr Hl Hs). Qed.
Print Assumptions generation_succeeds_iff.
(** The search reaches as far as the largest cutoff. *)
Theorem search_reaches_every_cutoff c :
  (0 <= search_radius c)%Q /\ (forall e, e ∈ c -> (snd e <= search_radius c)%Q) /\
  (search_radius c = 0%Q \/ exists e, e ∈ c /\ snd e = search_radius c).
Proof. exact (radius_lemma c). Qed.
Print Assumptions search_reaches_every_cutoff.
(** The environment of a selected site lists exactly its neighbours within the cutoffs. *)
Theorem environment_is_neighbourhood {P} parse fp (get_neighbors : list gsite -> nat -> Q -> list (near P)) order_leb (distance : P -> P -> Q) round8
    rq cell n kind initial target c g p s :
  (forall x y, (distance x y == distance y x)%Q) ->
  resolved parse fp rq cell n kind initial target c ->
  distinct_local_indices (rq_full rq) ->
  search_in_cell get_neighbors cell ->
  run parse fp get_neighbors order_leb distance round8 rq = Ok g ->
  cell !! p = Some s -> selects kind initial s ->
  exists env, environment g s env /\ neighbourhood get_neighbors cell c p env.
Proof. intros Hd Hr Hl Hs. exact (environment_lemma parse fp get_neighbors order_leb distance round8 Hd rq cell n kind initial target c Hr Hl Hs g p s). Qed.
Print Assumptions environment_is_neighbourhood.
(** The events are exactly the hops, from every copy of a selected site, to the target sites
    of its environment. *)
Theorem generated_events_exact {P} parse fp (get_neighbors : list gsite -> nat -> Q -> list (near P)) order_leb (distance : P -> P -> Q) round8
    rq cell n kind initial target c g e :
  (forall x y, (distance x y == distance y x)%Q) ->
  resolved parse fp rq cell n kind initial target c ->
  distinct_local_indices (rq_full rq) ->
  search_in_cell get_neighbors cell ->
  run parse fp get_neighbors order_leb distance round8 rq = Ok g ->
  (e ∈ events (g_lib g) <->
   exists p s env a nb t, cell !! p = Some s /\ selects kind initial s /\ environment g s env /\
     inside n a /\ nb ∈ env /\ cell !! nb_index nb = Some t /\ selects kind target t /\ e = hop n p a env nb).
Proof. intros Hd Hr Hl Hs. exact (events_lemma parse fp get_neighbors order_leb distance round8 Hd rq cell n kind initial target c Hr Hl Hs g e). Qed.
Print Assumptions generated_events_exact.

(** Without distinct local indices two sites share one environment. *)
Theorem sites_keep_their_own_environment_refuted :
  exists rq cell n kind initial target c g p s env,
    resolved ex_parse ex_fp rq cell n kind initial target c /\ search_in_cell chain cell /\
    chain_run rq = Ok g /\ cell !! p = Some s /\ selects kind initial s /\ environment g s env /\
    ~ neighbourhood chain cell c p env /\
    exists k e, e ∈ events (g_lib g) /\ mobile_ion_indices e = [k; k].
Proof.
  exists (chain_request [GSite (el "Na") "Na1" 0; GSite (el "Na") "Na2" 0]%string [2; 1; 1]%Z 3 false),
    [GSite (el "Na") "Na1" 0; GSite (el "Na") "Na2" 0]%string, (2, 1, 1)%Z, BySpecies,
    (IdMany ["Na"]%string), (IdMany ["Na"]%string), (chain_cutoffs 3).
  eexists. exists 0, (GSite (el "Na") "Na1" 0)%string. eexists.
  split; [|split; [|split; [vm_compute; reflexivity|split; [done|split; [|split; [vm_compute; reflexivity|split]]]]]].
  - split; [done|]. split; [|split].
    + exists ["Na"]%string. split; [vm_compute; split; [discriminate|reflexivity]|]. done.
    + eexists. split; [vm_compute; reflexivity|]. repeat constructor.
    + exists ["Na"]%string, 3%Q. split; [vm_compute; split; [discriminate|reflexivity]|]. split; [|split; [done|vm_compute; reflexivity]].
      exists (GSite (el "Na") "Na1" 0)%string. split; [left|]. exists "Na"%string. split; [by left|]. left.
  - intros p r x Hx. apply elem_of_list_In, filter_In in Hx as [Hx _]. destruct p; simpl in Hx; naive_solver lia.
  - exists "Na"%string. split; [by left|]. left.
  - intros (xs & Hp & Hf). vm_compute in Hp. destruct xs as [|x xs]; [inversion Hf|]. apply Forall2_cons_1 in Hf as [[Hd _] _]. simpl in Hd.
    assert (H : x ∈ x :: xs) by left. rewrite Hp in H. rewrite !elem_of_cons, elem_of_nil in H. destruct H as [->|[->|[]]]; discriminate.
  - exists 0%Z. eexists. split; [left|reflexivity].
Qed.
Print Assumptions sites_keep_their_own_environment_refuted.

(** A vacancy given as a species object, which makes a site active, does not make its
    species mobile. *)
Theorem vacancies_make_species_mobile_refuted :
  exists rq o, from_structure_and_mapping ex_parse ex_fp (map gs_species (rq_full rq)) (rq_mapping rq) None = Ok o /\
    o_prim_active o = [0; 2]%Z /\ rq_mobile rq = None /\
    (forall kv, kv ∈ rq_mapping rq -> fst kv = SStr "Na" -> snd kv = AList [SStr "Na"; SObj vacancy_species])%string /\
    chain_run rq = Err ValueError.
Proof.
  exists (Request chain_full None (Some [2; 1; 1]%Z) None None
    [(SStr "Na", AList [SStr "Na"; SObj vacancy_species]); (SStr "Zr", AOne (SStr "Zr"))]%string (Some 3%Q) (1 # 1000) (1 # 1000) false).
  eexists. split; [vm_compute; reflexivity|]. split; [reflexivity|]. split; [done|]. split; [|vm_compute; reflexivity].
  intros kv H E. simpl in H. rewrite !elem_of_cons, elem_of_nil in H. destruct H as [->|[->|[]]]; done.
Qed.
Print Assumptions vacancies_make_species_mobile_refuted.

(* ---------------- C63 ---------------- *)
(** The event indices number the active sites of the supercell: the library carries the
    order of active sites, every index is in range, and index [k] is the site with that
    number in the active structure. *)
Theorem generated_indices_are_active_indices {P} parse fp (get_neighbors : list gsite -> nat -> Q -> list (near P)) order_leb (distance : P -> P -> Q) round8
    rq cell n kind initial target c g :
  (forall x y, (distance x y == distance y x)%Q) ->
  resolved parse fp rq cell n kind initial target c ->
  distinct_local_indices (rq_full rq) ->
  search_in_cell get_neighbors cell ->
  run parse fp get_neighbors order_leb distance round8 rq = Ok g ->
  exists o, from_structure_and_mapping parse fp (map gs_species (rq_full rq)) (rq_mapping rq) (Some (list_of_image n)) = Ok o /\
    index_metadata (g_lib g) = Some (order_as_dict o) /\
    indices_in_range (events (g_lib g)) (active_site_count o) /\
    exists sites, active_structure o = Ok sites /\
      forall k q x y z : nat, sites !! k = Some (SSite q (x, y, z), k) <->
        exists p, o_prim_active o !! p = Some (Z.of_nat q) /\
          inside n (Z.of_nat x, Z.of_nat y, Z.of_nat z) /\
          Z.of_nat k = site_number n p (Z.of_nat x, Z.of_nat y, Z.of_nat z).
Proof. intros Hd Hr Hl Hs. exact (index_lemma parse fp get_neighbors order_leb distance round8 Hd rq cell n kind initial target c Hr Hl Hs g). Qed.
Print Assumptions generated_indices_are_active_indices.
(** The library it returns has exact dependencies and an exact site index. *)
Theorem generated_library_is_complete {P} parse fp (get_neighbors : list gsite -> nat -> Q -> list (near P)) order_leb (distance : P -> P -> Q) round8
    rq cell n kind initial target c g :
  (forall x y, (distance x y == distance y x)%Q) ->
  resolved parse fp rq cell n kind initial target c ->
  distinct_local_indices (rq_full rq) ->
  search_in_cell get_neighbors cell ->
  run parse fp get_neighbors order_leb distance round8 rq = Ok g ->
  exact_dependencies (events (g_lib g)) (get_dependent_events (g_lib g)) /\
  forall s, get_events_involving_site (g_lib g) s = index_list 0 (events (g_lib g)) s.
Proof. intros Hd Hr Hl Hs. exact (dependencies_lemma parse fp get_neighbors order_leb distance round8 Hd rq cell n kind initial target c Hr Hl Hs g). Qed.
Print Assumptions generated_library_is_complete.

(* ---------------- C64 ---------------- *)
(** A lattice translation of an event is an event. *)
Theorem events_translate {P} parse fp (get_neighbors : list gsite -> nat -> Q -> list (near P)) order_leb (distance : P -> P -> Q) round8
    rq cell n kind initial target c g e t :
  (forall x y, (distance x y == distance y x)%Q) ->
  resolved parse fp rq cell n kind initial target c ->
  distinct_local_indices (rq_full rq) ->
  search_in_cell get_neighbors cell ->
  run parse fp get_neighbors order_leb distance round8 rq = Ok g ->
  e ∈ events (g_lib g) -> exists e', e' ∈ events (g_lib g) /\ event_moved n t e e'.
Proof. intros Hd Hr Hl Hs. exact (translate_lemma parse fp get_neighbors order_leb distance round8 Hd rq cell n kind initial target c Hr Hl Hs g e t). Qed.
Print Assumptions events_translate.

(* ---------------- C65 ---------------- *)
(** When the neighbour search is symmetric and hops start and end on the same sites, every
    hop can be undone. *)
Theorem reverse_hops_exist {P} parse fp (get_neighbors : list gsite -> nat -> Q -> list (near P)) order_leb (distance : P -> P -> Q) round8
    rq cell n kind initial target c g e x y :
  (forall x y, (distance x y == distance y x)%Q) ->
  resolved parse fp rq cell n kind initial target c ->
  distinct_local_indices (rq_full rq) ->
  search_in_cell get_neighbors cell ->
  run parse fp get_neighbors order_leb distance round8 rq = Ok g ->
  search_symmetric get_neighbors cell ->
  (forall s, s ∈ cell -> selects kind initial s <-> selects kind target s) ->
  e ∈ events (g_lib g) -> mobile_ion_indices e = [x; y] ->
  exists e', e' ∈ events (g_lib g) /\ mobile_ion_indices e' = [y; x].
Proof. intros Hd Hr Hl Hs. exact (reverse_lemma parse fp get_neighbors order_leb distance round8 Hd rq cell n kind initial target c Hr Hl Hs g e x y). Qed.
Print Assumptions reverse_hops_exist.
(** Otherwise a hop may have no way back. *)
Theorem every_hop_can_be_undone_refuted :
  exists rq g e x y, chain_run rq = Ok g /\ distinct_local_indices (rq_full rq) /\ search_symmetric chain chain_cell /\
    active_cell ex_parse ex_fp rq chain_cell /\
    e ∈ events (g_lib g) /\ mobile_ion_indices e = [x; y] /\
    forall e', e' ∈ events (g_lib g) -> mobile_ion_indices e' <> [y; x].
Proof.
  exists (Request chain_full (Some [IdOne "Na1"; IdOne "Na2"]%string) (Some [2; 1; 1]%Z) None None ex_mapping (Some 3%Q)
    (1 # 1000) (1 # 1000) false).
  eexists. eexists. exists 0%Z, 3%Z. destruct chain_example as (Hr & Hl & _ & Hs & _).
  split; [vm_compute; reflexivity|]. split; [exact Hl|]. split; [exact Hs|]. split; [exact (proj1 (proj2 (proj2 Hr)))|].
  split; [left|]. split; [reflexivity|]. intros e' He'. cbn [g_lib events] in He'. rewrite !elem_of_cons, elem_of_nil in He'.
  destruct He' as [->|[->|[->|[->|[]]]]]; discriminate.
Qed.
Print Assumptions every_hop_can_be_undone_refuted.

(* ---------------- C66 ---------------- *)
(** Environments of equal composition are listed in one order: that of the first of them. *)
Theorem environments_follow_the_reference {P} parse fp (get_neighbors : list gsite -> nat -> Q -> list (near P)) order_leb (distance : P -> P -> Q) round8
    rq cell n kind initial target c g p s env :
  (forall x y, (distance x y == distance y x)%Q) ->
  resolved parse fp rq cell n kind initial target c ->
  distinct_local_indices (rq_full rq) ->
  search_in_cell get_neighbors cell ->
  run parse fp get_neighbors order_leb distance round8 rq = Ok g ->
  cell !! p = Some s -> selects kind initial s -> environment g s env ->
  exists r sr ref, r <= p /\ cell !! r = Some sr /\ selects kind initial sr /\ environment g sr ref /\
    same_composition ref env /\ first_of_its_kind get_neighbors cell c kind initial r /\
    (r = p \/ r < p /\ arranged distance (rq_rtol rq) (rq_atol rq) (rq_nearest rq) ref env).
Proof. intros Hd Hr Hl Hs. exact (order_lemma parse fp get_neighbors order_leb distance round8 Hd rq cell n kind initial target c Hr Hl Hs g p s env). Qed.
Print Assumptions environments_follow_the_reference.

(* ---------------- C67 ---------------- *)
(** No event is listed twice exactly when no site has a target neighbour in two images that
    are the same cell of the supercell. *)
Theorem events_distinct_iff {P} parse fp (get_neighbors : list gsite -> nat -> Q -> list (near P)) order_leb (distance : P -> P -> Q) round8
    rq cell n kind initial target c g :
  (forall x y, (distance x y == distance y x)%Q) ->
  resolved parse fp rq cell n kind initial target c ->
  distinct_local_indices (rq_full rq) ->
  search_in_cell get_neighbors cell ->
  run parse fp get_neighbors order_leb distance round8 rq = Ok g ->
  (NoDup (events (g_lib g)) <->
   forall p s env j k x y, cell !! p = Some s -> selects kind initial s -> environment g s env ->
     j <> k -> env !! j = Some x -> env !! k = Some y ->
     (forall t, cell !! nb_index x = Some t -> selects kind target t) ->
     nb_index x = nb_index y -> ~ congruent n (nb_image x) (nb_image y)).
Proof. intros Hd Hr Hl Hs. exact (distinct_lemma parse fp get_neighbors order_leb distance round8 Hd rq cell n kind initial target c Hr Hl Hs g). Qed.
Print Assumptions events_distinct_iff.
(** An ion hops onto its own site exactly when it sees an image of it that the supercell
    identifies with it. *)
Theorem self_hop_iff {P} parse fp (get_neighbors : list gsite -> nat -> Q -> list (near P)) order_leb (distance : P -> P -> Q) round8
    rq cell n kind initial target c g k :
  (forall x y, (distance x y == distance y x)%Q) ->
  resolved parse fp rq cell n kind initial target c ->
  distinct_local_indices (rq_full rq) ->
  search_in_cell get_neighbors cell ->
  run parse fp get_neighbors order_leb distance round8 rq = Ok g ->
  ((exists e, e ∈ events (g_lib g) /\ mobile_ion_indices e = [k; k]) <->
   exists p s env a nb, cell !! p = Some s /\ selects kind initial s /\ selects kind target s /\
     environment g s env /\ nb ∈ env /\ nb_index nb = p /\ congruent n (0, 0, 0)%Z (nb_image nb) /\
     k = site_number n p a).
Proof. intros Hd Hr Hl Hs. exact (self_lemma parse fp get_neighbors order_leb distance round8 Hd rq cell n kind initial target c Hr Hl Hs g k). Qed.
Print Assumptions self_hop_iff.
(** A small supercell gives duplicate events and hops from a site to itself. *)
Theorem events_are_distinct_hops_refuted :
  exists rq g e k, chain_run rq = Ok g /\ distinct_local_indices (rq_full rq) /\ search_symmetric chain chain_cell /\
    active_cell ex_parse ex_fp rq chain_cell /\
    ~ NoDup (events (g_lib g)) /\ e ∈ events (g_lib g) /\ mobile_ion_indices e = [k; k].
Proof.
  exists (chain_request chain_full [1; 1; 1]%Z 5 false). eexists. eexists. exists 0%Z.
  destruct chain_example as (Hr & Hl & _ & Hs & _).
  split; [vm_compute; reflexivity|]. split; [exact Hl|]. split; [exact Hs|]. split; [exact (proj1 (proj2 (proj2 Hr)))|].
  split; [|split; [left|reflexivity]].
  intros H. cbn [g_lib events] in H. apply NoDup_cons in H as [H _]. apply H. do 2 right. left.
Qed.
Print Assumptions events_are_distinct_hops_refuted.
