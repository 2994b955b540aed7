(** Properties C57 and C58. *)
From Coq Require Import QArith.
From Verif Require Import Py PyLemmas Json ActiveSiteModel ActiveSiteSpec BasisModel LatticeModel LatticeSpec LatticeProofs.
Local Open Scope nat_scope.

(** Example: two sodium positions and one zirconium position, in two bases. *)
Definition ex_parse (s : string) : result species :=
  if str_in s ["X0+"]%string then Ok vacancy_species else
  if is_vacancy_species (SStr s) then Err ValueError else Ok (Species s (Some s) None).
Definition ex_fp (p : fp_payload) : string := "fp"%string.
Definition el (s : string) : species := Species s (Some s) None.
Definition ex_template : list site :=
  [(el "Na", (0, 0, 0)); (el "Zr", (1 # 2, 1 # 2, 0)); (el "Na", (1 # 2, 1 # 2, 1 # 2))]%Q.
Definition ex_mapping : list (spval * allowedval) :=
  [(SStr "Na", AList [SStr "Na"; SStr "X"]); (SStr "Zr", AOne (SStr "Zr"))]%string.
Definition ex_new (template : list site) (mapping : list (spval * allowedval)) (bt : string) : lattice :=
  match lattice_new ex_parse template mapping bt with
  | Ok la => la | Err _ => Lattice [] [] "" [] OccupationBasis end.
Definition ex_lattice : lattice := ex_new ex_template ex_mapping "chebyshev".

Example made_example :
  made ex_parse ex_template ex_mapping "chebyshev" ex_lattice /\
  distinct_sites (la_template ex_lattice) /\ tells_apart ex_lattice /\
  (forall a, a ∈ la_allowed ex_lattice -> a <> None) /\
  positive_shape (2, 1, 1) /\
  match get_structure_from_occ ex_parse ex_lattice [0; 1; 0; 0; 1; 0]%Z (2, 1, 1) with
  | Ok s => map fst s = [el "Na"; el "Zr"; el "Zr"; el "Na"] /\
            map (fun e => Qred (fst (fst (snd e)))) s = [0; 1 # 4; 3 # 4; 3 # 4]%Q
  | Err _ => False
  end.
Proof.
  split; [split|].
  - intros s sp. unfold ex_parse. destruct (str_in s _); [by intros [= <-]|].
    destruct (is_vacancy_species (SStr s)) eqn:E; [done|]. intros [= <-]. unfold is_vacancy. simpl in *. congruence.
  - reflexivity.
  - split; [|split; [|split; [|split]]].
    + intros i j s t Hi Hj Hc.
      destruct i as [|[|[|i]]], j as [|[|[|j]]]; try reflexivity; simpl in Hi, Hj; try discriminate;
        injection Hi as <-; injection Hj as <-; exfalso;
        destruct Hc as ([k1 H1] & [k2 H2] & [k3 H3]); unfold Qeq in *; simpl in *; lia.
    + intros l Hl. vm_compute in Hl. unfold distinguishable. simpl.
      repeat (apply elem_of_cons in Hl as [[= ->]|Hl]); [| | |by apply elem_of_nil in Hl];
        (split; [done|split; [done|]]); intros i j s t Hi Hj He;
        destruct i as [|[|i]], j as [|[|j]]; try reflexivity; simpl in Hi, Hj; try discriminate;
        injection Hi as <-; injection Hj as <-; vm_compute in He; discriminate.
    + intros a Ha ->. vm_compute in Ha. repeat (apply elem_of_cons in Ha as [?|Ha]; [discriminate|]). by apply elem_of_nil in Ha.
    + simpl. lia.
    + vm_compute. split; reflexivity.
Qed.

(* ---------------- C57 ---------------- *)
(** The distance used for matching is the shortest over all periodic images, and it is
    zero exactly for positions that coincide in the crystal. *)
Theorem distance_is_minimum_image :
  forall x y z x' y' z',
  (forall i j k : Z, (dist2 (x, y, z) (x', y', z') <=
      sq (x - x' + inject_Z i) + sq (y - y' + inject_Z j) + sq (z - z' + inject_Z k))%Q) /\
  (exists i j k : Z, (dist2 (x, y, z) (x', y', z') ==
      sq (x - x' + inject_Z i) + sq (y - y' + inject_Z j) + sq (z - z' + inject_Z k))%Q) /\
  ((dist2 (x, y, z) (x', y', z') == 0)%Q <-> congruent (x, y, z) (x', y', z')).
Proof. exact minimum_image_lemma. Qed.
Print Assumptions distance_is_minimum_image.

(** Reading a structure succeeds exactly when every atom belongs to a site that allows
    it and no site gets two atoms; otherwise it is a ValueError. *)
Theorem structure_reads_iff :
  forall parse template mapping bt la, made parse template mapping bt la ->
  forall structure tol shape,
  positive_shape shape ->
  ((exists o, get_occ_from_structure la structure tol shape None = Ok o) <->
   readable la structure tol shape) /\
  (forall e, get_occ_from_structure la structure tol shape None = Err e -> e = ValueError).
Proof. exact reads_iff_lemma. Qed.
Print Assumptions structure_reads_iff.

(** Every site holds the code of the first allowed species of the atom at it, or the
    code of the empty state. *)
Theorem structure_read_site_by_site :
  forall parse template mapping bt la, made parse template mapping bt la ->
  forall structure tol shape o,
  positive_shape shape ->
  get_occ_from_structure la structure tol shape None = Ok o ->
  oc_basis o = la_basis la /\
  length (oc_data o) = length template * images shape /\
  (forall j s p k, structure !! j = Some (s, p) -> belongs template shape tol p k ->
     exists l i, allowed_at la shape k = Some l /\ first_named l s i /\
       oc_data o !! k = Some (code (la_basis la) i)) /\
  (forall k l, allowed_at la shape k = Some l -> l <> [] ->
     (forall s p, (s, p) ∈ structure -> ~ belongs template shape tol p k) ->
     exists i, empty_state l i /\ oc_data o !! k = Some (code (la_basis la) i)).
Proof. exact site_by_site_lemma. Qed.
Print Assumptions structure_read_site_by_site.

(** The order of the atoms and the periodic images they are given in do not matter. *)
Theorem reading_ignores_order_and_images :
  forall parse template mapping bt la, made parse template mapping bt la ->
  forall s s' tol shape o,
  positive_shape shape ->
  same_crystal s s' ->
  get_occ_from_structure la s tol shape None = Ok o ->
  get_occ_from_structure la s' tol shape None = Ok o.
Proof. exact ignores_order_lemma. Qed.
Print Assumptions reading_ignores_order_and_images.

(** A structure can be made from an occupation exactly when there is one value per site
    and every value is a code of an allowed species; the sites are the supercell sites
    in order, without the vacancies. *)
Theorem structure_from_occupation_iff :
  forall parse template mapping bt la, made parse template mapping bt la ->
  forall occ shape,
  positive_shape shape ->
  (exists s, get_structure_from_occ parse la occ shape = Ok s) <->
  length occ = length template * images shape /\
  (forall k v, occ !! k = Some v ->
     exists l i, allowed_at la shape k = Some l /\ i < length l /\ v = code (la_basis la) i).
Proof. exact from_occ_iff_lemma. Qed.
Print Assumptions structure_from_occupation_iff.

(** Occupation to structure and back. *)
Theorem occupation_round_trip :
  forall parse template mapping bt la, made parse template mapping bt la ->
  forall occ shape tol structure,
  positive_shape shape ->
  distinct_sites template -> tells_apart la -> (0 <= tol)%Q ->
  get_structure_from_occ parse la occ shape = Ok structure ->
  get_occ_from_structure la structure tol shape None = Ok (Occupation (la_basis la) occ).
Proof. exact occ_round_trip_lemma. Qed.
Print Assumptions occupation_round_trip.

(** Structure to occupation and back: every atom comes back at its ideal position as
    the allowed species it was read as, and nothing else does. *)
Theorem structure_round_trip :
  forall parse template mapping bt la, made parse template mapping bt la ->
  forall (structure : list site) tol shape o,
  positive_shape shape ->
  (forall a, a ∈ la_allowed la -> a <> None) -> tells_apart la ->
  (forall k l, allowed_at la shape k = Some l ->
     (forall s p, (s, p) ∈ structure -> ~ belongs template shape tol p k) ->
     exists v, v ∈ l /\ is_vacancy v) ->
  get_occ_from_structure la structure tol shape None = Ok o ->
  exists s', get_structure_from_occ parse la (oc_data o) shape = Ok s' /\
    forall s q, (s, q) ∈ s' <->
      ~ is_vacancy s /\
      exists s0 p k t l i, (s0, p) ∈ structure /\ belongs template shape tol p k /\
        cell_site template shape k = Some t /\ q = snd t /\
        allowed_at la shape k = Some l /\ first_named l s0 i /\ l !! i = Some s.
Proof. exact structure_round_trip_lemma. Qed.
Print Assumptions structure_round_trip.

(** A displaced, reordered structure: the vacancy at the first sodium image. *)
Example reading_example :
  get_occ_from_structure ex_lattice
    [(el "Zr", (3 # 4, 1 # 2, 1 # 100)); (el "Na", (49 # 100, - (1), 2));
     (el "Zr", (1 # 4, 1 # 2, 0)); (el "Na", (1 # 4, 1 # 2, 1 # 2)); (el "Na", (- (1 # 4), 1 # 2, 1 # 2))]%Q
    (1 # 10)%Q (2, 1, 1) None
  = Ok (Occupation (ChebyshevBasis 2) [1; 0; 0; 0; 0; 0]%Z) /\
  get_occ_from_structure ex_lattice [(el "Li", (0, 0, 0))]%Q (1 # 10)%Q (2, 1, 1) None = Err ValueError /\
  get_occ_from_structure ex_lattice [(el "Na", (0, 0, 0)); (el "Na", (1, 0, 0))]%Q (1 # 10)%Q (2, 1, 1) None = Err ValueError.
Proof. vm_compute. done. Qed.

(** Species that share a name are not told apart: every reading gives the first. *)
Definition fe (s : string) : species := Species s (Some "Fe"%string) (Some "Fe"%string).
Theorem charge_states_round_trip_refuted :
  exists parse la occ structure,
    made parse [(fe "Fe2+", (0, 0, 0)%Q)] [(SObj (fe "Fe2+"), AList [SObj (fe "Fe2+"); SObj (fe "Fe3+")])]%string "chebyshev" la /\
    get_structure_from_occ parse la occ (1, 1, 1) = Ok structure /\
    structure = [(fe "Fe3+", (0 / 1, 0 / 1, 0 / 1)%Q)] /\
    exists o, get_occ_from_structure la structure (1 # 100) (1, 1, 1) None = Ok o /\ oc_data o <> occ.
Proof.
  exists ex_parse, (ex_new [(fe "Fe2+", (0, 0, 0)%Q)] [(SObj (fe "Fe2+"), AList [SObj (fe "Fe2+"); SObj (fe "Fe3+")])]%string "chebyshev"),
    [1]%Z, [(fe "Fe3+", (0 / 1, 0 / 1, 0 / 1)%Q)].
  split; [split; [exact (proj1 (proj1 made_example))|vm_compute; reflexivity]|].
  split; [vm_compute; reflexivity|]. split; [reflexivity|]. exists (Occupation (ChebyshevBasis 2) [0]%Z).
  split; [vm_compute; reflexivity|discriminate].
Qed.
Print Assumptions charge_states_round_trip_refuted.

(** With three states in the occupation basis, a vacancy comes back as an atom. *)
Theorem three_states_in_occupation_basis_refuted :
  exists parse la o,
    made parse [(el "Na", (0, 0, 0)%Q)] [(SObj (el "Na"), AList [SObj (el "Na"); SObj (el "Li"); SStr "X"])]%string "occupation" la /\
    get_occ_from_structure la [] (1 # 100) (1, 1, 1) None = Ok o /\
    get_structure_from_occ parse la (oc_data o) (1, 1, 1) = Ok [(el "Li", (0 / 1, 0 / 1, 0 / 1)%Q)].
Proof.
  exists ex_parse, (ex_new [(el "Na", (0, 0, 0)%Q)] [(SObj (el "Na"), AList [SObj (el "Na"); SObj (el "Li"); SStr "X"])]%string "occupation"),
    (Occupation OccupationBasis [0]%Z).
  split; [split; [exact (proj1 (proj1 made_example))|vm_compute; reflexivity]|]. split; vm_compute; reflexivity.
Qed.
Print Assumptions three_states_in_occupation_basis_refuted.

(** A missing atom is not noticed: without a vacancy among the allowed species, the
    site is read as its second species. *)
Theorem missing_atom_is_noticed_refuted :
  exists parse la o,
    made parse [(el "Na", (0, 0, 0)%Q)] [(SObj (el "Na"), AList [SObj (el "Na"); SObj (el "K")])]%string "chebyshev" la /\
    get_occ_from_structure la [] (1 # 100) (1, 1, 1) None = Ok o /\
    get_structure_from_occ parse la (oc_data o) (1, 1, 1) = Ok [(el "K", (0 / 1, 0 / 1, 0 / 1)%Q)].
Proof.
  exists ex_parse, (ex_new [(el "Na", (0, 0, 0)%Q)] [(SObj (el "Na"), AList [SObj (el "Na"); SObj (el "K")])]%string "chebyshev"),
    (Occupation (ChebyshevBasis 2) [1]%Z).
  split; [split; [exact (proj1 (proj1 made_example))|vm_compute; reflexivity]|]. split; vm_compute; reflexivity.
Qed.
Print Assumptions missing_atom_is_noticed_refuted.

(* ---------------- C58 ---------------- *)
(** Distinct sites stay distinct in every supercell. *)
Theorem supercell_sites_are_distinct :
  forall template shape j k s t,
  positive_shape shape -> distinct_sites template ->
  cell_site template shape j = Some s -> cell_site template shape k = Some t ->
  congruent (snd s) (snd t) -> j = k.
Proof. exact supercell_distinct. Qed.
Print Assumptions supercell_sites_are_distinct.

(** The supercell in the order of the cell_site formula. *)
Theorem supercell_order :
  forall template shape k, positive_shape shape ->
  supercell_sites shape template !! k = cell_site template shape k.
Proof. exact supercell_order_lemma. Qed.
Print Assumptions supercell_order.

(** The active lattice has one site per active index, with the species, position and
    allowed list of the full lattice's site, and the same basis. *)
Theorem active_lattice_agrees :
  forall parse fp template mapping bt la, made parse template mapping bt la ->
  forall shape o,
  get_active_site_order parse fp la shape = Ok o ->
  exists la', get_active_lattice_structure parse fp la shape = Ok la' /\
    la_basis la' = la_basis la /\ length (la_template la') = active_site_count o /\
    forall a z, o_a2o o !! a = Some z ->
      la_template la' !! a = cell_site template (shape3 (o_shape o)) (Z.to_nat z) /\
      exists l, la_allowed la' !! a = Some (Some l) /\
        allowed_at la (shape3 (o_shape o)) (Z.to_nat z) = Some l.
Proof. exact active_agrees_lemma. Qed.
Print Assumptions active_lattice_agrees.

Example active_lattice_example :
  match get_active_site_order ex_parse ex_fp ex_lattice (Some [2; 1; 1]%Z),
        get_active_lattice_structure ex_parse ex_fp ex_lattice (Some [2; 1; 1]%Z) with
  | Ok o, Ok la' => o_a2o o = [0; 1; 4; 5]%Z /\ map fst (la_template la') = map (fun _ => el "Na") (seq 0 4)
  | _, _ => False
  end.
Proof. vm_compute. done. Qed.

(** In-place supercells mix up the allowed lists: a sodium site that allows zirconium. *)
Theorem make_supercell_keeps_allowed_lists_refuted :
  exists parse template mapping bt la shape k s l,
    made parse template mapping bt la /\ positive_shape shape /\
    fst (make_supercell la shape) = Ok tt /\
    la_template (snd (make_supercell la shape)) !! k = Some s /\
    la_allowed (snd (make_supercell la shape)) !! k = Some (Some l) /\
    fst s = el "Na" /\ l = [el "Zr"].
Proof.
  exists ex_parse, ex_template, ex_mapping, "chebyshev"%string, ex_lattice, (2, 1, 1), 1,
    (el "Na", ((0 + 1) / 2, 0 / 1, 0 / 1)%Q), [el "Zr"].
  split; [exact (proj1 made_example)|]. split; [simpl; lia|]. do 3 (split; [vm_compute; reflexivity|]). done.
Qed.
Print Assumptions make_supercell_keeps_allowed_lists_refuted.
