(** Properties C45, C46 and C61. *)
From Coq Require Import QArith.
From Verif Require Import Py PyLemmas Json ActiveSiteModel ActiveSiteSpec BasisModel LatticeModel LatticeSpec LatticeProps
  EnumModel EnumSpec EnumProofs.
Local Open Scope nat_scope.

(** Example: three sodium positions around a zirconium position. *)
Definition en_template : list site :=
  [(el "Na", (0, 0, 0)); (el "Zr", (1 # 2, 1 # 2, 0)); (el "Na", (1 # 2, 0, 1 # 2)); (el "Na", (0, 1 # 2, 1 # 2))]%Q.
Definition en_lattice : lattice := ex_new en_template ex_mapping "chebyshev".
Definition no_order : order := Order 0 0 [] [] [] [] [] [] [] "" None.
Definition context_act (la : lattice) : lattice :=
  match active_context ex_parse ex_fp la with Ok (act, _) => act | Err _ => la end.
Definition context_order (la : lattice) : order :=
  match active_context ex_parse ex_fp la with Ok (_, o) => o | Err _ => no_order end.
Definition en_counts : list (spval * Z) := [(SStr "Na", 2%Z); (SStr "X", 1%Z)]%string.

Example enumeration_example :
  made ex_parse en_template ex_mapping "chebyshev" en_lattice /\
  active_context ex_parse ex_fp en_lattice = Ok (context_act en_lattice, context_order en_lattice) /\
  tells_apart en_lattice /\ distinct_sites en_template /\
  fixed_sites_occupied en_lattice en_template (context_order en_lattice) /\
  sites_in_range (context_act en_lattice) [2; 0; 1]%Z /\ no_repeats [2; 0; 1]%Z None /\
  proper_counts (Some en_counts) /\
  match enumerate_local_environments ex_parse ex_fp en_lattice [2; 0; 1]%Z (Some en_counts) None None None 10 (1 # 10) with
  | Ok rs => map (fun r => oc_data (en_full r)) rs = [[0; 1; 0]; [1; 0; 0]; [0; 0; 1]]%Z /\
             map en_local rs = [[0; 0; 1]; [0; 1; 0]; [1; 0; 0]]%Z /\
             map (fun r => map fst (en_structure r)) rs =
               [[el "Na"; el "Zr"; el "Na"]; [el "Zr"; el "Na"; el "Na"]; [el "Na"; el "Zr"; el "Na"]]
  | Err _ => False
  end.
Proof.
  split; [split; [exact (proj1 (proj1 made_example))|vm_compute; reflexivity]|].
  split; [vm_compute; reflexivity|]. split; [|split; [|split; [|split; [|split; [|split]]]]].
  - intros l Hl. vm_compute in Hl. unfold distinguishable. simpl.
    repeat (apply elem_of_cons in Hl as [[= ->]|Hl]); [| | | |by apply elem_of_nil in Hl];
      (split; [done|split; [done|]]); intros i j s t Hi Hj He;
      destruct i as [|[|i]], j as [|[|j]]; try reflexivity; simpl in Hi, Hj; try discriminate;
      injection Hi as <-; injection Hj as <-; vm_compute in He; discriminate.
  - intros i j s t Hi Hj Hc.
    destruct i as [|[|[|[|i]]]], j as [|[|[|[|j]]]]; try reflexivity; simpl in Hi, Hj; try discriminate;
      injection Hi as <-; injection Hj as <-; exfalso;
      destruct Hc as ([k1 H1] & [k2 H2] & [k3 H3]); unfold Qeq in *; simpl in *; lia.
  - intros k s Hk Hn. assert (o_a2o (context_order en_lattice) = [0; 2; 3]%Z) as E by (vm_compute; reflexivity). rewrite E in Hn.
    destruct k as [|[|[|[|k]]]].
    + destruct Hn. by left.
    + injection Hk as <-. split; [vm_compute; discriminate|]. exists [el "Zr"], (el "Zr").
      split; [vm_compute; reflexivity|]. split; [by left|vm_compute; reflexivity].
    + destruct Hn. right. by left.
    + destruct Hn. right. right. by left.
    + simpl in Hk. discriminate.
  - intros i Hi. assert (length (la_template (context_act en_lattice)) = 3) as -> by (vm_compute; reflexivity). set_solver by lia.
  - unfold no_repeats. apply (bool_decide_unpack _). vm_compute. reflexivity.
  - split; [apply (bool_decide_unpack _); vm_compute; reflexivity|].
    intros k n H. repeat (apply elem_of_cons in H as [[= -> ->]|H]; [lia|]). by apply elem_of_nil in H.
  - vm_compute. repeat split; reflexivity.
Qed.

(* ---------------- C45 ---------------- *)
(** Every result is one admissible choice of species on the variable sites with the
    rest of the base unchanged, no two results are equal, and below the limit every
    admissible choice is among them. *)
Theorem enumeration_is_exact :
  forall parse fp template mapping bt la act o,
  made parse template mapping bt la -> active_context parse fp la = Ok (act, o) -> tells_apart la ->
  forall local counts variable_species given base max_results tol rs,
  sites_in_range act local -> no_repeats local given -> proper_counts counts ->
  enumerate_local_environments parse fp la local counts variable_species given base max_results tol = Ok rs ->
  exists vars b,
    variable_sites_are act variable_species local given vars /\ base_values act base tol b /\
    (Z.of_nat (length rs) <= max_results)%Z /\
    (forall r, r ∈ rs -> exists cs,
       assignment act variable_species vars cs /\ meets counts cs /\ shows act vars cs b r /\
       en_local_sites r = local /\ en_variable_sites r = vars /\
       Forall2 (fun i v => oc_data (en_full r) !! Z.to_nat i = Some v) local (en_local r)) /\
    NoDup (map en_full rs) /\
    ((Z.of_nat (length rs) < max_results)%Z ->
     forall cs, assignment act variable_species vars cs -> meets counts cs ->
       exists r, r ∈ rs /\ shows act vars cs b r).
Proof. exact enumeration_lemma. Qed.
Print Assumptions enumeration_is_exact.

(** The call succeeds exactly when the limit is positive, the base structure can be
    read, the given variable sites are local sites with a permitted species, and the
    counts add up to the number of variable sites. *)
Theorem enumeration_succeeds_iff :
  forall parse fp template mapping bt la act o,
  made parse template mapping bt la -> active_context parse fp la = Ok (act, o) -> tells_apart la ->
  forall local counts variable_species given base max_results tol,
  sites_in_range act local -> no_repeats local given -> proper_counts counts ->
  (exists rs, enumerate_local_environments parse fp la local counts variable_species given base max_results tol = Ok rs) <->
  (1 <= max_results)%Z /\
  (forall S, base = Some S -> readable act S tol (1, 1, 1)) /\
  (forall l, given = Some l -> forall i, i ∈ l ->
     i ∈ local /\ exists allowed s, allows act i allowed /\ permitted variable_species allowed s) /\
  exists vars, variable_sites_are act variable_species local given vars /\
    forall req, counts = Some req -> total req = Z.of_nat (length vars).
Proof. exact enumeration_iff_lemma. Qed.
Print Assumptions enumeration_succeeds_iff.

(** Raising the limit keeps the results and appends to them. *)
Theorem raising_the_limit_appends :
  forall parse fp la act o, active_context parse fp la = Ok (act, o) ->
  forall local counts variable_species given base max_results max_results' tol rs rs',
  (max_results <= max_results')%Z ->
  enumerate_local_environments parse fp la local counts variable_species given base max_results tol = Ok rs ->
  enumerate_local_environments parse fp la local counts variable_species given base max_results' tol = Ok rs' ->
  rs = take (Z.to_nat max_results) rs'.
Proof. exact limit_lemma. Qed.
Print Assumptions raising_the_limit_appends.

(** The structure of a result has the atoms its occupation says, and reads back as it. *)
Theorem enumerated_structure_agrees :
  forall parse fp template mapping bt la act o,
  made parse template mapping bt la -> active_context parse fp la = Ok (act, o) -> tells_apart la ->
  forall local counts variable_species given base max_results tol rs,
  sites_in_range act local -> no_repeats local given -> proper_counts counts ->
  enumerate_local_environments parse fp la local counts variable_species given base max_results tol = Ok rs ->
  forall r, r ∈ rs ->
  (forall s p, (s, p) ∈ en_structure r <-> atom la act o (oc_data (en_full r)) s p) /\
  (distinct_sites template -> fixed_sites_occupied la template o ->
   forall tol', (0 <= tol')%Q ->
   exists full, get_occ_from_structure la (en_structure r) tol' (1, 1, 1) None = Ok full /\
     select_active_values o (oc_data full) = Ok (oc_data (en_full r))).
Proof. exact structure_lemma. Qed.
Print Assumptions enumerated_structure_agrees.

(** A local environment that lists a site twice is enumerated with duplicates. *)
Theorem repeated_local_site_refuted :
  exists la rs, made ex_parse en_template ex_mapping "chebyshev" la /\
    enumerate_local_environments ex_parse ex_fp la [0; 0]%Z None None None None 10 (1 # 10) = Ok rs /\
    ~ NoDup (map en_full rs).
Proof.
  exists en_lattice, (match enumerate_local_environments ex_parse ex_fp en_lattice [0; 0]%Z None None None None 10 (1 # 10) with Ok rs => rs | Err _ => [] end).
  split; [exact (proj1 enumeration_example)|]. split; [vm_compute; reflexivity|].
  intros H. assert (0 = 2); [|lia].
  eapply (NoDup_lookup _ _ _ _ H); vm_compute; reflexivity.
Qed.
Print Assumptions repeated_local_site_refuted.

(** Asking for zero atoms of a species gives nothing, although the other counts can be
    met without that species. *)
Theorem zero_count_refuted :
  exists la act o cs, made ex_parse en_template ex_mapping "chebyshev" la /\
    active_context ex_parse ex_fp la = Ok (act, o) /\
    assignment act None [0; 1; 2]%Z cs /\ meets (Some [(SStr "Na", 3%Z); (SStr "X", 0%Z)]%string) cs /\
    enumerate_local_environments ex_parse ex_fp la [0; 1; 2]%Z (Some [(SStr "Na", 3%Z); (SStr "X", 0%Z)]%string)
      None None None 10 (1 # 10) = Ok [].
Proof.
  exists en_lattice, (context_act en_lattice), (context_order en_lattice), [el "Na"; el "Na"; el "Na"].
  split; [exact (proj1 enumeration_example)|]. split; [vm_compute; reflexivity|].
  split; [|split; [split|vm_compute; reflexivity]].
  - repeat constructor; exists [el "Na"; vacancy_species]; (split; [split; [lia|vm_compute; reflexivity]|split; [by left|done]]).
  - intros k n H. repeat (apply elem_of_cons in H as [[= -> ->]|H]; [vm_compute; reflexivity|]). by apply elem_of_nil in H.
  - intros s H. repeat (apply elem_of_cons in H as [->|H]; [exists (SStr "Na"%string), 3%Z; split; [by left|vm_compute; reflexivity]|]). by apply elem_of_nil in H.
Qed.
Print Assumptions zero_count_refuted.

(** With three species in the occupation basis the structure contradicts the species
    reported for the site. *)
Definition three_mapping : list (spval * allowedval) :=
  [(SStr "Na", AList [SStr "Na"; SStr "K"; SStr "X"]); (SStr "Zr", AOne (SStr "Zr"))]%string.
Theorem three_species_structure_refuted :
  exists la r1 r2 r3, made ex_parse [(el "Na", (0, 0, 0)%Q)] three_mapping "occupation" la /\
    enumerate_local_environments ex_parse ex_fp la [0]%Z None None None None 10 (1 # 10) = Ok [r1; r2; r3] /\
    en_species r3 = [(0%Z, "X"%string)] /\ map fst (en_structure r3) = [el "K"] /\ en_full r2 = en_full r3.
Proof.
  exists (ex_new [(el "Na", (0, 0, 0)%Q)] three_mapping "occupation").
  destruct (enumerate_local_environments ex_parse ex_fp (ex_new [(el "Na", (0, 0, 0)%Q)] three_mapping "occupation") [0]%Z None None None None 10 (1 # 10))
    as [[|r1 [|r2 [|r3 [|]]]]|] eqn:E; vm_compute in E; try discriminate. injection E as <- <- <-.
  eexists _, _, _. split; [split; [exact (proj1 (proj1 made_example))|vm_compute; reflexivity]|].
  split; [reflexivity|]. split; [reflexivity|]. split; reflexivity.
Qed.
Print Assumptions three_species_structure_refuted.

(* ---------------- C46 ---------------- *)
(** The endpoints of a hop exist exactly for two different active sites whose first
    allowed species are atoms with a common name. *)
Theorem endpoints_exist_iff :
  forall parse fp template mapping bt la act o,
  made parse template mapping bt la -> active_context parse fp la = Ok (act, o) -> tells_apart la ->
  forall env d from to,
  environment_values act o env d -> all_codes act d ->
  (exists ep, generate_neb_endpoint_pair parse fp la env [from; to] = Ok ep) <->
  sites_in_range act [from; to] /\ from <> to /\
  exists fs ts, first_species act from fs /\ first_species act to ts /\
    ~ is_vacancy fs /\ ~ is_vacancy ts /\ same_name fs ts.
Proof. exact generate_iff_lemma. Qed.
Print Assumptions endpoints_exist_iff.

(** The occupations are the environment's with the mobile atom at the first site, then
    at the second. *)
Theorem endpoint_occupations :
  forall parse fp template mapping bt la act o,
  made parse template mapping bt la -> active_context parse fp la = Ok (act, o) -> tells_apart la ->
  forall env d from to ep,
  environment_values act o env d -> all_codes act d ->
  generate_neb_endpoint_pair parse fp la env [from; to] = Ok ep ->
  ep_indices ep = (from, to) /\
  oc_basis (ep_initial_occ ep) = la_basis act /\ oc_basis (ep_final_occ ep) = la_basis act /\
  oc_data (ep_initial_occ ep) !! Z.to_nat from = Some (code (la_basis act) 0) /\
  oc_data (ep_initial_occ ep) !! Z.to_nat to = Some (code (la_basis act) 1) /\
  oc_data (ep_final_occ ep) !! Z.to_nat from = Some (code (la_basis act) 1) /\
  oc_data (ep_final_occ ep) !! Z.to_nat to = Some (code (la_basis act) 0) /\
  forall j : nat, Z.of_nat j <> from -> Z.of_nat j <> to ->
    oc_data (ep_initial_occ ep) !! j = d !! j /\ oc_data (ep_final_occ ep) !! j = d !! j.
Proof. exact occupations_lemma. Qed.
Print Assumptions endpoint_occupations.

(** The two structures list the same atoms in the same order except for one that moves
    from the first site to the second, and they read back as the two occupations. *)
Theorem endpoints_differ_by_one_atom :
  forall parse fp template mapping bt la act o,
  made parse template mapping bt la -> active_context parse fp la = Ok (act, o) -> tells_apart la ->
  forall env d from to ep,
  environment_values act o env d -> all_codes act d ->
  generate_neb_endpoint_pair parse fp la env [from; to] = Ok ep ->
  second_is_vacancy act from -> second_is_vacancy act to ->
  (exists m fs ts p q,
     first_species act from fs /\ first_species act to ts /\ position act from p /\ position act to q /\
     ep_initial ep !! m = Some (fs, p) /\ ep_final ep !! m = Some (ts, q) /\
     forall j, j <> m -> ep_initial ep !! j = ep_final ep !! j) /\
  (forall s p, (s, p) ∈ ep_initial ep <-> atom la act o (oc_data (ep_initial_occ ep)) s p) /\
  (forall s p, (s, p) ∈ ep_final ep <-> atom la act o (oc_data (ep_final_occ ep)) s p) /\
  (distinct_sites template -> fixed_sites_occupied la template o ->
   forall tol, (0 <= tol)%Q ->
   exists i f, get_occ_from_structure la (ep_initial ep) tol (1, 1, 1) None = Ok i /\
     select_active_values o (oc_data i) = Ok (oc_data (ep_initial_occ ep)) /\
     get_occ_from_structure la (ep_final ep) tol (1, 1, 1) None = Ok f /\
     select_active_values o (oc_data f) = Ok (oc_data (ep_final_occ ep))).
Proof. exact endpoints_lemma. Qed.
Print Assumptions endpoints_differ_by_one_atom.

Example endpoints_example :
  environment_values (context_act en_lattice) (context_order en_lattice) (FromValues [0; 0; 0; 1]%Z) [0; 0; 1]%Z /\
  all_codes (context_act en_lattice) [0; 0; 1]%Z /\
  second_is_vacancy (context_act en_lattice) 0 /\ second_is_vacancy (context_act en_lattice) 1 /\
  match generate_neb_endpoint_pair ex_parse ex_fp en_lattice (FromValues [0; 0; 0; 1]%Z) [1; 0]%Z with
  | Ok ep => oc_data (ep_initial_occ ep) = [1; 0; 1]%Z /\ oc_data (ep_final_occ ep) = [0; 1; 1]%Z /\
             map (fun s => (fst s, Qred (fst (fst (snd s))))) (ep_initial ep) = [(el "Zr", 1 # 2); (el "Na", 1 # 2)]%Q /\
             map (fun s => (fst s, Qred (fst (fst (snd s))))) (ep_final ep) = [(el "Zr", 1 # 2); (el "Na", 0)]%Q
  | Err _ => False
  end.
Proof.
  split; [split; vm_compute; reflexivity|]. split; [|split; [|split]].
  - assert (la_allowed (context_act en_lattice) = [Some [el "Na"; vacancy_species]; Some [el "Na"; vacancy_species]; Some [el "Na"; vacancy_species]]) as E
      by (vm_compute; reflexivity).
    assert (la_basis (context_act en_lattice) = ChebyshevBasis 2) as Eb by (vm_compute; reflexivity).
    intros j v Hj. unfold holds, allows. rewrite E, Eb.
    destruct j as [|[|[|j]]]; simpl in Hj; [| | |discriminate]; injection Hj as <-.
    + exists (el "Na"), [el "Na"; vacancy_species], 0. split; [split; [lia|reflexivity]|]. split; reflexivity.
    + exists (el "Na"), [el "Na"; vacancy_species], 0. split; [split; [lia|reflexivity]|]. split; reflexivity.
    + exists vacancy_species, [el "Na"; vacancy_species], 1. split; [split; [lia|reflexivity]|]. split; reflexivity.
  - exists [el "Na"; vacancy_species], vacancy_species. split; [split; [lia|vm_compute; reflexivity]|]. split; vm_compute; reflexivity.
  - exists [el "Na"; vacancy_species], vacancy_species. split; [split; [lia|vm_compute; reflexivity]|]. split; vm_compute; reflexivity.
  - vm_compute. repeat split; reflexivity.
Qed.

(** When the second species of the target site is an atom, the final structure has two
    atoms at one position. *)
Definition exchange_mapping : list (spval * allowedval) :=
  [(SStr "Na", AList [SStr "Na"; SStr "K"]); (SStr "Zr", AOne (SStr "Zr"))]%string.
Theorem two_atoms_on_one_site_refuted :
  exists la ep i j s t p, made ex_parse en_template exchange_mapping "chebyshev" la /\
    generate_neb_endpoint_pair ex_parse ex_fp la (FromValues [0; 0; 0]%Z) [0; 1]%Z = Ok ep /\
    i <> j /\ ep_final ep !! i = Some (s, p) /\ ep_final ep !! j = Some (t, p).
Proof.
  exists (ex_new en_template exchange_mapping "chebyshev").
  destruct (generate_neb_endpoint_pair ex_parse ex_fp (ex_new en_template exchange_mapping "chebyshev") (FromValues [0; 0; 0]%Z) [0; 1]%Z) as [ep|] eqn:E;
    vm_compute in E; [|discriminate]. injection E as <-.
  eexists _, 0, 2, (el "Na"), (el "Na"), _. split; [split; [exact (proj1 (proj1 made_example))|vm_compute; reflexivity]|].
  split; [reflexivity|]. split; [lia|]. split; [reflexivity|reflexivity].
Qed.
Print Assumptions two_atoms_on_one_site_refuted.

(** An occupation object in the other basis is read number by number: its occupied
    sites become vacancies. *)
Theorem occupation_object_keeps_its_meaning_refuted :
  exists la oc ep, made ex_parse en_template ex_mapping "chebyshev" la /\
    oc_basis oc = OccupationBasis /\ oc_data oc !! 2 = Some (code OccupationBasis 0) /\
    generate_neb_endpoint_pair ex_parse ex_fp la (FromOccupation oc) [0; 1]%Z = Ok ep /\
    oc_data (ep_initial_occ ep) !! 2 = Some (code (la_basis la) 1).
Proof.
  exists en_lattice, (Occupation OccupationBasis [1; 1; 1]%Z).
  destruct (generate_neb_endpoint_pair ex_parse ex_fp en_lattice (FromOccupation (Occupation OccupationBasis [1; 1; 1]%Z)) [0; 1]%Z) as [ep|] eqn:E;
    vm_compute in E; [|discriminate]. injection E as <-.
  eexists. split; [exact (proj1 enumeration_example)|]. split; [reflexivity|]. split; [reflexivity|]. split; reflexivity.
Qed.
Print Assumptions occupation_object_keeps_its_meaning_refuted.

(* ---------------- C61 ---------------- *)
(** One pair per environment, all different, when the hop's two sites are not among the
    variable sites. *)
Theorem endpoint_pairs_are_distinct :
  forall parse fp template mapping bt la act o,
  made parse template mapping bt la -> active_context parse fp la = Ok (act, o) -> tells_apart la ->
  forall local counts variable_species given base max_results tol from to ps,
  sites_in_range act local -> no_repeats local given -> proper_counts counts ->
  enumerate_neb_endpoint_pairs parse fp la [from; to] local counts variable_species given base max_results tol = Ok ps ->
  (forall vars, variable_sites_are act variable_species local given vars -> from ∉ vars /\ to ∉ vars) ->
  exists rs,
    enumerate_local_environments parse fp la local counts variable_species given base max_results tol = Ok rs /\
    length ps = length rs /\
    (forall k r p, rs !! k = Some r -> ps !! k = Some p ->
       generate_neb_endpoint_pair parse fp la (FromEnumeration r) [from; to] = Ok p /\
       forall j : nat, Z.of_nat j <> from -> Z.of_nat j <> to ->
       oc_data (ep_initial_occ p) !! j = oc_data (en_full r) !! j) /\
    NoDup (map ep_initial_occ ps).
Proof. exact pairs_distinct_lemma. Qed.
Print Assumptions endpoint_pairs_are_distinct.

Example pairs_example :
  match enumerate_neb_endpoint_pairs ex_parse ex_fp en_lattice [0; 1]%Z [2]%Z None None None None 10 (1 # 10) with
  | Ok ps => map (fun p => oc_data (ep_initial_occ p)) ps = [[0; 1; 0]; [0; 1; 1]]%Z
  | Err _ => False
  end.
Proof. vm_compute. reflexivity. Qed.

(** Otherwise the same pair comes several times. *)
Theorem variable_hop_sites_refuted :
  exists la ps, made ex_parse en_template ex_mapping "chebyshev" la /\
    enumerate_neb_endpoint_pairs ex_parse ex_fp la [0; 1]%Z [0; 1; 2]%Z None None None None 10 (1 # 10) = Ok ps /\
    length ps = 8 /\ ps !! 0 = ps !! 2 /\ ps !! 0 = ps !! 4.
Proof.
  exists en_lattice. destruct (enumerate_neb_endpoint_pairs ex_parse ex_fp en_lattice [0; 1]%Z [0; 1; 2]%Z None None None None 10 (1 # 10)) as [ps|] eqn:E;
    vm_compute in E; [|discriminate]. injection E as <-. eexists.
  split; [exact (proj1 enumeration_example)|]. split; [reflexivity|]. split; [reflexivity|]. split; reflexivity.
Qed.
Print Assumptions variable_hop_sites_refuted.
