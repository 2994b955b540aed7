(** Properties C75 to C78: local environments. *)
From Coq Require Import QArith Qabs.
From Verif Require Import Py PyLemmas Json ActiveSiteModel ActiveSiteSpec BasisModel LatticeModel MatcherModel LceModel BuildModel BuildSpec BuildProofs
  LocalEnvModel LocalEnvSpec LocalEnvProofs LocalEnvSearch.
Local Open Scope nat_scope.

(* ---------------- C75 ---------------- *)
(** A local site order written as a dictionary reads back as the same order. *)
Theorem local_order_dict_roundtrip : forall o, local_order_from_dict (local_order_as_dict o) = Ok o.
Proof. exact order_roundtrip_lemma. Qed.
Print Assumptions local_order_dict_roundtrip.

(** The names accepted are those of the two known orders. *)
Theorem local_order_names : forall name o,
  order_resolve (OName name) = Ok o <-> (o = default_order \/ o = nasicon_order) /\ lo_name o = name.
Proof. exact resolve_name_lemma. Qed.
Print Assumptions local_order_names.

(** The other forms: nothing means the default order, an order stands for itself, a dictionary
    is read, anything else is a TypeError, and an unknown name a ValueError. *)
Theorem local_order_forms :
  order_resolve ONone = Ok default_order /\ (forall o, order_resolve (OOrder o) = Ok o) /\
  (forall d, order_resolve (ODict d) = local_order_from_dict d) /\ order_resolve OOther = Err TypeError /\
  forall name x, order_resolve (OName name) = Err x -> x = ValueError.
Proof. exact forms_lemma. Qed.
Print Assumptions local_order_forms.

(** What a dictionary leaves out comes from the order of the same name, or from the default
    order. *)
Theorem local_order_dict_defaults : forall d name keys exclude tol,
  dget d "name"%string = Some (JStr name) ->
  dget d "sort_keys"%string = (fun l => JList (map JStr l)) <$> keys ->
  dget d "exclude_center_site"%string = JBool <$> exclude ->
  dget d "center_match_tolerance"%string = JFloat <$> tol ->
  local_order_from_dict d = Ok (LocalOrder name (given keys (lo_keys (base_of name)))
                                  (given exclude (lo_exclude (base_of name)))
                                  (given tol (lo_tol (base_of name)))).
Proof. exact dict_lemma. Qed.
Print Assumptions local_order_dict_defaults.

Example dict_defaults_example :
  local_order_from_dict [("name", JStr "nasicon_nat_commun_2022"); ("exclude_center_site", JBool false)]%string =
    Ok (LocalOrder "nasicon_nat_commun_2022" ["species"; "cartesian_x"] false (1 # 1000))%string /\
  local_order_from_dict [("name", JStr "mine"); ("sort_keys", JList [JStr "cartesian_z"])]%string =
    Ok (LocalOrder "mine" ["cartesian_z"] false (1 # 1000))%string /\
  local_order_from_dict [("sort_keys", JList [JStr "cartesian_z"])]%string = Err ValueError.
Proof. split_and!; reflexivity. Qed.

(** One might expect a dictionary that says "false" to keep the centre, and one that gives a
    single key as text to sort by that key.  The text "false" counts as true, and the text of
    a key is taken letter by letter. *)
Theorem local_order_dict_means_what_it_says_refuted :
  exists d d' o o',
    dget d "exclude_center_site"%string = Some (JStr "false") /\ local_order_from_dict d = Ok o /\ lo_exclude o = true /\
    dget d' "sort_keys"%string = Some (JStr "species") /\ local_order_from_dict d' = Ok o' /\
    forall k, k ∈ lo_keys o' -> k ∉ known_keys.
Proof.
  exists [("name", JStr "kmcpy_default"); ("exclude_center_site", JStr "false")]%string,
    [("name", JStr "kmcpy_default"); ("sort_keys", JStr "species")]%string,
    (LocalOrder "kmcpy_default" ["species_string"] true (1 # 1000))%string,
    (LocalOrder "kmcpy_default" ["s"; "p"; "e"; "c"; "i"; "e"; "s"] false (1 # 1000))%string.
  split_and!; try reflexivity. intros k Hk Hin. simpl in Hk.
  repeat (apply elem_of_cons in Hk as [->|Hk]; [vm_compute in Hin; repeat (apply elem_of_cons in Hin as [?|Hin]; [discriminate|]); by apply elem_of_nil in Hin|]).
  by apply elem_of_nil in Hk.
Qed.
Print Assumptions local_order_dict_means_what_it_says_refuted.

(* ---------------- examples ---------------- *)
Definition l_parse (s : string) : result species := Ok (Species s (Some s) None).
Definition l_fp (_ : fp_payload) : string := "fp".
Definition l_element (s : string) : bool := str_in s ["Na"; "K"; "Zr"]%string.
Definition l_en (s : string) : option Q :=
  if String.eqb s "Na" then Some (93 # 100) else if String.eqb s "Zr" then Some (133 # 100) else None.
Definition l_el (s : string) : species := Species s (Some s) None.
Definition l_hash (l : list (string * point)) : string :=
  String.concat "" (map (fun e => let '(s, (x, y, z)) := e in
    s ++ (if Qle_bool 0 x then if Qle_bool x 0 then "0" else "+" else "-")
      ++ (if Qle_bool 0 y then if Qle_bool y 0 then "0" else "+" else "-")
      ++ (if Qle_bool 0 z then if Qle_bool z 0 then "0" else "+" else "-"))%string l)%string.
Definition l_template : list site :=
  [(l_el "Na", (0, 0, 0)); (l_el "Zr", (1 # 2, 1 # 2, 1 # 2)); (l_el "Na", (1 # 2, 0, 0))]%Q.
Definition l_mapping : list (spval * allowedval) :=
  [(SStr "Na", AList [SStr "Na"; SStr "X"]); (SStr "Zr", AOne (SStr "Zr"))]%string.
Definition l_new (sphere : cell -> list coords -> point -> Q -> list (nat * image)) (template : list site)
    (center : center_arg) (cutoff : Q) (arg : order_arg) : result local_lattice :=
  local_lattice_new l_parse l_fp l_element l_en sphere false Qred l_hash cube template center cutoff l_mapping
    "occupation" false arg None.
Definition l_name : order_arg := OName "nasicon_nat_commun_2022".
Definition l_get (r : result local_lattice) : local_lattice :=
  match r with
  | Ok e => e
  | Err _ => LocalLattice (Lattice [] [] "" [] OccupationBasis) (Order 0 0 [] [] [] [] [] [] [] "" None) default_order
               (0, 0, 0)%Q None [] [] [] ""
  end.
Definition l_env : local_lattice := l_get (l_new cubic l_template (CIndex 0) (1 # 2) l_name).

Lemma l_made : l_new cubic l_template (CIndex 0) (1 # 2) l_name = Ok l_env.
Proof. vm_compute. reflexivity. Qed.
Lemma l_keys : distinct_keys l_parse l_mapping /\ keys_name_elements l_parse l_mapping l_template.
Proof.
  split.
  - intros i j kv kv' k Hi Hj Hk Hk'. destruct i as [|[|i]], j as [|[|j]]; try reflexivity; try discriminate; simpl in Hi, Hj; simplify_eq;
      vm_compute in Hk, Hk'; congruence.
  - intros s kv k symbol Hs _ _ Hsym H.
    repeat (apply elem_of_cons in Hs as [->|Hs]; [simpl in Hsym; simplify_eq; exact H|]). by apply elem_of_nil in Hs.
Qed.

(** The environment of the first sodium site within 1/2: the other sodium site, from both
    sides, in the order of their x coordinates. *)
Example environment_example :
  search_exact cubic cube /\ l_new cubic l_template (CIndex 0) (1 # 2) l_name = Ok l_env /\
  distinct_keys l_parse l_mapping /\ keys_name_elements l_parse l_mapping l_template /\
  ll_indices l_env = [1; 1]%Z /\ map (fun s => Qred (fst (fst (snd s)))) (ll_sites l_env) = [-1 # 2; 1 # 2]%Q /\
  told_apart l_en (lo_keys (ll_rule l_env)) (ll_sites l_env).
Proof.
  split; [exact cubic_exact|]. split; [exact l_made|]. destruct l_keys as [K1 K2]. do 2 (split; [done|]).
  split; [vm_compute; reflexivity|]. split; [vm_compute; reflexivity|].
  assert (R : lo_keys (ll_rule l_env) = ["species"; "cartesian_x"]%string) by (vm_compute; reflexivity). rewrite R.
  assert (E : exists s t, ll_sites l_env = [s; t] /\ comes_before l_en ["species"; "cartesian_x"]%string s t).
  { exists (l_el "Na", ((-1 # 2), (0 # 2), (0 # 2)))%Q, (l_el "Na", ((1 # 2), (0 # 2), (0 # 2)))%Q. split; [vm_compute; reflexivity|]. simpl. right. split.
    - intros [[? _]|[(_ & H)|(x & y & H & _)]]; [discriminate| |discriminate].
      unfold less_electronegative in H. simpl in H. destruct H as [H|[_ H]]; [by apply Qlt_irrefl in H|discriminate].
    - left. right. right. eexists _, _. split; [reflexivity|]. split; [reflexivity|]. reflexivity. }
  destruct E as (s & t & E & Hb). rewrite E. clear E R K1 K2. intros j k x y Hjk Hj Hk.
  destruct j as [|[|j]], k as [|[|k]]; try done; simpl in Hj, Hk; simplify_eq; auto.
Qed.

(* ---------------- C76 ---------------- *)
(** A local environment lists exactly the images of the active sites within the cutoff of the
    centre, without the centre if the order leaves it out; each once, with its number, its
    species without charge and its position relative to the centre.  They are in the order of
    the keys, and in the order of the search where the keys do not decide. *)
Theorem environment_contents :
  forall parse fp is_element en sphere empty_molecule round8 site_hash m template center cutoff mapping bt ex arg xc e,
  search_exact sphere m ->
  local_lattice_new parse fp is_element en sphere empty_molecule round8 site_hash m template center cutoff mapping bt ex arg xc = Ok e ->
  built parse fp (map fst template) mapping None (ll_order e) /\
  centre_is m template center (ll_center e) /\
  (exists rule, order_resolve arg = Ok rule /\ ll_rule e = rule_used rule xc) /\
  exists keys, listed m template center cutoff e keys /\
    (forall k a t, keys !! k = Some (a, t) -> describes m template e k a t) /\
    exists fs, positions (ll_order e) template fs /\
      forall j k x y s t, j < k -> keys !! j = Some x -> keys !! k = Some y ->
        ll_sites e !! j = Some s -> ll_sites e !! k = Some t ->
        comes_before en (lo_keys (ll_rule e)) s t \/
        ~ comes_before en (lo_keys (ll_rule e)) t s /\
          exists p q, p < q /\ sphere m fs (ll_center e) cutoff !! p = Some x /\ sphere m fs (ll_center e) cutoff !! q = Some y.
Proof. exact contents_lemma. Qed.
Print Assumptions environment_contents.

(** The states of its sites are those of the active sites, with the codes in the same
    order. *)
Theorem environment_states :
  forall parse fp is_element en sphere empty_molecule round8 site_hash m template center cutoff mapping bt ex arg xc e,
  distinct_keys parse mapping -> keys_name_elements parse mapping template ->
  local_lattice_new parse fp is_element en sphere empty_molecule round8 site_hash m template center cutoff mapping bt ex arg xc = Ok e ->
  length (la_allowed (ll_lattice e)) = length (o_a2o (ll_order e)) /\
  forall a i, active_is (ll_order e) a i ->
    exists l, la_allowed (ll_lattice e) !! a = Some (Some l) /\
      o_allowed (ll_order e) !! i = Some (map (fun s => species_label (SObj s)) l) /\ 1 < length l.
Proof. exact states_lemma. Qed.
Print Assumptions environment_states.

(** It can be made exactly when: the retired argument is not used, the basis is known, the
    active sites and the order can be resolved, the centre is an active site or a point, the
    active sites hold elements, the keys are known, and something lies within the cutoff. *)
Theorem environment_exists_iff :
  forall parse fp is_element en sphere empty_molecule round8 site_hash m template center cutoff mapping bt ex arg xc,
  search_exact sphere m -> distinct_keys parse mapping -> keys_name_elements parse mapping template ->
  (exists e, local_lattice_new parse fp is_element en sphere empty_molecule round8 site_hash m template center cutoff mapping bt ex arg xc = Ok e) <->
  ex = false /\ (bt = "occupation"%string \/ bt = "chebyshev"%string) /\
  exists o rule, built parse fp (map fst template) mapping None o /\ order_resolve arg = Ok rule /\ usable_centre o center /\
    (forall a i, active_is o a i -> exists s symbol, template !! i = Some s /\ sp_symbol (fst s) = Some symbol /\ is_element symbol = true) /\
    (something_belongs o (rule_used rule xc) m template center cutoff -> forall k, k ∈ lo_keys rule -> k ∈ known_keys) /\
    (~ something_belongs o (rule_used rule xc) m template center cutoff -> empty_molecule = true).
Proof. exact exists_lemma. Qed.
Print Assumptions environment_exists_iff.

Example environment_fails_example :
  l_new cubic l_template (CIndex 1) (1 # 2) l_name = Err ValueError /\
  l_new cubic l_template (CIndex 0) (1 # 4) l_name = Err ValueError /\
  l_new cubic l_template (CPoint [0; 0]%Q) (1 # 2) l_name = Err ValueError /\
  l_new cubic l_template (CIndex 0) (1 # 2) (OOrder (LocalOrder "mine" ["distance"] false 0))%string = Err ValueError.
Proof. split_and!; vm_compute; reflexivity. Qed.

(** A cluster expansion can be built from every environment. *)
Theorem environment_suits_a_cluster_expansion :
  forall parse fp is_element en sphere empty_molecule round8 site_hash (distance : point -> point -> Q)
    m template center cutoff mapping bt ex arg xc e,
  search_exact sphere m -> distinct_keys parse mapping -> keys_name_elements parse mapping template ->
  (forall x y, (distance x y == distance y x)%Q) ->
  local_lattice_new parse fp is_element en sphere empty_molecule round8 site_hash m template center cutoff mapping bt ex arg xc = Ok e ->
  well_formed distance (env_of e) /\
  forall i, i < length (e_species (env_of e)) -> exists k, states_is (env_of e) i k /\ 1 < k.
Proof. exact suits_lemma. Qed.
Print Assumptions environment_suits_a_cluster_expansion.

(** One might expect only the centre to be left out.  Its own periodic images are left out
    too, although they lie away from it and within the cutoff. *)
Theorem only_the_centre_is_left_out_refuted :
  exists e t, search_exact cubic cube /\ l_new cubic l_template (CIndex 0) 1 l_name = Ok e /\
    active_is (ll_order e) 0 0 /\ reaches cube (0, 0, 0)%Q t (ll_center e) 1 /\
    ~ reaches cube (0, 0, 0)%Q t (ll_center e) (1 # 2) /\ (0%Z ∉ ll_indices e) /\ (1%Z ∈ ll_indices e).
Proof.
  exists (l_get (l_new cubic l_template (CIndex 0) 1 l_name)), (1, 0, 0)%Z. split; [exact cubic_exact|]. split; [vm_compute; reflexivity|].
  split; [reflexivity|]. split; [split; vm_compute; discriminate|]. split; [intros [_ H]; vm_compute in H; by apply H|].
  assert (E : ll_indices (l_get (l_new cubic l_template (CIndex 0) 1 l_name)) = [1; 1]%Z) by (vm_compute; reflexivity).
  rewrite E. split; [intros H; repeat (apply elem_of_cons in H as [?|H]; [discriminate|]); by apply elem_of_nil in H|by left].
Qed.
Print Assumptions only_the_centre_is_left_out_refuted.

(** The states agree only because the keys of the mapping are different species: with two
    keys for one species the numbering of the active sites uses the first and the
    environment the last. *)
Definition l_twice : list (spval * allowedval) :=
  [(SStr "Na", AList [SStr "Na"; SStr "X"]); (SObj (l_el "Na"), AList [SStr "Na"; SStr "K"; SStr "X"]); (SStr "Zr", AOne (SStr "Zr"))]%string.
Theorem states_always_agree_refuted :
  exists e l labels, search_exact cubic cube /\
    local_lattice_new l_parse l_fp l_element l_en cubic false Qred l_hash cube l_template (CIndex 0) (1 # 2) l_twice
      "occupation" false l_name None = Ok e /\
    active_is (ll_order e) 0 0 /\ la_allowed (ll_lattice e) !! 0 = Some (Some l) /\ o_allowed (ll_order e) !! 0 = Some labels /\
    length l = 3 /\ length labels = 2.
Proof.
  eexists _, _, _. split; [exact cubic_exact|]. split; [vm_compute; reflexivity|].
  split; [reflexivity|]. split; [reflexivity|]. split; [reflexivity|]. done.
Qed.
Print Assumptions states_always_agree_refuted.

(* ---------------- C77 ---------------- *)
(** When the keys tell the sites apart, the environment does not depend on the order in which
    the neighbour search lists its results. *)
Theorem environment_is_independent_of_the_search :
  forall parse fp is_element en sphere sphere' empty_molecule round8 site_hash m template center cutoff mapping bt ex arg xc e,
  search_exact sphere m -> search_exact sphere' m ->
  local_lattice_new parse fp is_element en sphere empty_molecule round8 site_hash m template center cutoff mapping bt ex arg xc = Ok e ->
  told_apart en (lo_keys (ll_rule e)) (ll_sites e) ->
  local_lattice_new parse fp is_element en sphere' empty_molecule round8 site_hash m template center cutoff mapping bt ex arg xc = Ok e.
Proof. exact independent_lemma. Qed.
Print Assumptions environment_is_independent_of_the_search.

(** Moving the whole crystal, or giving sites by other periodic images, does not change the
    environment, nor its hash when rounding depends only on the number. *)
Theorem environment_of_the_same_crystal :
  forall parse fp is_element en sphere empty_molecule round8 site_hash m v template template' center center' cutoff mapping bt ex arg xc e,
  search_exact sphere m -> same_sites v template template' -> same_centre v center center' ->
  local_lattice_new parse fp is_element en sphere empty_molecule round8 site_hash m template center cutoff mapping bt ex arg xc = Ok e ->
  told_apart en (lo_keys (ll_rule e)) (ll_sites e) ->
  exists e', local_lattice_new parse fp is_element en sphere empty_molecule round8 site_hash m template' center' cutoff mapping bt ex arg xc = Ok e' /\
    same_environment e e' /\
    ((forall x y, (x == y)%Q -> round8 x = round8 y) -> ll_hash e' = ll_hash e).
Proof. exact same_lemma. Qed.
Print Assumptions environment_of_the_same_crystal.

(** The hash is that of the species and rounded positions of the stored sites, in order. *)
Theorem environment_hash :
  forall parse fp is_element en sphere empty_molecule round8 site_hash m template center cutoff mapping bt ex arg xc e,
  local_lattice_new parse fp is_element en sphere empty_molecule round8 site_hash m template center cutoff mapping bt ex arg xc = Ok e ->
  hashed round8 site_hash e.
Proof. intros. eapply hashed_lemma, hash_lemma; eassumption. Qed.
Print Assumptions environment_hash.

Definition l_moved : list site :=
  [(l_el "Na", (1 # 4, 1, 0)); (l_el "Zr", (-1 # 4, 1 # 2, 1 # 2)); (l_el "Na", (3 # 4, 0, -(1)))]%Q.
Example same_crystal_example :
  same_sites (1 # 4, 0, 0)%Q l_template l_moved /\ same_centre (1 # 4, 0, 0)%Q (CIndex 0) (CIndex 0) /\
  same_centre (1 # 4, 0, 0)%Q (CPoint [0; 0; 0]%Q) (CPoint [5 # 4; 0; 0]%Q) /\
  search_exact (fun m fs c r => rev (cubic m fs c r)) cube /\
  ll_hash (l_get (l_new cubic l_moved (CIndex 0) (1 # 2) l_name)) = ll_hash l_env.
Proof.
  split; [repeat constructor|split; [done|split; [|split]]].
  - exists (0, 1, 0)%Z. vm_compute. done.
  - exists (-1, 0, 0)%Z. vm_compute. done.
  - exists (0, 0, -1)%Z. vm_compute. done.
  - exists (1, 0, 0)%Z. vm_compute. done.
  - intros fs c r. destruct (cubic_exact fs c r) as [H1 H2]. rewrite <- (Permutation_rev (cubic cube fs c r)). split; [done|].
    intros i t. rewrite <- (Permutation_rev (cubic cube fs c r)). apply H2.
  - vm_compute. reflexivity.
Qed.

(** One might expect the default order to fix the order of the sites.  It sorts by species
    only: two searches that are both exact give environments with different hashes, so that a
    model built from one refuses the other. *)
Theorem default_order_is_independent_of_the_search_refuted :
  exists sphere sphere' e e', search_exact sphere cube /\ search_exact sphere' cube /\
    l_new sphere l_template (CIndex 0) (1 # 2) ONone = Ok e /\ l_new sphere' l_template (CIndex 0) (1 # 2) ONone = Ok e' /\
    ll_hash e <> ll_hash e'.
Proof.
  exists cubic, (fun m fs c r => rev (cubic m fs c r)). eexists _, _.
  split; [exact cubic_exact|]. split; [apply same_crystal_example|]. split; [vm_compute; reflexivity|]. split; [vm_compute; reflexivity|].
  vm_compute. discriminate.
Qed.
Print Assumptions default_order_is_independent_of_the_search_refuted.

(* ---------------- C78 ---------------- *)
(** Matching with a reference succeeds exactly when some assignment of the sites keeps the
    species and, within the tolerances, all distances. *)
Theorem matching_succeeds_iff :
  forall distance, (forall x y, (distance x y == distance y x)%Q) ->
  forall empty_molecule round8 site_hash e ref rtol atol,
  indexed e -> indexed ref -> (ll_sites e <> [] \/ empty_molecule = true) ->
  (exists e', match_with_reference empty_molecule round8 site_hash distance e ref rtol atol false = Ok e') <->
  exists p, fits_reference distance rtol atol ref e p.
Proof. exact match_iff_lemma. Qed.
Print Assumptions matching_succeeds_iff.

(** When the nearest assignment is asked for, it is enough that the species agree. *)
Theorem nearest_matching_succeeds_iff :
  forall distance, (forall x y, (distance x y == distance y x)%Q) ->
  forall empty_molecule round8 site_hash e ref rtol atol,
  indexed e -> indexed ref -> (ll_sites e <> [] \/ empty_molecule = true) ->
  (exists e', match_with_reference empty_molecule round8 site_hash distance e ref rtol atol true = Ok e') <->
  exists p, keeps_species ref e p.
Proof. exact nearest_iff_lemma. Qed.
Print Assumptions nearest_matching_succeeds_iff.

(** The result is the same environment with its sites in the order of the reference: sites
    and numbers are rearranged together, nothing else changes, and the hash is that of the
    new order.  Whenever some assignment fits, the one used does. *)
Theorem matching_follows_the_reference :
  forall distance, (forall x y, (distance x y == distance y x)%Q) ->
  forall empty_molecule round8 site_hash e ref rtol atol nearest e',
  indexed e -> indexed ref ->
  match_with_reference empty_molecule round8 site_hash distance e ref rtol atol nearest = Ok e' ->
  exists p, rearranged e p e' /\ keeps_species ref e p /\ indexed e' /\
    ((exists q, fits_reference distance rtol atol ref e q) -> fits_reference distance rtol atol ref e p) /\
    (nearest = false -> fits_reference distance rtol atol ref e p) /\
    hashed round8 site_hash e'.
Proof.
  intros distance Hd empty_molecule round8 site_hash e ref rtol atol nearest e' He Hr H.
  destruct (matched_lemma distance Hd empty_molecule round8 site_hash e ref rtol atol nearest e' He Hr H) as (p & H1 & H2 & H3 & H4 & H5 & H6).
  exists p. split_and!; auto using hashed_lemma.
Qed.
Print Assumptions matching_follows_the_reference.

Theorem matching_fails_with_value_error :
  forall distance, (forall x y, (distance x y == distance y x)%Q) ->
  forall empty_molecule round8 site_hash e ref rtol atol nearest x,
  indexed e -> indexed ref -> (ll_sites e <> [] \/ empty_molecule = true) ->
  match_with_reference empty_molecule round8 site_hash distance e ref rtol atol nearest = Err x -> x = ValueError.
Proof. exact match_error_lemma. Qed.
Print Assumptions matching_fails_with_value_error.

(** When only one assignment fits, the order in which the environment was listed does not
    matter. *)
Theorem matching_is_canonical :
  forall distance, (forall x y, (distance x y == distance y x)%Q) ->
  forall empty_molecule round8 site_hash e ref rtol atol e' s f,
  indexed e -> indexed ref ->
  match_with_reference empty_molecule round8 site_hash distance e ref rtol atol false = Ok e' ->
  (forall p q, fits_reference distance rtol atol ref e p -> fits_reference distance rtol atol ref e q -> p = q) ->
  rearranged e s f ->
  exists f', match_with_reference empty_molecule round8 site_hash distance f ref rtol atol false = Ok f' /\
    ll_sites f' = ll_sites e' /\ ll_indices f' = ll_indices e' /\ ll_hash f' = ll_hash e'.
Proof. exact canonical_lemma. Qed.
Print Assumptions matching_is_canonical.

(** Two environments are reported equivalent exactly when one fits the other; this never
    raises. *)
Theorem equivalence_is_decided :
  forall distance, (forall x y, (distance x y == distance y x)%Q) ->
  forall round8 e other rtol atol, indexed e -> indexed other ->
  exists b, is_equivalent_to round8 distance e other rtol atol = Ok b /\
    (b = true <-> exists p, fits_reference distance rtol atol e other p).
Proof. exact equivalent_lemma. Qed.
Print Assumptions equivalence_is_decided.

(** In particular, environments that differ by a rotation, a reflection or the order of
    their sites are equivalent. *)
Theorem congruent_environments_are_equivalent :
  forall distance, (forall x y, (distance x y == distance y x)%Q) ->
  forall round8 e other rtol atol p, indexed e -> indexed other -> (0 <= rtol)%Q -> (0 <= atol)%Q ->
  congruent_by distance e other p -> is_equivalent_to round8 distance e other rtol atol = Ok true.
Proof. exact congruent_lemma. Qed.
Print Assumptions congruent_environments_are_equivalent.

(** What the constructor makes can be matched. *)
Theorem environments_are_indexed :
  forall parse fp is_element en sphere empty_molecule round8 site_hash m template center cutoff mapping bt ex arg xc e,
  search_exact sphere m ->
  local_lattice_new parse fp is_element en sphere empty_molecule round8 site_hash m template center cutoff mapping bt ex arg xc = Ok e ->
  indexed e.
Proof. exact indexed_lemma. Qed.
Print Assumptions environments_are_indexed.

(** Example: the environment turned to another axis.  Along an axis this distance is the
    Euclidean one. *)
Definition taxi (p q : point) : Q :=
  let '(x, y, z) := vsub p q in (Qabs x + Qabs y + Qabs z)%Q.
Lemma taxi_sym x y : (taxi x y == taxi y x)%Q.
Proof.
  destruct x as [[a b] c], y as [[a' b'] c']. unfold taxi, vsub.
  rewrite (Qabs_Qminus a a'), (Qabs_Qminus b b'), (Qabs_Qminus c c'). reflexivity.
Qed.
Definition l_turned : list site :=
  [(l_el "Na", (0, 0, 0)); (l_el "Zr", (1 # 2, 1 # 2, 1 # 2)); (l_el "Na", (0, 1 # 2, 0))]%Q.
Definition l_env' : local_lattice := l_get (l_new cubic l_turned (CIndex 0) (1 # 2) l_name).
Definition l_matched : local_lattice :=
  l_get (match_with_reference false Qred l_hash taxi l_env' l_env (1 # 1000) (1 # 1000) false).
Example matching_example :
  indexed l_env /\ indexed l_env' /\ ll_sites l_env' <> [] /\
  fits_reference taxi (1 # 1000) (1 # 1000) l_env l_env' [0; 1] /\ congruent_by taxi l_env l_env' [0; 1] /\
  match_with_reference false Qred l_hash taxi l_env' l_env (1 # 1000) (1 # 1000) false = Ok l_matched /\
  is_equivalent_to Qred taxi l_env l_env' (1 # 1000) (1 # 1000) = Ok true.
Proof.
  split; [reflexivity|]. split; [reflexivity|]. split; [vm_compute; discriminate|].
  assert (S : ll_sites l_env = [(l_el "Na", (-1 # 2, 0 # 2, 0 # 2)); (l_el "Na", (1 # 2, 0 # 2, 0 # 2))]%Q) by (vm_compute; reflexivity).
  assert (S' : ll_sites l_env' = [(l_el "Na", (0 # 2, -1 # 2, 0 # 2)); (l_el "Na", (0 # 2, 1 # 2, 0 # 2))]%Q) by (vm_compute; reflexivity).
  assert (K : keeps_species l_env l_env' [0; 1]).
  { unfold keeps_species. rewrite S, S'. clear S S'. split; [reflexivity|]. split; [reflexivity|]. split; [repeat constructor; set_solver|].
    intros i c Hi. destruct i as [|[|i]]; simpl in Hi; simplify_eq; eexists _, _; split_and!; reflexivity. }
  split; [split; [exact K|]|split; [split; [exact K|]|split; vm_compute; reflexivity]]; rewrite S, S'; clear K S S'.
  - intros i j c d s s' t t' Hij Hi Hj Hs Hs' Ht Ht'.
    destruct i as [|[|i]], j as [|[|j]]; simpl in Hi, Hj; simplify_eq; try done;
      simpl in *; simplify_eq; vm_compute; discriminate.
  - intros i j c d s s' t t' Hi Hj Hs Hs' Ht Ht'.
    destruct i as [|[|i]], j as [|[|j]]; simpl in Hi, Hj; simplify_eq; try done;
      simpl in *; simplify_eq; vm_compute; reflexivity.
Qed.

(** One might expect an environment matched with the reference to be accepted by the model
    built from it.  A turned environment is equivalent and can be matched, but its positions
    differ, so does its hash, and the model refuses it. *)
Theorem matched_environments_are_accepted_refuted :
  exists m, build Qred taxi (fun _ => "o"%string) (fun _ _ _ => "f"%string) (env_of l_env) [2; 2; 2]%Q = Ok m /\
    is_equivalent_to Qred taxi l_env l_env' (1 # 1000) (1 # 1000) = Ok true /\
    match_with_reference false Qred l_hash taxi l_env' l_env (1 # 1000) (1 # 1000) false = Ok l_matched /\
    forall occ, corr_from_occupation m (env_of l_matched) occ = Err ValueError.
Proof.
  destruct (environment_suits_a_cluster_expansion _ _ _ _ _ _ _ _ taxi _ _ _ _ _ _ _ _ _ _ cubic_exact (proj1 l_keys) (proj2 l_keys) taxi_sym l_made) as [WF St].
  destruct (build_succeeds_lemma Qred taxi (fun _ => "o"%string) (fun _ _ _ => "f"%string) (env_of l_env) WF [2; 2; 2]%Q) as [m Hm].
  { simpl. lia. }
  { intros i Hi. destruct (St i Hi) as (k & Hk & _). eauto. }
  { simpl. lia. }
  exists m. split; [done|]. split; [apply matching_example|]. split; [apply matching_example|].
  intros occ. eapply (refusal_lemma Qred taxi); [exact WF|exact Hm|]. left. split; vm_compute; discriminate.
Qed.
Print Assumptions matched_environments_are_accepted_refuted.
