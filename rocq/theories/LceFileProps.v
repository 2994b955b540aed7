(** Properties C79 and C80. *)
From Coq Require Import QArith Qabs Reals Lra Qreals.
From Verif Require Import Py PyLemmas Json ActiveSiteModel EventModel StateModel HopModel BasisModel MatcherModel LceModel
  BuildModel LocalEnvModel CompositeModel LceFileModel LceFileSpec LceFileProofs.
Local Open Scope nat_scope.
Local Open Scope string_scope.

(** Examples: structures, sites and other models are their own dictionaries. *)
Definition f_dict := dict string json.
Definition f_distance (p q : point) : Q :=
  let '(x, y, z) := p in let '(x', y', z') := q in Qred (Qabs (x - x') + Qabs (y - y') + Qabs (z - z'))%Q.
Definition f_indices (l : list Z) : string := String.concat "," (map py_str_int l).
Definition f_site (s : string * point) : json :=
  let '(x, y, z) := snd s in JList [JStr (fst s); JFloat x; JFloat y; JFloat z].
Definition f_read_site (j : json) : result (string * point) :=
  match j with JList [JStr s; JFloat x; JFloat y; JFloat z] => Ok (s, (x, y, z)) | _ => Err ValueError end.
Definition f_text (j : json) : string := match ints j with Ok l => f_indices l | _ => "" end.
Definition f_world : external f_dict f_dict f_dict := {|
  x_canon := fun s => Ok s;
  x_molecule_as_dict := fun l => JList (map f_site l);
  x_molecule_from_dict := nested f_read_site;
  x_distance := f_distance;
  x_round8 := fun x => x;
  x_orbit_hash := fun records _ => String.concat ";" (map (fun r => f_indices (fst (fst r))) records);
  x_feature_hash := fun f b n => f ++ ":" ++ f_text b;
  x_signature_hash := fun _ => "h";
  x_text_of := fun _ => "text";
  x_structure_as_dict := fun d => d;
  x_structure_from_dict := fun d => Ok d;
  x_molecule_env_from_dict := fun d => Ok d;
  x_structure_sites := fun _ => [];
  x_site_as_dict := fun d => d;
  x_site_from_dict := fun j => match j with JObj d => Ok d | _ => Err ValueError end;
  x_point_group := fun _ => "C1";
  x_float_values := fun _ l => Ok (map (fun _ => [[1; 2]; [1; -2]]%Q) l);
  x_ext_as_dict := fun d => d;
  x_ext_type := fun _ => JStr "site_energy";
  x_ext_from_dict := fun _ _ d => Ok d;
|}.
Lemma f_reads : reads_what_it_writes f_world.
Proof.
  split; try done.
  - intros l _. apply (nested_map f_site f_read_site). by intros [s [[x y] z]] _.
  - intros j l _. by apply Forall_true.
  - intros s. simpl. destruct (dget s "@class") as [[| | | |t| |]|]; try done.
    repeat (destruct t as [|[[] [] [] [] [] [] [] []] t]; try done).
  - intros b l v [= <-]. split.
    + destruct l as [|x l]; [done|]. simpl. induction l as [|y l IH]; [done|]. exact IH.
    + destruct l as [|x l]; [done|]. simpl. induction l as [|y l IH]; [done|]. exact IH.
Qed.

Definition f_species (s : string) : species := Species s (Some s) None.
Definition f_two : option (list species) := Some (map f_species ["Na"; "X"]).
Definition f_env (b : basis) : local_env point :=
  LocalEnv ["Na"; "Na"; "O"] [(-(1), 0, 0); (1, 0, 0); (0, 0, 0)]%Q [0; 1; 2]%Z [f_two; f_two; f_two] b "h".
Definition f_structure : f_dict := [("lattice", JStr "L")].
Definition f_center : f_dict := [("species", JStr "Na")].
Definition f_order : local_order := LocalOrder "default" [] true (1 # 100).
Definition f_build (b : basis) : result (lce_obj f_dict f_dict) :=
  build_obj f_world (f_env b) f_structure f_center f_order (JList []) [5; 5; 1]%Q.
Definition f_parameters (n : nat) : f_dict :=
  [("keci", JList (map (fun i => JFloat (inject_Z (Z.of_nat i))) (seq 1 n))); ("empty_cluster", JInt 7);
   ("local_environment_hash", JStr "h")].
Definition f_fitted (b : basis) (n : nat) : result (lce_obj f_dict f_dict) :=
  let* o := f_build b in file_set_parameters f_world o (f_parameters n).
Definition f_kra : lce_obj f_dict f_dict := match f_fitted OccupationBasis 5 with Ok o => o | Err _ => [] end.
Definition f_site_model : lce_obj f_dict f_dict := match f_fitted (ChebyshevBasis 2) 5 with Ok o => o | Err _ => [] end.
Definition f_event : event := Event [0; 1]%Z [1; 2; 3]%Z.
Definition f_other : f_dict := [("@module", JStr "kmcpy.models.site_energy"); ("@class", JStr "SiteEnergyModel")].
Lemma f_canonical b : Forall (canonical f_world) (zip (e_species (f_env b)) (e_coords (f_env b))).
Proof. by repeat constructor. Qed.
Lemma f_kra_built : built_and_fitted f_world f_kra.
Proof.
  exists (f_env OccupationBasis), f_structure, f_center, f_order, (JList []), [5; 5; 1]%Q.
  eexists _, (f_parameters 5). split; [apply f_canonical|]. split; [done|]. split; vm_compute; reflexivity.
Qed.
Lemma f_site_built : built_and_fitted f_world f_site_model.
Proof.
  exists (f_env (ChebyshevBasis 2)), f_structure, f_center, f_order, (JList []), [5; 5; 1]%Q.
  eexists _, (f_parameters 5). split; [apply f_canonical|].
  split; [by intros n [= <-]|]. split; vm_compute; reflexivity.
Qed.

Example f_kra_value : exists x, value f_world f_kra [0; 0; 1; 0]%Z f_event = Ok x.
Proof.
  assert (V : exists m, lce_view f_world f_kra = Ok m /\ m = Lce [[[0]; [1]]; [[2]]; [[0; 1]]; [[0; 2]; [1; 2]]; [[0; 1; 2]]]%Z None
         ["0;1"; "2"; "0,1"; "0,2;1,2"; "0,1,2"] (Some "h") (Some [1; 2; 3; 4; 5]%Q) (Some 7%Q)
         (Some ["0;1"; "2"; "0,1"; "0,2;1,2"; "0,1,2"]) (Some "h")) by (eexists; split; vm_compute; reflexivity).
  destruct V as (m & V & ->). unfold value. rewrite V. cbn [rbind]. eexists. cbv -[Rplus Rmult IZR Ropp Q2R]. reflexivity.
Qed.

(** C79: a model file made from a composite model can be read, and the model that comes back has
    the same expansions and computes the same rate for every event in every state. *)
Theorem saved_model_computes_the_same {S C X} (w : external S C X) : reads_what_it_writes w ->
  forall site kra kra_fit site_fit d,
  fitted w kra -> site_ok w site ->
  composite_as_dict w (composite_new site (Some kra) kra_fit site_fit) = Ok d ->
  exists c, composite_from_dict w (JObj d) = Ok c
    /\ (exists k, cp_kra c = Some k /\ same_model w kra k)
    /\ same_site w site (cp_site c)
    /\ cp_kra_fit c = or_no_fit kra_fit
    /\ (site <> SNone -> cp_site_fit c = or_no_fit site_fit)
    /\ forall E (ext_compute : E -> list Z -> event -> result R) lk v temperature m occ e,
         rate w ext_compute c lk v temperature m occ e
         = rate w ext_compute (composite_new site (Some kra) kra_fit site_fit) lk v temperature m occ e.
Proof. exact (composite_reload w). Qed.
Print Assumptions saved_model_computes_the_same.

(** Beside it: every composite model of expansions that were built and fitted can be saved. *)
Theorem built_model_can_be_saved {S C X} (w : external S C X) : reads_what_it_writes w ->
  forall site kra kra_fit site_fit,
  built_and_fitted w kra ->
  match site with SLce o => built_and_fitted w o | _ => True end ->
  exists d, composite_as_dict w (composite_new site (Some kra) kra_fit site_fit) = Ok d.
Proof. exact (composite_saves w). Qed.
Print Assumptions built_model_can_be_saved.

Example saved_model_example :
  exists d c, composite_as_dict f_world (composite_new (SLce f_site_model) (Some f_kra) JNull (JObj [("time", JInt 3)])) = Ok d
    /\ composite_from_dict f_world (JObj d) = Ok c
    /\ (exists k, cp_kra c = Some k /\ same_model f_world f_kra k)
    /\ (exists s, cp_site c = SLce s /\ same_model f_world f_site_model s)
    /\ cp_site_fit c = JObj [("time", JInt 3)].
Proof.
  destruct (built_model_can_be_saved f_world f_reads (SLce f_site_model) f_kra JNull (JObj [("time", JInt 3)])
    f_kra_built f_site_built) as [d Hd].
  destruct (saved_model_computes_the_same f_world f_reads (SLce f_site_model) f_kra JNull (JObj [("time", JInt 3)]) d
    (proj1 (built_fitted f_world _ f_kra_built)) (proj1 (built_fitted f_world _ f_site_built)) Hd)
    as (c & H1 & H2 & H3 & H4 & H5 & _).
  exists d, c. split; [exact Hd|]. split; [exact H1|]. split; [exact H2|]. split; [exact H3|]. apply H5. discriminate.
Qed.
Example saved_external_example :
  exists d c, composite_as_dict f_world (composite_new (SExternal f_other) (Some f_kra) JNull JNull) = Ok d
    /\ composite_from_dict f_world (JObj d) = Ok c /\ cp_site c = SExternal f_other.
Proof.
  destruct (built_model_can_be_saved f_world f_reads (SExternal f_other) f_kra JNull JNull f_kra_built I) as [d Hd].
  assert (site_ok f_world (SExternal f_other)) as Hs.
  { exists "kmcpy.models.site_energy", "SiteEnergyModel". by split_and!. }
  destruct (saved_model_computes_the_same f_world f_reads (SExternal f_other) f_kra JNull JNull d
    (proj1 (built_fitted f_world _ f_kra_built)) Hs Hd) as (c & H1 & _ & H3 & _).
  exists d, c. split; [exact Hd|]. split; [exact H1|]. exact H3.
Qed.

(** C79, beside it: an expansion comes back from its own dictionary, but without the parameters it
    was given: the copy refuses to compute. *)
Theorem saved_expansion_comes_back {S C X} (w : external S C X) : reads_what_it_writes w ->
  forall o d, arises w o -> lce_as_dict w o = Ok d ->
  exists o', lce_from_dict w d = Ok o' /\ arises w o' /\ same_expansion w o o'
    /\ forall occ e, value w o' occ e = Err ValueError.
Proof. exact (expansion_reload w). Qed.
Print Assumptions saved_expansion_comes_back.
Example saved_expansion_example : arises f_world f_kra /\ (exists d, lce_as_dict f_world f_kra = Ok d)
  /\ exists x, value f_world f_kra [0; 0; 1; 0]%Z f_event = Ok x.
Proof.
  split; [|split; [eexists; vm_compute; reflexivity|exact f_kra_value]].
  destruct (proj1 (built_fitted f_world _ f_kra_built)) as (o & p & Ho & Hp). by eapply arises_set.
Qed.

(** C80: a composite model file is read only if it says what it is and every part carries
    parameters that belong to its expansion: a number for each feature, and, where the file says
    for which features and environment they were fitted, for these. *)
Theorem accepted_file_fits {S C X} (w : external S C X) j c : composite_from_dict w j = Ok c ->
  exists d kra k, j = JObj d
    /\ dget d "filetype" = Some (JStr "kmcpy.model_file") /\ dget d "model_type" = Some (JStr "composite_lce")
    /\ dget d "kra" = Some (JObj kra) /\ cp_kra c = Some k /\ part_of_file w kra k
    /\ match get_some d "site" with
       | None => cp_site c = SNone
       | Some site => exists sd, site = JObj sd /\
           ((exists s, cp_site c = SLce s /\ part_of_file w sd s)
            \/ (exists x md, cp_site c = SExternal x /\ dget sd "lce" = None /\ dget sd "model" = Some (JObj md)))
       end.
Proof. exact (composite_fits w j c). Qed.
Print Assumptions accepted_file_fits.

(** C80: the fingerprints an expansion file lists are those of its orbits, in the order of its
    features, if it describes its features or lists one fingerprint for each orbit. *)
Theorem stored_fingerprints_checked {S C X} (w : external S C X) d o fps j l :
  NoDup (dkeys d) -> din d "correlation_fingerprints" = false ->
  lce_from_dict w d = Ok o -> dget d "orbits" = Some j -> nested (orbit_from_dict w) j = Ok l ->
  dget d "orbit_fingerprints" = Some (JList fps) ->
  get_some d "correlation_feature_metadata" <> None \/ length fps = length l ->
  exists k, fingerprints_of_payload w d k /\ fps = map JStr k.
Proof. exact (fingerprints_fit w d o fps j l). Qed.
Print Assumptions stored_fingerprints_checked.

Definition f_saved : f_dict := match lce_as_dict f_world f_kra with Ok d => d | Err _ => [] end.
Definition f_saved2 : f_dict := match lce_as_dict f_world f_site_model with Ok d => d | Err _ => [] end.
Definition f_load (d : f_dict) : result (lce_obj f_dict f_dict) :=
  let* o := lce_from_dict f_world d in file_set_parameters f_world o (f_parameters 5).
Definition ok {A} (r : result A) : bool := match r with Ok _ => true | Err _ => false end.
Example stored_fingerprints_example :
  ok (lce_from_dict f_world f_saved) = true /\ ok (lce_from_dict f_world f_saved2) = true
  /\ dget f_saved "orbit_fingerprints" = Some (jtexts ["0;1"; "2"; "0,1"; "0,2;1,2"; "0,1,2"])
  /\ ok (lce_from_dict f_world (dset f_saved "orbit_fingerprints" (jtexts ["0;1"; "2"; "0,1"; "0,1,2"; "0,2;1,2"]))) = false
  /\ ok (lce_from_dict f_world (dset f_saved2 "orbit_fingerprints" (jtexts ["0;1:0"; "2:0"]))) = false
  /\ ok (f_load f_saved) = true
  /\ ok (let* o := lce_from_dict f_world f_saved in file_set_parameters f_world o (f_parameters 4)) = false
  /\ ok (let* o := lce_from_dict f_world f_saved in
         file_set_parameters f_world o (dset (f_parameters 5) "local_environment_hash" (JStr "k"))) = false.
Proof. vm_compute. by split_and!. Qed.

(** C80, what is not checked: the table of clusters that [compute] uses is not compared with the
    orbits.  Two files with the same orbits, fingerprints and parameters are both accepted, and
    the models compute different values. *)
Theorem cluster_table_unchecked_refuted :
  exists (w : external f_dict f_dict f_dict) d t p o o' occ e x x', reads_what_it_writes w
    /\ (let* l := lce_from_dict w d in file_set_parameters w l p) = Ok o
    /\ (let* l := lce_from_dict w (dset d "cluster_site_indices" t) in file_set_parameters w l p) = Ok o'
    /\ dget o' "orbits" = dget o "orbits"
    /\ get_orbit_fingerprints w o' = get_orbit_fingerprints w o
    /\ value w o occ e = Ok x /\ value w o' occ e = Ok x' /\ x <> x'.
Proof.
  set (t := jtable [[[0]; [2]]; [[1]]; [[0; 1]]; [[0; 2]; [1; 2]]; [[0; 1; 2]]]%Z).
  assert (H1 : exists o, f_load f_saved = Ok o /\ get_orbit_fingerprints f_world o = Ok ["0;1"; "2"; "0,1"; "0,2;1,2"; "0,1,2"]
    /\ dget o "orbits" = dget f_kra "orbits"
    /\ lce_view f_world o = Ok (Lce [[[0]; [1]]; [[2]]; [[0; 1]]; [[0; 2]; [1; 2]]; [[0; 1; 2]]]%Z None
         ["0;1"; "2"; "0,1"; "0,2;1,2"; "0,1,2"] (Some "h") (Some [1; 2; 3; 4; 5]%Q) (Some 7%Q)
         (Some ["0;1"; "2"; "0,1"; "0,2;1,2"; "0,1,2"]) (Some "h"))).
  { eexists. split; [vm_compute; reflexivity|]. split; [vm_compute; reflexivity|]. split; [vm_compute; reflexivity|]. vm_compute; reflexivity. }
  assert (H2 : exists o, f_load (dset f_saved "cluster_site_indices" t) = Ok o /\ get_orbit_fingerprints f_world o = Ok ["0;1"; "2"; "0,1"; "0,2;1,2"; "0,1,2"]
    /\ dget o "orbits" = dget f_kra "orbits"
    /\ lce_view f_world o = Ok (Lce [[[0]; [2]]; [[1]]; [[0; 1]]; [[0; 2]; [1; 2]]; [[0; 1; 2]]]%Z None
         ["0;1"; "2"; "0,1"; "0,2;1,2"; "0,1,2"] (Some "h") (Some [1; 2; 3; 4; 5]%Q) (Some 7%Q)
         (Some ["0;1"; "2"; "0,1"; "0,2;1,2"; "0,1,2"]) (Some "h"))).
  { eexists. split; [vm_compute; reflexivity|]. split; [vm_compute; reflexivity|]. split; [vm_compute; reflexivity|]. vm_compute; reflexivity. }
  destruct H1 as (o & L1 & F1 & O1 & V1), H2 as (o' & L2 & F2 & O2 & V2).
  exists f_world, f_saved, t, (f_parameters 5), o, o', [0; 0; 0; 1]%Z, f_event.
  unfold value. rewrite V1, V2. cbn [rbind].
  eexists _, _. split; [exact f_reads|]. split; [exact L1|]. split; [exact L2|]. split; [congruence|]. split; [congruence|].
  split; [cbv -[Rplus Rmult IZR Ropp Q2R]; reflexivity|]. split; [cbv -[Rplus Rmult IZR Ropp Q2R]; reflexivity|].
  unfold Q2R. simpl. lra.
Qed.
Print Assumptions cluster_table_unchecked_refuted.

(** C80, what is not checked: a file without descriptions of its features may list any number of
    fingerprints other than one for each orbit; they are taken as they are. *)
Theorem other_number_of_fingerprints_refuted :
  exists (w : external f_dict f_dict f_dict) d o fps, reads_what_it_writes w /\ lce_from_dict w d = Ok o
    /\ dget d "orbit_fingerprints" = Some (JList fps)
    /\ get_orbit_fingerprints w o = Ok ["no"; "such"; "orbits"]
    /\ forall k, fingerprints_of_payload w d k -> fps <> map JStr k.
Proof.
  set (d := dset f_saved "orbit_fingerprints" (jtexts ["no"; "such"; "orbits"])).
  assert (H : exists o, lce_from_dict f_world d = Ok o /\ get_orbit_fingerprints f_world o = Ok ["no"; "such"; "orbits"]).
  { eexists. split; [vm_compute; reflexivity|]. vm_compute; reflexivity. }
  destruct H as (o & Ho & Hf). exists f_world, d, o, (map JStr ["no"; "such"; "orbits"]).
  split; [exact f_reads|]. split; [exact Ho|]. split; [vm_compute; reflexivity|]. split; [exact Hf|].
  intros k (j & l & Hj & Hl & Hk).
  assert (N : get_some d "correlation_feature_metadata" = None) by (vm_compute; reflexivity). rewrite N in Hk. subst k.
  assert (L : (let* j := match dget d "orbits" with Some j => Ok j | None => Err KeyError end in
               let* l := nested (orbit_from_dict f_world) j in Ok (length l)) = Ok 5) by (vm_compute; reflexivity).
  rewrite Hj in L. cbn [rbind] in L. rewrite Hl in L. cbn [rbind] in L. injection L as L.
  intros E. apply (f_equal length) in E. rewrite !map_length, L in E. discriminate.
Qed.
Print Assumptions other_number_of_fingerprints_refuted.
