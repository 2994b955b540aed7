(** C85: the class a model file is loaded with, and the fitter of a model class. *)
From Coq Require Import QArith Ascii.
From Verif Require Import Py PyLemmas Json StateModel LceFileModel SiteEnergyModel ParamModel SiteFileModel SiteFileSpec SiteFileProofs DispatchModel DispatchSpec DispatchProofs.
From Verif Require LocalBarrierModel SiteFileProps.
Local Open Scope string_scope.

(** The classes of the package and one that a user derived from the composite model. *)
Inductive x_class := KComposite | KLce | KBarrier | KSite | KParams | KDerived.
Definition x_find (m c : string) : found x_class :=
  if decide (m = "kmcpy.models.composite_lce_model" /\ c = "CompositeLCEModel") then Found KComposite
  else if decide (m = "kmcpy.models.local_cluster_expansion" /\ c = "LocalClusterExpansion") then Found KLce
  else if decide (m = "kmcpy.models.local_barrier_model" /\ c = "LocalBarrierModel") then Found KBarrier
  else if decide (m = "kmcpy.models.site_energy" /\ c = "SiteEnergyModel") then Found KSite
  else if decide (m = "kmcpy.models.parameters" /\ c = "LCEModelParameters") then Found KParams
  else if decide (m = "lab" /\ c = "Derived") then Found KDerived
  else Missing.
Definition x_from_file (c : x_class) : option (path -> files -> result x_class) := Some (fun _ _ => Ok c).
Definition x_from_config (c : x_class) (p : path) (fs : files) : result x_class := Ok c.
Notation x_choose := (model_from_config x_find x_from_file x_from_config).
Definition x_file (d : dict string json) : files := [(["m"]%char, CDoc (JObj d))].

(** A file with the format marker is loaded by the class registered for the type that it names,
    whatever type the configuration names. *)
Theorem marked_file_names_its_model C O (find : string -> string -> found C) from_file (from_config : C -> path -> files -> result O)
    (p : path) (fs : files) d t module class c model_type :
  p <> [] -> dget fs p = Some (CDoc (JObj d)) -> dget d "filetype" = Some (JStr "kmcpy.model_file") -> dget d "model_type" = Some (JStr t) ->
  registered_for t module class -> find module class = Found c ->
  model_from_config find from_file from_config p model_type fs = from_config c p fs.
Proof.
  intros Hp Hd Hf Ht Hm Hc. rewrite (marked_type find from_file from_config p fs d Hp Hd Hf model_type), Ht. unfold by_type.
  assert (dget model_classes t = Some (module, class)) as -> by (by destruct Hm). by rewrite Hc.
Qed.
Example marked_file_example : x_choose ["m"]%char (Some "site_energy")
  (x_file [("filetype", JStr "kmcpy.model_file"); ("model_type", JStr "local_barrier")]) = Ok KBarrier.
Proof. reflexivity. Qed.
Print Assumptions marked_file_names_its_model.

(** A file with the format marker and no registered type is refused, whatever the configuration
    says. *)
Theorem unknown_type_is_refused C O (find : string -> string -> found C) from_file (from_config : C -> path -> files -> result O)
    (p : path) (fs : files) d model_type :
  p <> [] -> dget fs p = Some (CDoc (JObj d)) -> dget d "filetype" = Some (JStr "kmcpy.model_file") ->
  (forall t, dget d "model_type" = Some (JStr t) -> t ∉ ["composite_lce"; "lce"; "local_cluster_expansion"; "local_barrier"; "site_energy"]) ->
  model_from_config find from_file from_config p model_type fs = Err ValueError.
Proof.
  intros Hp Hd Hf Ht. rewrite (marked_type find from_file from_config p fs d Hp Hd Hf model_type).
  destruct (dget d "model_type") as [[| | | |t| |]|]; try done. unfold by_type. specialize (Ht t eq_refl).
  assert (dget model_classes t = None) as ->; [|done]. apply dget_None. exact Ht.
Qed.
Example unknown_type_example : x_choose ["m"]%char (Some "site_energy")
  (x_file [("filetype", JStr "kmcpy.model_file"); ("model_type", JStr "site energy")]) = Err ValueError.
Proof. reflexivity. Qed.
Print Assumptions unknown_type_is_refused.

(** Without a marker, a file that names a class is loaded by that class if it can be imported, and
    otherwise by the class of the package that has this name. *)
Theorem file_names_its_class C O (find : string -> string -> found C) from_file (from_config : C -> path -> files -> result O)
    (p : path) (fs : files) d module class c f model_type :
  p <> [] -> dget fs p = Some (CDoc (JObj d)) -> dget d "filetype" = None ->
  dget d "@module" = Some (JStr module) -> dget d "@class" = Some (JStr class) ->
  (find module class = Found c
   \/ find module class = Missing /\ exists t m', registered_for t m' class /\ find m' class = Found c) ->
  from_file c = Some f ->
  model_from_config find from_file from_config p model_type fs = f p fs.
Proof.
  intros Hp Hd Hf Hm Hc Hk Hl. rewrite (named_class find from_file from_config p fs d module class Hp Hd Hf Hm Hc model_type).
  destruct Hk as [->|[-> (t & m' & Ht & Hk)]]; [unfold load; by rewrite Hl|].
  rewrite (registered_class_found find from_file t m' class c p fs ltac:(by destruct Ht) Hk). unfold load. by rewrite Hl.
Qed.
Example named_file_example :
  x_choose ["m"]%char (Some "site_energy") (x_file [("@module", JStr "lab"); ("@class", JStr "Derived")]) = Ok KDerived
  /\ x_choose ["m"]%char (Some "site_energy") (x_file [("@module", JStr "kmcpy.old"); ("@class", JStr "LocalClusterExpansion")]) = Ok KLce
  /\ x_choose ["m"]%char (Some "site_energy") (x_file [("@class", JStr "LocalClusterExpansion")]) = Ok KSite.
Proof. done. Qed.
Print Assumptions file_names_its_class.

(** The file of a composite model, a cluster expansion, a barrier table or a site-energy model is
    loaded by its own class, whatever type the configuration names. *)
Theorem saved_models_find_their_class C O (find : string -> string -> found C) from_file (from_config : C -> path -> files -> result O)
    composite lce barrier site :
  find "kmcpy.models.composite_lce_model" "CompositeLCEModel" = Found composite ->
  find "kmcpy.models.local_cluster_expansion" "LocalClusterExpansion" = Found lce ->
  find "kmcpy.models.local_barrier_model" "LocalBarrierModel" = Found barrier ->
  find "kmcpy.models.site_energy" "SiteEnergyModel" = Found site ->
  forall (p : path) (fs : files) d model_type, p <> [] -> dget fs p = Some (CDoc (JObj d)) ->
  let chosen := model_from_config find from_file from_config p model_type fs in
  (forall S K X (w : external S K X) o, composite_as_dict w o = Ok d -> chosen = from_config composite p fs)
  /\ (forall S K X (w : external S K X) o f, lce_as_dict w o = Ok d -> from_file lce = Some f -> chosen = f p fs)
  /\ (forall o f, LocalBarrierModel.lb_as_dict o = d -> from_file barrier = Some f -> chosen = f p fs)
  /\ (forall site_hash Fc Fa Ro (o : se_object Fc Fa Ro) f, object_as_dict site_hash o = d -> from_file site = Some f -> chosen = f p fs).
Proof.
  intros H1 H2 H3 H4 p fs d mt Hp Hd. cbv zeta. split; [|split; [|split]].
  - intros S K X w o Ho. destruct (composite_marks w o d Ho) as [Hf Ht]. eapply marked_file_names_its_model; [done|done|done|exact Ht|constructor|done].
  - intros S K X w o f Ho Hl. destruct (lce_marks w o d Ho) as (Hf & Hm & Hc). eapply file_names_its_class; [done|done|done|done|done|by left|done].
  - intros o f Ho Hl. subst d. eapply file_names_its_class; [done|done|reflexivity|reflexivity|reflexivity|by left|done].
  - intros h Fc Fa Ro o f Ho Hl. subst d. destruct (site_marks h o) as (Hf & Hm & Hc). eapply file_names_its_class; [done|done|done|done|done|by left|done].
Qed.
Example saved_models_example : exists o, new_object SiteFileProps.x_text (SiteFileProps.x_args None (JStr "lab:energy") None) = Ok o
  /\ x_choose ["m"]%char (Some "lce") (x_file (object_as_dict SiteFileProps.x_hash o)) = Ok KSite.
Proof. eexists. split; reflexivity. Qed.
Print Assumptions saved_models_find_their_class.

(** So a saved site-energy model comes back from a configuration that names its file, even if the
    configuration names no type or another one. *)
Theorem configured_site_model_comes_back C text site_hash Fc Fa Ro (find : string -> string -> found C)
    (from_file : C -> option (path -> files -> result (se_object Fc Fa Ro))) from_config site (p : path) o (fs : files) model_type :
  find "kmcpy.models.site_energy" "SiteEnergyModel" = Found site -> from_file site = Some (object_from_file text site_hash) ->
  site_model text site_hash o -> plain_order o -> kept_array text o -> p <> [] ->
  exists fs', object_to site_hash p o fs = (fs', Ok tt) /\ model_from_config find from_file from_config p model_type fs' = Ok (saved o).
Proof.
  intros Hs Hl Ho H1 H2 Hp. destruct (site_reload text site_hash p o fs Ho H1 H2) as (fs' & E1 & E2 & _). exists fs'. split; [done|].
  rewrite <-E2. destruct (site_marks site_hash o) as (Hf & Hm & Hc).
  assert (E : dget fs' p = Some (CDoc (JObj (object_as_dict site_hash o)))) by (injection E1 as <-; by rewrite dget_dset_eq).
  eapply (file_names_its_class _ _ find from_file from_config p fs'); [done|exact E|exact Hf|exact Hm|exact Hc|by left|done].
Qed.
Example configured_site_model_example : exists o, new_object SiteFileProps.x_text (SiteFileProps.x_args None (JStr "lab:energy") (Some (inl SiteFileProps.x_letters))) = Ok o
  /\ site_model SiteFileProps.x_text SiteFileProps.x_hash o /\ plain_order o /\ kept_array SiteFileProps.x_text o
  /\ model_from_config x_find (fun c => match c with KSite => Some (object_from_file SiteFileProps.x_text SiteFileProps.x_hash) | _ => None end)
       (fun _ _ _ => Err ValueError) ["m"]%char (Some "composite_lce") (fst (object_to SiteFileProps.x_hash ["m"]%char o [])) = Ok (saved o).
Proof.
  eexists. split; [reflexivity|]. split; [eapply (model_built _ _ (SiteFileProps.x_args None (JStr "lab:energy") (Some (inl SiteFileProps.x_letters)))); reflexivity|].
  split; [done|]. split; reflexivity.
Qed.
Print Assumptions configured_site_model_comes_back.

(** What a configuration loads need not be a model: nothing checks the class named by the file, and
    a file of fitted parameters gives the parameters. *)
Theorem only_models_are_loaded_refuted : exists r j p,
  dump (params_as_dict r) = Ok j /\ p <> [] /\ x_choose p (Some "lce") [(p, CDoc j)] = Ok KParams.
Proof.
  exists (params_from_dict []). eexists. exists ["m"]%char. split; [reflexivity|]. split; [done|]. reflexivity.
Qed.
Print Assumptions only_models_are_loaded_refuted.

(** A model of a class derived from the composite model does not come back with its own class: its
    file has the marker, so the class that it names is ignored. *)
Theorem derived_class_is_kept_refuted : exists d p,
  dget d "@module" = Some (JStr "lab") /\ dget d "@class" = Some (JStr "Derived") /\ x_find "lab" "Derived" = Found KDerived
  /\ dget d "filetype" = Some (JStr "kmcpy.model_file") /\ dget d "model_type" = Some (JStr "composite_lce")
  /\ forall model_type, x_choose p model_type [(p, CDoc (JObj d))] = Ok KComposite.
Proof.
  exists [("@module", JStr "lab"); ("@class", JStr "Derived"); ("filetype", JStr "kmcpy.model_file"); ("model_type", JStr "composite_lce")], ["m"]%char.
  repeat (split; [reflexivity|]). intros mt. reflexivity.
Qed.
Print Assumptions derived_class_is_kept_refuted.

(** ** Fitters *)

(** After any registrations, accepted or refused, the fitter of a class is the first one that was
    registered for it. *)
Theorem first_fitter_stays C F `{EqDecision C} `{EqDecision F} (l : list (C * F)) (c : C) :
  dget (registrations [] l) c = snd <$> List.find (fun cf => bool_decide (fst cf = c)) l.
Proof. exact (registrations_first l c). Qed.
Example first_fitter_example : let reg := registrations [] [(1, "a"); (2, "b"); (1, "c")]%nat in
  dget reg 1%nat = Some "a" /\ register reg 1%nat "c" = (reg, Err ValueError) /\ snd (register reg 1%nat "a") = Ok tt.
Proof. done. Qed.
Print Assumptions first_fitter_stays.

(** An accepted registration gives the class that fitter, whatever registrations follow. *)
Theorem registered_fitter_is_used C F `{EqDecision C} `{EqDecision F} (reg : dict C F) (c : C) (f : F) (bases : list C) own (l : list (C * F)) :
  snd (register reg c f) = Ok tt ->
  get_fitter_class (registrations (fst (register reg c f)) l) (c :: bases) own = Ok f.
Proof.
  intros H. unfold get_fitter_class. cbn [fitter_for]. by rewrite (registrations_keep _ l c f (register_ok reg c f H)).
Qed.
Example registered_fitter_example : snd (register [(1, "a")]%nat 2%nat "b") = Ok tt
  /\ get_fitter_class (registrations (fst (register [(1, "a")]%nat 2%nat "b")) [(2, "c")]%nat) [2; 1]%nat None = Ok "b".
Proof. done. Qed.
Print Assumptions registered_fitter_is_used.

(** A class without a fitter of its own has that of the nearest class it derives from; a class with
    none of them registered has its own attribute or is refused. *)
Theorem fitter_of_the_nearest_class C F `{EqDecision C} `{EqDecision F} (reg : dict C F) (mro : list C) own (f : F) :
  get_fitter_class reg mro own = Ok f <->
  (exists before c after, mro = (before ++ c :: after)%list /\ dget reg c = Some f /\ forall b, b ∈ before -> dget reg b = None)
  \/ (forall b, b ∈ mro -> dget reg b = None) /\ own = Some f.
Proof. exact (fitter_class_iff reg mro own f). Qed.
Example nearest_class_example : get_fitter_class [(1, "a"); (3, "b")]%nat [2; 3; 1]%nat (Some "c") = Ok "b"
  /\ get_fitter_class [(1, "a")]%nat [2]%nat (None : option string) = Err NotImplementedError.
Proof. done. Qed.
Print Assumptions fitter_of_the_nearest_class.

(** A registration changes no class that does not derive from the registered one. *)
Theorem registration_is_local C F `{EqDecision C} `{EqDecision F} (reg : dict C F) (c : C) (f : F) (mro : list C) own :
  c ∉ mro -> get_fitter_class (fst (register reg c f)) mro own = get_fitter_class reg mro own.
Proof. intros H. unfold get_fitter_class. by rewrite (fitter_unrelated reg c f mro H). Qed.
Example registration_is_local_example : 1%nat ∉ [2; 3]%nat /\ dget (fst (register [(3, "b")]%nat 1%nat "a")) 1%nat = Some "a".
Proof. split; [|done]. rewrite !not_elem_of_cons. repeat split; try done. apply not_elem_of_nil. Qed.
Print Assumptions registration_is_local.
