(** C84: saved site-energy models. *)
From Coq Require Import Reals QArith Ascii.
From Verif Require Import Py PyLemmas Json ActiveSiteModel EventModel StateModel SiteEnergyModel ParamModel SiteFileModel SiteFileSpec SiteFileProofs.
From Verif Require LocalBarrierModel.
Local Open Scope string_scope.

(** A model of three sites at the external positions 4, 0 and 2, with a function given by its name. *)
Definition x_text (v : ext_value) : string := match v with EStr s => s | EInt z => py_str_int z | EFloat _ => "1.5" end.
Definition x_args (live : option unit) (name : json) (initial : option (list ext_value + narray)) : se_args unit unit unit :=
  SeArgs (live, name, JObj [("value", JFloat (1 # 2))]) (None, JNull, JNull) (None, JStr " lab:engine ", JObj [("n", JInt 3)])
    (Some (BySequence [JInt 4; JStr "0"; JInt 2])) (Some (ByKey [(JInt 0, EStr "Na"); (JStr "1", EStr "Va")]))
    (Some (BySequence [None; Some (ByKey [(JInt 0, EStr "Na"); (JInt 1, EStr "Vac")]); None])) initial (JInt 6) (EStr "-") JNull
    (Some (Order 2 4 [0] [0; 2; 3] [0; 0; 0] [1] [3; 1; 1] ["Na"; "Cl"] [["Na"; "X"]; ["Cl"]] "ab12" None))%Z (JStr "ab12") (JStr "meV") (JStr "mine").
Definition x_hash (x : option (list (Z * Z)) * option Z * option Z) : string := "h".
Definition x_letters : list ext_value := [EStr "-"; EStr "Vac"; EStr "Na"; EStr "-"; EStr "-"; EStr "-"].
Notation x_session := (session (Fc := unit) (Fa := unit) (Ro := unit) x_text (fun _ => Ok DObject) (fun _ => Ok tt) (fun _ => Ok tt) (fun _ _ => Ok tt)
  (fun _ kw _ _ chs _ _ => Ok (INR (length chs + length kw))) (fun _ _ r _ _ _ _ => Ok r) (fun _ => None) (fun _ => None)).
Definition x_event : event := Event [0; 1]%Z [].
Definition x_lib : event_lib := add_event empty_lib x_event.

(** A model that is written to a file comes back from it with everything but the functions and
    objects that have no name; no other file changes.  Its initial array must be what numpy makes
    of the list of its entries. *)
Theorem saved_site_model_comes_back text site_hash Fc Fa Ro p (o : se_object Fc Fa Ro) fs :
  site_model text site_hash o -> plain_order o -> kept_array text o ->
  exists fs', object_to site_hash p o fs = (fs', Ok tt) /\ object_from_file text site_hash p fs' = Ok (saved o)
    /\ forall q, q <> p -> dget fs' q = dget fs q.
Proof. exact (site_reload text site_hash p o fs). Qed.
Example saved_site_model_example : exists o, new_object x_text (x_args None (JStr "lab:energy") (Some (inl x_letters))) = Ok o
  /\ site_model x_text x_hash o /\ plain_order o /\ kept_array x_text o /\ name_of (o_runtime o) = Some "lab:engine"
  /\ o_site_mapping o = Some [(0, 4); (1, 0); (2, 2)]%Z.
Proof.
  eexists. split; [reflexivity|]. split; [eapply (model_built _ _ (x_args None (JStr "lab:energy") (Some (inl x_letters)))); reflexivity|]. done.
Qed.
Print Assumptions saved_site_model_comes_back.

(** Arrays made from a list of numbers or a list of texts are kept. *)
Theorem lists_of_one_kind_are_kept text l :
  (forall v, v ∈ l -> SiteEnergyModel.is_number v = true) \/ (forall v, v ∈ l -> exists s, v = EStr s) ->
  as_array text (a_values (as_array text l)) = as_array text l.
Proof. exact (kept_one_kind text l). Qed.
Example one_kind_example : (forall v, v ∈ [EInt 1; EFloat (1 # 2)] -> SiteEnergyModel.is_number v = true)
  /\ as_array x_text [EInt 1; EFloat (1 # 2)] = NArray DFloat [EFloat 1; EFloat (1 # 2)].
Proof. split; [|done]. intros v Hv. rewrite !elem_of_cons in Hv. destruct Hv as [->|[->|Hv]]; [done|done|by apply elem_of_nil in Hv]. Qed.
Print Assumptions lists_of_one_kind_are_kept.

(** A model with everything given by name answers every simulation as before: the same energies for
    every event, every order of the sites, every sequence of questions and accepted events, or the
    same exception. *)
Theorem saved_site_model_answers_the_same text np_dtype Fc Fa Ro import_compute import_apply import_runtime call_compute call_apply
    parse_int parse_float (o : se_object Fc Fa Ro) given occ lib steps : named o ->
  session text np_dtype import_compute import_apply import_runtime call_compute call_apply parse_int parse_float (saved o) given occ lib steps
  = session text np_dtype import_compute import_apply import_runtime call_compute call_apply parse_int parse_float o given occ lib steps.
Proof. exact (saved_session text np_dtype import_compute import_apply import_runtime call_compute call_apply parse_int parse_float o given occ lib steps). Qed.
Example saved_site_model_answers_example : exists o, new_object x_text (x_args None (JStr "lab:energy") (Some (inl x_letters))) = Ok o /\ named o
  /\ x_session o None [0; 1; 1]%Z x_lib [Ask x_event [0; 1; 1]%Z; Tell x_event [1; 0; 1]%Z; Ask x_event [1; 0; 1]%Z] = ([3 * 1; 3 * 1]%R, Ok tt).
Proof.
  eexists. split; [reflexivity|]. split; [done|]. transitivity ([INR 3 * 1; INR 3 * 1]%R, Ok tt : result unit); [reflexivity|].
  assert (INR 3 = 3%R) as -> by (cbn; Lra.lra). done.
Qed.
Print Assumptions saved_site_model_answers_the_same.

(** A model whose function has no name cannot answer after it was loaded. *)
Theorem unnamed_function_is_lost Fc Fa Ro import_compute call_compute (o : se_object Fc Fa Ro) c m occ e ch chs : name_of (o_compute o) = None ->
  changes_from_pre_state (sc_tables m) e occ = Ok (ch :: chs) ->
  se_compute (compute_of import_compute call_compute (saved o)) c m occ e = Err RuntimeError.
Proof. exact (unnamed_function import_compute call_compute o c m occ e ch chs). Qed.
Example unnamed_function_example : exists o, new_object x_text (x_args (Some tt) JNull (Some (inl x_letters))) = Ok o /\ name_of (o_compute o) = None
  /\ x_session (saved o) None [0; 1; 1]%Z x_lib [Ask x_event [0; 1; 1]%Z] = ([], Err RuntimeError)
  /\ snd (x_session o None [0; 1; 1]%Z x_lib [Ask x_event [0; 1; 1]%Z]) = Ok tt.
Proof. eexists. split; [reflexivity|]. done. Qed.
Print Assumptions unnamed_function_is_lost.

(** An array of Python objects is not kept: numpy makes an array of integers of the loaded list, and
    a simulation that could start cannot start any more. *)
Theorem object_array_is_kept_refuted : exists o p fs fs' o',
  site_model x_text x_hash o /\ plain_order o /\ named o
  /\ object_to x_hash p o fs = (fs', Ok tt) /\ object_from_file x_text x_hash p fs' = Ok o'
  /\ x_session o None [0; 1; 1]%Z x_lib [] = ([], Ok tt) /\ x_session o' None [0; 1; 1]%Z x_lib [] = ([], Err ValueError).
Proof.
  destruct (new_object x_text (x_args None (JStr "lab:energy") (Some (inr (NArray DObject (repeat (EInt 0) 6)))))) as [o|e] eqn:E; [|done].
  exists o, ["m"]%char, []. do 2 eexists. split; [by eapply model_built|]. vm_compute in E. injection E as <-.
  split; [done|]. split; [done|]. split; [reflexivity|]. split; [reflexivity|]. split; reflexivity.
Qed.
Print Assumptions object_array_is_kept_refuted.

(** Nor is an array of texts that is wider than its entries: texts that fitted are cut. *)
Theorem wide_text_is_kept_refuted : exists (o o' : se_object unit unit unit) p fs fs' a a',
  site_model x_text x_hash o /\ object_to x_hash p o fs = (fs', Ok tt) /\ object_from_file x_text x_hash p fs' = Ok o'
  /\ o_initial o = Some a /\ o_initial o' = Some a'
  /\ cast x_text (fun _ => None) (fun _ => None) (SiteEnergyModel.a_dtype a) (EStr "Vac") = Ok (EStr "Vac")
  /\ cast x_text (fun _ => None) (fun _ => None) (SiteEnergyModel.a_dtype a') (EStr "Vac") = Ok (EStr "V").
Proof.
  destruct (new_object x_text (x_args None (JStr "lab:energy") (Some (inr (NArray (DText 8) (repeat (EStr "-") 6)))))) as [o|e] eqn:E; [|done].
  exists o. eexists. exists ["m"]%char, []. do 3 eexists. split; [by eapply model_built|]. vm_compute in E. injection E as <-.
  split; [reflexivity|]. split; [reflexivity|]. split; [reflexivity|]. split; [reflexivity|]. split; reflexivity.
Qed.
Print Assumptions wide_text_is_kept_refuted.

(** Two accepted files with the same stored site hash put every site at the same external position,
    with the same external size. *)
Theorem site_hash_fixes_the_sites text site_hash Fc Fa Ro d1 d2 h (o1 o2 : se_object Fc Fa Ro) : (forall x y, site_hash x = site_hash y -> x = y) ->
  from_payload text site_hash d1 = Ok o1 -> from_payload text site_hash d2 = Ok o2 ->
  dget d1 "external_site_order_hash" = Some (JStr h) -> dget d2 "external_site_order_hash" = Some (JStr h) ->
  (match o_site_mapping o1, o_site_mapping o2 with
   | Some m1, Some m2 => forall site, dget m1 site = dget m2 site
   | None, None => True
   | _, _ => False
   end) /\ o_size o1 = o_size o2 /\ (length ∘ a_values <$> o_initial o1) = (length ∘ a_values <$> o_initial o2).
Proof. exact (same_hash_same_sites text site_hash d1 d2 h o1 o2). Qed.
(** A file whose site mapping was edited is refused. *)
Definition x_code (x : option (list (Z * Z)) * option Z * option Z) : string :=
  match x with (Some ((_, z) :: _), _, _) => py_str_int z | _ => "" end.
Example site_hash_example : exists o, new_object x_text (x_args None (JStr "lab:energy") (Some (inl x_letters))) = Ok o
  /\ dget (object_as_dict x_code o) "external_site_order_hash" = Some (JStr "4")
  /\ from_payload x_text x_code (object_as_dict x_code o) = Ok o
  /\ from_payload (Fc := unit) (Fa := unit) (Ro := unit) x_text x_code (dset (object_as_dict x_code o) "site_mapping" (JObj [("0", JInt 5); ("1", JInt 0); ("2", JInt 2)]))
     = Err ValueError.
Proof. eexists. split; [reflexivity|]. split; [reflexivity|]. split; reflexivity. Qed.
Print Assumptions site_hash_fixes_the_sites.

(** The meaning of the states is not part of any hash: two accepted files with the same hashes
    translate a state differently. *)
Theorem hashes_fix_the_states_refuted : exists d1 d2 h g (o1 o2 : se_object unit unit unit),
  from_payload x_text x_code d1 = Ok o1 /\ from_payload x_text x_code d2 = Ok o2
  /\ dget d1 "external_site_order_hash" = Some (JStr h) /\ dget d2 "external_site_order_hash" = Some (JStr h)
  /\ dget d1 "active_site_order_hash" = Some (JStr g) /\ dget d2 "active_site_order_hash" = Some (JStr g)
  /\ o_state_mapping o1 = Some [(0%Z, EStr "Na"); (1%Z, EStr "Va")] /\ o_state_mapping o2 = Some [(0%Z, EStr "Va"); (1%Z, EStr "Na")].
Proof.
  destruct (new_object x_text (x_args None (JStr "lab:energy") (Some (inl x_letters)))) as [o|e] eqn:E; [|done]. vm_compute in E. injection E as E.
  exists (object_as_dict x_code o), (dset (object_as_dict x_code o) "state_mapping" (JObj [("0", JStr "Va"); ("1", JStr "Na")])), "4", "ab12".
  rewrite <-E. do 2 eexists. split; [reflexivity|]. split; [reflexivity|]. split; [reflexivity|]. split; [reflexivity|]. split; [reflexivity|]. split; [reflexivity|].
  split; reflexivity.
Qed.
Print Assumptions hashes_fix_the_states_refuted.

(** A file with a site order and its hash is accepted only if they agree, and the model then refuses
    a simulation with another order. *)
Theorem site_order_is_checked text site_hash Fc Fa Ro d (o : se_object Fc Fa Ro) j x :
  from_payload text site_hash d = Ok o -> dget d "active_site_order" = Some (JObj j) -> order_from_dict j = Ok x ->
  (forall h, dget d "active_site_order_hash" = Some (JStr h) -> LocalBarrierModel.py_strip h <> "" -> LocalBarrierModel.py_strip h = o_fp x)
  /\ forall y, o_fp y <> o_fp x -> set_order o (Some y) = Err ValueError.
Proof.
  intros H1 H2 H3. destruct (order_hash_checked text site_hash d o j x H1 H2 H3) as (_ & E & H). split; [exact H|].
  intros y Hy. exact (other_order_refused o y (o_fp x) E Hy).
Qed.
Example site_order_is_checked_example : exists o j x, new_object x_text (x_args None (JStr "lab:energy") (Some (inl x_letters))) = Ok o
  /\ from_payload x_text x_code (object_as_dict x_code o) = Ok o
  /\ dget (object_as_dict x_code o) "active_site_order" = Some (JObj j) /\ order_from_dict j = Ok x
  /\ dget (object_as_dict x_code o) "active_site_order_hash" = Some (JStr "ab12")
  /\ from_payload (Fc := unit) (Fa := unit) (Ro := unit) x_text x_code (dset (object_as_dict x_code o) "active_site_order_hash" (JStr "ab13")) = Err ValueError.
Proof. do 3 eexists. split; [reflexivity|]. split; [reflexivity|]. split; [reflexivity|]. split; [reflexivity|]. split; reflexivity. Qed.
Print Assumptions site_order_is_checked.
