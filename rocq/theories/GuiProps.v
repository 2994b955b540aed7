(** Theorems about the graphical interface. *)
From Coq Require Import QArith Ascii.
From Verif Require Import Py PyLemmas Json ConfigModel CallbackModel CallbackSpec InitModel GuiModel GuiSpec GuiProofs.
Local Open Scope string_scope.

(** C93.  A simulation that the interface starts has, in every field of its configuration, the value of the
    entry of the form that belongs to it, or the default if there is no such entry; it is started in the working
    directory. *)
Theorem gui_simulation_is_what_was_entered : forall parse_int parse_float literal_eval chdir generate simulate a acts r c,
  gui_main parse_int parse_float literal_eval chdir generate simulate true (KmcCommand a) = (acts, r) -> Simulate c ∈ acts ->
  exists shape mapping, shape_text parse_int (g_supercell_shape a) shape /\ literal_eval (g_site_mapping a) = Ok mapping
    /\ chdir (g_work_dir a) = Ok tt /\ acts = [Chdir (g_work_dir a); Simulate c] /\ r = simulate c
    /\ forall k v, (k, v) ∈ (entered a shape mapping ++ not_entered)%list -> get_field c k = Ok v.
Proof. exact simulated. Qed.
Print Assumptions gui_simulation_is_what_was_entered.
(** This covers every field. *)
Theorem every_field_is_covered : forall a shape mapping k, k ∈ system_field_names \/ k ∈ runtime_field_names ->
  exists v, (k, v) ∈ (entered a shape mapping ++ not_entered)%list.
Proof. exact all_fields. Qed.
Print Assumptions every_field_is_covered.
(** It starts one exactly if the working directory exists, the numbers are acceptable, the replication factors are
    three integers separated by commas and the site mapping can be evaluated. *)
Theorem gui_simulates_iff : forall parse_int parse_float literal_eval chdir generate simulate a,
  (exists c, Simulate c ∈ fst (gui_main parse_int parse_float literal_eval chdir generate simulate true (KmcCommand a))) <->
  chdir (g_work_dir a) = Ok tt /\ acceptable a
  /\ exists shape mapping, shape_text parse_int (g_supercell_shape a) shape /\ literal_eval (g_site_mapping a) = Ok mapping /\ length shape = 3%nat.
Proof. exact simulates_iff. Qed.
Print Assumptions gui_simulates_iff.
(** Entries for the fitting results, the site model, the structure index and the composition have no effect. *)
Theorem unused_entries_have_no_effect : forall parse_int parse_float literal_eval chdir generate simulate a b, same_relevant a b ->
  gui_main parse_int parse_float literal_eval chdir generate simulate true (KmcCommand a)
  = gui_main parse_int parse_float literal_eval chdir generate simulate true (KmcCommand b).
Proof. exact irrelevant. Qed.
Print Assumptions unused_entries_have_no_effect.

Definition digit_text (s : string) : result Z := if String.eqb s "2" then Ok 2%Z else if String.eqb s "1" then Ok 1%Z else Err ValueError.
Definition distance_text (s : string) : result Q := if String.eqb s "4.0" then Ok 4%Q else if String.eqb s "3.5" then Ok (7 # 2)%Q else Err ValueError.
Definition sodium : json := JObj [("Na", JList [JStr "Na"; JStr "X"]); ("O", JStr "O")].
Definition evaluate (s : string) : result value := if String.eqb s "{'Na': ['Na', 'X'], 'O': 'O'}" then Ok (V sodium) else Err ValueError.
Definition form (shape site_model : string) : kmc_args :=
  KmcArgs "/work" "fit.json" "fit_site.json" "lce.json" site_model "nasicon.cif" "events.json" "state.json" "{'Na': ['Na', 'X'], 'O': 'O'}" shape "yes"
    5000000000000 100 298 1 (347782 # 100000) 3 12345 1 1 1.
Notation run := (gui_main digit_text distance_text evaluate (fun _ => Ok tt) (fun _ => Ok tt) (fun _ => Ok tt)).
Example gui_example : exists c, run true (KmcCommand (form "2,1,1" "s.json")) = ([Chdir "/work"; Simulate c], Ok tt)
  /\ get_field c "temperature" = Ok (V (JInt 298)) /\ get_field c "supercell_shape" = Ok (V (JList [JInt 2; JInt 1; JInt 1]))
  /\ get_field c "site_mapping" = Ok (V sodium).
Proof. eexists. split; [vm_compute; reflexivity|]. split; [|split]; vm_compute; reflexivity. Qed.
Example gui_refuses_example : run true (KmcCommand (form "2,1" "s.json")) = ([Chdir "/work"], Err ValueError)
  /\ run true (KmcCommand (form "2;1;1" "s.json")) = ([], Err ValueError).
Proof. split; vm_compute; reflexivity. Qed.
Example unused_example : same_relevant (form "2,1,1" "s.json") (form "2,1,1" "other.json").
Proof. by repeat split. Qed.

(** The mobile ion is lithium, whatever the site mapping says. *)
Theorem gui_mobile_ion_is_lithium : forall parse_int parse_float literal_eval chdir generate simulate a c,
  Simulate c ∈ fst (gui_main parse_int parse_float literal_eval chdir generate simulate true (KmcCommand a)) ->
  get_field c "mobile_ion_specie" = Ok (V (JStr "Li")).
Proof.
  intros pi pf le ch ge si a c H. destruct (gui_main pi pf le ch ge si true (KmcCommand a)) as [acts r] eqn:E.
  destruct (simulated pi pf le ch ge si a acts r c E H) as (shape & m & _ & _ & _ & _ & _ & Hf). apply Hf. apply elem_of_app. right. apply elem_of_list_here.
Qed.
Print Assumptions gui_mobile_ion_is_lithium.
Theorem gui_mobile_ion_is_in_the_mapping_refuted : exists a c, Simulate c ∈ fst (run true (KmcCommand a))
  /\ get_field c "site_mapping" = Ok (V sodium) /\ get_field c "mobile_ion_specie" = Ok (V (JStr "Li")).
Proof. exists (form "2,1,1" "s.json"). eexists. split; [vm_compute; apply elem_of_list_further, elem_of_list_here|]. split; vm_compute; reflexivity. Qed.
Print Assumptions gui_mobile_ion_is_in_the_mapping_refuted.

(** Only two of the four commands can do anything, and none without Gooey. *)
Theorem other_commands_do_nothing : forall parse_int parse_float literal_eval chdir generate simulate has_gooey c,
  has_gooey = false \/ (forall a, c <> EventsCommand a) /\ (forall a, c <> KmcCommand a) ->
  exists e, gui_main parse_int parse_float literal_eval chdir generate simulate has_gooey c = ([], Err e).
Proof. exact unavailable. Qed.
Print Assumptions other_commands_do_nothing.
Example other_commands_example : run true (FitCommand (FitArgs (3 # 2) 1000000 "/work" "fit.json")) = ([], Err AttributeError)
  /\ run true (LceCommand (LceArgs "{'Na': ['Na', 'X'], 'O': 'O'}" "lce.json")) = ([], Err RuntimeError).
Proof. split; vm_compute; reflexivity. Qed.

(** An event library is generated with what was entered; of several cutoffs for the same pair, written
    in the same order, the last one counts. *)
Theorem gui_events_are_what_was_entered : forall parse_int parse_float literal_eval chdir generate simulate a acts r g,
  gui_main parse_int parse_float literal_eval chdir generate simulate true (EventsCommand a) = (acts, r) -> Generate g ∈ acts ->
  acts = [Generate g] /\ r = generate g /\ gen_structure_file g = e_prim_cif_name a /\ (gen_convert g = true <-> e_convert a = "yes")
  /\ gen_identifiers g = (e_ion a, e_ion_2 a) /\ literal_eval (e_site_mapping a) = Ok (gen_site_mapping g)
  /\ gen_rtol g = e_rtol a /\ gen_atol g = e_atol a /\ gen_export g = e_export a
  /\ (gen_find_nearest g = true <-> exists s, e_find_nearest a = Some s /\ lower_text s ∈ ["1"; "true"; "yes"; "y"])
  /\ shape_text parse_int (e_supercell_shape a) (gen_supercell_shape g) /\ file_in (e_output_dir a) (e_event_fname a) (gen_event_file g)
  /\ forall entries, cutoffs_text parse_float (e_cutoffs a) entries -> forall k, dget (gen_cutoffs g) k = dget (rev entries) k.
Proof. exact generated_spec. Qed.
Print Assumptions gui_events_are_what_was_entered.
Theorem gui_events_are_generated : forall parse_int parse_float literal_eval chdir generate simulate a mapping entries shape,
  literal_eval (e_site_mapping a) = Ok mapping -> cutoffs_text parse_float (e_cutoffs a) entries -> shape_text parse_int (e_supercell_shape a) shape ->
  exists g, Generate g ∈ fst (gui_main parse_int parse_float literal_eval chdir generate simulate true (EventsCommand a)).
Proof. exact generates. Qed.
Print Assumptions gui_events_are_generated.
Definition event_form (cutoffs : string) : event_args :=
  EventArgs "nasicon.cif" "no" "Na1" "Na2" cutoffs "{'Na': ['Na', 'X'], 'O': 'O'}" "/out" "2,1,1" "INFO" false "events.json" (1 # 100) (1 # 100) (Some "True").
Example gui_events_example : exists g, run true (EventsCommand (event_form "Na+,Na+,4.0;Na+,Si4+,4.0;Na+,Na+,3.5")) = ([Generate g], Ok tt)
  /\ gen_event_file g = "/out/events.json" /\ gen_cutoffs g = [(("Na+", "Na+"), (7 # 2)%Q); (("Na+", "Si4+"), 4%Q)] /\ gen_find_nearest g = true.
Proof. eexists. split; [vm_compute; reflexivity|]. split; [|split]; vm_compute; reflexivity. Qed.
Example cutoffs_text_example : cutoffs_text distance_text "Na+,Na+,4.0;Na+,Si4+,3.5" [(("Na+", "Na+"), 4%Q); (("Na+", "Si4+"), (7 # 2)%Q)].
Proof.
  exists ["Na+,Na+,4.0"; "Na+,Si4+,3.5"]. split; [done|]. split; [done|].
  assert (H : forall x, forallb (fun c => negb (Ascii.eqb "," c) && negb (Ascii.eqb ";" c)) (list_ascii_of_string x) = true -> without "," x /\ without ";" x).
  { intros x Hx. rewrite forallb_forall in Hx. split; intros Hin; apply elem_of_list_In, Hx in Hin; done. }
  constructor; [|constructor; [|constructor]].
  - exists "Na+", "Na+", "4.0". split; [done|]. split; [done|]. split; [done|]. repeat (constructor; [by apply H|]). constructor.
  - exists "Na+", "Si4+", "3.5". split; [done|]. split; [done|]. split; [done|]. repeat (constructor; [by apply H|]). constructor.
Qed.
(** Spaces after the commas name other species, and a semicolon at the end is an error. *)
Theorem spaces_in_cutoffs_are_harmless_refuted : exists g, run true (EventsCommand (event_form "Na+, Si4+,4.0")) = ([Generate g], Ok tt)
  /\ dget (gen_cutoffs g) ("Na+", "Si4+") = None /\ dget (gen_cutoffs g) ("Na+", " Si4+") = Some 4%Q.
Proof. eexists. split; [vm_compute; reflexivity|]. split; vm_compute; reflexivity. Qed.
Print Assumptions spaces_in_cutoffs_are_harmless_refuted.
Theorem final_semicolon_is_harmless_refuted : run true (EventsCommand (event_form "Na+,Si4+,4.0;")) = ([], Err IndexError).
Proof. vm_compute. reflexivity. Qed.
Print Assumptions final_semicolon_is_harmless_refuted.
