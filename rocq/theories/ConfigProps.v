(** Theorems about configurations. *)
From Coq Require Import QArith Ascii.
From Verif Require Import Py Json ConfigModel ConfigSpec ConfigProofs.
Local Open Scope nat_scope.
Local Open Scope string_scope.

(** C48.  A call succeeds exactly when it is given something, every keyword is the name of a
    field and the resulting values are valid. *)
Theorem configuration_accepts_iff : forall s0 r0 bs br kw, start Sys s0 bs -> start Run r0 br ->
  ((exists c, configuration_new s0 r0 kw = Ok c) <->
   (s0 <> None \/ r0 <> None \/ kw <> []) /\
   (forall k, k ∈ dkeys kw -> k ∈ system_field_names \/ k ∈ runtime_field_names) /\
   valid_system (choose kw bs) /\ valid_runtime (choose kw br)).
Proof. exact accepted_lemma. Qed.
Print Assumptions configuration_accepts_iff.

(** C48.  Every keyword ends in exactly one of the two sections with its value unchanged, and
    is what [config.k] gives back; every other field keeps its starting value. *)
Theorem keywords_are_routed : forall s0 r0 bs br kw c, start Sys s0 bs -> start Run r0 br ->
  configuration_new s0 r0 kw = Ok c ->
  exists s r, c = Configuration (Obj Sys s) (Obj Run r) /\ instance Sys s /\ instance Run r /\
    (forall k, k ∈ system_field_names -> dget s k = choose kw bs k) /\
    (forall k, k ∈ runtime_field_names -> dget r k = choose kw br k).
Proof. exact routed_lemma. Qed.
Print Assumptions keywords_are_routed.

Theorem fields_read_back : forall s0 r0 bs br kw c k v, start Sys s0 bs -> start Run r0 br ->
  configuration_new s0 r0 kw = Ok c ->
  k ∈ system_field_names /\ choose kw bs k = Some v \/ k ∈ runtime_field_names /\ choose kw br k = Some v ->
  get_field c k = Ok v.
Proof. exact access_lemma. Qed.
Print Assumptions fields_read_back.

Theorem sections_are_disjoint : forall k, k ∈ system_field_names -> k ∉ runtime_field_names.
Proof. intros k H1 H2. exact (names_disjoint k H1 H2). Qed.
Print Assumptions sections_are_disjoint.

Definition given_example : fields :=
  [("temperature", V (JInt 298)); ("supercell_shape", Tup [JInt 2; JInt 1; JInt 1]);
   ("structure_file", V (JStr "nasicon.cif")); ("kmc_passes", V (JInt 50));
   ("property_callbacks", V (JList [JObj [("callable", JStr "energy"); ("interval", JInt 10)]]))].
Example configuration_example : exists c, configuration_new None None given_example = Ok c /\
  start Sys None system_defaults /\ start Run None runtime_defaults /\
  get_field c "temperature" = Ok (V (JInt 298)) /\ get_field c "dimension" = Ok (V (JInt 3)).
Proof.
  eexists. split; [vm_compute; reflexivity|]. split; [by left|]. split; [by left|]. split; vm_compute; reflexivity.
Qed.
Example configuration_rejected_example :
  configuration_new None None [("temprature", V (JInt 300))] = Err ValueError /\
  configuration_new None None [("temperature", V (JInt 0))] = Err ValueError /\
  configuration_new None None [] = Err ValueError.
Proof. vm_compute. done. Qed.

(** A starting point that already has values: the keywords win. *)
Example configuration_update_example : exists r c,
  build Run runtime_defaults [("temperature", V (JInt 500)); ("kmc_passes", V (JInt 7))] = Ok r /\
  start Run (Some (Obj Run r)) r /\
  configuration_new None (Some (Obj Run r)) [("temperature", V (JInt 600))] = Ok c /\
  get_field c "temperature" = Ok (V (JInt 600)) /\ get_field c "kmc_passes" = Ok (V (JInt 7)).
Proof.
  eexists _, _. split; [vm_compute; reflexivity|]. split.
  { right. split; [reflexivity|]. split; [reflexivity|]. apply post_init_ok. vm_compute. reflexivity. }
  split; [vm_compute; reflexivity|]. split; vm_compute; reflexivity.
Qed.

(** C69.  Changing fields of one section: accepted exactly for names of that section with
    valid results; the new configuration has the new values and everything else as before. *)
Theorem changes_accepted_iff : forall s c ch, proper c ->
  ((exists c', with_changes s c ch = Ok c') <->
   (forall k, k ∈ dkeys ch -> k ∈ field_names s) /\
   valid_section s (fun k => match dget ch k with
                             | Some v => Some v
                             | None => match get_field c k with Ok v => Some v | Err _ => None end
                             end)).
Proof. exact changes_accepted. Qed.
Print Assumptions changes_accepted_iff.

Theorem changes_change_only_what_is_given : forall s c ch c', proper c -> with_changes s c ch = Ok c' ->
  proper c' /\ forall k, k ∈ system_field_names \/ k ∈ runtime_field_names ->
    get_field c' k = match dget ch k with Some v => Ok v | None => get_field c k end.
Proof. exact changes_effect. Qed.
Print Assumptions changes_change_only_what_is_given.

Definition config_example : configuration :=
  match configuration_new None None given_example with Ok c => c | Err _ => Configuration (Plain (V JNull)) (Plain (V JNull)) end.
Lemma config_example_proper : proper config_example.
Proof.
  destruct (routed_lemma None None system_defaults runtime_defaults given_example config_example) as (s & r & E & Is & Ir & _).
  - by left.
  - by left.
  - vm_compute. reflexivity.
  - exists s, r. done.
Qed.
Example changes_example : exists c', proper config_example /\
  with_changes Run config_example [("temperature", V (JInt 400))] = Ok c' /\
  get_field c' "temperature" = Ok (V (JInt 400)) /\ get_field c' "kmc_passes" = Ok (V (JInt 50)) /\
  with_changes Run config_example [("dimension", V (JInt 2))] = Err TypeError.
Proof.
  eexists. split; [apply config_example_proper|]. split; [vm_compute; reflexivity|]. repeat split; vm_compute; reflexivity.
Qed.

(** C68.  Every configuration can be turned into a dictionary and read back.  The copy has the
    same values, except that the supercell shape is a list and that file paths left out of the
    record are empty. *)
Theorem configuration_dict_roundtrip : forall c paths, proper c ->
  exists d c', as_dict c paths = Ok d /\ from_dict d = Ok c' /\ changed (recorded paths) c c'.
Proof. exact dict_roundtrip_lemma. Qed.
Print Assumptions configuration_dict_roundtrip.

(** C68.  The same through a file, whatever was in the file. *)
Theorem configuration_file_roundtrip : forall c fmt existing paths task, proper c -> fmt <> UnknownFormat ->
  exists j c', to_file c fmt existing paths None task = Ok j /\ from_file fmt j None None = Ok c' /\
    changed (written paths) c c'.
Proof. exact flat_file_lemma. Qed.
Print Assumptions configuration_file_roundtrip.

(** C68.  Written into a section of a workflow file, it is read back from that section, the
    other sections are as they were, and the section "kmc" is found without being named. *)
Theorem configuration_section_roundtrip : forall c existing paths name task, proper c -> task <> "type" ->
  (forall j, existing = Content j -> exists l, j = JObj l) ->
  exists l c', to_file c Yaml existing paths (Some name) task = Ok (JObj l) /\
    from_file Yaml (JObj l) (Some name) None = Ok c' /\ from_file Yaml (JObj l) (Some name) (Some task) = Ok c' /\
    changed (written paths) c c' /\
    (forall old other, existing = Content (JObj old) -> other <> name -> dget l other = dget old other) /\
    (name = "kmc" -> (forall old, existing = Content (JObj old) -> no_field_names old) ->
     from_file Yaml (JObj l) None None = Ok c').
Proof. exact section_file_lemma. Qed.
Print Assumptions configuration_section_roundtrip.

(** C68.  Exactly the selected part of a file is read: the named section, in it the requested
    task or the one its entry "type" names. *)
Theorem files_are_read_by_section_and_task : forall fmt file name task c, fmt <> UnknownFormat ->
  from_file fmt (JObj file) name task = Ok c <->
  exists d, selected_part file name task d /\ from_dict (of_json d) = Ok c.
Proof. exact selected_part_lemma. Qed.
Print Assumptions files_are_read_by_section_and_task.

(** C68.  What has been through a file once is not changed by another round. *)
Theorem written_configuration_is_stable : forall paths c c1 c2,
  changed (written paths) c c1 -> changed (written paths) c1 c2 -> c2 = c1.
Proof. exact written_stable. Qed.
Print Assumptions written_configuration_is_stable.

Example roundtrip_example : exists j c',
  proper config_example /\ to_file config_example Json Missing true None "default" = Ok j /\
  from_file Json j None None = Ok c' /\
  get_field config_example "supercell_shape" = Ok (Tup [JInt 2; JInt 1; JInt 1]) /\
  get_field c' "supercell_shape" = Ok (V (JList [JInt 2; JInt 1; JInt 1])) /\
  get_field c' "structure_file" = Ok (V (JStr "nasicon.cif")).
Proof.
  eexists _, _. split; [apply config_example_proper|]. split; [vm_compute; reflexivity|].
  split; [vm_compute; reflexivity|]. repeat split; vm_compute; reflexivity.
Qed.
Definition two_tasks : list (string * json) :=
  [("kmc", JObj [("type", JStr "cold");
                 ("cold", JObj (match as_dict config_example true with Ok d => map (fun kv => (fst kv, jsonify (snd kv))) d | Err _ => [] end));
                 ("hot", JObj (dset (match as_dict config_example true with Ok d => map (fun kv => (fst kv, jsonify (snd kv))) d | Err _ => [] end)
                                 "temperature" (JInt 900)))])].
Example task_example : exists cold hot,
  from_file Yaml (JObj two_tasks) None None = Ok cold /\
  from_file Yaml (JObj two_tasks) None (Some "hot") = Ok hot /\
  get_field cold "temperature" = Ok (V (JInt 298)) /\ get_field hot "temperature" = Ok (V (JInt 900)) /\
  from_file Yaml (JObj two_tasks) (Some "kmc") (Some "warm") = Err ValueError.
Proof.
  eexists _, _. split; [vm_compute; reflexivity|]. split; [vm_compute; reflexivity|].
  split; [vm_compute; reflexivity|]. split; vm_compute; reflexivity.
Qed.
Example section_example : exists l c',
  to_file config_example Yaml (Content (JObj [("neb", JInt 5)])) true (Some "kmc") "default" = Ok (JObj l) /\
  dget l "neb" = Some (JInt 5) /\ from_file Yaml (JObj l) None None = Ok c' /\
  get_field c' "temperature" = Ok (V (JInt 298)).
Proof.
  eexists _, _. split; [vm_compute; reflexivity|]. split; [reflexivity|]. split; [vm_compute; reflexivity|]. vm_compute. reflexivity.
Qed.

(** Even with the paths included, the copy is not equal to the original. *)
Theorem configuration_roundtrip_is_equal_refuted : exists c d c', proper c /\
  as_dict c true = Ok d /\ from_dict d = Ok c' /\ c' <> c.
Proof.
  exists config_example. eexists _, _. split; [apply config_example_proper|]. split; [vm_compute; reflexivity|].
  split; [vm_compute; reflexivity|]. vm_compute. discriminate.
Qed.
Print Assumptions configuration_roundtrip_is_equal_refuted.

(** The form written by default loses the files. *)
Theorem default_record_keeps_files_refuted : exists c j c', proper c /\
  to_file c Json Missing false None "default" = Ok j /\ from_file Json j None None = Ok c' /\
  get_field c "structure_file" = Ok (V (JStr "nasicon.cif")) /\ get_field c' "structure_file" = Ok (V (JStr "")).
Proof.
  exists config_example. eexists _, _. split; [apply config_example_proper|]. split; [vm_compute; reflexivity|].
  split; [vm_compute; reflexivity|]. split; vm_compute; reflexivity.
Qed.
Print Assumptions default_record_keeps_files_refuted.

(** A task named "type" cannot be read back. *)
Theorem any_task_name_reads_back_refuted : exists c l, proper c /\
  to_file c Yaml Missing true (Some "kmc") "type" = Ok (JObj l) /\
  from_file Yaml (JObj l) (Some "kmc") None = Err TypeError.
Proof.
  exists config_example. eexists. split; [apply config_example_proper|]. split; [vm_compute; reflexivity|]. vm_compute. reflexivity.
Qed.
Print Assumptions any_task_name_reads_back_refuted.

(** C70.  A dictionary that nests the sections is accepted without any check, and the result
    has no fields. *)
Theorem loaded_configurations_are_valid_refuted : exists d c,
  from_dict d = Ok c /\ ~ proper c /\ get_field c "supercell_shape" = Err AttributeError.
Proof.
  exists [("system_config", V (JObj [("dimension", JInt 7)])); ("temperature", V (JInt 300))].
  eexists. split; [vm_compute; reflexivity|]. split; [|reflexivity].
  intros (s & r & E & _). discriminate.
Qed.
Print Assumptions loaded_configurations_are_valid_refuted.

(** C70.  Without an input file the command line can never start a simulation, whatever the
    options and whatever the files contain. *)
Theorem command_line_needs_an_input_file : forall A S K (load : configuration -> result A)
  (from_occupations from_state_file : A -> value -> result S) (construct : A -> S -> result K) a,
  cli_input a = None -> exists e, cli_start load from_occupations from_state_file construct a = Err e.
Proof. intros A S K. exact cli_never. Qed.
Print Assumptions command_line_needs_an_input_file.

Definition full_options : cli_args :=
  CliArgs None (Some (2%Z, 1%Z, 1%Z)) (Some "model.json") (Some "nasicon.cif") (Some "events.json")
    (Some [("Na", JList [JStr "Na"; JStr "X"])]) 10000000000000 300 false.
Example command_line_example : exists c,
  cli_configuration full_options = Ok c /\ get_field c "event_file" = Ok (V (JStr "events.json")) /\
  cli_start (fun _ => Ok tt) (fun _ _ => Ok tt) (fun _ _ => Ok tt) (fun _ _ => Ok tt) full_options = Err ValueError.
Proof. eexists. split; [vm_compute; reflexivity|]. split; vm_compute; reflexivity. Qed.
(** With an input file it can. *)
Example command_line_input_example :
  cli_start (fun _ => Ok tt) (fun _ _ => Ok tt) (fun _ _ => Ok tt) (fun _ _ => Ok tt)
    (CliArgs (Some (JObj [("temperature", JInt 300); ("site_mapping", JObj [("Na", JList [JStr "Na"; JStr "X"])]);
                          ("initial_occupations", JList [JInt 1; JInt (-1)])]))
       None None None None None 1 1 false) = Ok tt.
Proof. vm_compute. reflexivity. Qed.
