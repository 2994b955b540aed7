(** Theorems about "kmcpy init". *)
From Coq Require Import QArith Ascii.
From Verif Require Import Py PyLemmas Json ConfigModel ConfigSpec ConfigProofs CallbackModel InitModel InitSpec InitProofs.
Local Open Scope string_scope.

Definition home : disk := [(["work"], Dir); (["work"; "notes.txt"], File "remember"); (["work"; "input_template.yaml"], File "mine")].
Example home_is_proper : proper_disk home.
Proof.
  intros p x n H. apply dget_Some_in in H. unfold home in H. rewrite !elem_of_cons, elem_of_nil in H.
  destruct H as [H|[H|[H|[]]]]; injection H as H _; (destruct p as [|a [|b p]]; [by left| |]); cbn in H; injection H; intros; subst; try (right; reflexivity); by destruct p.
Qed.

(** C92.  A successful call puts the template where it was asked for, makes the directories that lead to it,
    and changes nothing else. *)
Theorem init_writes_the_template : forall p force fs fs' z, proper_disk fs -> init_main p force fs = (fs', Ok z) ->
  z = 0%Z /\ only_written fs fs' p build_template.
Proof. exact main_writes. Qed.
Print Assumptions init_writes_the_template.
Example init_example : exists fs', init_main ["work"; "a"; "b"; "in.yaml"] false home = (fs', Ok 0%Z)
  /\ dget fs' ["work"; "a"] = Some Dir /\ dget fs' ["work"; "a"; "b"; "in.yaml"] = Some (File build_template) /\ dget fs' ["work"; "notes.txt"] = Some (File "remember").
Proof. eexists. split; [vm_compute; reflexivity|]. split; [vm_compute; reflexivity|]. split; vm_compute; reflexivity. Qed.

(** It succeeds exactly when no file is in the way of the directories, no directory has the name of the
    template, and no file has it unless overwriting is asked for. *)
Theorem init_succeeds_iff : forall p force fs, proper_disk fs ->
  ((exists fs', init_main p force fs = (fs', Ok 0%Z)) <-> can_be_written fs p force).
Proof. exact main_iff. Qed.
Print Assumptions init_succeeds_iff.
(** A call that raises has changed nothing. *)
Theorem failed_init_changes_nothing : forall p force fs fs' e, proper_disk fs -> init_main p force fs = (fs', Err e) -> fs' = fs.
Proof. exact main_fails. Qed.
Print Assumptions failed_init_changes_nothing.
(** Without force, what is there is kept, and the caller is told. *)
Theorem init_keeps_an_existing_file : forall p fs n, proper_disk fs -> p <> [] -> dget fs p = Some n ->
  init_main p false fs = (fs, Err FileExistsError).
Proof. exact main_refuses. Qed.
Print Assumptions init_keeps_an_existing_file.
Example init_failures : init_main ["work"; "input_template.yaml"] false home = (home, Err FileExistsError)
  /\ init_main ["work"; "notes.txt"; "a"; "in.yaml"] true home = (home, Err OSError)
  /\ init_main ["work"] true home = (home, Err OSError).
Proof. split; [|split]; vm_compute; reflexivity. Qed.
Example init_force_example : exists fs', init_main ["work"; "input_template.yaml"] true home = (fs', Ok 0%Z) /\ dget fs' ["work"; "input_template.yaml"] = Some (File build_template).
Proof. eexists. split; vm_compute; reflexivity. Qed.

(** A template with the name of a YAML file can be loaded as a configuration, and has the values it shows. *)
Theorem written_template_can_be_loaded : forall read_json p force fs fs' z, proper_disk fs -> yaml_name p ->
  init_main p force fs = (fs', Ok z) ->
  exists c, load_configuration read_json fs' p = Ok c /\ has_values c template_value.
Proof. exact main_loads. Qed.
Print Assumptions written_template_can_be_loaded.
Example default_name_is_yaml : yaml_name ["work"; "input_template.yaml"].
Proof. exists ["work"], "input_template", "yaml". split; [done|]. split; [done|by left]. Qed.
(** The values it shows: placeholders for the three files, a mapping, and the defaults. *)
Example template_values :
  map template_value ["structure_file"; "site_mapping"; "supercell_shape"; "temperature"; "random_seed"; "initial_state_file"]
  = [JStr "path/to/structure.cif"; JObj [("Li", JList [JStr "Li"; JStr "X"])]; JList [JInt 1; JInt 1; JInt 1]; JFloat 300; JNull; JNull].
Proof. reflexivity. Qed.
(** The command writes it under any other name too, and then it cannot be loaded. *)
Theorem any_output_name_can_be_loaded_refuted : exists p fs', init_main p false home = (fs', Ok 0%Z)
  /\ forall read_json, load_configuration read_json fs' p = Err ValueError.
Proof. exists ["work"; "input.txt"]. eexists. split; [vm_compute; reflexivity|]. intros rj. vm_compute. reflexivity. Qed.
Print Assumptions any_output_name_can_be_loaded_refuted.

(** With other values in the same places, the file is accepted exactly when the values are valid, and the
    configuration has those values. *)
Theorem filled_template_is_accepted_iff : forall fmt v, fmt <> UnknownFormat ->
  ((exists c, from_file fmt (filled v) None None = Ok c)
   <-> valid_system (fun k => Some (V (v k))) /\ valid_runtime (fun k => Some (V (v k)))).
Proof. exact filled_accepted. Qed.
Print Assumptions filled_template_is_accepted_iff.
Theorem filled_template_is_read_back : forall fmt v c, from_file fmt (filled v) None None = Ok c -> has_values c v.
Proof. exact filled_values. Qed.
Print Assumptions filled_template_is_read_back.
Example filled_example : exists c, from_file Yaml (filled (fun k => if String.eqb k "temperature" then JInt 500 else template_value k)) None None = Ok c
  /\ get_field c "temperature" = Ok (V (JInt 500)).
Proof. eexists. split; vm_compute; reflexivity. Qed.
Example filled_refused_example : from_file Yaml (filled (fun k => if String.eqb k "dimension" then JInt 4 else template_value k)) None None = Err ValueError.
Proof. vm_compute. reflexivity. Qed.

(** File names written into the text of the template arrive in the configuration. *)
Theorem file_names_in_the_template_arrive : forall read_json p fs structure event model, proper_disk fs -> yaml_name p ->
  writable structure -> writable event -> writable model ->
  dget fs p = Some (File (template_with structure event model)) ->
  exists c, load_configuration read_json fs p = Ok c /\ has_values c (with_files structure event model).
Proof. exact edited_loads. Qed.
Print Assumptions file_names_in_the_template_arrive.
Example arrive_example : exists c,
  load_configuration (fun _ => Err ValueError) [(["in.yaml"], File (template_with "my files/na.cif" "ev: #1.json" "m.json"))] ["in.yaml"] = Ok c
  /\ get_field c "structure_file" = Ok (V (JStr "my files/na.cif")) /\ get_field c "event_file" = Ok (V (JStr "ev: #1.json")).
Proof. eexists. split; [vm_compute; reflexivity|]. split; vm_compute; reflexivity. Qed.

(** The template says that only the three file paths are required.  A template with only these filled in
    never starts a simulation, whatever the files contain. *)
Theorem template_with_file_names_never_starts : forall A S K (load : configuration -> result A)
  (from_occupations from_state_file : A -> value -> result S) (construct : A -> S -> result K)
  read_json p fs structure event model, proper_disk fs -> yaml_name p ->
  writable structure -> writable event -> writable model ->
  dget fs p = Some (File (template_with structure event model)) ->
  exists c e, load_configuration read_json fs p = Ok c /\ from_config load from_occupations from_state_file construct c = Err e.
Proof.
  intros A S K load fo ff co rj p fs a b c Hp Hy Ha Hb Hc Hf. destruct (edited_loads rj p fs a b c) as (conf & Hl & Hv); try done. exists conf.
  destruct (never_runs load fo ff co conf (with_files a b c)) as [e He]; try done. by exists e.
Qed.
Print Assumptions template_with_file_names_never_starts.
Example with_occupations_it_starts : exists c,
  from_file Yaml (filled (fun k => if String.eqb k "initial_occupations" then JList [JInt 1] else template_value k)) None None = Ok c
  /\ from_config (fun _ => Ok tt) (fun _ _ => Ok tt) (fun _ _ => Ok tt) (fun _ _ => Ok tt) c = Ok tt.
Proof. eexists. split; vm_compute; reflexivity. Qed.
