(** C87: the files of finished runs. *)
From Coq Require Import QArith Ascii.
From Verif Require Import Py PyLemmas Json StateModel PropertyModel ResultsModel ResultsSpec ResultsProofs.
Local Open Scope string_scope.

(** Keys are numbers; objects are numbers too, the negative ones raise. *)
Definition x_text (k : Z) : string := py_str_int (Z.abs k).
Definition x_sanitize (x : Z) : result json := if (x <? 0)%Z then Err ValueError else if (x =? 0)%Z then Err TypeError else Ok (JInt x).
Definition x_repr (x : Z) : string := "<object>".
Notation x_write := (write_tracker_results x_text x_sanitize x_repr Datatypes.id).
Notation x_write_all := (write_all x_text x_sanitize x_repr Datatypes.id).
Notation x_leaves := (leaves x_text x_sanitize x_repr (Datatypes.id : Z -> Z)).
Definition x_run (pass z : Z) (records : dict string (list (record Q (value Z Z)))) : run_data :=
  RunData pass [[z; 0]%Z] [z] [1; -1]%Z [("steps", [1; 2]%Z); ("msd", [z; z])] [("msd", "A^2")] records.
Definition x_records : dict string (list (record Q (value Z Z))) :=
  [("energy", [PRecord "energy" 1 (1 # 2) (VFloat 3); PRecord "energy" 2 1%Q (VOther 0%Z)]); ("order", [PRecord "order" 2 1%Q (VDict [(4%Z, VSeq [VInt 1; VNull])])])].
Definition x_a : option path := Some ["a"]%char.
(** Labels that end like a pass. *)
Definition x_a_1 : option path := Some ["a"; "_"; "1"]%char.

(** Two files have the same name only if they are the same file of runs with the same label and, for
    the trajectory files, the same pass. *)
Theorem names_tell_files_apart k label pass k' label' pass' :
  file_name k label pass = file_name k' label' pass' <-> k = k' /\ shares k label pass label' pass'.
Proof. exact (file_name_eq k label pass k' label' pass'). Qed.
Example names_example : file_name Displacement x_a_1 2 = chars "displacement_a_1_2.csv.gz" /\ file_name Displacement x_a 12 = chars "displacement_a_12.csv.gz"
  /\ file_name Results x_a_1 2 = chars "results_a_1.csv.gz" /\ file_name Results None 2 = file_name Results (Some []) 3.
Proof. done. Qed.
Print Assumptions names_tell_files_apart.

(** After any runs, each of which may have raised, a file has what the last run with its label (and
    pass) that wrote it left there, and a file no run wrote is as before; no other file changes. *)
Theorem files_are_of_the_last_run K X N (key_text : K -> string) (sanitize : X -> result json) repr (of_int : Z -> N) runs fs k label pass :
  exists left_by : list (option (output N)),
    Forall2 (fun r o => if decide (shares k label pass (fst r) (d_pass (snd r))) then leaves key_text sanitize repr of_int k (snd r) o else o = None) runs left_by
    /\ dget (write_all key_text sanitize repr of_int runs fs) (file_name k label pass)
       = match last_some left_by with Some o => Some o | None => dget fs (file_name k label pass) end
    /\ forall q, (forall r k', r ∈ runs -> q <> file_name k' (fst r) (d_pass (snd r))) ->
         dget (write_all key_text sanitize repr of_int runs fs) q = dget fs q.
Proof.
  exists (map (fun r => if decide (shares k label pass (fst r) (d_pass (snd r))) then wrote key_text sanitize repr of_int k (snd r) else None) runs).
  split; [apply left_by|split; [apply file_of_runs|intros q; apply other_files]].
Qed.
Example last_run_example : let fs := x_write_all [(x_a, x_run 1 5 x_records); (x_a, x_run 2 6 []); (x_a_1, x_run 1 7 []); (None, x_run 1 8 [])] [] in
  dget fs (chars "displacement_a_1.csv.gz") = Some (Numbers [[5; 0]]%Z) /\ dget fs (chars "displacement_a_1_1.csv.gz") = Some (Numbers [[7; 0]]%Z)
  /\ dget fs (chars "results_a.csv.gz") = Some (Columns [("steps", [1; 2]); ("msd", [6; 6])]%Z)
  /\ dget fs (chars "results.csv.gz") = Some (Columns [("steps", [1; 2]); ("msd", [8; 8])]%Z) /\ length fs = 19%nat.
Proof. done. Qed.
Print Assumptions files_are_of_the_last_run.

(** A run that returns has written its trajectory, its summary and its units; if it has records, the
    property file lists every record, property by property, in order. *)
Theorem finished_run_has_its_files K X N (key_text : K -> string) (sanitize : X -> result json) repr (of_int : Z -> N) label d fs fs' :
  write_tracker_results key_text sanitize repr of_int label d fs = (fs', Ok tt) ->
  dget fs' (file_name Displacement label (d_pass d)) = Some (Numbers (d_displacement d))
  /\ dget fs' (file_name HopCounter label (d_pass d)) = Some (Numbers (map (fun z => [of_int z]) (d_hop_counter d)))
  /\ dget fs' (file_name Occupations label (d_pass d)) = Some (Numbers (map (fun z => [of_int z]) (d_occupations d)))
  /\ dget fs' (file_name Results label (d_pass d)) = Some (Columns (d_results d))
  /\ dget fs' (file_name Units label (d_pass d)) = Some (Doc (JObj (map (fun kv => (fst kv, JStr (snd kv))) (d_units d))))
  /\ (concat (map snd (d_records d)) <> [] ->
      exists js, dget fs' (file_name Properties label (d_pass d)) = Some (Doc (JList js))
        /\ Forall2 (listed key_text sanitize repr) (concat (map snd (d_records d))) js)
  /\ even (d_results d).
Proof.
  intros H. assert (Hf : forall k, dget fs' (file_name k label (d_pass d)) = match wrote key_text sanitize repr of_int k d with Some o => Some o | None => dget fs (file_name k label (d_pass d)) end).
  { intros k. pose proof (proj1 (file_of_run key_text sanitize repr of_int k label d fs [])) as E. rewrite H in E. exact E. }
  assert (Hr : exists c js, data_frame (d_results d) = Ok c /\ stored_property_payload key_text sanitize repr (d_records d) = Ok js).
  { unfold write_tracker_results in H. destruct (data_frame (d_results d)) as [c|]; [|done]. exists c.
    destruct (stored_property_payload key_text sanitize repr (d_records d)) as [js|]; [|done]. by exists js. }
  destruct Hr as (c & js & Hc & Hjs). rewrite !Hf. cbn [wrote]. rewrite Hc, Hjs.
  destruct (data_frame_ok (d_results d)) as [[He Hd]|[_ Hd]]; [|congruence]. rewrite Hc in Hd. injection Hd as ->.
  destruct (payload_cases key_text sanitize repr (d_records d)) as [(js' & E & Hl)|(e & E & _)]; [|congruence]. rewrite Hjs in E. injection E as <-.
  split; [done|]. split; [done|]. split; [done|]. split; [done|]. split; [done|]. split; [|done]. intros Hne. exists js. split; [|done].
  destruct js; [|done]. by apply Forall2_nil_inv_r in Hl.
Qed.
Example finished_run_example : exists fs', x_write x_a (x_run 1 5 x_records) [] = (fs', Ok tt)
  /\ dget fs' (chars "properties_a.json.gz") = Some (Doc (JList
       [JObj [("name", JStr "energy"); ("step", JInt 1); ("time", JFloat (1 # 2)); ("value", JFloat 3)];
        JObj [("name", JStr "energy"); ("step", JInt 2); ("time", JFloat 1); ("value", JStr "<object>")];
        JObj [("name", JStr "order"); ("step", JInt 2); ("time", JFloat 1); ("value", JObj [("4", JList [JInt 1; JNull])])]])).
Proof. eexists. split; reflexivity. Qed.
Print Assumptions finished_run_has_its_files.

(** A value made of text, numbers, truth values, lists and dictionaries with text keys is listed as
    it is. *)
Theorem plain_values_are_kept X (sanitize : X -> result json) repr (j : json) :
  distinct_keys j -> to_json_safe Datatypes.id sanitize repr (json_value j) = Ok j.
Proof. exact (json_kept sanitize repr j). Qed.
Example plain_values_example : let j := JObj [("a", JList [JInt 1; JObj [("a", JNull)]]); ("b", JFloat (1 # 3))] in
  distinct_keys j /\ to_json_safe Datatypes.id x_sanitize x_repr (json_value j) = Ok j.
Proof. split; [|done]. cbn. split; [|split; [split; [done|split; [|done]]|done]]. all: split || idtac. all: repeat constructor; set_solver. Qed.
Print Assumptions plain_values_are_kept.

(** Keys that are written alike are not kept apart: the later value stays. *)
Theorem dictionary_values_are_kept_refuted : exists (l : list (Z * value Z Z)) j,
  NoDup (map fst l) /\ length l = 2%nat /\ to_json_safe x_text x_sanitize x_repr (VDict l) = Ok (JObj [("1", j)]) /\ j = JInt 20.
Proof.
  exists [(1%Z, VInt 10); ((-1)%Z, VInt 20)], (JInt 20). split; [|split; [done|split; done]]. repeat constructor; set_solver.
Qed.
Print Assumptions dictionary_values_are_kept_refuted.

(** A run without records leaves the property file of an earlier run with its label beside its own
    results. *)
Theorem property_file_is_of_the_run_refuted : exists label d d' fs fs',
  x_write label d [] = (fs, Ok tt) /\ x_write label d' fs = (fs', Ok tt) /\ concat (map snd (d_records d')) = []
  /\ dget fs' (file_name Results label (d_pass d')) = Some (Columns (d_results d')) /\ d_results d <> d_results d'
  /\ exists j js, dget fs' (file_name Properties label (d_pass d')) = Some (Doc (JList (j :: js))).
Proof. exists x_a, (x_run 1 5 x_records), (x_run 1 6 []). do 2 eexists. split; [reflexivity|]. split; [reflexivity|]. do 3 (split; [done|]). do 2 eexists. reflexivity. Qed.
Print Assumptions property_file_is_of_the_run_refuted.

(** Writing that raises has already replaced the other files. *)
Theorem failed_results_change_nothing_refuted : exists label d fs fs' e,
  x_write label d fs = (fs', Err e) /\ dget fs (file_name Results label (d_pass d)) = Some (Columns [("steps", [1; 2]); ("msd", [5; 5])]%Z)
  /\ dget fs' (file_name Results label (d_pass d)) = Some (Columns [("steps", [1; 2]); ("msd", [6; 6])]%Z)
  /\ dget fs' (file_name Properties label (d_pass d)) = dget fs (file_name Properties label (d_pass d)).
Proof.
  exists x_a, (x_run 1 6 [("energy", [PRecord "energy" 1 (1 # 2) (VOther (-1)%Z)])]), (fst (x_write x_a (x_run 1 5 x_records) [])).
  do 2 eexists. split; [reflexivity|]. done.
Qed.
Print Assumptions failed_results_change_nothing_refuted.
