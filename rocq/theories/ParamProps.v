(** C82: files of fitted parameters and of their histories. *)
From Coq Require Import QArith Ascii.
From Verif Require Import Py PyLemmas Json StateModel LceModel ParamModel ParamSpec ParamProofs.
Local Open Scope string_scope.

(** A record, a path of each kind, and what the examples are made of. *)
Definition x_json : path := ["p"; "."; "j"; "s"; "o"; "n"]%char.
Definition x_h5 : path := ["p"; "."; "h"; "5"]%char.
Definition x_record (t : Q) : params :=
  Params (PJson (JList [JFloat (3 # 2); JFloat (-1 # 4)])) (PJson (JFloat (1 # 8))) (PJson (JList [])) (PJson (JList [JFloat 1; JFloat 1; JFloat 2]))
    (PJson (JFloat (1 # 10))) (PJson (JFloat t)) (PJson (JStr "01/02/2026, 03:04:05")) (PJson (JFloat (1 # 100))) (PJson (JFloat (1 # 50)))
    (PJson (JBool true)) none (PJson (JStr "e0")) (PJson (JObj [("sort", JStr "xyz")])) "mine".
Lemma x_kept t : kept_record (x_record t).
Proof.
  split; [|done|right; by eexists]. unfold x_record, fields. cbn [take p_keci p_empty_cluster p_cluster_site_indices p_weight p_alpha p_time_stamp p_time p_rmse p_loocv p_normalize].
  apply Forall_cons; split; [exact (kept_floats [(3 # 2); (-1 # 4)])|]. apply Forall_cons; split; [constructor|].
  apply Forall_cons; split; [exact (kept_floats [])|]. apply Forall_cons; split; [exact (kept_floats [1; 1; 2]%Q)|].
  repeat (apply Forall_cons; split; [constructor|]). constructor.
Qed.

(** A record of JSON values written to a JSON or YAML file comes back from it, except for the
    local site order and the name, and no other file changes. *)
Theorem parameters_come_back_from_json p r fs : ~ h5_path p -> json_record r ->
  exists fs', params_to p r fs = (fs', Ok tt) /\ params_from_file p fs' = Ok (forget r)
    /\ forall q, q <> p -> dget fs' q = dget fs q.
Proof. exact (json_reload p r fs). Qed.
Example parameters_json_example : ~ h5_path x_json /\ json_record (with_fingerprints (x_record 5) (PJson (text_array ["f0"; "f1"])))
  /\ forget (x_record 5) <> x_record 5.
Proof. split; [done|]. split; [|done]. unfold json_record, fields. repeat (apply Forall_cons; split; [by eexists|]). constructor. Qed.
Print Assumptions parameters_come_back_from_json.

(** A record of numbers without fingerprints written to an HDF5 file comes back from it. *)
Theorem parameters_come_back_from_hdf5 p r fs : h5_path p -> kept_record r ->
  exists fs', params_to p r fs = (fs', Ok tt) /\ params_from_file p fs' = Ok (forget r)
    /\ forall q, q <> p -> dget fs' q = dget fs q.
Proof. intros Hp Hr. destruct (kept_storable r Hr) as [H1 <-]. by apply h5_reload. Qed.
Example parameters_hdf5_example : h5_path x_h5 /\ kept_record (x_record 5).
Proof. split; [done|apply x_kept]. Qed.
Print Assumptions parameters_come_back_from_hdf5.

(** With fingerprints it does not: they come back as bytes, and every expansion refuses them. *)
Theorem hdf5_fingerprints_are_refused p r s l fs : h5_path p -> kept_record r ->
  exists fs' r', params_to p (with_fingerprints r (PJson (text_array (s :: l)))) fs = (fs', Ok tt)
    /\ params_from_file p fs' = Ok r' /\ r' = forget (with_fingerprints r (PBytes (text_array (s :: l))))
    /\ forall args m, record_for_expansion r' = Ok args ->
         Forall (fun f => String.prefix "b'" f = false) (l_features m) -> set_parameters m args = (m, Err ValueError).
Proof.
  intros Hp Hr. destruct (fingerprints_storable r s l Hr) as [H1 H2]. destruct (h5_reload bytes_of p _ fs Hp H1) as (fs' & E1 & E2 & _).
  rewrite H2 in E2. exists fs', (forget (with_fingerprints r (PBytes (text_array (s :: l))))). split; [exact E1|]. split; [exact E2|]. split; [done|].
  intros args m Ha Hm. eapply (bytes_refused _ s l); [|exact Ha|exact Hm]. done.
Qed.
Print Assumptions hdf5_fingerprints_are_refused.
(** An expansion that accepts a record refuses it after it was saved and loaded. *)
Theorem saved_parameters_still_fit_refuted : exists (m : lce Q) p r fs fs' r' args args',
  record_for_expansion r = Ok args /\ snd (set_parameters m args) = Ok tt
  /\ params_to p r fs = (fs', Ok tt) /\ params_from_file p fs' = Ok r'
  /\ record_for_expansion r' = Ok args' /\ snd (set_parameters m args') = Err ValueError.
Proof.
  exists (Lce [] None ["f0"; "f1"] (Some "e0") None None None None), x_h5, (with_fingerprints (x_record 5) (PJson (text_array ["f0"; "f1"]))), [].
  destruct (hdf5_fingerprints_are_refused x_h5 (x_record 5) "f0" ["f1"] [] eq_refl (x_kept 5)) as (fs' & r' & E1 & E2 & -> & E3).
  do 4 eexists. split; [vm_compute; reflexivity|]. split; [vm_compute; reflexivity|]. split; [exact E1|]. split; [exact E2|].
  split; [vm_compute; reflexivity|]. vm_compute. reflexivity.
Qed.
Print Assumptions saved_parameters_still_fit_refuted.

(** Saving them as JSON then fails, and destroys the file that was there. *)
Theorem failed_saving_keeps_the_file_refuted : exists p r r0 fs fs' e,
  params_from_file p fs = Ok r0 /\ params_to p r fs = (fs', Err e) /\ params_from_file p fs' = Err ValueError.
Proof.
  exists x_json, (with_fingerprints (x_record 5) (PBytes (text_array ["f0"; "f1"]))), (forget (x_record 4)), (fst (params_to x_json (x_record 4) [])).
  do 2 eexists. split; [vm_compute; reflexivity|]. split; vm_compute; reflexivity.
Qed.
Print Assumptions failed_saving_keeps_the_file_refuted.

(** A history comes back from a JSON or YAML file with its records in their order. *)
Theorem history_comes_back_from_json p h fs : ~ h5_path p -> Forall json_record h ->
  exists fs', history_to p h fs = (fs', Ok tt) /\ history_from_file p fs' = Ok (map forget h)
    /\ forall q, q <> p -> dget fs' q = dget fs q.
Proof. exact (json_history_reload p h fs). Qed.
Example history_json_example : ~ h5_path x_json /\ Forall json_record [x_record 1; x_record 2].
Proof.
  split; [done|]. repeat (apply Forall_cons; split; [unfold json_record, fields; repeat (apply Forall_cons; split; [by eexists|]); constructor|]). constructor.
Qed.
Print Assumptions history_comes_back_from_json.

(** From an HDF5 file all its records come back, in their order if there are at most ten. *)
Theorem history_comes_back_from_hdf5 p h fs : h5_path p -> Forall kept_record h ->
  exists fs' h', history_to p h fs = (fs', Ok tt) /\ (forall q, q <> p -> dget fs' q = dget fs q)
    /\ history_from_file p fs' = Ok (map forget h') /\ Permutation h' h /\ (length h <= 10 -> h' = h)%nat.
Proof. exact (h5_history_reload p h fs). Qed.
Example history_hdf5_example : h5_path x_h5 /\ Forall kept_record (map (fun n => x_record (inject_Z (Z.of_nat n))) (seq 0 30)).
Proof. split; [done|]. apply Forall_fmap, Forall_true. intros n. apply x_kept. Qed.
Print Assumptions history_comes_back_from_hdf5.
(** With eleven the last one comes back as the third. *)
Theorem hdf5_history_order_refuted : exists p h fs fs' h',
  Forall kept_record h /\ history_to p h fs = (fs', Ok tt) /\ history_from_file p fs' = Ok h'
  /\ length h = 11%nat /\ forget <$> (h !! 10%nat) = h' !! 2%nat /\ h' !! 10%nat <> forget <$> (h !! 10%nat).
Proof.
  exists x_h5, (map (fun n => x_record (inject_Z (Z.of_nat n))) (seq 0 11)), []. do 2 eexists.
  split; [apply Forall_fmap, Forall_true; intros n; apply x_kept|]. split; [vm_compute; reflexivity|]. split; [vm_compute; reflexivity|].
  split; [done|]. split; [vm_compute; reflexivity|]. vm_compute. done.
Qed.
Print Assumptions hdf5_history_order_refuted.
