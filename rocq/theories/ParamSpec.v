(** Vocabulary for the properties of parameter records and their files. *)
From Coq Require Import QArith Ascii.
From Verif Require Import Py Json StateModel LceModel ParamModel.
Local Open Scope string_scope.

(** The values a record holds, without [local_site_order] and the name, which are not saved. *)
Definition fields (r : params) : list pyval :=
  [p_keci r; p_empty_cluster r; p_cluster_site_indices r; p_weight r; p_alpha r; p_time_stamp r; p_time r;
   p_rmse r; p_loocv r; p_normalize r; p_orbit_fingerprints r; p_local_environment_hash r].
(** A record without them. *)
Definition forget (r : params) : params :=
  Params (p_keci r) (p_empty_cluster r) (p_cluster_site_indices r) (p_weight r) (p_alpha r) (p_time_stamp r) (p_time r)
    (p_rmse r) (p_loocv r) (p_normalize r) (p_orbit_fingerprints r) (p_local_environment_hash r) none "LCEModelParameters".
(** A record of JSON values. *)
Definition json_record (r : params) : Prop := Forall (fun v => exists j, v = PJson j) (fields r).

(** Values that an HDF5 file returns as they are: a text, a truth value, a number, a list of
    floats, a list of integers, a table of integers with rows of one length. *)
Inductive kept : pyval -> Prop :=
  | kept_text s : kept (PJson (JStr s))
  | kept_bool b : kept (PJson (JBool b))
  | kept_int z : kept (PJson (JInt z))
  | kept_float q : kept (PJson (JFloat q))
  | kept_floats l : kept (PJson (JList (map JFloat l)))
  | kept_ints z l : kept (PJson (JList (map JInt (z :: l))))
  | kept_table z row rows : Forall (fun r => length r = length (z :: row)) rows ->
      kept (PJson (JList (map (fun r => JList (map JInt r)) ((z :: row) :: rows)))).
(** A record of such values without fingerprints. *)
Record kept_record (r : params) : Prop := {
  kept_fields : Forall kept (take 10 (fields r));
  no_fingerprints : p_orbit_fingerprints r = none;
  kept_hash : p_local_environment_hash r = none \/ exists s, p_local_environment_hash r = PJson (JStr s);
}.
(** The same record with a list of fingerprints. *)
Definition with_fingerprints (r : params) (v : pyval) : params :=
  Params (p_keci r) (p_empty_cluster r) (p_cluster_site_indices r) (p_weight r) (p_alpha r) (p_time_stamp r) (p_time r)
    (p_rmse r) (p_loocv r) (p_normalize r) v (p_local_environment_hash r) (p_local_site_order r) (p_name r).
Definition text_array (l : list string) : json := JList (map JStr l).

(** A path to an HDF5 file, and other paths. *)
Definition h5_path (p : path) : Prop := path_suffix p = [".";"h";"5"]%char.
