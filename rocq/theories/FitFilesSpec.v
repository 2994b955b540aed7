(** Vocabulary for the properties of the files of a fit. *)
From Coq Require Import QArith Ascii.
From Verif Require Import Py Json StateModel ParamModel ParamSpec FitFilesModel.

(** The files a fit writes. *)
Definition written (args : fit_args) : list path :=
  a_keci args :: omap given [a_results args; a_params args; a_history args].
(** Four files, no two the same; the penalty is a number. *)
Record usual (args : fit_args) : Prop := {
  different_files : NoDup (written args);
  number_alpha : (exists q, a_alpha args = JFloat q) \/ exists z, a_alpha args = JInt z;
}.
(** The history file is JSON or YAML, and is not there yet or can be read as a history: [old] are
    its records. *)
Definition json_history (p : path) (fs : files) (old : history) : Prop :=
  ~ h5_path p /\ ((dget fs p = None /\ old = []) \/ history_from_file p fs = Ok old).
