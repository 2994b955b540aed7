(** Vocabulary for gathered tables. *)
From Coq Require Import QArith Ascii.
From Verif Require Import Py Json CallbackSpec TrackerModel TransportModel GatherModel.
Local Open Scope string_scope.

Section Spec.
  Variable parse_float : string -> result Q.
  Variable parse_int : string -> result Z.
  (** A name of three parts: anything, a composition and a number. *)
  Definition named (name : string) (x : Q) (i : Z) : Prop :=
    exists a c n, name = a ++ "_" ++ c ++ "_" ++ n /\ Forall (without "_") [a; c; n] /\ parse_float c = Ok x /\ parse_int n = Ok i.
  (** A result file with such a name, and its rows. *)
  Definition result_file (read_csv : string -> result (list (dict string json))) (location : string) (x : Q) (i : Z)
      (rows : list (dict string json)) : Prop :=
    exists name, location = name ++ ".csv.gz" /\ (forall u v, name <> u ++ ".csv.gz" ++ v) /\ named name x i /\ read_csv location = Ok rows.
  (** A run directory whose own name, without the directories it is in, is such a name. *)
  Definition run_directory (location : string) (x : Q) (i : Z) : Prop :=
    exists name, (location = name \/ exists parent, location = parent ++ "/" ++ name) /\ without "/" name /\ named name x i.
End Spec.
(** The row of the table for pass [k] of a run: its own data, and the pass, composition and number of the run. *)
Definition row_of_run (x : Q) (i : Z) (k : nat) (r out : dict string json) : Prop :=
  forall col, dget out col =
    if decide (col = "n_pass") then Some (JInt (Z.of_nat k)) else if decide (col = "structure_index") then Some (JInt i)
    else if decide (col = "comp") then Some (JFloat x) else dget r col.
(** The rows of all runs, one after the other. *)
Inductive table_of : list (Q * Z * list (dict string json)) -> list (dict string json) -> Prop :=
  | table_none : table_of [] []
  | table_run x i rows out runs rest : length out = length rows ->
      (forall k r o, rows !! k = Some r -> out !! k = Some o -> row_of_run x i k r o) ->
      table_of runs rest -> table_of ((x, i, rows) :: runs) (out ++ rest)%list.

(** Two positions are the same up to lattice vectors. *)
Definition same_position (a b : vec) : Prop :=
  exists i j k, (vx a == vx b + inject_Z i)%Q /\ (vy a == vy b + inject_Z j)%Q /\ (vz a == vz b + inject_Z k)%Q.
(** No copy of one is within 1e-6 of the other. *)
Definition far (lattice : vec * vec * vec) (a b : vec) : Prop :=
  forall i j k, ((1 # 1000000) * (1 # 1000000) <= norm2 (cartesian lattice (vadd (vsub a b) (Vec (inject_Z i) (inject_Z j) (inject_Z k)))))%Q.
(** Each site of the structure is at a site of the template or far from it, and not two of them are at one. *)
Definition comparable (lattice : vec * vec * vec) (casm template : list (string * vec)) : Prop :=
  forall t, t ∈ template ->
    (forall c, c ∈ casm -> same_position (snd c) (snd t) \/ far lattice (snd c) (snd t))
    /\ (forall c c', c ∈ casm -> c' ∈ casm -> same_position (snd c) (snd t) -> same_position (snd c') (snd t) -> fst c = fst c').
(** A symbol that is part of another one. *)
Definition proper_part (a b : string) : Prop := a <> b /\ exists u v, b = u ++ a ++ v.
(** Rows of Monte Carlo runs in the order of composition, then number. *)
Definition mc_before (a b : mc_row) : Prop := (m_comp a < m_comp b)%Q \/ (m_comp a == m_comp b)%Q /\ (m_index a <= m_index b)%Z.
