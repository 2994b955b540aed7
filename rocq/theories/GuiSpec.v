(** Vocabulary for the statements about the graphical interface. *)
From Coq Require Import QArith Ascii.
From Verif Require Import Py Json ConfigModel CallbackSpec GuiModel.
Local Open Scope string_scope.

(** The settings of the configuration, each with the entry of the form it comes from. *)
Definition entered (a : kmc_args) (shape : list Z) (mapping : value) : list (string * value) :=
  [("structure_file", V (JStr (g_prim_fname a))); ("model_file", V (JStr (g_lce_fname a)));
   ("event_file", V (JStr (g_event_fname a))); ("initial_state_file", V (JStr (g_initial_state a)));
   ("site_mapping", mapping); ("supercell_shape", V (JList (map JInt shape)));
   ("convert_to_primitive_cell", V (JBool (String.eqb (g_convert a) "yes")));
   ("attempt_frequency", V (JFloat (g_attempt_frequency a))); ("temperature", V (JInt (g_T a)));
   ("mobile_ion_charge", V (JFloat (g_q a))); ("elementary_hop_distance", V (JFloat (g_elem_hop_distance a)));
   ("dimension", V (JInt (g_dimension a))); ("random_seed", V (JInt (g_random_seed a)));
   ("kmc_passes", V (JInt (g_kmc_pass a))); ("equilibration_passes", V (JInt (g_equilibriation_pass a)))].
(** The settings the form has no entry for, with their defaults. *)
Definition not_entered : list (string * value) :=
  [("mobile_ion_specie", V (JStr "Li")); ("model_type", V (JStr "composite_lce")); ("initial_occupations", V JNull);
   ("name", V (JStr "DefaultSimulation")); ("property_sampling_interval", V JNull);
   ("property_sampling_time_interval", V JNull); ("builtin_property_enabled", V (JObj [])); ("property_callbacks", V (JList []))].
(** Numbers that are accepted. *)
Definition acceptable (a : kmc_args) : Prop :=
  (1 <= g_dimension a <= 3)%Z /\ (0 < g_attempt_frequency a)%Q /\ (0 < g_T a)%Z /\ (0 <= g_equilibriation_pass a)%Z /\ (0 < g_kmc_pass a)%Z.
Section Spec.
  Variable parse_int : string -> result Z.
  Variable parse_float : string -> result Q.
  (** A text of integers separated by commas. *)
  Definition shape_text (text : string) (shape : list Z) : Prop :=
    exists parts, parts <> [] /\ Forall (without ",") parts /\ text = joined "," parts /\ Forall2 (fun s z => parse_int s = Ok z) parts shape.
  (** A cutoff for two species, and the text "a,b,distance". *)
  Definition cutoff_text (s : string) (e : (string * string) * Q) : Prop :=
    exists a b t, fst e = (a, b) /\ s = a ++ "," ++ b ++ "," ++ t /\ parse_float t = Ok (snd e)
      /\ Forall (fun x => without "," x /\ without ";" x) [a; b; t].
  Definition cutoffs_text (text : string) (entries : list ((string * string) * Q)) : Prop :=
    exists parts, parts <> [] /\ text = joined ";" parts /\ Forall2 cutoff_text parts entries.
End Spec.
(** Forms that differ only in entries that are not used. *)
Definition same_relevant (a b : kmc_args) : Prop :=
  g_work_dir a = g_work_dir b /\ g_supercell_shape a = g_supercell_shape b /\ g_site_mapping a = g_site_mapping b
  /\ forall shape mapping, entered a shape mapping = entered b shape mapping.
(** The path of a file of a directory; an absolute name stays. *)
Definition file_in (dir name path : string) : Prop :=
  (exists rest, name = String "/" rest) /\ path = name
  \/ ~ (exists rest, name = String "/" rest) /\
     (dir = "" /\ path = name \/ (exists d, dir = d ++ "/") /\ path = dir ++ name
      \/ dir <> "" /\ ~ (exists d, dir = d ++ "/") /\ path = dir ++ "/" ++ name).
