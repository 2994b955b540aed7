(** Vocabulary for the statements about "kmcpy init". *)
From Coq Require Import QArith Ascii.
From Verif Require Import Py Json ConfigModel InitModel.
Local Open Scope string_scope.

(** Every directory and file lies in a directory. *)
Definition proper_disk (fs : disk) : Prop :=
  forall p x n, dget fs (p ++ [x])%list = Some n -> p = [] \/ dget fs p = Some Dir.
(** [q] is a directory on the way to [p], other than the root. *)
Definition above (q p : location) : Prop := q <> [] /\ exists r, r <> [] /\ p = (q ++ r)%list.
(** Nothing but the file and the directories that lead to it is new. *)
Definition only_written (fs fs' : disk) (p : location) (text : string) : Prop :=
  dget fs' p = Some (File text)
  /\ (forall q, above q p -> dget fs' q = Some Dir)
  /\ (forall q, q <> p -> ~ above q p -> dget fs' q = dget fs q)
  /\ (forall q n, q <> p -> dget fs q = Some n -> dget fs' q = Some n).
(** It is possible to put a file there. *)
Definition can_be_written (fs : disk) (p : location) (force : bool) : Prop :=
  p <> [] /\ (forall q text, above q p -> dget fs q <> Some (File text))
  /\ match dget fs p with None => True | Some (File _) => force = true | Some Dir => False end.

(** The fields in the order of the template. *)
Definition template_fields : list string :=
  ["structure_file"; "event_file"; "model_file"; "initial_state_file"; "initial_occupations"; "supercell_shape"; "dimension"; "mobile_ion_specie";
   "mobile_ion_charge"; "elementary_hop_distance"; "model_type"; "site_mapping"; "convert_to_primitive_cell"; "temperature"; "attempt_frequency";
   "equilibration_passes"; "kmc_passes"; "random_seed"; "name"; "property_sampling_interval"; "property_sampling_time_interval"; "builtin_property_enabled"; "property_callbacks"].
(** The content of a template whose fields have the given values. *)
Definition filled (values : string -> json) : json :=
  JObj [("kmc", JObj [("type", JStr "default"); ("default", JObj (map (fun k => (k, values k)) template_fields))])].
(** What the template says: three file names, an example of a mapping, and the default of every other field. *)
Definition template_value (k : string) : json :=
  if String.eqb k "structure_file" then JStr "path/to/structure.cif" else if String.eqb k "event_file" then JStr "path/to/event.json"
  else if String.eqb k "model_file" then JStr "path/to/model.json" else if String.eqb k "site_mapping" then JObj [("Li", JList [JStr "Li"; JStr "X"])]
  else match dget (system_defaults ++ runtime_defaults)%list k with Some v => jsonify v | None => JNull end.
(** A text of visible characters, without quotes and backslashes. *)
Definition writable (a : string) : Prop := forallb visible (list_ascii_of_string a) = true.
(** The text of the template with three other file names. *)
Definition template_with (structure event model : string) : string :=
  join_lines (map (fun l =>
    if String.eqb l "    structure_file: ""path/to/structure.cif""" then "    structure_file: """ ++ structure ++ """"
    else if String.eqb l "    event_file: ""path/to/event.json""" then "    event_file: """ ++ event ++ """"
    else if String.eqb l "    model_file: ""path/to/model.json""" then "    model_file: """ ++ model ++ """"
    else l) template_lines).
Definition with_files (structure event model : string) (k : string) : json :=
  if String.eqb k "structure_file" then JStr structure else if String.eqb k "event_file" then JStr event
  else if String.eqb k "model_file" then JStr model else template_value k.
(** A configuration has exactly these values. *)
Definition has_values (c : configuration) (values : string -> json) : Prop :=
  exists s r, c = Configuration (Obj Sys s) (Obj Run r) /\ dkeys s = system_field_names /\ dkeys r = runtime_field_names
    /\ (forall k, k ∈ system_field_names -> dget s k = Some (V (values k))) /\ (forall k, k ∈ runtime_field_names -> dget r k = Some (V (values k))).
(** The last name of the path ends with ".yaml" or ".yml". *)
Definition yaml_name (p : location) : Prop :=
  exists q stem ext, p = (q ++ [(stem ++ "." ++ ext)%string])%list /\ stem <> "" /\ (ext = "yaml" \/ ext = "yml").
