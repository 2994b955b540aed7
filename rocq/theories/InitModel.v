(** Model of kmcpy/cli/init.py and kmcpy/cli/main.py, of the subset of YAML in the template, and of the
    choice of the file format in kmcpy/simulator/config.py:85-89. *)
From Coq Require Import QArith Ascii.
From Verif Require Import Py Json ConfigModel CallbackModel.
Local Open Scope string_scope.

(** ** Files *)
(** A path is the list of its names from the root, a file system maps paths to directories and files. *)
Notation location := (list string).
Inductive node := Dir | File (text : string).
Notation disk := (dict location node).
(** Looking up a path name by name; a file on the way is a NotADirectoryError, written OSError. *)
Fixpoint walk (fs : disk) (above rest : location) : result node :=
  match rest with
  | [] => Ok Dir
  | x :: rest' =>
      match dget fs (above ++ [x])%list with
      | None => Err FileNotFoundError
      | Some Dir => walk fs (above ++ [x])%list rest'
      | Some (File c) => match rest' with [] => Ok (File c) | _ => Err OSError end
      end
  end.
Definition at_path (fs : disk) (p : location) : result node := walk fs [] p.
Definition exists_at (fs : disk) (p : location) : bool := match at_path fs p with Ok _ => true | Err _ => false end.
Definition is_dir (fs : disk) (p : location) : bool := match at_path fs p with Ok Dir => true | _ => false end.
(** [os.mkdir]; [rp] is the path from its last name. *)
Definition os_mkdir (fs : disk) (rp : location) : result disk :=
  match rp with
  | [] => Err FileExistsError
  | x :: rq =>
      match at_path fs (rev rq) with
      | Err e => Err e
      | Ok (File _) => Err OSError
      | Ok Dir => match dget fs (rev rp) with Some _ => Err FileExistsError | None => Ok (dset fs (rev rp) Dir) end
      end
  end.
(** [Path.mkdir(parents=True, exist_ok=True)]. *)
Definition or_is_dir (fs : disk) (rp : location) (e : exn) : disk * result unit :=
  (fs, if is_dir fs (rev rp) then Ok tt else Err e).
Fixpoint mkdirs (rp : location) (fs : disk) : disk * result unit :=
  match os_mkdir fs rp with
  | Ok fs' => (fs', Ok tt)
  | Err FileNotFoundError =>
      match rp with
      | [] => (fs, Err FileNotFoundError)
      | x :: rq =>
          match mkdirs rq fs with
          | (fs1, Err e) => (fs1, Err e)
          | (fs1, Ok _) =>
              match os_mkdir fs1 rp with
              | Ok fs2 => (fs2, Ok tt)
              | Err e => or_is_dir fs1 rp e
              end
          end
      end
  | Err e => or_is_dir fs rp e
  end.
(** [Path.write_text]. *)
Definition write_text (fs : disk) (p : location) (text : string) : result disk :=
  match rev p with
  | [] => Err OSError
  | _ :: rq =>
      match at_path fs (rev rq) with
      | Err e => Err e
      | Ok (File _) => Err OSError
      | Ok Dir => match dget fs p with Some Dir => Err OSError | _ => Ok (dset fs p (File text)) end
      end
  end.

(** init.py:14-98, after [dedent]: the lines. *)
Definition template_lines : list string :=
  ["# kMCpy input template (modern Configuration format)";
   "#";
   "# Usage:";
   "#   1) Fill the required file paths below.";
   "#   2) Adjust optional settings as needed.";
   "#   3) Run: run_kmc --input input_template.yaml";
   "#";
   "# API usage:";
   "#   from kmcpy.simulator.config import Configuration";
   "#   config = Configuration.from_file(""input_template.yaml"")";
   "";
   "kmc:";
   "  type: default";
   "  default:";
   "    # ----- Required loader inputs -----";
   "    # Path to crystal structure (CIF/structure file)";
   "    structure_file: ""path/to/structure.cif""";
   "    # Path to migration event library JSON";
   "    event_file: ""path/to/event.json""";
   "    # Path to serialized model JSON";
   "    model_file: ""path/to/model.json""";
   "";
   "    # ----- Optional loader inputs -----";
   "    # Optional serialized initial simulation state file";
   "    initial_state_file: null";
   "    # Optional direct initial occupations list (used if state file is null)";
   "    initial_occupations: null";
   "";
   "    # ----- System fields -----";
   "    # Supercell replication factors [a, b, c]";
   "    supercell_shape: [1, 1, 1]";
   "    # Dimensionality of transport (1, 2, or 3)";
   "    dimension: 3";
   "    # Mobile ion specie label";
   "    mobile_ion_specie: ""Li""";
   "    # Mobile ion charge in |e|";
   "    mobile_ion_charge: 1.0";
   "    # Characteristic hop distance (Angstrom)";
   "    elementary_hop_distance: 1.0";
   "    # Optional model selector for hand-written payloads. Files written";
   "    # by model.to(...) infer this from model_file.";
   "    model_type: ""composite_lce""";
   "    # Site mapping. One allowed species means fixed; multiple means active.";
   "    site_mapping:";
   "      Li: [Li, X]";
   "    # Convert structure to primitive cell before simulation";
   "    convert_to_primitive_cell: false";
   "";
   "    # ----- Runtime fields -----";
   "    # Temperature in Kelvin";
   "    temperature: 300.0";
   "    # Attempt frequency (Hz)";
   "    attempt_frequency: 10000000000000.0";
   "    # Number of equilibration passes";
   "    equilibration_passes: 1000";
   "    # Number of production KMC passes";
   "    kmc_passes: 10000";
   "    # Optional RNG seed (null for nondeterministic)";
   "    random_seed: null";
   "    # Simulation label used in outputs";
   "    name: ""DefaultSimulation""";
   "";
   "    # ----- Optional property sampling controls -----";
   "    # Global property sampling event-step interval (null = default once per pass)";
   "    property_sampling_interval: null";
   "    # Global property sampling time interval in seconds (null = disabled)";
   "    property_sampling_time_interval: null";
   "    # Built-in property toggles (defaults to enabled for all fields)";
   "    # Supported keys: msd, jump_diffusivity, tracer_diffusivity,";
   "    #                 conductivity, havens_ratio, correlation_factor";
   "    # Output units:";
   "    #   time: s";
   "    #   msd: Angstrom^2";
   "    #   jump_diffusivity, tracer_diffusivity: cm^2/s";
   "    #   conductivity: mS/cm";
   "    #   havens_ratio, correlation_factor: dimensionless";
   "    builtin_property_enabled: {}";
   "    # Optional custom callback definitions resolved by import path.";
   "    # Example:";
   "    # property_callbacks:";
   "    #   - callable: ""myproject.kmc_props:calc_occupation""";
   "    #     name: ""occupied_fraction""";
   "    #     interval: 100";
   "    #     time_interval: null";
   "    #     store: true";
   "    #     max_records: null";
   "    #     enabled: true";
   "    property_callbacks: []";
   ""].
Definition newline : ascii := "010".
Fixpoint join_lines (l : list string) : string :=
  match l with [] => "" | [x] => x | x :: l' => x ++ String newline (join_lines l') end.
Definition build_template : string := join_lines template_lines.
(** init.py:101-113, after expanding "~" and resolving the path. *)
Definition write_template (p : location) (force : bool) (fs : disk) : disk * result location :=
  match mkdirs (tail (rev p)) fs with
  | (fs, Err e) => (fs, Err e)
  | (fs, Ok _) =>
      if exists_at fs p && negb force then (fs, Err FileExistsError)
      else match write_text fs p build_template with
           | Ok fs' => (fs', Ok p)
           | Err e => (fs, Err e)
           end
  end.
(** init.py:137-144 and main.py:39-51: the exit status. *)
Definition init_main (p : location) (force : bool) (fs : disk) : disk * result Z :=
  match write_template p force fs with
  | (fs, Ok _) => (fs, Ok 0%Z)
  | (fs, Err e) => (fs, Err e)
  end.

(** ** Reading the file *)
Definition lower (c : ascii) : ascii :=
  let n := nat_of_ascii c in if Nat.leb 65 n && Nat.leb n 90 then ascii_of_nat (n + 32) else c.
Fixpoint lower_text (s : string) : string := match s with "" => "" | String c s' => String (lower c) (lower_text s') end.
(** [Path.suffix] of a name: from the last dot, unless it is the first or last character. *)
Definition suffix (name : string) : string :=
  match split_last "." name with
  | Some (a, b) => if String.eqb a "" || String.eqb b "" then "" else String "." b
  | None => ""
  end.
(** config.py:85-89. *)
Definition detect_config_file_format (name : string) : file_format :=
  let s := lower_text (suffix name) in
  if String.eqb s ".json" then Json else if String.eqb s ".yaml" || String.eqb s ".yml" then Yaml else UnknownFormat.

(** The subset of YAML: comment lines, block mappings and, on one line, flow sequences of scalars, empty
    flow mappings, quoted text without escapes, null, booleans, decimal numbers and plain words of letters.  Anything else
    is refused ([None]). *)
Definition space : ascii := " ".
Fixpoint indentation (s : string) : nat * string :=
  match s with
  | String c s' => if Ascii.eqb c space then let '(n, r) := indentation s' in (S n, r) else (0, s)
  | "" => (0, "")
  end.
Definition starts (c : ascii) (s : string) : bool := match s with String x _ => Ascii.eqb x c | "" => false end.
Fixpoint logical (l : list string) : list (nat * string) :=
  match l with
  | [] => []
  | s :: l' => let '(n, r) := indentation s in
               if String.eqb r "" || starts "#" r then logical l' else (n, r) :: logical l'
  end.
Definition digit (c : ascii) : option Z :=
  let n := nat_of_ascii c in if Nat.leb 48 n && Nat.leb n 57 then Some (Z.of_nat (n - 48)) else None.
Fixpoint digits (acc : Z) (s : string) : option Z :=
  match s with
  | "" => Some acc
  | String c s' => match digit c with Some d => digits (10 * acc + d) s' | None => None end
  end.
Definition decimal (s : string) : option json :=
  match split_first "." s with
  | None => if starts "0" s && negb (String.eqb s "0") then None
            else match s, digits 0 s with String _ _, Some z => Some (JInt z) | _, _ => None end
  | Some (a, b) =>
      if String.eqb a "" || String.eqb b "" then None
      else match digits 0 a, digits 0 b with
           | Some x, Some y => let d := Pos.pow 10 (Pos.of_nat (String.length b)) in Some (JFloat (Qred (Qmake (x * Zpos d + y) d)))
           | _, _ => None
           end
  end.
Definition double_quote : ascii := "034".
(** Characters that stand for themselves between double quotes, and in plain words. *)
Definition visible (c : ascii) : bool := let n := nat_of_ascii c in Nat.leb 32 n && Nat.leb n 126 && negb (Nat.eqb n 34) && negb (Nat.eqb n 92).
Definition letter (c : ascii) : bool := let n := nat_of_ascii c in (Nat.leb 65 n && Nat.leb n 90) || (Nat.leb 97 n && Nat.leb n 122) || Nat.eqb n 95.
Definition scalar (s : string) : option json :=
  if starts double_quote s then
    match s with
    | String _ s' => match split_first double_quote s' with Some (a, "") => if forallb visible (list_ascii_of_string a) then Some (JStr a) else None | _ => None end
    | "" => None
    end
  else if String.eqb s "" then None
  else if String.eqb s "null" then Some JNull
  else if String.eqb s "true" then Some (JBool true)
  else if String.eqb s "false" then Some (JBool false)
  else if forallb letter (list_ascii_of_string s) then
    if existsb (String.eqb (lower_text s)) ["null"; "true"; "false"; "yes"; "no"; "on"; "off"] then None else Some (JStr s)
  else decimal s.
Definition trim_left (s : string) : string := snd (indentation s).
Fixpoint all_some {A} (l : list (option A)) : option (list A) :=
  match l with
  | [] => Some []
  | Some x :: l' => match all_some l' with Some r => Some (x :: r) | None => None end
  | None :: _ => None
  end.
Definition flow (s : string) : option json :=
  if String.eqb s "[]" then Some (JList []) else if String.eqb s "{}" then Some (JObj [])
  else if starts "[" s then
    match s with
    | String _ s' => match split_last "]" s' with
                     | Some (a, "") => match all_some (map (fun x => scalar (trim_left x)) (split_all "," a)) with Some l => Some (JList l) | None => None end
                     | _ => None
                     end
    | "" => None
    end
  else if starts "{" s then None
  else scalar s.
Fixpoint block (fuel : nat) (ind : nat) (l : list (nat * string)) : option (list (string * json) * list (nat * string)) :=
  match fuel with
  | O => None
  | S fuel =>
      match l with
      | [] => Some ([], [])
      | (n, s) :: l' =>
          if Nat.ltb n ind then Some ([], l)
          else if negb (Nat.eqb n ind) then None
          else match split_first ":" s with
               | None => None
               | Some (k, v) =>
                   let value :=
                     if String.eqb (trim_left v) "" then
                       match l' with
                       | (m, _) :: _ => if Nat.ltb ind m then match block fuel m l' with Some (d, l'') => Some (JObj d, l'') | None => None end else Some (JNull, l')
                       | [] => Some (JNull, l')
                       end
                     else if starts space v then match flow (trim_left v) with Some j => Some (j, l') | None => None end
                     else None in
                   match value with
                   | None => None
                   | Some (j, l'') => match block fuel ind l'' with Some (d, l3) => Some ((k, j) :: d, l3) | None => None end
                   end
               end
      end
  end.
Definition read_yaml (text : string) : result json :=
  let l := logical (split_all newline text) in
  match block (S (length l)) 0 l with Some (d, []) => Ok (JObj d) | _ => Err ValueError end.

(** [Configuration.from_file(path)]; reading JSON text is a parameter. *)
Definition load_configuration (read_json : string -> result json) (fs : disk) (p : location) : result configuration :=
  let fmt := detect_config_file_format (match rev p with x :: _ => x | [] => "" end) in
  match fmt with
  | UnknownFormat => Err ValueError
  | _ =>
      let* n := at_path fs p in
      match n with
      | Dir => Err OSError
      | File text =>
          let* j := (match fmt with Json => read_json text | _ => read_yaml text end) in
          from_file fmt j None None
      end
  end.
