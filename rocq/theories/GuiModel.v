(** Model of kmcpy/cli/gui_wrapper.py, from the values of the form on. *)
From Coq Require Import QArith Ascii.
From Verif Require Import Py Json ConfigModel CallbackModel InitModel.
Local Open Scope string_scope.

(** lines 174-222: the form of a simulation; numbers are converted by the parser of the form. *)
Record kmc_args := KmcArgs {
  g_work_dir : string; g_fitting_results : string; g_fitting_results_site : string; g_lce_fname : string;
  g_lce_site_fname : string; g_prim_fname : string; g_event_fname : string; g_initial_state : string;
  g_site_mapping : string; g_supercell_shape : string; g_convert : string; g_attempt_frequency : Q;
  g_kmc_pass : Z; g_T : Z; g_q : Q; g_elem_hop_distance : Q; g_dimension : Z; g_random_seed : Z;
  g_structure_idx : Z; g_comp : Z; g_equilibriation_pass : Z }.
(** lines 87-125: the form of an event library. *)
Record event_args := EventArgs {
  e_prim_cif_name : string; e_convert : string; e_ion : string; e_ion_2 : string; e_cutoffs : string;
  e_site_mapping : string; e_output_dir : string; e_supercell_shape : string; e_verbosity : string;
  e_export : bool; e_event_fname : string; e_rtol : Q; e_atol : Q;
  e_find_nearest : option string   (** [None]: the option is not given, its default is False *) }.
(** lines 60-84, what is used of it. *)
Record lce_args := LceArgs { l_site_mapping : string; l_output : string }.
(** lines 127-152. *)
Record fit_args := FitArgs { f_alpha : Q; f_max_iter : Z; f_work_dir : string; f_results : string }.
Inductive command := NoCommand | LceCommand (a : lce_args) | EventsCommand (a : event_args) | FitCommand (a : fit_args) | KmcCommand (a : kmc_args).

(** lines 271-288: the arguments of [EventGenerator.generate_events]. *)
Record generation := Generation {
  gen_structure_file : string; gen_convert : bool; gen_cutoffs : dict (string * string) Q; gen_identifiers : string * string;
  gen_site_mapping : value; gen_rtol : Q; gen_atol : Q; gen_find_nearest : bool; gen_export : bool;
  gen_supercell_shape : list Z; gen_event_file : string }.
(** What the wrapper does to the outside. *)
Inductive action := Chdir (d : string) | Generate (g : generation) | Simulate (c : configuration).

(** [os.path.join(a, b)]. *)
Fixpoint ends_with_slash (s : string) : bool :=
  match s with "" => false | String c "" => Ascii.eqb c "/" | String _ s' => ends_with_slash s' end.
Definition os_path_join (a b : string) : string :=
  if starts "/" b then b else if String.eqb a "" || ends_with_slash a then a ++ b else a ++ "/" ++ b.
(** [l[i]]. *)
Definition item {A} (l : list A) (i : nat) : result A := match l !! i with Some x => Ok x | None => Err IndexError end.

Section Gui.
  (** [int], [float] and [ast.literal_eval] of a text. *)
  Variable parse_int : string -> result Z.
  Variable parse_float : string -> result Q.
  Variable literal_eval : string -> result value.
  (** [os.chdir], [EventGenerator().generate_events] and [KMC.from_config(config).run()]. *)
  Variable chdir : string -> result unit.
  Variable generate : generation -> result unit.
  Variable simulate : configuration -> result unit.

  (** lines 248-252. *)
  Definition cutoff_entry (d : dict (string * string) Q) (s : string) : result (dict (string * string) Q) :=
    let parts := split_all "," s in
    let* q := (let* t := item parts 2 in parse_float t) in
    let* a := item parts 0 in
    let* b := item parts 1 in
    Ok (dset d (a, b) q).
  Definition cutoff_dict (text : string) : result (dict (string * string) Q) := rfold cutoff_entry [] (split_all ";" text).
  (** lines 257 and 292. *)
  Definition shape_of (text : string) : result (list Z) := rmapM parse_int (split_all "," text).
  (** lines 262-268. *)
  Definition find_nearest_of (o : option string) : bool :=
    match o with None => false | Some s => existsb (String.eqb (lower_text s)) ["1"; "true"; "yes"; "y"] end.

  (** lines 298-308. *)
  Definition legacy_mapping : dict string string :=
    [("lce_fname", "model_file"); ("prim_fname", "structure_file"); ("event_fname", "event_file");
     ("initial_state", "initial_state_file"); ("kmc_pass", "kmc_passes"); ("T", "temperature"); ("q", "mobile_ion_charge");
     ("elem_hop_distance", "elementary_hop_distance"); ("equilibriation_pass", "equilibration_passes")].
  (** lines 309-329. *)
  Definition valid_config_keys : list string :=
    ["structure_file"; "supercell_shape"; "dimension"; "mobile_ion_specie"; "mobile_ion_charge"; "elementary_hop_distance";
     "model_type"; "model_file"; "event_file"; "site_mapping"; "convert_to_primitive_cell"; "initial_state_file";
     "initial_occupations"; "temperature"; "attempt_frequency"; "equilibration_passes"; "kmc_passes"; "random_seed"; "name"].
  (** [vars(args)] at line 332. *)
  Definition namespace (a : kmc_args) (convert : bool) (shape : list Z) (mapping : value) : fields :=
    [("command", V (JStr "KMCSimulation")); ("work_dir", V (JStr (g_work_dir a)));
     ("fitting_results", V (JStr (g_fitting_results a))); ("fitting_results_site", V (JStr (g_fitting_results_site a)));
     ("lce_fname", V (JStr (g_lce_fname a))); ("lce_site_fname", V (JStr (g_lce_site_fname a)));
     ("prim_fname", V (JStr (g_prim_fname a))); ("event_fname", V (JStr (g_event_fname a)));
     ("initial_state", V (JStr (g_initial_state a))); ("site_mapping", mapping);
     ("supercell_shape", V (JList (map JInt shape))); ("convert_to_primitive_cell", V (JBool convert));
     ("attempt_frequency", V (JFloat (g_attempt_frequency a))); ("kmc_pass", V (JInt (g_kmc_pass a)));
     ("T", V (JInt (g_T a))); ("q", V (JFloat (g_q a))); ("elem_hop_distance", V (JFloat (g_elem_hop_distance a)));
     ("dimension", V (JInt (g_dimension a))); ("random_seed", V (JInt (g_random_seed a)));
     ("structure_idx", V (JInt (g_structure_idx a))); ("comp", V (JInt (g_comp a)));
     ("equilibriation_pass", V (JInt (g_equilibriation_pass a)))].
  (** lines 331-335. *)
  Definition config_params (vars : fields) : fields :=
    fold_left (fun d kv =>
      let k := match dget legacy_mapping (fst kv) with Some k => k | None => fst kv end in
      if existsb (String.eqb k) valid_config_keys && negb (is_none (snd kv)) then dset d k (snd kv) else d) vars [].

  (** An action that may raise. *)
  Definition then_do (r : result unit) (a : action) (rest : list action * result unit) : list action * result unit :=
    match r with Ok _ => (a :: fst rest, snd rest) | Err e => ([a], Err e) end.
  Definition gui_simulation (a : kmc_args) (convert : bool) : list action * result unit :=
    match (let* s := shape_of (g_supercell_shape a) in let* m := literal_eval (g_site_mapping a) in Ok (s, m)) with
    | Err e => ([], Err e)
    | Ok (s, m) =>
        then_do (chdir (g_work_dir a)) (Chdir (g_work_dir a))
          (match configuration_new None None (config_params (namespace a convert s m)) with
           | Err e => ([], Err e)
           | Ok c => then_do (simulate c) (Simulate c) ([], Ok tt)
           end)
    end.
  (** lines 243-288. *)
  Definition gui_events (a : event_args) (convert : bool) : list action * result unit :=
    match (let* m := literal_eval (e_site_mapping a) in let* d := cutoff_dict (e_cutoffs a) in
           let* s := shape_of (e_supercell_shape a) in Ok (m, d, s)) with
    | Err e => ([], Err e)
    | Ok (m, d, s) =>
        let g := Generation (e_prim_cif_name a) convert d (e_ion a, e_ion_2 a) m (e_rtol a) (e_atol a)
                   (find_nearest_of (e_find_nearest a)) (e_export a) s (os_path_join (e_output_dir a) (e_event_fname a)) in
        then_do (generate g) (Generate g) ([], Ok tt)
    end.
  (** lines 227-241: [LocalClusterExpansion] is a local name of [main], because of the import at line 344,
      and has no value there: an UnboundLocalError, written RuntimeError. *)
  Definition gui_expansion (a : lce_args) : list action * result unit :=
    match literal_eval (l_site_mapping a) with Err e => ([], Err e) | Ok _ => ([], Err RuntimeError) end.

  (** lines 49-358.  Without Gooey an ImportError, written RuntimeError.  Line 222 reads
      [args.convert_to_primitive_cell], which only three of the commands have. *)
  Definition gui_main (has_gooey : bool) (c : command) : list action * result unit :=
    if negb has_gooey then ([], Err RuntimeError) else
    match c with
    | NoCommand | FitCommand _ => ([], Err AttributeError)
    | LceCommand a => gui_expansion a
    | EventsCommand a => gui_events a (String.eqb (e_convert a) "yes")
    | KmcCommand a => gui_simulation a (String.eqb (g_convert a) "yes")
    end.
End Gui.
