(** Model of kmcpy/models/parameters.py: records of fitted parameters, histories of them, and
    their files. *)
From Coq Require Import QArith.
From Verif Require Import Py Json StateModel MatcherModel LceModel.
Local Open Scope string_scope.

(** A Python value a record can hold: a JSON value, or nested lists of [bytes] (what h5py returns
    for an array of text; [PBytes j] has the bytes of the texts of [j]). *)
Inductive pyval :=
  | PJson (j : json)
  | PBytes (j : json).
Definition none : pyval := PJson JNull.
Definition is_none (v : pyval) : bool := match v with PJson JNull => true | _ => false end.

(** parameters.py:13-30. *)
Record params := Params {
  p_keci : pyval;
  p_empty_cluster : pyval;
  p_cluster_site_indices : pyval;
  p_weight : pyval;
  p_alpha : pyval;
  p_time_stamp : pyval;
  p_time : pyval;
  p_rmse : pyval;
  p_loocv : pyval;
  p_normalize : pyval;
  p_orbit_fingerprints : pyval;
  p_local_environment_hash : pyval;
  p_local_site_order : pyval;
  p_name : string;
}.
Definition default_name : string := "LCEModelParameters".

(** parameters.py:32-52. *)
Definition params_as_dict (p : params) : dict string pyval :=
  ([("@module", PJson (JStr "kmcpy.models.parameters"));
    ("@class", PJson (JStr "LCEModelParameters"));
    ("keci", p_keci p);
    ("empty_cluster", p_empty_cluster p);
    ("cluster_site_indices", p_cluster_site_indices p);
    ("weight", p_weight p);
    ("alpha", p_alpha p);
    ("time_stamp", p_time_stamp p);
    ("time", p_time p);
    ("rmse", p_rmse p);
    ("loocv", p_loocv p);
    ("normalize", p_normalize p)]
   ++ (if is_none (p_orbit_fingerprints p) then [] else [("orbit_fingerprints", p_orbit_fingerprints p)])
   ++ (if is_none (p_local_environment_hash p) then [] else [("local_environment_hash", p_local_environment_hash p)]))%list.

(** [key.startswith("@")]. *)
Definition private (key : string) : bool := String.prefix "@" key.

(** parameters.py:54-78. *)
Definition params_from_dict (data : dict string pyval) : params :=
  let payload := List.filter (fun kv => negb (private (fst kv)) && negb (String.eqb (fst kv) "name")) data in
  let get := fun key default => match dget payload key with Some v => v | None => default end in
  Params (get "keci" (PJson (JList []))) (get "empty_cluster" (PJson (JFloat 0)))
    (get "cluster_site_indices" (PJson (JList []))) (get "weight" (PJson (JList [])))
    (get "alpha" (PJson (JFloat 0))) (get "time_stamp" (PJson (JStr ""))) (get "time" (PJson (JStr "")))
    (get "rmse" (PJson (JFloat 0))) (get "loocv" (PJson (JFloat 0))) (get "normalize" (PJson (JBool true)))
    (get "orbit_fingerprints" none) (get "local_environment_hash" none) (get "local_site_order" none)
    default_name.
Definition of_object (l : list (string * json)) : dict string pyval := map (fun kv => (fst kv, PJson (snd kv))) l.
Definition params_from_json (j : json) : result params :=
  match j with JObj l => Ok (params_from_dict (of_object l)) | _ => Err ValueError end.

(** ** Files *)

(** What a file holds: lines of numbers, a JSON or YAML document, an HDF5 file of datasets and
    groups of datasets, or something that cannot be read. *)
Inductive node :=
  | Dataset (v : pyval)
  | Group (d : dict string pyval).
Inductive content :=
  | CNumbers (rows : list (list Q))
  | CDoc (j : json)
  | CH5 (d : dict string node)
  | CBroken.
Definition files := dict path content.

(** [json.dumps] of a dictionary: bytes are refused. *)
Definition plain_json (v : pyval) : result json :=
  match v with PJson j => Ok j | PBytes _ => Err TypeError end.
Definition dump (d : dict string pyval) : result json :=
  let* l := rmapM (fun kv => let* j := plain_json (snd kv) in Ok (fst kv, j)) d in Ok (JObj l).
(** monty's [dumpfn]: the file is opened first, so that a failure leaves a truncated file.  Files
    can always be written. *)
Definition dumpfn (p : path) (j : result json) (fs : files) : files * result unit :=
  match j with
  | Ok j => (dset fs p (CDoc j), Ok tt)
  | Err e => (dset fs p CBroken, Err e)
  end.
(** monty's [loadfn(filename, cls=None)]. *)
Definition loadfn (p : path) (fs : files) : result json :=
  match dget fs p with
  | None => Err FileNotFoundError
  | Some (CDoc j) => Ok j
  | Some _ => Err ValueError
  end.

(** ** HDF5 datasets *)

(** The leaves and the shape of nested lists; [None] for lists whose elements differ in shape. *)
Fixpoint leaves (j : json) : list json :=
  match j with JList l => flat_map leaves l | _ => [j] end.
Fixpoint array_shape (j : json) : option (list nat) :=
  match j with
  | JList l =>
      match map array_shape l with
      | [] => Some [0%nat]
      | Some s :: rest =>
          if forallb (fun o => bool_decide (o = Some s)) rest then Some (length l :: s) else None
      | None :: _ => None
      end
  | _ => Some []
  end.
Definition is_text (j : json) : bool := match j with JStr _ => true | _ => false end.
Definition is_bool (j : json) : bool := match j with JBool _ => true | _ => false end.
Definition is_integer (j : json) : bool := match j with JInt _ | JBool _ => true | _ => false end.
Definition is_number (j : json) : bool := match j with JInt _ | JBool _ | JFloat _ => true | _ => false end.
Fixpoint as_ints (j : json) : json :=
  match j with
  | JList l => JList (map as_ints l)
  | JBool b => JInt (if b then 1 else 0)%Z
  | _ => j
  end.
Fixpoint as_floats (j : json) : json :=
  match j with
  | JList l => JList (map as_floats l)
  | JBool b => JFloat (if b then 1 else 0)%Q
  | JInt z => JFloat (inject_Z z)
  | _ => j
  end.
(** What [dataset[()]], decoded by [_decode_hdf5_value] (parameters.py:199-204), gives for
    [create_dataset(key, data=value)] (line 196).  Arrays of numbers get one type; arrays of text
    come back as bytes.  Integers have 64 bits and texts hold no null character (not checked). *)
Definition store_array (j : json) : result pyval :=
  let ls := leaves j in
  let some := negb (Nat.eqb (length ls) 0) in
  match array_shape j with
  | None => Err ValueError
  | Some _ =>
      if some && forallb is_text ls then Ok (PBytes j)
      else if some && forallb is_bool ls then Ok (PJson j)
      else if some && forallb is_integer ls then Ok (PJson (as_ints j))
      else if forallb is_number ls then Ok (PJson (as_floats j))
      else Err TypeError
  end.
Definition store (v : pyval) : result pyval :=
  match v with
  | PJson (JList l) => store_array (JList l)
  | PJson (JObj _) => Err TypeError
  | PJson JNull => Err TypeError
  | PJson j => Ok (PJson j)
  | PBytes j =>
      match array_shape j with
      | Some _ => if forallb is_text (leaves j) then Ok (PBytes j) else Err TypeError
      | None => Err TypeError
      end
  end.

(** parameters.py:192-196: what the group holds at the end, and how the call ended. *)
Fixpoint write_group (d : dict string pyval) (group : dict string pyval) : dict string pyval * result unit :=
  match d with
  | [] => (group, Ok tt)
  | (key, value) :: d' =>
      if private key || is_none value then write_group d' group
      else match store value with
           | Ok v => write_group d' (dset group key v)
           | Err e => (group, Err e)
           end
  end.
Definition datasets (d : dict string pyval) : dict string node := map (fun kv => (fst kv, Dataset (snd kv))) d.

(** parameters.py:179-180: a group has no value. *)
Definition read_group (d : dict string node) : result (dict string pyval) :=
  rmapM (fun kv => match snd kv with Dataset v => Ok (fst kv, v) | Group _ => Err TypeError end) d.
Definition read_node (n : node) : result (dict string pyval) :=
  match n with Group d => Ok d | Dataset _ => Err AttributeError end.

(** [h5py.File(filename, "r")]. *)
Definition open_h5 (p : path) (fs : files) : result (dict string node) :=
  match dget fs p with
  | None => Err FileNotFoundError
  | Some (CH5 d) => Ok d
  | Some _ => Err OSError
  end.
Definition is_h5 (p : path) : bool := bool_decide (path_suffix p = ext_h5).

(** parameters.py:80-86 with 170-176. *)
Definition params_from_file (p : path) (fs : files) : result params :=
  if is_h5 p then
    let* d := open_h5 p fs in
    let* group := read_group d in
    Ok (params_from_dict group)
  else
    let* j := loadfn p fs in
    params_from_json j.

(** parameters.py:88-94 with 183-189. *)
Definition params_to (p : path) (r : params) (fs : files) : files * result unit :=
  if is_h5 p then
    let (group, res) := write_group (params_as_dict r) [] in
    (dset fs p (CH5 (datasets group)), res)
  else dumpfn p (dump (params_as_dict r)) fs.

(** ** Histories *)
Definition history := list params.

(** parameters.py:114-120. *)
Definition history_json (h : history) : result json :=
  let* records := rmapM (fun r => dump (params_as_dict r)) h in
  Ok (JObj [("@module", JStr "kmcpy.models.parameters"); ("@class", JStr "LCEModelParamHistory");
            ("history", JList records)]).

(** parameters.py:122-136. *)
Definition history_from_json (j : json) : result history :=
  let* records := (match j with
                   | JList l => Ok l
                   | JObj o => match dget o "history" with Some v => py_list v | None => Ok [] end
                   | _ => Err ValueError
                   end) in
  rmapM params_from_json records.

(** [f"parameter_set_{index}"]. *)
Definition set_name (i : nat) : string := ("parameter_set_" ++ py_str_int (Z.of_nat i))%string.

(** parameters.py:138-152.  [h5file.keys()] are sorted as text. *)
Definition history_from_file (p : path) (fs : files) : result history :=
  if is_h5 p then
    let* d := open_h5 p fs in
    let* records := rmapM (fun key => let* n := dgetitem d key in read_node n) (sorted String.leb (dkeys d)) in
    Ok (map params_from_dict records)
  else
    let* j := loadfn p fs in
    history_from_json j.

(** parameters.py:154-167. *)
Fixpoint write_sets (i : nat) (h : history) (d : dict string node) : dict string node * result unit :=
  match h with
  | [] => (d, Ok tt)
  | r :: h' =>
      let (group, res) := write_group (params_as_dict r) [] in
      let d' := dset d (set_name i) (Group group) in
      match res with
      | Ok _ => write_sets (S i) h' d'
      | Err e => (d', Err e)
      end
  end.
Definition history_to (p : path) (h : history) (fs : files) : files * result unit :=
  if is_h5 p then
    let (d, res) := write_sets 0 h [] in (dset fs p (CH5 d), res)
  else dumpfn p (history_json h) fs.

(** parameters.py:110-112. *)
Definition append (h : history) (r : params) : history := (h ++ [r])%list.

(** ** A record given to an expansion *)

(** The attributes [set_parameters] reads of a record (local_cluster_expansion.py:676-681), for a
    record of numbers.  [_validate_parameter_orbits] compares [str(value)] of each fingerprint;
    for bytes of plain text that is the text between [b'] and [']. *)
Definition bytes_str (s : string) : string := ("b'" ++ s ++ "'")%string.
Definition fingerprint_texts (v : pyval) : result (option (list string)) :=
  match v with
  | PJson JNull => Ok None
  | PJson (JList l) => let* t := rmapM py_text l in Ok (Some t)
  | PBytes (JList l) => let* t := rmapM py_text l in Ok (Some (map bytes_str t))
  | _ => Err TypeError
  end.
Definition record_for_expansion (r : params) : result (parameters Q) :=
  match p_keci r, p_empty_cluster r with
  | PJson (JList keci), PJson empty =>
      let* keci := rmapM py_float keci in
      let* empty := py_float empty in
      let* fps := fingerprint_texts (p_orbit_fingerprints r) in
      match p_local_environment_hash r with
      | PJson (JStr h) => Ok (ParamObject keci empty fps (Some h))
      | PJson JNull => Ok (ParamObject keci empty fps None)
      | _ => Err TypeError
      end
  | _, _ => Err TypeError
  end.
