(** Model of kmcpy/simulator/results.py: the files a finished run writes.  A file is a table, columns
    with their names, or a JSON document; a number printed with 19 digits is the number itself. *)
From Coq Require Import QArith Ascii.
From Verif Require Import Py Json StateModel PropertyModel.
Local Open Scope string_scope.

Definition chars (s : string) : path := list_ascii_of_string s.

(** Values returned by callbacks: a dictionary has keys of any kind, a sequence is a list or a
    tuple, [VOther] is any other object. *)
Inductive value (K X : Type) :=
  | VNull
  | VBool (b : bool)
  | VInt (z : Z)
  | VFloat (q : Q)
  | VStr (s : string)
  | VDict (l : list (K * value K X))
  | VSeq (l : list (value K X))
  | VOther (x : X).
Arguments VNull {K X}. Arguments VBool {K X}. Arguments VInt {K X}. Arguments VFloat {K X}.
Arguments VStr {K X}. Arguments VDict {K X}. Arguments VSeq {K X}. Arguments VOther {K X}.

(** What a file holds: [N] are the numbers of the built-in results, which can be NaN. *)
Inductive output (N : Type) :=
  | Numbers (rows : list (list N))
  | Columns (d : dict string (list N))
  | Doc (j : json).
Arguments Numbers {N}. Arguments Columns {N}. Arguments Doc {N}.

Section Results.
  Context {K X N : Type}.
  (** [str(key)]; monty's [jsanitize] of an object, and its [repr]. *)
  Variable key_text : K -> string.
  Variable sanitize : X -> result json.
  Variable repr : X -> string.
  (** An integer as a number of a table. *)
  Variable of_int : Z -> N.
  Notation value := (value K X).

  (** results.py:150-166.  Keys with the same text: the later value stays. *)
  Fixpoint to_json_safe (v : value) : result json :=
    match v with
    | VNull => Ok JNull
    | VBool b => Ok (JBool b)
    | VInt z => Ok (JInt z)
    | VFloat q => Ok (JFloat q)
    | VStr s => Ok (JStr s)
    | VDict l =>
        let* items := (fix go l := match l with
                                   | [] => Ok []
                                   | (k, v) :: l' => let* j := to_json_safe v in let* js := go l' in Ok ((key_text k, j) :: js)
                                   end) l in
        Ok (JObj (dof_pairs items))
    | VSeq l =>
        let* items := (fix go l := match l with
                                   | [] => Ok []
                                   | v :: l' => let* j := to_json_safe v in let* js := go l' in Ok (j :: js)
                                   end) l in
        Ok (JList items)
    | VOther x =>
        match sanitize x with
        | Ok j => Ok j
        | Err TypeError => Ok (JStr (repr x))
        | Err e => Err e
        end
    end.

  (** results.py:132-147. *)
  Definition stored (r : record Q value) : result json :=
    let* v := to_json_safe (r_value r) in
    Ok (JObj [("name", JStr (r_name r)); ("step", JInt (r_step r)); ("time", JFloat (r_time r)); ("value", v)]).
  Definition stored_property_payload (records : dict string (list (record Q value))) : result (list json) :=
    rmapM stored (concat (dvalues records)).

  (** What a run has to write (results.py:48-58, tracker.py:527-538). *)
  Record run_data := RunData {
    d_pass : Z;
    d_displacement : list (list N);
    d_hop_counter : list Z;
    d_occupations : list Z;
    d_results : dict string (list N);
    d_units : dict string string;
    d_records : dict string (list (record Q value));
  }.
  Definition outputs := dict path (output N).

  (** results.py:60-62 and 70: an empty label is no label. *)
  Definition trajectory_prefix (label : option path) (pass : Z) : path :=
    match label with
    | Some (c :: l) => ((c :: l) ++ "_"%char :: chars (py_str_int pass))%list
    | _ => chars (py_str_int pass)
    end.
  Definition suffix (label : option path) : path :=
    match label with Some (c :: l) => "_"%char :: c :: l | _ => [] end.
  Definition displacement_file label pass : path := (chars "displacement_" ++ trajectory_prefix label pass ++ chars ".csv.gz")%list.
  Definition hop_counter_file label pass : path := (chars "hop_counter_" ++ trajectory_prefix label pass ++ chars ".csv.gz")%list.
  Definition occupation_file label pass : path := (chars "current_occ_" ++ trajectory_prefix label pass ++ chars ".csv.gz")%list.
  Definition results_file label : path := (chars "results" ++ suffix label ++ chars ".csv.gz")%list.
  Definition units_file label : path := (chars "results_units" ++ suffix label ++ chars ".json.gz")%list.
  Definition properties_file label : path := (chars "properties" ++ suffix label ++ chars ".json.gz")%list.

  (** [pd.DataFrame] of a dictionary of lists: one length is needed. *)
  Definition data_frame (d : dict string (list N)) : result (output N) :=
    match d with
    | [] => Ok (Columns [])
    | (_, c) :: _ => if forallb (fun kv => Nat.eqb (length (snd kv)) (length c)) d then Ok (Columns d) else Err ValueError
    end.

  (** results.py:48-129: the files after the call and how it ended.  Files can be written. *)
  Definition write_tracker_results (label : option path) (d : run_data) (fs : outputs) : outputs * result unit :=
    let fs := dset fs (displacement_file label (d_pass d)) (Numbers (d_displacement d)) in
    let fs := dset fs (hop_counter_file label (d_pass d)) (Numbers (map (fun z => [of_int z]) (d_hop_counter d))) in
    let fs := dset fs (occupation_file label (d_pass d)) (Numbers (map (fun z => [of_int z]) (d_occupations d))) in
    match data_frame (d_results d) with
    | Err e => (fs, Err e)
    | Ok columns =>
        let fs := dset fs (results_file label) columns in
        let fs := dset fs (units_file label) (Doc (JObj (map (fun kv => (fst kv, JStr (snd kv))) (d_units d)))) in
        match stored_property_payload (d_records d) with
        | Err e => (fs, Err e)
        | Ok [] => (fs, Ok tt)
        | Ok payload => (dset fs (properties_file label) (Doc (JList payload)), Ok tt)
        end
    end.
  (** Several runs, each of which may raise. *)
  Definition write_all (runs : list (option path * run_data)) (fs : outputs) : outputs :=
    fold_left (fun fs r => fst (write_tracker_results (fst r) (snd r) fs)) runs fs.
End Results.
