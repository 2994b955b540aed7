(** Vocabulary for the properties of result files. *)
From Coq Require Import QArith Ascii.
From Verif Require Import Py Json StateModel PropertyModel ResultsModel.

(** No label and the empty label are the same. *)
Definition same_label (l l' : option path) : Prop := default [] l = default [] l'.

(** The six files of a run.  The first three are named after the label and the pass, the others after
    the label alone. *)
Inductive kind := Displacement | HopCounter | Occupations | Results | Units | Properties.
Definition file_name (k : kind) (label : option path) (pass : Z) : path :=
  match k with
  | Displacement => displacement_file label pass
  | HopCounter => hop_counter_file label pass
  | Occupations => occupation_file label pass
  | Results => results_file label
  | Units => units_file label
  | Properties => properties_file label
  end.
Definition of_a_pass (k : kind) : bool := match k with Displacement | HopCounter | Occupations => true | _ => false end.
(** Runs that share the file [k]. *)
Definition shares (k : kind) (label : option path) (pass : Z) (label' : option path) (pass' : Z) : Prop :=
  same_label label label' /\ (if of_a_pass k then pass = pass' else True).
Global Instance shares_dec k l p l' p' : Decision (shares k l p l' p').
Proof. unfold shares, same_label. destruct (of_a_pass k); apply _. Defined.

(** The last [Some]. *)
Fixpoint last_some {A} (l : list (option A)) : option A :=
  match l with
  | [] => None
  | x :: l' => match last_some l' with Some y => Some y | None => x end
  end.

Section Spec.
  Context {K X N : Type}.
  Variable key_text : K -> string.
  Variable sanitize : X -> result json.
  Variable repr : X -> string.
  Variable of_int : Z -> N.

  (** A record as it is listed. *)
  Definition listed (r : record Q (value K X)) (j : json) : Prop :=
    exists v, to_json_safe key_text sanitize repr (r_value r) = Ok v
      /\ j = JObj [("name", JStr (r_name r)); ("step", JInt (r_step r)); ("time", JFloat (r_time r)); ("value", v)]%string.
  (** All columns have one length. *)
  Definition even (d : dict string (list N)) : Prop := forall c c', c ∈ map snd d -> c' ∈ map snd d -> length c = length c'.
  (** What a run leaves in its file [k], if it writes it. *)
  Definition leaves (k : kind) (d : run_data (K := K) (X := X) (N := N)) (o : option (output N)) : Prop :=
    match k with
    | Displacement => o = Some (Numbers (d_displacement d))
    | HopCounter => o = Some (Numbers (map (fun z => [of_int z]) (d_hop_counter d)))
    | Occupations => o = Some (Numbers (map (fun z => [of_int z]) (d_occupations d)))
    | Results => (even (d_results d) /\ o = Some (Columns (d_results d))) \/ (~ even (d_results d) /\ o = None)
    | Units => (even (d_results d) /\ o = Some (Doc (JObj (map (fun kv => (fst kv, JStr (snd kv))) (d_units d)))))
               \/ (~ even (d_results d) /\ o = None)
    | Properties =>
        let records := concat (map snd (d_records d)) in
        (even (d_results d) /\ records <> [] /\ exists js, Forall2 listed records js /\ o = Some (Doc (JList js)))
        \/ ((~ even (d_results d) \/ records = [] \/ exists r e, r ∈ records /\ to_json_safe key_text sanitize repr (r_value r) = Err e) /\ o = None)
    end.
End Spec.

(** JSON values as values of callbacks. *)
Fixpoint json_value {X} (j : json) : value string X :=
  match j with
  | JNull => VNull
  | JBool b => VBool b
  | JInt z => VInt z
  | JFloat q => VFloat q
  | JStr s => VStr s
  | JList l => VSeq (map json_value l)
  | JObj l => VDict (map (fun kv => (fst kv, json_value (snd kv))) l)
  end.
(** Objects whose keys differ, throughout. *)
Fixpoint distinct_keys (j : json) : Prop :=
  match j with
  | JList l => (fix go l := match l with [] => True | j :: l' => distinct_keys j /\ go l' end) l
  | JObj l => NoDup (map fst l) /\ (fix go l := match l with [] => True | (_, j) :: l' => distinct_keys j /\ go l' end) l
  | _ => True
  end.
