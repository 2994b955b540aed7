(** Model of kmcpy/simulator/state.py. *)
From Coq Require Import QArith Ascii.
From Verif Require Import Py Json ActiveSiteModel EventModel.
Local Open Scope nat_scope.

Section State.
  (** The number type of the simulation clock, with its addition. *)
  Context {T : Type}.
  Variable add : T -> T -> T.

  (** state.py:22-31.  Occupations are integers ([list[int]]). *)
  Record state := State {
    occupations : list Z;
    time : T;
    step : Z;
  }.

  (** state.py:149-153: the right-hand side is read first, then the two targets are
      assigned left to right. *)
  Definition swap_occupations (occ : list Z) (e : event) : result (list Z) :=
    let* ft := unpack2 (mobile_ion_indices e) in
    let (from_site, to_site) := ft in
    let* new_from := py_get occ to_site in
    let* new_to := py_get occ from_site in
    let* occ1 := py_set occ from_site new_from in
    py_set occ1 to_site new_to.

  (** state.py:147-155. *)
  Definition apply_event (s : state) (e : event) (dt : T) : result state :=
    let* occ := swap_occupations (occupations s) e in
    Ok {| occupations := occ; time := add (time s) dt; step := (step s + 1)%Z |}.

  (** state.py:33-45. *)
  Definition from_occupations (occ : list Z) (aso : option order) (t : T) (n : Z)
    : result state :=
    match aso with
    | None => Ok {| occupations := occ; time := t; step := n |}
    | Some o =>
        let* values := select_active_values o occ in
        Ok {| occupations := values; time := t; step := n |}
    end.

  (** state.py:157-163. *)
  Definition copy (s : state) : state :=
    {| occupations := occupations s; time := time s; step := step s |}.
End State.
Arguments state : clear implicits.
Arguments State {T}.

(** state.py:91-95: row [p] of [raw.reshape(site_nums, *shape)], flattened: the
    block of [size] values that starts at [p * size].  A negative row index counts
    from the end, as in numpy. *)
Definition reshaped_row (raw : list Z) (size : nat) (p : Z) : result (list Z) :=
  match py_norm (length raw / size) p with
  | None => Err IndexError
  | Some k => Ok (take size (drop (k * size) raw))
  end.

(** state.py:47-103.  Shapes with a non-positive component are not modelled
    (reported as [ValueError]; numpy raises or infers a dimension). *)
Definition initial_occupation (raw : list Z) (supercell_shape : option (list Z))
    (select_sites : option (list Z)) (aso : option order) : result (list Z) :=
  match aso with
  | Some o =>
      if Nat.eqb (length raw) (active_site_count o) then Ok raw
      else select_active_values o raw
  | None =>
      match select_sites with
      | None => Err ValueError
      | Some sel =>
          match supercell_shape with
          | None => Err ValueError
          | Some shape =>
              if negb (Nat.eqb (length shape) 3) then Err ValueError
              else if existsb (fun v => (v <=? 0)%Z) shape then Err ValueError
              else
                let size := Z.to_nat (fold_right Z.mul 1%Z shape) in
                if negb (Nat.eqb (length raw mod size) 0) then Err ValueError
                else
                  let* rows := rmapM (reshaped_row raw size) sel in
                  Ok (List.concat rows)
          end
      end
  end.

(** state.py:165-173; the clock is a rational in payloads.  The two "@" keys are
    ignored by every reader and left out. *)
Definition state_as_dict (s : state Q) : list (string * json) :=
  [ ("occupations", JList (map JInt (occupations s)));
    ("time", JFloat (time s));
    ("step", JInt (step s)) ]%string.

(** state.py:175-182 with [__init__]. *)
Definition state_from_dict (d : list (string * json)) : result (state Q) :=
  let* occ := (let* j := dgetitem d "occupations"%string in int_list j) in
  let* t := (let* j := dgetitem d "time"%string in py_float j) in
  let* n := (let* j := dgetitem d "step"%string in py_int j) in
  Ok {| occupations := occ; time := t; step := n |}.

(** state.py:122-145: the JSON branch of [from_file] on the loaded payload. *)
Definition state_from_json (payload : json) (shape select : option (list Z))
    (aso : option order) (t : Q) (n : Z) : result (state Q) :=
  match payload with
  | JObj d =>
      match dget d "occupations"%string with
      | Some j =>
          let* occ := int_list j in
          let* t' := (match dget d "time"%string with Some j => py_float j | None => Ok t end) in
          let* n' := (match dget d "step"%string with Some j => py_int j | None => Ok n end) in
          from_occupations occ aso t' n'
      | None =>
          match dget d "occupation"%string with
          | Some j =>
              let* raw := int_list j in
              let* occ := initial_occupation raw shape select aso in
              Ok {| occupations := occ; time := t; step := n |}
          | None => Err ValueError
          end
      end
  | _ => Err ValueError
  end.

(** ** Checkpoint files.  A path is its list of characters. *)
Definition path := list ascii.

Definition char_eqb (a b : ascii) : bool := Ascii.eqb a b.

(** [path.endswith(suffix)] *)
Definition ends_with (p suffix : path) : bool :=
  bool_decide (drop (length p - length suffix) p = suffix).

(** The part after the last "/" ([Path(p).name]). *)
Fixpoint last_component (current : path) (p : path) : path :=
  match p with
  | [] => current
  | c :: p' => if char_eqb c "/"%char then last_component [] p'
               else last_component (current ++ [c]) p'
  end.
Definition path_name (p : path) : path := last_component [] p.

(** [name.rfind(".")] *)
Fixpoint rfind_dot (i : nat) (best : option nat) (p : path) : option nat :=
  match p with
  | [] => best
  | c :: p' => rfind_dot (S i) (if char_eqb c "."%char then Some i else best) p'
  end.

(** pathlib's [PurePath.suffix]: the part of the name from its last dot, unless the
    dot is the first or the last character. *)
Definition path_suffix (p : path) : path :=
  let name := path_name p in
  match rfind_dot 0 None name with
  | Some i => if Nat.ltb 0 i && Nat.ltb i (length name - 1) then drop i name else []
  | None => []
  end.

(** [str.lower] on ASCII. *)
Definition lower_char (c : ascii) : ascii :=
  let n := nat_of_ascii c in
  if Nat.leb 65 n && Nat.leb n 90 then ascii_of_nat (n + 32) else c.
Definition lower (p : path) : path := map lower_char p.

Definition ext_json : path := [".";"j";"s";"o";"n"]%char.
Definition ext_h5 : path := [".";"h";"5"]%char.

(** A checkpoint on disk: a JSON document or the three HDF5 datasets. *)
Inductive checkpoint :=
  | CkJson (payload : json)
  | CkH5 (occ : list Z) (t : Q) (n : Z).

(** state.py:184-205. *)
Definition save_checkpoint (s : state Q) (p : path) : result checkpoint :=
  if ends_with p ext_json then Ok (CkJson (JObj (state_as_dict s)))
  else if ends_with p ext_h5 then Ok (CkH5 (occupations s) (time s) (step s))
  else Err ValueError.

(** state.py:213-227: the HDF5 part of [load_checkpoint]. *)
Definition load_h5 (p : path) (f : checkpoint) : result (state Q) :=
  if ends_with p ext_h5 then
    match f with
    | CkH5 occ t n => Ok {| occupations := occ; time := t; step := n |}
    | CkJson _ => Err ValueError
    end
  else Err ValueError.

(** state.py:105-145 and 207-227.  [load_checkpoint] on a name ending in ".json"
    calls [from_file], which looks at the path suffix again. *)
Definition state_from_file (p : path) (f : checkpoint) (shape select : option (list Z))
    (aso : option order) (t : Q) (n : Z) : result (state Q) :=
  let suffix := lower (path_suffix p) in
  if bool_decide (suffix = ext_h5) then load_h5 p f
  else if negb (bool_decide (suffix = ext_json)) then Err ValueError
  else match f with
       | CkJson payload => state_from_json payload shape select aso t n
       | CkH5 _ _ _ => Err ValueError
       end.
Definition load_checkpoint (p : path) (f : checkpoint) : result (state Q) :=
  if ends_with p ext_json then state_from_file p f None None None 0%Q 0%Z
  else load_h5 p f.
