(** Values of JSON payloads and Python's [int]/[str] conversions on them. *)
From Coq Require Import DecimalString QArith.
From Verif Require Import Py.

(** A JSON value as produced by [json.loads]: integers, finite floats (every
    finite float is a rational number), strings, arrays, objects.
    NaN and infinities are not represented. *)
Inductive json :=
  | JNull
  | JBool (b : bool)
  | JInt (z : Z)
  | JFloat (q : Q)
  | JStr (s : string)
  | JList (l : list json)
  | JObj (l : list (string * json)).

Definition is_null (j : json) : bool :=
  match j with JNull => true | _ => false end.

(** Python truth value of a payload entry. *)
Definition truthy (j : json) : bool :=
  match j with
  | JNull => false
  | JBool b => b
  | JInt z => negb (z =? 0)%Z
  | JFloat q => negb (Qeq_bool q 0)
  | JStr s => negb (String.eqb s "")
  | JList l => match l with [] => false | _ => true end
  | JObj l => match l with [] => false | _ => true end
  end.

(** [str(n)] for an integer. *)
Definition py_str_int (z : Z) : string := NilZero.string_of_int (Z.to_int z).

(** [int(s)] for a string: optional sign and decimal digits.  Python also
    accepts surrounding blanks and digit-group underscores; those spellings are
    not modelled. *)
Definition py_int_str (s : string) : result Z :=
  match NilZero.int_of_string s with
  | Some d => Ok (Z.of_int d)
  | None => Err ValueError
  end.

(** Truncation toward zero. *)
Definition Qtrunc (q : Q) : Z := Z.quot (Qnum q) (Zpos (Qden q)).

(** [int(x)]. *)
Definition py_int (j : json) : result Z :=
  match j with
  | JInt z => Ok z
  | JBool b => Ok (if b then 1%Z else 0%Z)
  | JFloat q => Ok (Qtrunc q)
  | JStr s => py_int_str s
  | _ => Err TypeError
  end.

(** [float(x)], for numbers only (strings of digits are not modelled). *)
Definition py_float (j : json) : result Q :=
  match j with
  | JInt z => Ok (inject_Z z)
  | JBool b => Ok (if b then 1%Q else 0%Q)
  | JFloat q => Ok q
  | JStr _ => Err ValueError
  | _ => Err TypeError
  end.

(** Iterating over a payload value: only arrays are iterated in the modelled
    code (iterating a string or an object is not modelled and is an error). *)
Definition py_list (j : json) : result (list json) :=
  match j with
  | JList l => Ok l
  | _ => Err TypeError
  end.

(** A payload value used as text where the code stores it unchanged. *)
Definition py_text (j : json) : result string :=
  match j with
  | JStr s => Ok s
  | _ => Err TypeError
  end.

Definition py_obj (j : json) : result (list (string * json)) :=
  match j with
  | JObj l => Ok l
  | _ => Err TypeError
  end.
