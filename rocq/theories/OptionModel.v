(** Model of the reading of option values of the command line, kmcpy/cli/run_kmc.py:10-45
    and their use in lines 98-135 and 182-193. *)
From Coq Require Import Ascii String.
From Verif Require Import Py Json CallbackModel LocalBarrierModel.
Local Open Scope list_scope.
Local Open Scope nat_scope.

(** An element of a list.  [Opaque] is anything [int] refuses with a TypeError and that
    is not a JSON value (a tuple, a set, a complex number).  Bytes are left out. *)
Inductive item := Item (j : json) | NotANumber | Infinite | Opaque.
(** A value of an option: text from the command line, or whatever a caller of [run_kmc]
    puts into the namespace. *)
Inductive value :=
  | VNone | VText (s : string) | VList (l : list item) | VTuple (l : list item)
  | VDict (d : list (item * item)) | VOther.

(** [ast.literal_eval]: a value; SyntaxError or ValueError; another exception (a dictionary
    with a list as a key, too deep nesting, ...). *)
Inductive evaluated := Evaluated (v : value) | Malformed | Escaped.
(** What leaves the functions: [argparse.ArgumentTypeError], the OverflowError of
    [int(inf)], or the other exception of [literal_eval]. *)
Inductive failure := ArgumentTypeError | OverflowError | EvalError.
Inductive outcome (A : Type) := Parsed (a : A) | Failed (f : failure).
Arguments Parsed {A}. Arguments Failed {A}.

Section Options.
  Variable literal_eval : string -> evaluated.
  (** [str(value)] of a value that is not a string. *)
  Variable text_of : value -> string.

  Definition str_of (v : value) : string := match v with VText s => s | _ => text_of v end.
  (** [ast.literal_eval(value)]: a value that is not a string is malformed. *)
  Definition evaluate (v : value) : evaluated :=
    match v with VText s => literal_eval s | _ => Malformed end.

  (** line 16: the parts between commas. *)
  Definition comma_parts (s : string) : list item :=
    map (fun x => Item (JStr x))
      (List.filter (fun x => negb (String.eqb x "")) (map py_strip (split_all ","%char s))).

  (** lines 10-19; a list and a tuple are not told apart below. *)
  Definition parse_sequence (v : value) : outcome (option (list item)) :=
    match v with
    | VNone => Parsed None
    | VList l | VTuple l => Parsed (Some l)
    | _ =>
        match evaluate v with
        | Evaluated (VList l) | Evaluated (VTuple l) => Parsed (Some l)
        | Evaluated _ => Failed ArgumentTypeError
        | Malformed => Parsed (Some (comma_parts (str_of v)))
        | Escaped => Failed EvalError
        end
    end.

  (** line 27, one element. *)
  Definition int_item (i : item) : outcome Z :=
    match i with
    | Item j => match py_int j with Ok z => Parsed z | Err _ => Failed ArgumentTypeError end
    | Infinite => Failed OverflowError
    | NotANumber | Opaque => Failed ArgumentTypeError
    end.
  Fixpoint int_items (l : list item) : outcome (list Z) :=
    match l with
    | [] => Parsed []
    | i :: l =>
        match int_item i with
        | Failed f => Failed f
        | Parsed z => match int_items l with Failed f => Failed f | Parsed zs => Parsed (z :: zs) end
        end
    end.

  (** lines 22-34. *)
  Definition parse_supercell_shape (v : value) : outcome (option (list Z)) :=
    match parse_sequence v with
    | Failed f => Failed f
    | Parsed None => Parsed None
    | Parsed (Some l) =>
        match int_items l with
        | Failed f => Failed f
        | Parsed zs => if length zs =? 3 then Parsed (Some zs) else Failed ArgumentTypeError
        end
    end.

  (** lines 37-46. *)
  Definition parse_mapping (v : value) : outcome (option (list (item * item))) :=
    match v with
    | VNone => Parsed None
    | VDict d => Parsed (Some d)
    | _ =>
        match evaluate v with
        | Evaluated (VDict d) => Parsed (Some d)
        | Evaluated _ | Malformed => Failed ArgumentTypeError
        | Escaped => Failed EvalError
        end
    end.

  (** The two options as the program reads them: argparse parses the text (lines 98-105 and
      121-128; an option that is not given is [None]), [run_kmc] parses the outcome again
      unless it is [None] (lines 184-192). *)
  Definition cli_shape (text : option string) : outcome (option (list Z)) :=
    match text with
    | None => Parsed None
    | Some s =>
        match parse_supercell_shape (VText s) with
        | Parsed (Some zs) => parse_supercell_shape (VTuple (map (fun z => Item (JInt z)) zs))
        | x => x
        end
    end.
  Definition cli_mapping (text : option string) : outcome (option (list (item * item))) :=
    match text with
    | None => Parsed None
    | Some s =>
        match parse_mapping (VText s) with
        | Parsed (Some d) => parse_mapping (VDict d)
        | x => x
        end
    end.
End Options.
