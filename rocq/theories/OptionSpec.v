(** What an option value says. *)
From Coq Require Import Ascii String.
From Verif Require Import Py Json CallbackSpec LocalBarrierModel OptionModel.
Local Open Scope list_scope.
Local Open Scope nat_scope.

(** The nonblank pieces of [s] between its commas, without the blanks around them. *)
Definition pieces_of (s : string) (parts : list string) : Prop :=
  exists pieces, pieces <> [] /\ Forall (without ","%char) pieces /\ joined ","%string pieces = s /\
    parts = List.filter (fun x => negb (String.eqb x "")) (map py_strip pieces).

(** The elements a value lists: those of a list or tuple, given as such or as its Python
    text, or else the pieces of the text. *)
Inductive lists (literal_eval : string -> evaluated) (text_of : value -> string) :
    value -> list item -> Prop :=
  | lists_list l : lists _ _ (VList l) l
  | lists_tuple l : lists _ _ (VTuple l) l
  | lists_list_text s l : literal_eval s = Evaluated (VList l) -> lists _ _ (VText s) l
  | lists_tuple_text s l : literal_eval s = Evaluated (VTuple l) -> lists _ _ (VText s) l
  | lists_pieces s parts : literal_eval s = Malformed -> pieces_of s parts ->
      lists _ _ (VText s) (map (fun x => Item (JStr x)) parts)
  | lists_other v parts : (v = VOther \/ exists d, v = VDict d) -> pieces_of (text_of v) parts ->
      lists _ _ v (map (fun x => Item (JStr x)) parts).

(** What Python's [int] makes of an element. *)
Definition integer (i : item) (z : Z) : Prop := exists j, i = Item j /\ py_int j = Ok z.
