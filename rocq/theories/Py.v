(** Python values used by the model: exceptions as values, indexing with
    Python's rules, insertion-ordered dictionaries.  Definitions only. *)
From stdpp Require Export base tactics option numbers sets list strings.
From Coq Require Export ZArith.

(** The exception classes the modelled code raises. [OutOfFuel] is not a Python
    exception: it marks exhausted recursion fuel and is shown unreachable. *)
Inductive exn :=
  | ValueError | IndexError | KeyError | TypeError | RuntimeError
  | ZeroDivisionError | AttributeError | NotImplementedError
  | CallbackExecutionError | FileExistsError | FileNotFoundError | OSError | OutOfFuel.

Global Instance exn_eq_dec : EqDecision exn.
Proof. solve_decision. Defined.

(** A Python call either returns a value or raises. *)
Inductive result (A : Type) :=
  | Ok (a : A)
  | Err (e : exn).
Arguments Ok {A} _.
Arguments Err {A} _.

Global Instance result_eq_dec {A} `{EqDecision A} : EqDecision (result A).
Proof. solve_decision. Defined.

Definition rbind {A B} (r : result A) (f : A -> result B) : result B :=
  match r with
  | Ok a => f a
  | Err e => Err e
  end.

Definition rmap {A B} (f : A -> B) (r : result A) : result B :=
  match r with
  | Ok a => Ok (f a)
  | Err e => Err e
  end.

Notation "'let*' x ':=' e 'in' k" := (rbind e (fun x => k))
  (at level 200, x pattern, e at level 200, k at level 200, right associativity).

Definition is_ok {A} (r : result A) : bool :=
  match r with Ok _ => true | Err _ => false end.

(** [for x in l: acc.append(f(x))], stopping at the first exception. *)
Fixpoint rmapM {A B} (f : A -> result B) (l : list A) : result (list B) :=
  match l with
  | [] => Ok []
  | x :: l' =>
      let* y := f x in
      let* ys := rmapM f l' in
      Ok (y :: ys)
  end.

(** A loop that threads a state and may raise. *)
Fixpoint rfold {A S} (f : S -> A -> result S) (s : S) (l : list A) : result S :=
  match l with
  | [] => Ok s
  | x :: l' =>
      let* s' := f s x in
      rfold f s' l'
  end.

(** Python index normalisation: a negative index counts from the end. *)
Definition py_norm (n : nat) (i : Z) : option nat :=
  if (0 <=? i)%Z then
    if (i <? Z.of_nat n)%Z then Some (Z.to_nat i) else None
  else
    if (- Z.of_nat n <=? i)%Z then Some (Z.to_nat (i + Z.of_nat n)) else None.

(** [l[i]] on a list, tuple or one-dimensional array. *)
Definition py_get {A} (l : list A) (i : Z) : result A :=
  match py_norm (length l) i with
  | Some k => match l !! k with Some x => Ok x | None => Err IndexError end
  | None => Err IndexError
  end.

(** [l[i] = x]. *)
Definition py_set {A} (l : list A) (i : Z) (x : A) : result (list A) :=
  match py_norm (length l) i with
  | Some k => Ok (<[k := x]> l)
  | None => Err IndexError
  end.

(** [a, b = t]: unpacking a sequence of any other length raises ValueError. *)
Definition unpack2 {A} (l : list A) : result (A * A) :=
  match l with
  | [a; b] => Ok (a, b)
  | _ => Err ValueError
  end.

(** Dictionaries in insertion order. *)
Definition dict (K V : Type) := list (K * V).

Section Dict.
  Context {K V : Type} `{EqDecision K}.

  (** [d.get(k)] *)
  Fixpoint dget (d : dict K V) (k : K) : option V :=
    match d with
    | [] => None
    | (k', v) :: d' => if decide (k = k') then Some v else dget d' k
    end.

  (** [k in d] *)
  Definition din (d : dict K V) (k : K) : bool :=
    match dget d k with Some _ => true | None => false end.

  (** [d[k]] *)
  Definition dgetitem (d : dict K V) (k : K) : result V :=
    match dget d k with Some v => Ok v | None => Err KeyError end.

  (** [d[k] = v]: an existing key keeps its place. *)
  Fixpoint dset (d : dict K V) (k : K) (v : V) : dict K V :=
    match d with
    | [] => [(k, v)]
    | (k', v') :: d' =>
        if decide (k = k') then (k', v) :: d' else (k', v') :: dset d' k v
    end.

  (** [del d[k]] for a key that is present; no effect otherwise
      ([d.pop(k, None)]). *)
  Fixpoint ddel (d : dict K V) (k : K) : dict K V :=
    match d with
    | [] => []
    | (k', v') :: d' => if decide (k = k') then d' else (k', v') :: ddel d' k
    end.

  Definition dkeys (d : dict K V) : list K := map fst d.
  Definition dvalues (d : dict K V) : list V := map snd d.

  (** [{k: v for ...}]: later duplicates overwrite. *)
  Definition dof_pairs (l : list (K * V)) : dict K V :=
    fold_left (fun d kv => dset d (fst kv) (snd kv)) l [].
End Dict.

(** [enumerate(l)] starting at [n]. *)
Fixpoint enum_from {A} (n : nat) (l : list A) : list (nat * A) :=
  match l with
  | [] => []
  | x :: l' => (n, x) :: enum_from (S n) l'
  end.
Definition enumerate {A} (l : list A) : list (nat * A) := enum_from 0 l.

(** [list.index(x)]: position of the first equal element. *)
Fixpoint list_index {A} `{EqDecision A} (l : list A) (x : A) : result nat :=
  match l with
  | [] => Err ValueError
  | y :: l' => if decide (y = x) then Ok 0 else rmap S (list_index l' x)
  end.
