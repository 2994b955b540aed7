(** Model of [_propose], kmcpy/simulator/kmc.py:555-564: event selection and waiting
    time.  The arithmetic is a parameter, instantiated with real numbers here and
    with IEEE doubles in FloatModel. *)
From Coq Require Import Reals.
From Verif Require Import Py.
Local Open Scope nat_scope.

Section Propose.
  Context {T : Type}.
  Variable div : T -> T -> T.
  Variable leb : T -> T -> bool.
  Variable is_zero : T -> bool.
  (** [(-1.0 / total) * np.log(u)] *)
  Variable waiting : T -> T -> T.

  (** np.searchsorted(a, v, side="right"): bisection that moves right while
      [a[mid] <= v]. *)
  Fixpoint bisect_right (fuel : nat) (a : list T) (v : T) (lo hi : nat) : result nat :=
    match fuel with
    | O => Err OutOfFuel
    | S fuel =>
        if Nat.ltb lo hi then
          let mid := (lo + hi) / 2 in
          match a !! mid with
          | None => Err IndexError
          | Some x =>
              if leb x v then bisect_right fuel a v (S mid) hi
              else bisect_right fuel a v lo mid
          end
        else Ok lo
    end.
  Definition searchsorted_right (a : list T) (v : T) : result nat :=
    bisect_right (S (length a)) a v 0 (length a).

  (** kmc.py:556-564.  An empty cumulative list is reported as [IndexError] (the
      compiled source reads out of bounds).  A zero total raises
      [ZeroDivisionError] at line 563 (numba's scalar division). *)
  Definition select_event (cum : list T) (u1 u2 : T) : result (nat * T) :=
    match last cum with
    | None => Err IndexError
    | Some total =>
        if is_zero total then Err ZeroDivisionError
        else
          let* i := searchsorted_right (map (fun c => div c total) cum) u1 in
          Ok (i, waiting total u2)
    end.
End Propose.

(** The real-number instance. *)
Definition Rleb (x y : R) : bool := if Rle_dec x y then true else false.
Definition Rzero (x : R) : bool := if Req_EM_T x 0 then true else false.
(** kmc.py:563; [ln] only stands for [np.log] on positive arguments. *)
Definition Rwaiting (total u : R) : R := (-1 / total * ln u)%R.
Definition Rselect : list R -> R -> R -> result (nat * R) :=
  select_event Rdiv Rleb Rzero Rwaiting.
