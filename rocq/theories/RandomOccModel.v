(** Model of [Occupation.random], kmcpy/structure/basis.py:619-647, with numpy's global
    generator, which it draws from. *)
From Coq Require Import QArith.
From Verif Require Import Py Json BasisModel.
Local Open Scope nat_scope.

Section Random.
  (** The state of numpy's global generator, the state a seed puts it into, and one draw:
      the number and the next state. *)
  Context {G : Type}.
  Variable seeded : Z -> G.
  Variable draw : G -> Q * G.

  (** [np.random.random(n)]: the numbers and the generator after them. *)
  Fixpoint draws (n : nat) (g : G) : list Q * G :=
    match n with
    | 0 => ([], g)
    | S n => let '(x, g) := draw g in let '(l, g) := draws n g in (x :: l, g)
    end.

  (** The argument [basis]: a name or a basis object. *)
  Inductive basis_arg := Named (name : string) | Object (b : basis).
  Definition basis_of (a : basis_arg) : result basis :=
    match a with Named s => get_basis s [] | Object b => Ok b end.

  (** lines 634-635; numpy refuses seeds outside [0, 2^32 - 1]. *)
  Definition reseed (seed : option Z) (g : G) : result G :=
    match seed with
    | None => Ok g
    | Some s => if ((s <? 0) || (4294967295 <? s))%Z then Err ValueError else Ok (seeded s)
    end.

  (** [x < y] of floats. *)
  Definition below (x y : Q) : bool := negb (Qle_bool y x).

  (** lines 634-647: the generator after the call and its answer.  The numbers are drawn
      before the basis is looked up.  A negative number of sites is refused by numpy. *)
  Definition random_occupation (n : Z) (a : basis_arg) (fill : Q) (seed : option Z) (g : G)
    : G * result occupation :=
    match reseed seed g with
    | Err x => (g, Err x)
    | Ok g =>
        if (n <? 0)%Z then (g, Err ValueError)
        else
          let '(l, g) := draws (Z.to_nat n) g in
          match basis_of a with
          | Err x => (g, Err x)
          | Ok b =>
              (g, Ok (Occupation b (map (fun x => if below x fill then occupied_value b
                                                  else vacant_value b) l)))
          end
    end.
End Random.
