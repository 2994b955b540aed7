(** Model of kmcpy/structure/basis.py: the two registered bases and the Occupation
    container. *)
From Coq Require Import Reals.
From Verif Require Import Py Json.
Local Open Scope nat_scope.

(** basis.py:142-202 and 205-312.  [ChebyshevBasis] carries [max_states], which its
    constructor requires to be at least 2 ([cheb_new]).  User-registered bases are not
    modelled. *)
Inductive basis :=
  | OccupationBasis
  | ChebyshevBasis (max_states : Z).
Global Instance basis_eq_dec : EqDecision basis.
Proof. solve_decision. Defined.

(** lines 215-219. *)
Definition cheb_new (max_states : Z) : result basis :=
  if (max_states <? 2)%Z then Err ValueError else Ok (ChebyshevBasis max_states).

(** lines 156-159, 161-164 / 226-229, 231-234. *)
Definition match_value (b : basis) : Z :=
  match b with OccupationBasis => 1 | ChebyshevBasis _ => 0 end%Z.
Definition mismatch_value (b : basis) : Z :=
  match b with OccupationBasis => 0 | ChebyshevBasis _ => 1 end%Z.

(** lines 166-175 / 236-244. *)
Definition vacant_value (b : basis) : Z :=
  match b with OccupationBasis => 0%Z | ChebyshevBasis _ => mismatch_value b end.
Definition occupied_value (b : basis) : Z :=
  match b with OccupationBasis => 1%Z | ChebyshevBasis _ => match_value b end.

(** lines 177-179 / 246-248. *)
Definition valid_value (b : basis) (v : Z) : bool :=
  match b with
  | OccupationBasis => (v =? 0) || (v =? 1)
  | ChebyshevBasis n => (0 <=? v) && (v <? n)
  end%Z.

(** lines 185-187 / 254-256. *)
Definition flip_value (b : basis) (v : Z) : Z :=
  match b with
  | OccupationBasis => (1 - v)%Z
  | ChebyshevBasis _ => if (v =? match_value b)%Z then mismatch_value b else match_value b
  end.

(** lines 118-123. *)
Definition convert_to (b : basis) (v : Z) (target : basis) : Z :=
  if (v =? mismatch_value b)%Z then mismatch_value target else match_value target.

(** lines 197-203: [OccupationBasis.to_chebyshev], [from_chebyshev]. *)
Definition to_chebyshev (v : Z) : Z := if (v =? 0)%Z then 1%Z else 0%Z.
Definition from_chebyshev (v : Z) : Z := if (v =? 0)%Z then 1%Z else 0%Z.
(** lines 266-282: [ChebyshevBasis.to_occupation], [from_occupation]. *)
Definition to_occupation (v : Z) : Z := if (v =? 0)%Z then 1%Z else 0%Z.
Definition from_occupation (v : Z) : Z := if (v =? 1)%Z then 0%Z else 1%Z.

(** lines 65-67 / 291-293. *)
Definition state_value (b : basis) (state_index : Z) : Z :=
  match b with
  | OccupationBasis => if (state_index =? 0)%Z then match_value b else mismatch_value b
  | ChebyshevBasis _ => state_index
  end.

(** lines 61-63 / 284-289. *)
Definition num_site_basis_functions (b : basis) (n_states : nat) : nat :=
  match b with
  | OccupationBasis => 1
  | ChebyshevBasis _ => if Nat.ltb n_states 2 then 1 else n_states - 1
  end.

(** numpy's [chebvander] recurrence, in exact arithmetic. *)
Fixpoint chebT (k : nat) (x : R) : R :=
  match k with
  | O => 1%R
  | S k' => match k' with
            | O => x
            | S k'' => (chebT k' x * (2 * x) - chebT k'' x)%R
            end
  end.

(** [np.linspace(-1, 1, n)[i]] for [n >= 2], in exact arithmetic. *)
Definition encoded (n i : nat) : R := (-1 + INR i * (2 / (INR n - 1)))%R.

(** lines 69-77 / 295-307: one row per state. *)
Definition site_basis_values (b : basis) (n_states : nat) : list (list R) :=
  match b with
  | OccupationBasis =>
      map (fun i => [IZR (state_value b (Z.of_nat i))]) (seq 0 n_states)
  | ChebyshevBasis _ =>
      if Nat.ltb n_states 2 then repeat [1%R] n_states
      else map (fun i => map (fun k => chebT k (encoded n_states i)) (seq 1 (n_states - 1)))
             (seq 0 n_states)
  end.

(** lines 30, 17 and 129-202: the registry names; [self.name] is the same text. *)
Definition basis_name (b : basis) : string :=
  match b with OccupationBasis => "occupation" | ChebyshevBasis _ => "chebyshev" end.
Definition class_name (b : basis) : string :=
  match b with OccupationBasis => "OccupationBasis" | ChebyshevBasis _ => "ChebyshevBasis" end.

(** lines 315-330 with keyword arguments: any keyword but [max_states] is a TypeError. *)
Definition basis_of_class (cheb : bool) (kwargs : list (string * json)) : result basis :=
  if cheb then
    match kwargs with
    | [] => cheb_new 2
    | [(k, j)] => if String.eqb k "max_states" then let* z := py_int j in cheb_new z
                  else Err TypeError
    | _ => Err TypeError
    end
  else match kwargs with [] => Ok OccupationBasis | _ => Err TypeError end.
Definition get_basis (name : string) (kwargs : list (string * json)) : result basis :=
  if String.eqb name "occupation" then basis_of_class false kwargs
  else if String.eqb name "chebyshev" then basis_of_class true kwargs
  else Err ValueError.

(** lines 79-85 and 309-312. *)
Definition basis_as_dict (b : basis) : list (string * json) :=
  [("@module", JStr "kmcpy.structure.basis"); ("@class", JStr (class_name b));
   ("name", JStr (basis_name b))]%string
  ++ match b with
     | OccupationBasis => []
     | ChebyshevBasis n => [("max_states"%string, JInt n)]
     end.

(** [s.startswith("@")]. *)
Definition starts_with_at (s : string) : bool :=
  match s with String a _ => Nat.eqb (Ascii.nat_of_ascii a) 64 | EmptyString => false end.

(** lines 87-112, called on [BasisFunction]. *)
Definition basis_from_dict (data : list (string * json)) : result basis :=
  let kwargs := List.filter (fun kv => negb (starts_with_at (fst kv))
                                       && negb (String.eqb (fst kv) "name")) data in
  let by_name :=
    match dget data "name"%string with
    | Some (JStr s) =>
        if String.eqb s "occupation" then basis_of_class false kwargs
        else if String.eqb s "chebyshev" then basis_of_class true kwargs
        else Err ValueError
    | Some (JList _) | Some (JObj _) => Err TypeError
    | _ => Err ValueError
    end in
  match dget data "@class"%string with
  | Some (JStr s) =>
      if String.eqb s "OccupationBasis" then basis_of_class false kwargs
      else if String.eqb s "ChebyshevBasis" then basis_of_class true kwargs
      else by_name
  | _ => by_name
  end.

(** lines 333-382: the container.  The data are integers (floats given by the caller
    are truncated by numpy before they get here). *)
Record occupation := Occupation { oc_basis : basis; oc_data : list Z }.
Definition validate (o : occupation) : result unit :=
  if forallb (valid_value (oc_basis o)) (oc_data o) then Ok tt else Err ValueError.
Definition occupation_new (data : list Z) (b : basis) (check : bool) : result occupation :=
  let o := Occupation b data in
  if check then let* _ := validate o in Ok o else Ok o.

(** lines 408-417, a single index. *)
Definition getitem (o : occupation) (i : Z) : result Z := py_get (oc_data o) i.

(** lines 419-423, a single index: the outcome of the call and the object after it. *)
Definition setitem (o : occupation) (i v : Z) : result unit * occupation :=
  match py_set (oc_data o) i v with
  | Err e => (Err e, o)
  | Ok d => let o' := Occupation (oc_basis o) d in (validate o', o')
  end.

(** lines 429-433. *)
Definition occupation_eq (a b : occupation) : bool :=
  String.eqb (basis_name (oc_basis a)) (basis_name (oc_basis b))
  && bool_decide (oc_data a = oc_data b).

(** lines 547-571: to a basis given as an object; a name stands for [get_basis(name)]. *)
Definition same_class (a b : basis) : bool := String.eqb (class_name a) (class_name b).
Definition to_basis (o : occupation) (target : basis) : occupation :=
  if same_class target (oc_basis o) then Occupation target (oc_data o)
  else Occupation target (map (fun v => convert_to (oc_basis o) v target) (oc_data o)).
Definition to_basis_named (o : occupation) (name : string) : result occupation :=
  let* b := get_basis name [] in Ok (to_basis o b).

(** lines 439-459. *)
Definition equivalent_to (a b : occupation) : bool :=
  bool_decide (oc_data (to_basis a OccupationBasis) = oc_data (to_basis b OccupationBasis)).

(** lines 486-517. *)
Definition count_value (v : Z) (l : list Z) : nat :=
  length (List.filter (fun x => (x =? v)%Z) l).
Definition indices_of (v : Z) (l : list Z) : list nat :=
  map fst (List.filter (fun e => (snd e =? v)%Z) (enumerate l)).
Definition count_mismatch (o : occupation) : nat := count_value (mismatch_value (oc_basis o)) (oc_data o).
Definition count_match (o : occupation) : nat := count_value (match_value (oc_basis o)) (oc_data o).
Definition count_occupied (o : occupation) : nat := count_value (occupied_value (oc_basis o)) (oc_data o).
Definition count_vacant (o : occupation) : nat := count_value (vacant_value (oc_basis o)) (oc_data o).
Definition get_match_indices (o : occupation) : list nat := indices_of (match_value (oc_basis o)) (oc_data o).
Definition get_mismatch_indices (o : occupation) : list nat := indices_of (mismatch_value (oc_basis o)) (oc_data o).
Definition get_occupied_indices (o : occupation) : list nat := indices_of (occupied_value (oc_basis o)) (oc_data o).
Definition get_vacant_indices (o : occupation) : list nat := indices_of (vacant_value (oc_basis o)) (oc_data o).

(** lines 519-535 (an int argument is the list of that int). *)
Definition flip_one (b : basis) (d : list Z) (i : Z) : result (list Z) :=
  let* v := py_get d i in py_set d i (flip_value b v).
Definition flip (o : occupation) (indices : list Z) : result occupation :=
  let* d := rfold (flip_one (oc_basis o)) (oc_data o) indices in
  Ok (Occupation (oc_basis o) d).

(** lines 577-616. *)
Definition zeros (n : nat) (b : basis) : occupation := Occupation b (repeat (vacant_value b) n).
Definition ones (n : nat) (b : basis) : occupation := Occupation b (repeat (occupied_value b) n).
