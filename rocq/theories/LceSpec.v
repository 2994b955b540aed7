(** Vocabulary for the statements about cluster expansions. *)
From Coq Require Import Reals.
From Verif Require Import Py EventModel LceModel.

(** [orbits] is grouped by the representatives [reps]: the i-th orbit holds, in the
    given order, exactly the clusters whose first equal representative is the i-th. *)
Fixpoint first_match {C} (eqb : C -> C -> bool) (reps : list C) (c : C) : option nat :=
  match reps with
  | [] => None
  | r :: rest => if eqb r c then Some O else option_map S (first_match eqb rest c)
  end.

(** Real sums and products of lists. *)
Definition Rsum (l : list R) : R := fold_right Rplus 0%R l.
Definition Rprod (l : list R) : R := fold_right Rmult 1%R l.

(** A table indexed by orbit, cluster and position in the cluster. *)
Definition entry {A} (t : list (list (list A))) (o c p : nat) : option A :=
  match t !! o with
  | Some orbit => match orbit !! c with Some cluster => cluster !! p | None => None end
  | None => None
  end.
Definition same_shape {A B} (a : list (list (list A))) (b : list (list (list B))) : Prop :=
  Forall2 (Forall2 (fun x y => length x = length y)) a b.

(** The factor a site contributes: for plain models its state code; for decorated
    models the value of the site's basis function (named by the decoration table) at
    the state code. *)
Definition is_factor (m : lce R) (env : list Z) (o c p : nat) (site : Z) (x : R) : Prop :=
  exists state, py_get env site = Ok state /\
  match l_decorations m with
  | None => x = IZR state
  | Some (basis, values) =>
      exists b row column, entry basis o c p = Some b /\
        py_get values site = Ok row /\ py_get row state = Ok column /\
        py_get column b = Ok x
  end.

(** [table] holds the factors of every site of every cluster of every orbit. *)
Definition factors (m : lce R) (env : list Z) (table : list (list (list R))) : Prop :=
  same_shape (l_sites m) table /\
  forall o c p site, entry (l_sites m) o c p = Some site ->
    exists x, entry table o c p = Some x /\ is_factor m env o c p site x.

(** Sum over orbits of coefficient times the sum over clusters of the product of the
    factors. *)
Definition expansion (keci : list R) (table : list (list (list R))) : R :=
  Rsum (zip_with (fun k orbit => k * Rsum (map Rprod orbit))%R keci table).

(** Parameters that fit the model. *)
Definition fitting {T} (m : lce T) (keci : list T) (fingerprints : option (list string))
    (hash : option string) : Prop :=
  (l_features m <> [] -> length keci = length (l_features m)) /\
  (forall l, fingerprints = Some l -> l = l_features m) /\
  (forall h h', hash = Some h -> l_env_hash m = Some h' -> h' <> ""%string -> h = h').

(** What a parameter payload provides. *)
Definition provides {T} (p : parameters T) (keci : list T) (empty : T)
    (fingerprints : option (list string)) (hash : option string) : Prop :=
  p = ParamObject keci empty fingerprints hash \/
  p = ParamDict (Some keci) (Some empty) fingerprints hash.
