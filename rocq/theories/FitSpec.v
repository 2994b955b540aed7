(** Vocabulary for the properties of fitting. *)
From Coq Require Import Reals.
From Verif Require Import Py FitModel.
Local Open Scope R_scope.

(** A table with one row of [n] numbers for each energy and each weight. *)
Record well_shaped (n : nat) (x : list (list R)) (y : list R) (w : option (list R)) : Prop := {
  rows_have_n_columns : Forall (fun row => length row = n) x;
  a_row_for_each_energy : length y = length x;
  a_weight_for_each_row : match w with Some w => length w = length x | None => True end;
}.

(** The weight of every row: the given one, or 1. *)
Definition weights (m : nat) (w : option (list R)) : list R :=
  match w with Some w => w | None => replicate m 1 end.

(** Weights are not negative, and not all zero. *)
Definition good_weights (w : list R) : Prop := Forall (fun v => 0 <= v) w /\ 0 < rsum w.

(** The value a linear model with coefficients [k] and constant [b] gives to a row. *)
Definition model_value (k : list R) (b : R) (row : list R) : R := rsum (zip_with Rmult row k) + b.

(** What Lasso makes small: half the weighted mean squared error, plus [alpha] times the absolute
    values of the coefficients, each with its own factor. *)
Definition weighted_error (x : list (list R)) (y w k : list R) (b : R) : R :=
  rsum (zip_with Rmult w (map Rsqr (zip_with Rminus y (map (model_value k b) x)))) / (2 * rsum w).
Definition penalty (factors k : list R) : R := rsum (zip_with (fun f c => f * Rabs c) factors k).
Definition objective (alpha : R) (factors : list R) (x : list (list R)) (y w k : list R) (b : R) : R :=
  weighted_error x y w k b + alpha * penalty factors k.

(** What is assumed of scikit-learn's solver: it accepts only tables with matching rows, returns
    one coefficient for each column, and no coefficients (and, if it fits one, no intercept) make
    the objective smaller by more than [eps]. *)
Record solver (eps : R)
    (lasso : R -> Z -> bool -> list (list R) -> list R -> option (list R) -> result (list R * R)) : Prop := {
  solver_shape : forall alpha mi fi x y w k b n, lasso alpha mi fi x y w = Ok (k, b) ->
    Forall (fun row => length row = n) x ->
    x <> [] /\ length y = length x /\ length k = n /\ (fi = false -> b = 0);
  solver_near : forall alpha mi fi x y w k b n, lasso alpha mi fi x y w = Ok (k, b) ->
    Forall (fun row => length row = n) x -> good_weights (weights (length x) w) ->
    forall k' b', length k' = n -> (fi = false -> b' = 0) ->
    objective alpha (replicate n 1) x y (weights (length x) w) k b
    <= objective alpha (replicate n 1) x y (weights (length x) w) k' b' + eps;
}.

(** Column [j] of a table, its weighted mean, and how far it spreads around it. *)
Definition column (j : nat) (x : list (list R)) : list R := omap (fun row => row !! j) x.
Definition average (w l : list R) : R := rsum (zip_with Rmult w l) / rsum w.
Definition spread (w l : list R) : R := R_sqrt.sqrt (rsum (map (fun v => Rsqr (v - average w l)) l)).
(** The factor of a coefficient: the spread of its column, or 1 for a constant column. *)
Definition factor (w l : list R) : R := if Req_EM_T (spread w l) 0 then 1 else spread w l.
Definition factors (n : nat) (w : list R) (x : list (list R)) : list R :=
  map (fun j => factor w (column j x)) (seq 0 n).

(** A data set without the point [i]. *)
Definition without {A} (i : nat) (l : list A) : list A := take i l ++ drop (S i) l.

(** Every column multiplied by a positive number and shifted. *)
Definition rescaled (a c : list R) (x : list (list R)) : list (list R) :=
  map (fun row => zip_with Rplus (zip_with Rmult a row) c) x.
