(** Model of the regression in kmcpy/models/fitting/fitter.py over the real numbers.
    scikit-learn's [Lasso] is a parameter. *)
From Coq Require Import Reals.
From Verif Require Import Py.
Local Open Scope R_scope.

(** [np.sum], [a @ b], [np.sum(rows, axis=0)] for rows of [n] numbers, and the number of columns. *)
Definition rsum (l : list R) : R := fold_right Rplus 0 l.
Definition dot (a b : list R) : R := rsum (zip_with Rmult a b).
Definition vsum (n : nat) (rows : list (list R)) : list R := fold_right (zip_with Rplus) (replicate n 0) rows.
Definition columns (x : list (list R)) : nat := match x with [] => 0%nat | row :: _ => length row end.

(** [np.mean(x, axis=0)], [np.mean(y)], and [np.average] with weights. *)
Definition column_means (x : list (list R)) : list R :=
  map (fun s => s / INR (length x)) (vsum (columns x) x).
Definition mean (y : list R) : R := rsum y / INR (length y).
Definition weighted_means (x : list (list R)) (w : list R) : list R :=
  map (fun s => s / rsum w) (vsum (columns x) (zip_with (fun a row => map (Rmult a) row) w x)).
Definition weighted_mean (y w : list R) : R := rsum (zip_with Rmult w y) / rsum w.

(** [x - offset] and [x / scale], row by row. *)
Definition center (offset row : list R) : list R := zip_with Rminus row offset.
Definition divide (scale row : list R) : list R := zip_with Rdiv row scale.

(** [x_scale] (lines 210-214): the length of each column, 1 for a column of zeros. *)
Definition column_scales (n : nat) (x : list (list R)) : list R :=
  map (fun s => if Req_EM_T (R_sqrt.sqrt s) 0 then 1 else R_sqrt.sqrt s) (vsum n (map (map Rsqr) x)).

(** [x @ keci + empty_cluster]. *)
Definition predict (x : list (list R)) (keci : list R) (empty : R) : list R :=
  map (fun row => dot row keci + empty) x.

(** [x[train_mask]] with one position left out (lines 247-248). *)
Definition masked {A} (i : nat) (l : list A) : list A :=
  map snd (List.filter (fun p => negb (Nat.eqb (fst p) i)) (zip (seq 0 (length l)) l)).

Section Fit.
  (** [Lasso(alpha, max_iter, fit_intercept).fit(x, y, sample_weight)]: the coefficients and the
      intercept, or the exception that scikit-learn raises. *)
  Variable lasso : R -> Z -> bool -> list (list R) -> list R -> option (list R) -> result (list R * R).

  (** The offsets of lines 198-205.  The mean of nothing is NaN, which scikit-learn refuses. *)
  Definition offsets (x : list (list R)) (y : list R) (weight : option (list R)) : result (list R * R) :=
    match weight with
    | None =>
        if Nat.eqb (length x) 0 || Nat.eqb (length y) 0 then Err ValueError
        else Ok (column_means x, mean y)
    | Some w =>
        if negb (Nat.eqb (length w) (length x)) then Err ValueError
        else if Req_EM_T (rsum w) 0 then Err ZeroDivisionError
        else if negb (Nat.eqb (length w) (length y)) then Err TypeError
        else Ok (weighted_means x w, weighted_mean y w)
    end.

  (** fitter.py:173-225, for a table [x] of numbers.  What [estimator.predict] returns is computed
      from the coefficients. *)
  Definition fit_lasso_values (x : list (list R)) (y : list R) (weight : option (list R))
      (alpha : R) (max_iter : Z) (normalize : bool) : result (list R * R * list R) :=
    if negb normalize then
      let* e := lasso alpha max_iter true x y weight in
      Ok (fst e, snd e, predict x (fst e) (snd e))
    else
      let* o := offsets x y weight in
      let (x_offset, y_offset) := (fst o, snd o) in
      let x_centered := map (center x_offset) x in
      let y_centered := map (fun v => v - y_offset) y in
      let x_scale := column_scales (columns x) x_centered in
      let* e := lasso alpha max_iter false (map (divide x_scale) x_centered) y_centered weight in
      let keci := zip_with Rdiv (fst e) x_scale in
      let empty := y_offset - dot x_offset keci in
      Ok (keci, empty, predict x keci empty).

  (** fitter.py:227-256. *)
  Definition squared_error (x : list (list R)) (y : list R) (alpha : R) (max_iter : Z) (normalize : bool)
      (i : nat) : result R :=
    if negb (Nat.eqb (length x) (length y)) then Err IndexError else
    let* f := fit_lasso_values (masked i x) (masked i y) None alpha max_iter normalize in
    match x !! i, y !! i with
    | Some row, Some v => Ok (Rsqr (v - (dot row (fst (fst f)) + snd (fst f))))
    | _, _ => Err IndexError
    end.
  Definition leave_one_out_rmse (x : list (list R)) (y : list R) (alpha : R) (max_iter : Z) (normalize : bool)
    : result R :=
    let* errors := rmapM (squared_error x y alpha max_iter normalize) (seq 0 (length y)) in
    if Nat.eqb (length errors) 0 then Err ValueError else Ok (R_sqrt.sqrt (mean errors)).

  (** [root_mean_squared_error(y_true, y_pred)] (line 344). *)
  Definition rmse (y y_pred : list R) : R := R_sqrt.sqrt (mean (map Rsqr (zip_with Rminus y y_pred))).
End Fit.
