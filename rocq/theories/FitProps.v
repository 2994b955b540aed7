(** C81: what a fit returns. *)
From Coq Require Import Reals Lra.
From Verif Require Import Py PyLemmas FitModel FitSpec FitProofs.
Local Open Scope R_scope.

(** The fitted coefficients and constant belong to the features as given, not to the normalised
    ones: as linear models of the given features they are as good as the solver is, for the penalty
    in which each coefficient counts with the spread of its feature (with [normalize]) or with 1. *)
Theorem fitted_model_is_best eps lasso n x y w alpha mi nm k b p :
  solver eps lasso -> well_shaped n x y w -> good_weights (weights (length x) w) ->
  fit_lasso_values lasso x y w alpha mi nm = Ok (k, b, p) ->
  let counts := if nm : bool then factors n (weights (length x) w) x else replicate n 1 in
  length k = n /\
  forall k' b', length k' = n ->
    objective alpha counts x y (weights (length x) w) k b
    <= objective alpha counts x y (weights (length x) w) k' b' + eps.
Proof.
  intros HS H1 H2 H3. destruct nm.
  - by destruct (normalised_fit_optimal eps lasso HS n x y w alpha mi k b p H1 H2 H3) as (? & _ & ?).
  - by destruct (plain_fit_optimal eps lasso HS n x y w alpha mi k b p H1 H2 H3) as (? & _ & ?).
Qed.
Example fitted_model_example mi : solver 0 one_column_lasso
  /\ well_shaped 1 [[0]; [1]] [0 + 1; 1 + 1] None /\ good_weights (weights 2 None)
  /\ exists p, fit_lasso_values one_column_lasso [[0]; [1]] [0 + 1; 1 + 1] None 0 mi true = Ok ([1], 1, p).
Proof.
  split; [exact one_column_solver|]. split; [by split; [repeat constructor| |]|].
  split; [split; [repeat constructor; lra|unfold rsum; simpl; lra]|]. apply two_points. lra.
Qed.
Print Assumptions fitted_model_is_best.

(** The predictions returned beside them are those of that linear model. *)
Theorem predictions_come_from_the_model lasso x y w alpha mi nm k b p :
  fit_lasso_values lasso x y w alpha mi nm = Ok (k, b, p) -> p = map (model_value k b) x.
Proof. exact (predictions_ok lasso x y w alpha mi nm k b p). Qed.
Print Assumptions predictions_come_from_the_model.

(** With [normalize], a feature that has one value in all of the data gets no coefficient. *)
Theorem constant_feature_gets_nothing eps lasso n x y w alpha mi k b p j v c :
  solver eps lasso -> well_shaped n x y w -> good_weights (weights (length x) w) ->
  fit_lasso_values lasso x y w alpha mi true = Ok (k, b, p) ->
  Forall (fun row => row !! j = Some v) x -> k !! j = Some c ->
  alpha * Rabs c <= eps.
Proof. intros HS. exact (constant_column eps lasso HS n x y w alpha mi k b p j v c). Qed.
Example constant_feature_example mi : exists k b p,
  fit_lasso_values one_column_lasso [[3]; [3]] [1; 2] None (1/2) mi true = Ok ([k], b, p) /\ k = 0.
Proof. exact (constant_feature_case mi). Qed.
Print Assumptions constant_feature_gets_nothing.

(** With [normalize], adding a constant to all energies adds it to the constant term and to the
    predictions, and changes neither the coefficients nor the leave-one-out score. *)
Theorem zero_of_energy_does_not_matter lasso n x y w alpha mi c k b p :
  well_shaped n x y w ->
  fit_lasso_values lasso x y w alpha mi true = Ok (k, b, p) ->
  fit_lasso_values lasso x (map (fun v => v + c) y) w alpha mi true = Ok (k, b + c, map (fun v => v + c) p).
Proof. exact (energy_zero lasso n x y w alpha mi c k b p). Qed.
Theorem zero_of_energy_keeps_the_score lasso n x y alpha mi c r :
  well_shaped n x y None ->
  leave_one_out_rmse lasso x y alpha mi true = Ok r ->
  leave_one_out_rmse lasso x (map (fun v => v + c) y) alpha mi true = Ok r.
Proof. exact (score_energy_zero lasso n x y alpha mi c r). Qed.
Example zero_of_energy_example mi :
  well_shaped 1 [[0]; [1]; [2]] [0 + 1; 1 + 1; 2 + 1] None
  /\ leave_one_out_rmse one_column_lasso [[0]; [1]; [2]] [0 + 1; 1 + 1; 2 + 1] 0 mi true = Ok 0.
Proof. split; [by split; [repeat constructor| |]|]. apply three_points_score. Qed.
Print Assumptions zero_of_energy_does_not_matter.
Print Assumptions zero_of_energy_keeps_the_score.

(** With [normalize], multiplying the features by positive numbers and shifting them leaves the
    predictions as they are, and divides the coefficients of the features that vary. *)
Theorem units_of_features_do_not_matter eps lasso n x y w alpha mi k b p a c :
  solver eps lasso -> well_shaped n x y w -> length a = n -> length c = n -> Forall (fun v => 0 < v) a ->
  fit_lasso_values lasso x y w alpha mi true = Ok (k, b, p) ->
  exists k' b', fit_lasso_values lasso (rescaled a c x) y w alpha mi true = Ok (k', b', p)
    /\ forall j aj q, a !! j = Some aj -> k !! j = Some q ->
         spread (weights (length x) w) (column j x) <> 0 -> k' !! j = Some (q / aj).
Proof. intros HS. exact (units_do_not_matter eps lasso HS n x y w alpha mi k b p a c). Qed.
Example units_example mi : exists k b p,
  fit_lasso_values one_column_lasso [[0]; [1]] [0 + 1; 1 + 1] None 0 mi true = Ok ([k], b, p) /\ k <> 0
  /\ spread (weights 2 None) (column 0 [[0]; [1]]) <> 0.
Proof. exact (units_case mi). Qed.
Print Assumptions units_of_features_do_not_matter.

(** Without [normalize] they matter. *)
Theorem units_matter_without_normalizing_refuted : exists lasso x y alpha mi k b p k' b' p',
  solver 0 lasso /\ fit_lasso_values lasso x y None alpha mi false = Ok (k, b, p)
  /\ fit_lasso_values lasso (rescaled [2] [0] x) y None alpha mi false = Ok (k', b', p') /\ p <> p'.
Proof.
  destruct (plain_units 0) as (k & b & p & k' & b' & p' & H). exists one_column_lasso, [[-1]; [1]], [-1; 1], (1/2), 0%Z, k, b, p, k', b', p'.
  split; [exact one_column_solver|exact H].
Qed.
Print Assumptions units_matter_without_normalizing_refuted.

(** The leave-one-out score is the root of the mean of the squared errors, and the error of a point
    is that of a fit to all the other points.  None of these fits uses weights. *)
Theorem leave_one_out_score lasso x y alpha mi nm r :
  leave_one_out_rmse lasso x y alpha mi nm = Ok r ->
  exists errors, length errors = length y /\ r = R_sqrt.sqrt (rsum errors / INR (length y)) /\
    forall i row v, x !! i = Some row -> y !! i = Some v ->
      exists k b p, fit_lasso_values lasso (without i x) (without i y) None alpha mi nm = Ok (k, b, p)
        /\ errors !! i = Some (Rsqr (v - model_value k b row)).
Proof. exact (leave_one_out lasso x y alpha mi nm r). Qed.
Example leave_one_out_example mi :
  leave_one_out_rmse one_column_lasso [[0]; [1]; [2]] [0 + 1; 1 + 1; 2 + 1] 0 mi true = Ok 0
  /\ without 1 [[0]; [1]; [2]] = [[0]; [2]].
Proof. split; [apply three_points_score|done]. Qed.
Print Assumptions leave_one_out_score.

(** The error reported for the fitted data is the root of the mean of the squared differences: it
    is never negative, its square times the number of data is their sum, and it is zero exactly
    when every prediction is the value. *)
Theorem training_error y p : length p = length y -> y <> [] ->
  0 <= rmse y p /\
  INR (length y) * (rmse y p * rmse y p) = rsum (zip_with (fun a b => (a - b) * (a - b)) y p) /\
  (rmse y p = 0 <-> p = y).
Proof. exact (training_error_lemma y p). Qed.
Example training_error_example : 4 * (rmse [1; 2; 3; 4] [1; 2; 3; 6] * rmse [1; 2; 3; 4] [1; 2; 3; 6]) = 4.
Proof.
  destruct (training_error [1; 2; 3; 4] [1; 2; 3; 6] eq_refl ltac:(done)) as (_ & H & _).
  generalize dependent (rmse [1; 2; 3; 4] [1; 2; 3; 6]). intros e H.
  cbn [length zip_with] in H. rewrite !rsum_cons in H. change (rsum []) with 0 in H.
  rewrite !S_INR in H. change (INR 0) with 0 in H. lra.
Qed.
Print Assumptions training_error.
