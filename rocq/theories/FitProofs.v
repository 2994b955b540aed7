(** Proofs about fitting. *)
From Coq Require Import Reals Lra.
From Verif Require Import Py PyLemmas FitModel FitSpec.
Local Open Scope R_scope.

Lemma rsum_cons a l : rsum (a :: l) = a + rsum l.
Proof. done. Qed.
Lemma dot_cons a l b k : dot (a :: l) (b :: k) = a * b + dot l k.
Proof. done. Qed.
Lemma dot_nil_l k : dot [] k = 0.
Proof. done. Qed.
Lemma rsum_replicate n a : rsum (replicate n a) = INR n * a.
Proof.
  induction n as [|n IH]; [simpl; lra|]. cbn [replicate]. rewrite rsum_cons, IH, S_INR. lra.
Qed.

Lemma dot_plus n a b k : length a = n -> length b = n -> length k = n ->
  dot (zip_with Rplus a b) k = dot a k + dot b k.
Proof.
  revert a b k. induction n as [|n IH]; intros [|x a] [|y b] [|z k] Ha Hb Hk; try done; [unfold dot; simpl; lra|].
  cbn [zip_with]. rewrite !dot_cons. rewrite (IH a b k) by (by simplify_eq/=). lra.
Qed.
Lemma dot_minus n a b k : length a = n -> length b = n -> length k = n ->
  dot (zip_with Rminus a b) k = dot a k - dot b k.
Proof.
  revert a b k. induction n as [|n IH]; intros [|x a] [|y b] [|z k] Ha Hb Hk; try done; [unfold dot; simpl; lra|].
  cbn [zip_with]. rewrite !dot_cons. rewrite (IH a b k) by (by simplify_eq/=). lra.
Qed.
Lemma dot_zero n k : dot (replicate n 0) k = 0.
Proof.
  revert k. induction n as [|n IH]; intros [|z k]; try done. cbn [replicate]. rewrite dot_cons, IH. lra.
Qed.
Lemma dot_scale c a k : dot (map (Rmult c) a) k = c * dot a k.
Proof.
  revert k. induction a as [|x a IH]; intros [|z k]; try (unfold dot; simpl; lra). cbn [map]. rewrite !dot_cons, IH. lra.
Qed.
Lemma dot_map_div c a k : dot (map (fun s => s / c) a) k = dot a k / c.
Proof.
  revert k. induction a as [|x a IH]; intros [|z k]; try (unfold dot, Rdiv; simpl; lra). cbn [map]. rewrite !dot_cons, IH. unfold Rdiv. lra.
Qed.
Lemma dot_divide n s a k : length s = n -> length a = n -> length k = n -> dot (divide s a) k = dot a (zip_with Rdiv k s).
Proof.
  unfold divide. revert s a k. induction n as [|n IH]; intros [|x s] [|y a] [|z k] Hs Ha Hk; try done.
  cbn [zip_with]. rewrite !dot_cons. rewrite (IH s a k) by (by simplify_eq/=). unfold Rdiv. lra.
Qed.
Lemma vsum_length n rows : Forall (fun r => length r = n) rows -> length (vsum n rows) = n.
Proof.
  unfold vsum. induction 1 as [|r rows H _ IH]; simpl; [apply replicate_length|]. rewrite zip_with_length. lia.
Qed.
Lemma dot_vsum n rows k : Forall (fun r => length r = n) rows -> length k = n ->
  dot (vsum n rows) k = rsum (map (fun r => dot r k) rows).
Proof.
  intros H Hk. induction H as [|r rows Hr Hrs IH]; [unfold vsum; simpl; apply dot_zero|].
  cbn [map]. rewrite rsum_cons, <-IH. unfold vsum. cbn [fold_right]. apply (dot_plus n); [done|by apply vsum_length|done].
Qed.

(** ** Weighted means *)
Lemma weighted_rows n w x : Forall (fun r : list R => length r = n) x ->
  Forall (fun r => length r = n) (zip_with (fun a row => map (Rmult a) row) w x).
Proof.
  intros H. revert w. induction H as [|r x Hr _ IH]; intros [|a w]; simpl; try constructor; [by rewrite map_length|apply IH].
Qed.
Lemma columns_n n x : Forall (fun r : list R => length r = n) x -> x <> [] -> columns x = n.
Proof. by intros [|r l Hr _]. Qed.
Lemma weighted_means_length n x w : Forall (fun r => length r = n) x -> x <> [] -> length (weighted_means x w) = n.
Proof.
  intros H Hn. unfold weighted_means. rewrite map_length, (columns_n n) by done. by apply vsum_length, weighted_rows.
Qed.
Lemma dot_weighted_means n x w k : Forall (fun r => length r = n) x -> x <> [] -> length k = n ->
  dot (weighted_means x w) k = average w (map (fun row => dot row k) x).
Proof.
  intros H Hn Hk. unfold weighted_means. rewrite (columns_n n) by done. rewrite dot_map_div, (dot_vsum n); [|by apply weighted_rows|done].
  unfold average. f_equal. clear H Hn Hk. revert w. induction x as [|r x IH]; intros [|a w]; try done.
  cbn [zip_with map]. rewrite !rsum_cons, IH, dot_scale. done.
Qed.
Lemma ones_rows (x : list (list R)) : zip_with (fun a row => map (Rmult a) row) (replicate (length x) 1) x = x.
Proof.
  induction x as [|r x IH]; [done|]. cbn. rewrite IH. f_equal. rewrite <-(map_id r) at 2. apply map_ext. intros. lra.
Qed.
Lemma column_means_ones x : column_means x = weighted_means x (replicate (length x) 1).
Proof. unfold column_means, weighted_means. by rewrite ones_rows, rsum_replicate, Rmult_1_r. Qed.
Lemma ones_sum (y : list R) : zip_with Rmult (replicate (length y) 1) y = y.
Proof. induction y as [|v y IH]; [done|]. cbn. rewrite IH. f_equal. lra. Qed.
Lemma mean_ones y : mean y = weighted_mean y (replicate (length y) 1).
Proof. unfold mean, weighted_mean. by rewrite ones_sum, rsum_replicate, Rmult_1_r. Qed.

(** What [offsets] gives, with or without weights. *)
Lemma offsets_ok x y w xb yb : length y = length x -> offsets x y w = Ok (xb, yb) ->
  x <> [] /\ length (weights (length x) w) = length x /\ rsum (weights (length x) w) <> 0
  /\ xb = weighted_means x (weights (length x) w) /\ yb = average (weights (length x) w) y.
Proof.
  intros Hy. destruct w as [w|]; simpl.
  - destruct (Nat.eqb_spec (length w) (length x)) as [L|L]; [|done]. cbn [negb].
    destruct (Req_EM_T (rsum w) 0) as [|Hw]; [done|]. rewrite L, Hy, Nat.eqb_refl. cbn [negb].
    intros [= <- <-]. split_and!; try done. intros ->. destruct w; [|done]. simpl in Hw. lra.
  - destruct (Nat.eqb_spec (length x) 0) as [L|L]; [done|]. rewrite Hy. destruct (Nat.eqb_spec (length x) 0); [done|]. cbn [orb].
    intros [= <- <-]. split_and!.
    + by intros ->.
    + apply replicate_length.
    + rewrite rsum_replicate, Rmult_1_r. by apply not_0_INR.
    + apply column_means_ones.
    + rewrite mean_ones, Hy. done.
Qed.

(** ** The error as a function of the constant *)
Lemma error_parts w z b : length w = length z ->
  rsum (zip_with Rmult w (map (fun v => Rsqr (v - b)) z))
  = rsum (zip_with Rmult w (map Rsqr z)) - 2 * b * rsum (zip_with Rmult w z) + b * b * rsum w.
Proof.
  revert z. induction w as [|a w IH]; intros [|v z] H; try done; [simpl; lra|].
  cbn [map zip_with]. rewrite !rsum_cons, (IH z) by (by simplify_eq/=). unfold Rsqr. lra.
Qed.
Lemma best_constant w z b : length w = length z -> rsum w <> 0 ->
  rsum (zip_with Rmult w (map (fun v => Rsqr (v - b)) z))
  = rsum (zip_with Rmult w (map (fun v => Rsqr (v - average w z)) z)) + rsum w * Rsqr (b - average w z).
Proof.
  intros H Hw. rewrite !error_parts by done. unfold average. set (s := rsum (zip_with Rmult w z)). set (W := rsum w) in *.
  unfold Rsqr. field. done.
Qed.
Lemma average_minus w a b : length w = length a -> length a = length b -> rsum w <> 0 ->
  average w (zip_with Rminus a b) = average w a - average w b.
Proof.
  intros H1 H2 Hw. unfold average.
  assert (rsum (zip_with Rmult w (zip_with Rminus a b)) = rsum (zip_with Rmult w a) - rsum (zip_with Rmult w b)) as ->.
  { clear Hw. revert a b H1 H2. induction w as [|c w IH]; intros [|u a] [|v b] H1 H2; try done; [simpl; lra|].
    cbn [zip_with]. rewrite !rsum_cons, IH by (by simplify_eq/=). lra. }
  unfold Rdiv. lra.
Qed.
Lemma average_shift w a c : length w = length a -> rsum w <> 0 -> average w (map (fun v => v + c) a) = average w a + c.
Proof.
  intros H Hw. unfold average.
  assert (rsum (zip_with Rmult w (map (fun v => v + c) a)) = rsum (zip_with Rmult w a) + c * rsum w) as ->.
  { clear Hw. revert a H. induction w as [|b w IH]; intros [|v a] H; try done; [simpl; lra|].
    cbn [zip_with map]. rewrite !rsum_cons, IH by (by simplify_eq/=). lra. }
  field. done.
Qed.

(** Residuals of a model without its constant. *)
Definition residuals (x : list (list R)) (y k : list R) : list R := zip_with Rminus y (map (fun row => dot row k) x).
Lemma residual_length x y k : length y = length x -> length (residuals x y k) = length x.
Proof. intros H. unfold residuals. rewrite zip_with_length, map_length. lia. Qed.
Lemma weighted_error_residuals x y w k b :
  weighted_error x y w k b = rsum (zip_with Rmult w (map (fun v => Rsqr (v - b)) (residuals x y k))) / (2 * rsum w).
Proof.
  unfold weighted_error. f_equal. f_equal. f_equal. unfold residuals. revert y.
  induction x as [|r x IH]; intros [|v y]; try done. cbn [map zip_with]. rewrite IH. f_equal. unfold Rsqr, model_value, dot. lra.
Qed.

(** The centred and scaled problem has the errors of the original one at its best constant. *)
Lemma centred_residuals n x y w s k : Forall (fun r => length r = n) x -> x <> [] -> length y = length x ->
  length w = length x -> rsum w <> 0 -> length s = n -> length k = n ->
  residuals (map (divide s) (map (center (weighted_means x w)) x)) (map (fun v => v - average w y) y) k
  = map (fun v => v - average w (residuals x y (zip_with Rdiv k s))) (residuals x y (zip_with Rdiv k s)).
Proof.
  intros H Hne Hy Hw HW Hs Hk. set (kk := zip_with Rdiv k s).
  assert (Hkk : length kk = n) by (unfold kk; rewrite zip_with_length; lia).
  assert (Ea : average w (residuals x y kk) = average w y - dot (weighted_means x w) kk).
  { rewrite (dot_weighted_means n) by done. unfold residuals. rewrite average_minus; try done; [lia|]. rewrite map_length. lia. }
  rewrite Ea. assert (Hm : length (weighted_means x w) = n) by (by apply weighted_means_length).
  generalize (average w y) as yb. generalize dependent (weighted_means x w). intros xb _ Hm yb.
  clear Hw HW Hne. unfold residuals. revert y Hy. induction H as [|r x Hr Hx IH]; intros [|v y] Hy; try done.
  cbn [map zip_with]. rewrite IH by (by simplify_eq/=). f_equal.
  rewrite (dot_divide n); try done; [|unfold center; rewrite zip_with_length; lia]. fold kk. unfold center. rewrite (dot_minus n) by done. lra.
Qed.
Lemma average_zero_constant w z : length w = length z -> rsum w <> 0 ->
  rsum (zip_with Rmult w (map (fun v => Rsqr (v - 0)) z)) = rsum (zip_with Rmult w (map Rsqr z)).
Proof. intros H Hw. f_equal. f_equal. apply map_ext. intros v. by rewrite Rminus_0_r. Qed.

(** ** Scales *)
Arguments column : simpl never.
Arguments rsum : simpl never.
Arguments divide : simpl never.
Arguments center : simpl never.
Lemma column_cons j r x : column j (r :: x) = match r !! j with Some v => v :: column j x | None => column j x end.
Proof. unfold column. simpl. by destruct (r !! j). Qed.
Lemma vsum_columns n rows : Forall (fun r => length r = n) rows -> vsum n rows = map (fun j => rsum (column j rows)) (seq 0 n).
Proof.
  intros H. induction H as [|r rows Hr Hrs IH].
  - unfold vsum. simpl. apply list_eq. intros j. rewrite list_lookup_fmap. destruct (decide (j < n)%nat) as [L|L].
    + rewrite lookup_replicate_2 by done. rewrite lookup_seq_lt by done. done.
    + rewrite lookup_seq_ge by lia. by rewrite lookup_ge_None_2 by (rewrite replicate_length; lia).
  - change (vsum n (r :: rows)) with (zip_with Rplus r (vsum n rows)). rewrite IH. apply list_eq. intros j.
    rewrite lookup_zip_with, !list_lookup_fmap. destruct (decide (j < n)%nat) as [L|L].
    + destruct (lookup_lt_is_Some_2 r j) as [v Hv]; [lia|]. rewrite lookup_seq_lt by done. cbn. rewrite column_cons, Hv. done.
    + rewrite lookup_seq_ge by lia. rewrite lookup_ge_None_2 by lia. done.
Qed.
Lemma column_weighted j n w x : Forall (fun r => length r = n) x -> (j < n)%nat ->
  column j (zip_with (fun a row => map (Rmult a) row) w x) = zip_with Rmult w (column j x).
Proof.
  intros H Hj. revert w. induction H as [|r x Hr Hx IH]; intros [|a w]; [done|done|done|].
  - cbn [zip_with]. rewrite !column_cons. destruct (lookup_lt_is_Some_2 r j) as [v Hv]; [lia|].
    rewrite list_lookup_fmap, Hv. cbn. by rewrite IH.
Qed.
Lemma weighted_means_columns n x w : Forall (fun r => length r = n) x -> x <> [] ->
  weighted_means x w = map (fun j => average w (column j x)) (seq 0 n).
Proof.
  intros H Hne. unfold weighted_means. rewrite (columns_n n) by done. rewrite vsum_columns by (by apply weighted_rows).
  rewrite map_map. apply list_eq. intros j. rewrite !list_lookup_fmap. destruct (decide (j < n)%nat) as [L|L].
  - rewrite lookup_seq_lt by done. simpl. f_equal. unfold average. by rewrite (column_weighted _ n).
  - by rewrite lookup_seq_ge by lia.
Qed.
Lemma column_center j n x xb m : Forall (fun r => length r = n) x -> length xb = n -> xb !! j = Some m ->
  column j (map (center xb) x) = map (fun v => v - m) (column j x).
Proof.
  intros H Hxb Hm. induction H as [|r x Hr Hx IH]; [done|]. cbn [map]. rewrite !column_cons.
  assert (j < n)%nat by (rewrite <-Hxb; by eapply lookup_lt_Some). destruct (lookup_lt_is_Some_2 r j) as [v Hv]; [lia|].
  unfold center. rewrite lookup_zip_with, Hv, Hm. cbn. by rewrite <-IH.
Qed.
Lemma center_rows n x xb : Forall (fun r => length r = n) x -> length xb = n -> Forall (fun r => length r = n) (map (center xb) x).
Proof.
  intros H Hxb. apply Forall_fmap. eapply Forall_impl; [exact H|]. intros r Hr. cbv beta in Hr. unfold center, compose. simpl. rewrite zip_with_length. cbv beta in *. rewrite Hr, Hxb. apply Nat.min_id.
Qed.
Lemma column_sqr j x : column j (map (map Rsqr) x) = map Rsqr (column j x).
Proof.
  induction x as [|r x IH]; [done|]. cbn [map]. rewrite !column_cons, list_lookup_fmap. destruct (r !! j); cbn; by rewrite IH.
Qed.
Lemma column_scales_factors n x w : Forall (fun r => length r = n) x -> x <> [] ->
  column_scales n (map (center (weighted_means x w)) x) = factors n w x.
Proof.
  intros H Hne. assert (Hm := weighted_means_length n x w H Hne).
  unfold column_scales, factors. rewrite vsum_columns.
  2:{ apply Forall_fmap. eapply Forall_impl; [by apply (center_rows n)|]. intros r Hr. cbv beta in Hr. unfold compose. simpl. by rewrite map_length. }
  rewrite map_map. apply list_eq. intros j. rewrite !list_lookup_fmap. destruct (decide (j < n)%nat) as [L|L]; [|by rewrite lookup_seq_ge by lia].
  rewrite lookup_seq_lt by done. cbn.
  assert (Ej : weighted_means x w !! j = Some (average w (column j x))).
  { rewrite (weighted_means_columns n) by done. rewrite list_lookup_fmap, lookup_seq_lt by done. done. }
  rewrite column_sqr, (column_center j n x _ _ H Hm Ej), map_map. unfold factor, spread. done.
Qed.
Lemma factor_pos w l : 0 < factor w l.
Proof.
  unfold factor. destruct (Req_EM_T (spread w l) 0) as [|N]; [lra|]. unfold spread in *. pose proof (sqrt_pos (rsum (map (fun v => Rsqr (v - average w l)) l))). lra.
Qed.
Lemma factors_pos n w x : Forall (fun f => 0 < f) (factors n w x).
Proof. unfold factors. apply Forall_fmap, Forall_true. intros j. apply factor_pos. Qed.
Lemma factors_length n w x : length (factors n w x) = n.
Proof. unfold factors. by rewrite map_length, seq_length. Qed.

Lemma penalty_scale s k : Forall (fun f => 0 < f) s -> length k = length s ->
  penalty (replicate (length s) 1) (zip_with Rmult s k) = penalty s k.
Proof.
  intros H. revert k. induction H as [|f s Hf Hs IH]; intros [|c k] E; try done. unfold penalty in *. cbn [length replicate zip_with]. rewrite !rsum_cons.
  rewrite IH by (by simplify_eq/=). rewrite Rabs_mult, (Rabs_right f) by lra. lra.
Qed.
Lemma scale_back s k : Forall (fun f => 0 < f) s -> length k = length s -> zip_with Rdiv (zip_with Rmult s k) s = k.
Proof.
  intros H. revert k. induction H as [|f s Hf Hs IH]; intros [|c k] E; try done. cbn. rewrite IH by (by simplify_eq/=). f_equal. field. lra.
Qed.
Lemma scale_forth s k : Forall (fun f => 0 < f) s -> length k = length s -> zip_with Rmult s (zip_with Rdiv k s) = k.
Proof.
  intros H. revert k. induction H as [|f s Hf Hs IH]; intros [|c k] E; try done. cbn. rewrite IH by (by simplify_eq/=). f_equal. field. lra.
Qed.

Section Solver.
  Variable eps : R.
  Variable lasso : R -> Z -> bool -> list (list R) -> list R -> option (list R) -> result (list R * R).
  Hypothesis S : solver eps lasso.

  (** What a normalised fit did. *)
  Lemma normalised_ok n x y w alpha mi k b p : well_shaped n x y w ->
    fit_lasso_values lasso x y w alpha mi true = Ok (k, b, p) ->
    exists c, x <> [] /\ length c = n /\ rsum (weights (length x) w) <> 0 /\ length (weights (length x) w) = length x
      /\ lasso alpha mi false
           (map (divide (factors n (weights (length x) w) x)) (map (center (weighted_means x (weights (length x) w))) x))
           (map (fun v => v - average (weights (length x) w) y) y) w = Ok (c, 0)
      /\ k = zip_with Rdiv c (factors n (weights (length x) w) x)
      /\ b = average (weights (length x) w) y - dot (weighted_means x (weights (length x) w)) k
      /\ p = predict x k b.
  Proof.
    intros [Hx Hy Hw] H. unfold fit_lasso_values in H. cbn [negb] in H. apply rbind_ok in H as ([xb yb] & Ho & H).
    destruct (offsets_ok x y w xb yb Hy Ho) as (Hne & Hl & HW & -> & ->). cbn [fst snd] in H.
    apply rbind_ok in H as ([c i] & Hl' & H). rewrite (columns_n n) in * by done. rewrite column_scales_factors in * by done.
    cbn [fst snd] in H.
    assert (Hr : Forall (fun r => length r = n) (map (divide (factors n (weights (length x) w) x)) (map (center (weighted_means x (weights (length x) w))) x))).
    { apply Forall_fmap. eapply Forall_impl; [apply (center_rows n); [done|by apply weighted_means_length]|].
      intros r Hr. cbv beta in Hr. unfold divide, compose. simpl. rewrite zip_with_length, factors_length. cbv beta in *; lia. }
    destruct (solver_shape eps lasso S _ _ _ _ _ _ _ _ n Hl' Hr) as (_ & _ & Hc & Hi). rewrite (Hi eq_refl) in *.
    injection H as <- <- <-. exists c. split_and!; done.
  Qed.

  Theorem normalised_fit_optimal n x y w alpha mi k b p : well_shaped n x y w -> good_weights (weights (length x) w) ->
    fit_lasso_values lasso x y w alpha mi true = Ok (k, b, p) ->
    length k = n /\ p = map (model_value k b) x /\
    forall k' b', length k' = n ->
      objective alpha (factors n (weights (length x) w) x) x y (weights (length x) w) k b
      <= objective alpha (factors n (weights (length x) w) x) x y (weights (length x) w) k' b' + eps.
  Proof.
    intros Hs G H. assert (HW := proj2 G). destruct (normalised_ok n x y w alpha mi k b p Hs H) as (c & Hne & Hc & HW' & Hlw & Hl & -> & -> & ->).
    destruct Hs as [Hx Hy _]. set (ww := weights (length x) w) in *. set (s := factors n ww x) in *.
    assert (Hs : Forall (fun f => 0 < f) s) by apply factors_pos. assert (Ls : length s = n) by apply factors_length.
    set (k := zip_with Rdiv c s). assert (Lk : length k = n) by (unfold k; rewrite zip_with_length; lia).
    split; [done|]. split; [done|]. intros k' b' Hk'.
    assert (Hr : Forall (fun r => length r = n) (map (divide s) (map (center (weighted_means x ww)) x))).
    { apply Forall_fmap. eapply Forall_impl; [apply (center_rows n); [done|by apply weighted_means_length]|].
      intros r Hr. cbv beta in Hr. unfold divide, compose. simpl. rewrite zip_with_length. cbv beta in *; lia. }
    pose proof (solver_near eps lasso S _ _ _ _ _ _ _ _ n Hl Hr) as Near. rewrite !map_length in Near. fold ww in Near.
    specialize (Near G (zip_with Rmult s k') 0 ltac:(rewrite zip_with_length; lia) (fun _ => eq_refl)).
    assert (E : forall q, length q = n ->
      objective alpha (replicate n 1) (map (divide s) (map (center (weighted_means x ww)) x)) (map (fun v => v - average ww y) y) ww q 0
      = rsum (zip_with Rmult ww (map (fun v => Rsqr (v - average ww (residuals x y (zip_with Rdiv q s)))) (residuals x y (zip_with Rdiv q s)))) / (2 * rsum ww)
        + alpha * penalty s (zip_with Rdiv q s)).
    { intros q Hq. unfold objective. rewrite weighted_error_residuals, (centred_residuals n) by done. f_equal.
      - f_equal. rewrite average_zero_constant; [|rewrite map_length, residual_length; done|done]. by rewrite map_map.
      - f_equal. rewrite <-(scale_forth s q Hs) at 1 by lia. rewrite <-Ls. rewrite penalty_scale; [done|done|]. rewrite zip_with_length. lia. }
    rewrite !E in Near by (try rewrite zip_with_length; lia). fold k in Near. rewrite (scale_back s k' Hs) in Near by lia.
    assert (Eb : average ww y - dot (weighted_means x ww) k = average ww (residuals x y k)).
    { rewrite (dot_weighted_means n) by done. unfold residuals. rewrite average_minus; try done; [lia|]. rewrite map_length. lia. }
    rewrite Eb. unfold objective. rewrite !weighted_error_residuals.
    rewrite (best_constant ww (residuals x y k') b'); [|rewrite residual_length; lia|done].
    assert (0 <= rsum ww * Rsqr (b' - average ww (residuals x y k'))) by (apply Rmult_le_pos; [lra|apply Rle_0_sqr]).
    assert (0 <= (rsum ww * Rsqr (b' - average ww (residuals x y k'))) / (2 * rsum ww)) by (apply Rle_mult_inv_pos; lra).
    unfold Rdiv in *. rewrite Rmult_plus_distr_r. lra.
  Qed.

  Theorem plain_fit_optimal n x y w alpha mi k b p : well_shaped n x y w -> good_weights (weights (length x) w) ->
    fit_lasso_values lasso x y w alpha mi false = Ok (k, b, p) ->
    length k = n /\ p = map (model_value k b) x /\
    forall k' b', length k' = n ->
      objective alpha (replicate n 1) x y (weights (length x) w) k b
      <= objective alpha (replicate n 1) x y (weights (length x) w) k' b' + eps.
  Proof.
    intros [Hx Hy Hw] HW H. unfold fit_lasso_values in H. cbn [negb] in H. apply rbind_ok in H as ([c i] & Hl & H).
    cbn [fst snd] in H. injection H as <- <- <-.
    destruct (solver_shape eps lasso S _ _ _ _ _ _ _ _ n Hl Hx) as (_ & _ & Hc & _). split; [done|]. split; [done|].
    intros k' b' Hk'. by eapply solver_near.
  Qed.

  (** A column with one value gets (nearly) no coefficient. *)
  Lemma dot_insert n row k j v c : length row = n -> length k = n -> row !! j = Some v -> k !! j = Some c ->
    dot row (<[j := 0]> k) = dot row k - v * c.
  Proof.
    revert row k j. induction n as [|n IH]; intros [|r row] [|d k] [|j] Hr Hk Hv Hc; try done.
    - cbn in Hv, Hc. injection Hv as ->. injection Hc as ->. change (<[0%nat := 0]> (c :: k)) with (0 :: k). rewrite !dot_cons. lra.
    - cbn in Hv, Hc. change (<[Datatypes.S j := 0]> (d :: k)) with (d :: <[j := 0]> k). rewrite !dot_cons. rewrite (IH row k j) by (by simplify_eq/=). lra.
  Qed.
  Lemma penalty_insert f k j c g : f !! j = Some g -> k !! j = Some c -> penalty f (<[j := 0]> k) = penalty f k - g * Rabs c.
  Proof.
    unfold penalty. revert k j. induction f as [|h f IH]; intros [|d k] [|j] Hf Hk; try done.
    - cbn in Hf, Hk. injection Hf as ->. injection Hk as ->. change (<[0%nat := 0]> (c :: k)) with (0 :: k). cbn [zip_with]. rewrite !rsum_cons, Rabs_R0. lra.
    - cbn in Hf, Hk. change (<[Datatypes.S j := 0]> (d :: k)) with (d :: <[j := 0]> k). cbn [zip_with]. rewrite !rsum_cons, (IH k j) by done. lra.
  Qed.
  Theorem constant_column n x y w alpha mi k b p j v c : well_shaped n x y w -> good_weights (weights (length x) w) ->
    fit_lasso_values lasso x y w alpha mi true = Ok (k, b, p) ->
    Forall (fun row => row !! j = Some v) x -> k !! j = Some c -> alpha * Rabs c <= eps.
  Proof.
    intros Hs G H Hj Hc. assert (HW := proj2 G). destruct (normalised_fit_optimal n x y w alpha mi k b p Hs G H) as (Lk & _ & Opt).
    assert (Hne : x <> []) by (by destruct (normalised_ok n x y w alpha mi k b p Hs H) as (? & ? & _)).
    assert (Jn : (j < n)%nat) by (rewrite <-Lk; by eapply lookup_lt_Some).
    specialize (Opt (<[j := 0]> k) (b + v * c) ltac:(by rewrite insert_length)).
    destruct Hs as [Hx Hy Hw]. set (ww := weights (length x) w) in *.
    assert (E : map (model_value (<[j := 0]> k) (b + v * c)) x = map (model_value k b) x).
    { apply map_ext_in. intros row Hin. apply elem_of_list_In in Hin. rewrite Forall_forall in Hj. rewrite Forall_forall in Hx.
      unfold model_value. change (rsum (zip_with Rmult row ?q)) with (dot row q). rewrite (dot_insert n row k j v c); auto. lra. }
    unfold objective, weighted_error in Opt. rewrite E in Opt.
    assert (F : factors n ww x !! j = Some 1).
    { unfold factors. rewrite list_lookup_fmap, lookup_seq_lt by done. cbn. f_equal. unfold factor.
      assert (spread ww (column j x) = 0) as ->; [|by destruct (Req_EM_T 0 0)].
      assert (EC : column j x = replicate (length x) v).
      { clear -Hj. induction Hj as [|r x Hr _ IH]; [done|]. rewrite column_cons, Hr. simpl. by rewrite IH. }
      rewrite EC. unfold spread. assert (EA : average ww (replicate (length x) v) = v).
      { unfold average. assert (rsum (zip_with Rmult ww (replicate (length x) v)) = v * rsum ww) as ->.
        { assert (L : length ww = length x) by (unfold ww, weights; destruct w; [done|apply replicate_length]). rewrite <-L.
          clear. induction ww as [|a l IH]; [unfold rsum; simpl; lra|]. cbn [length replicate zip_with]. rewrite !rsum_cons, IH. lra. }
        field. lra. }
      rewrite EA. assert (rsum (map (fun v0 => Rsqr (v0 - v)) (replicate (length x) v)) = 0) as ->; [|apply sqrt_0].
      generalize (length x). intros m. induction m as [|m IH]; [done|]. cbn [replicate map]. rewrite rsum_cons, IH. unfold Rsqr. lra. }
    rewrite (penalty_insert _ _ _ _ _ F Hc) in Opt. lra.
  Qed.
  (** Every column multiplied by a positive number and shifted. *)
  Lemma rescaled_rows n a c x : length a = n -> length c = n -> Forall (fun r => length r = n) x ->
    Forall (fun r => length r = n) (rescaled a c x).
  Proof.
    intros Ha Hc H. unfold rescaled. apply Forall_fmap. eapply Forall_impl; [exact H|]. intros r Hr. cbv beta in Hr.
    unfold compose. simpl. rewrite !zip_with_length. cbv beta in *. lia.
  Qed.
  Lemma column_rescaled n a c x j aj cj : Forall (fun r => length r = n) x -> (j < n)%nat -> a !! j = Some aj -> c !! j = Some cj ->
    column j (rescaled a c x) = map (fun v => aj * v + cj) (column j x).
  Proof.
    intros H Hj Ha Hc. induction H as [|r x Hr Hx IH]; [done|]. unfold rescaled in *. cbn [map]. rewrite !column_cons.
    destruct (lookup_lt_is_Some_2 r j) as [v Hv]; [lia|]. rewrite !lookup_zip_with, Ha, Hc, Hv. cbn. by rewrite <-IH.
  Qed.
  Lemma average_affine w l q c : length w = length l -> rsum w <> 0 -> average w (map (fun v => q * v + c) l) = q * average w l + c.
  Proof.
    intros H Hw. unfold average.
    assert (rsum (zip_with Rmult w (map (fun v => q * v + c) l)) = q * rsum (zip_with Rmult w l) + c * rsum w) as ->.
    { clear Hw. revert l H. induction w as [|b w IH]; intros [|v l] H; try done; [unfold rsum; simpl; lra|].
      cbn [zip_with map]. rewrite !rsum_cons, IH by (by simplify_eq/=). lra. }
    field. done.
  Qed.
  Lemma spread_affine w l q c : length w = length l -> rsum w <> 0 -> 0 < q -> spread w (map (fun v => q * v + c) l) = q * spread w l.
  Proof.
    intros H Hw Hq. unfold spread. rewrite average_affine by done. rewrite map_map. generalize (average w l). intros m.
    assert (rsum (map (fun v => Rsqr (q * v + c - (q * m + c))) l) = Rsqr q * rsum (map (fun v => Rsqr (v - m)) l)) as ->.
    { clear H. induction l as [|v l IH]; [unfold rsum; simpl; lra|]. cbn [map]. rewrite !rsum_cons, IH. unfold Rsqr. lra. }
    rewrite sqrt_mult_alt by apply Rle_0_sqr. rewrite sqrt_Rsqr by lra. done.
  Qed.
  Lemma column_length n j x : Forall (fun r => length r = n) x -> (j < n)%nat -> length (column j x) = length x.
  Proof.
    intros H Hj. induction H as [|r x Hr Hx IH]; [done|]. rewrite column_cons. destruct (lookup_lt_is_Some_2 r j) as [v Hv]; [lia|].
    rewrite Hv. simpl. by rewrite IH.
  Qed.
  Lemma sum_sqr_zero (l : list R) v : rsum (map Rsqr l) = 0 -> v ∈ l -> v = 0.
  Proof.
    intros H Hv. assert (Nn : forall l : list R, 0 <= rsum (map Rsqr l)).
    { intros q. induction q as [|z q IH]; [unfold rsum; simpl; lra|]. cbn [map]. rewrite rsum_cons. pose proof (Rle_0_sqr z). lra. }
    induction Hv as [z l|z q l Hz IH]; cbn [map] in H; rewrite rsum_cons in H.
    - pose proof (Rle_0_sqr z). pose proof (Nn l). apply Rsqr_0_uniq. lra.
    - apply IH. pose proof (Rle_0_sqr q). pose proof (Nn l). lra.
  Qed.
  Lemma spread_zero w l v : spread w l = 0 -> v ∈ l -> v - average w l = 0.
  Proof.
    intros H Hv. unfold spread in H. apply sqrt_eq_0 in H.
    - rewrite <-map_map with (f := fun v => v - average w l) in H. eapply sum_sqr_zero; [exact H|]. apply elem_of_list_fmap. by exists v.
    - clear H. induction l as [|z l IH]; [unfold rsum; simpl; lra|]. generalize (average w (z :: l)). intros m. clear.
      induction (z :: l) as [|q r IH]; [unfold rsum; simpl; lra|]. cbn [map]. rewrite rsum_cons. pose proof (Rle_0_sqr (q - m)). lra.
  Qed.
  Lemma normalised_table n a c x w : length a = n -> length c = n -> Forall (fun v => 0 < v) a ->
    Forall (fun r => length r = n) x -> x <> [] -> length w = length x -> rsum w <> 0 ->
    map (divide (factors n w (rescaled a c x))) (map (center (weighted_means (rescaled a c x) w)) (rescaled a c x))
    = map (divide (factors n w x)) (map (center (weighted_means x w)) x).
  Proof.
    intros Ha Hc Hpos H Hne Hw HW. assert (H' := rescaled_rows n a c x Ha Hc H).
    assert (Hne' : rescaled a c x <> []) by (unfold rescaled; by destruct x).
    rewrite !(weighted_means_columns n) by done. unfold rescaled at 3. rewrite !map_map. apply map_ext_in.
    intros row Hin. apply elem_of_list_In in Hin. assert (Lr : length row = n) by (rewrite Forall_forall in H; by apply H).
    apply list_eq. intros j. unfold divide, center, factors. rewrite !lookup_zip_with, !list_lookup_fmap.
    destruct (decide (j < n)%nat) as [L|L]; [|rewrite !lookup_seq_ge by lia; by destruct (a !! j), (c !! j), (row !! j)].
    rewrite lookup_seq_lt by done.
    destruct (lookup_lt_is_Some_2 a j) as [aj Ea]; [lia|]. destruct (lookup_lt_is_Some_2 c j) as [cj Ec]; [lia|].
    destruct (lookup_lt_is_Some_2 row j) as [v Hv]; [lia|]. rewrite Ea, Ec, Hv. cbn.
    rewrite (column_rescaled n a c x j aj cj H L Ea Ec). assert (Lc := column_length n j x H L).
    assert (0 < aj) by (rewrite Forall_forall in Hpos; apply Hpos; by eapply elem_of_list_lookup_2).
    rewrite average_affine by (try done; lia). unfold factor. rewrite spread_affine by (try done; lia).
    f_equal. set (m := average w (column j x)). destruct (Req_EM_T (spread w (column j x)) 0) as [E|E].
    - rewrite E. destruct (Req_EM_T (aj * 0) 0) as [_|N]; [|lra].
      assert (Z : v - m = 0).
      { apply (spread_zero w (column j x) v E). unfold column. apply elem_of_list_omap. by exists row. }
      replace (aj * v + cj - (aj * m + cj)) with (aj * (v - m)) by lra. rewrite Z. lra.
    - destruct (Req_EM_T (aj * spread w (column j x)) 0) as [N|_]; [apply Rmult_integral in N as [N|N]; [lra|done]|].
      field. split; [done|lra].
  Qed.

  Theorem units_do_not_matter n x y w alpha mi k b p a c : well_shaped n x y w ->
    length a = n -> length c = n -> Forall (fun v => 0 < v) a ->
    fit_lasso_values lasso x y w alpha mi true = Ok (k, b, p) ->
    exists k' b', fit_lasso_values lasso (rescaled a c x) y w alpha mi true = Ok (k', b', p)
      /\ forall j aj q, a !! j = Some aj -> k !! j = Some q -> spread (weights (length x) w) (column j x) <> 0 -> k' !! j = Some (q / aj).
  Proof.
    intros Hs Ha Hc Hpos H. destruct (normalised_ok n x y w alpha mi k b p Hs H) as (e & Hne & He & HW & Hlw & Hl & Ek & Eb & Ep).
    destruct Hs as [Hx Hy Hw]. assert (Hx' := rescaled_rows n a c x Ha Hc Hx).
    assert (Lx : length (rescaled a c x) = length x) by (unfold rescaled; apply map_length).
    assert (Hne' : rescaled a c x <> []) by (unfold rescaled; by destruct x).
    set (ww := weights (length x) w) in *.
    assert (Ho : offsets (rescaled a c x) y w = Ok (weighted_means (rescaled a c x) ww, average ww y)).
    { unfold offsets. rewrite Lx. destruct w as [w|]; cbn [weights] in *.
      - rewrite Hw, Hy, Nat.eqb_refl. cbn [negb]. unfold ww in HW. destruct (Req_EM_T (rsum w) 0); [done|]. done.
      - rewrite Hy. destruct (Nat.eqb_spec (length x) 0) as [E|E]; [by destruct x|]. cbn [orb]. do 2 f_equal.
        + rewrite column_means_ones, Lx. done.
        + rewrite mean_ones, Hy. done. }
    set (k' := zip_with Rdiv e (factors n ww (rescaled a c x))).
    set (b' := average ww y - dot (weighted_means (rescaled a c x) ww) k').
    exists k', b'. assert (Lk' : length k' = n) by (unfold k'; rewrite zip_with_length, factors_length; lia).
    assert (Lk : length k = n) by (rewrite Ek, zip_with_length, factors_length; lia).
    split.
    - unfold fit_lasso_values. cbn [negb]. rewrite Ho. cbn [rbind fst snd]. rewrite (columns_n n) by done. rewrite column_scales_factors by done.
      rewrite normalised_table by done. rewrite Hl. cbn [rbind fst snd]. fold k'. fold b'. do 2 f_equal. rewrite Ep. unfold predict.
      assert (T := normalised_table n a c x ww Ha Hc Hpos Hx Hne Hlw HW).
      unfold rescaled at 1. rewrite map_map. apply map_ext_in. intros row Hin. apply elem_of_list_In, elem_of_list_lookup_1 in Hin as (i & Hi).
      assert (Lr : length row = n) by (rewrite Forall_forall in Hx; apply Hx; by eapply elem_of_list_lookup_2).
      apply (f_equal (lookup i)) in T. rewrite !list_lookup_fmap in T. unfold rescaled at 3 in T. rewrite !list_lookup_fmap, Hi in T. cbn [fmap option_fmap option_map] in T.
      injection T as T. cbv beta in T. apply (f_equal (fun l => dot l e)) in T.
      rewrite !(dot_divide n) in T; try done; try apply factors_length.
      2:{ unfold center. rewrite zip_with_length, (weighted_means_length n) by done. lia. }
      2:{ unfold center. rewrite !zip_with_length, (weighted_means_length n) by done. lia. }
      rewrite <-Ek in T. fold k' in T. unfold center in T. rewrite !(dot_minus n) in T; try done; try (by apply weighted_means_length); [|rewrite !zip_with_length; lia].
      unfold b'. rewrite Eb. lra.
    - intros j aj q Haj Hq Hsp. assert (L : (j < n)%nat) by (rewrite <-Ha; by eapply lookup_lt_Some).
      destruct (lookup_lt_is_Some_2 c j) as [cj Ec]; [lia|].
      rewrite Ek in Hq. unfold k'. rewrite lookup_zip_with in *. unfold factors in *. rewrite !list_lookup_fmap, lookup_seq_lt in * by done.
      destruct (e !! j) as [ej|]; [|done]. cbn in *. injection Hq as <-. f_equal. rewrite (column_rescaled n a c x j aj cj) by done.
      assert (Lc := column_length n j x Hx L).
      assert (0 < aj) by (rewrite Forall_forall in Hpos; apply Hpos; by eapply elem_of_list_lookup_2).
      unfold factor. rewrite spread_affine by (try done; lia). destruct (Req_EM_T (spread ww (column j x)) 0) as [|N]; [done|].
      destruct (Req_EM_T (aj * spread ww (column j x)) 0) as [N'|_]; [apply Rmult_integral in N' as [N'|N']; [lra|done]|].
      field. split; [done|lra].
  Qed.
End Solver.

Section AnySolver.
  Variable lasso : R -> Z -> bool -> list (list R) -> list R -> option (list R) -> result (list R * R).

  Theorem energy_zero n x y w alpha mi c k b p : well_shaped n x y w ->
    fit_lasso_values lasso x y w alpha mi true = Ok (k, b, p) ->
    fit_lasso_values lasso x (map (fun v => v + c) y) w alpha mi true = Ok (k, b + c, map (fun v => v + c) p).
  Proof.
    intros [Hx Hy Hw] H. unfold fit_lasso_values in *. cbn [negb] in *. apply rbind_ok in H as ([xb yb] & Ho & H).
    destruct (offsets_ok x y w xb yb Hy Ho) as (Hne & Hl & HW & Exb & Eyb).
    assert (Ho' : offsets x (map (fun v => v + c) y) w = Ok (xb, yb + c)).
    { unfold offsets in *. rewrite map_length. destruct w as [w|].
      - destruct (negb (length w =? length x)%nat); [done|]. destruct (Req_EM_T (rsum w) 0); [done|].
        destruct (negb (length w =? length y)%nat); [done|]. injection Ho as <- <-. do 2 f_equal.
        apply (average_shift w y c); [by rewrite Hw|done].
      - destruct (_ || _); [done|]. injection Ho as <- <-. do 2 f_equal. rewrite !mean_ones, map_length.
        apply (average_shift (replicate (length y) 1) y c); [apply replicate_length|]. cbn [weights] in HW. by rewrite Hy. }
    rewrite Ho'. cbn [rbind fst snd] in *.
    assert (map (fun v => v - (yb + c)) (map (fun v => v + c) y) = map (fun v => v - yb) y) as -> by (rewrite map_map; apply map_ext; intros; lra).
    apply rbind_ok in H as (e & He & H). rewrite He. cbn [rbind]. injection H as <- <- <-. do 2 f_equal; [f_equal; lra|].
    unfold predict. rewrite map_map. apply map_ext. intros. lra.
  Qed.

  Lemma masked_without {A} i (l : list A) : masked i l = without i l.
  Proof.
    unfold masked, without.
    assert (G : forall s, map snd (List.filter (fun p : nat * A => negb (fst p =? i)%nat) (zip (seq s (length l)) l))
              = if (s <=? i)%nat then take (i - s) l ++ drop (Datatypes.S (i - s)) l else l).
    { induction l as [|a l IH]; intros s; [simpl; destruct (s <=? i)%nat; [by rewrite take_nil|done]|].
      cbn [length seq zip zip_with List.filter fst]. destruct (Nat.eqb_spec s i) as [->|N]; cbn [negb].
      - rewrite IH. rewrite Nat.leb_refl, Nat.sub_diag. destruct (Nat.leb_spec (Datatypes.S i) i); [lia|]. done.
      - cbn [map snd]. rewrite IH. destruct (Nat.leb_spec s i) as [L|L].
        + destruct (Nat.leb_spec (Datatypes.S s) i); [|lia]. replace (i - s)%nat with (Datatypes.S (i - Datatypes.S s)) by lia. done.
        + destruct (Nat.leb_spec (Datatypes.S s) i); [lia|]. done. }
    rewrite G. cbn. by rewrite Nat.sub_0_r.
  Qed.

  Theorem leave_one_out x y alpha mi nm r : leave_one_out_rmse lasso x y alpha mi nm = Ok r ->
    exists errors, length errors = length y /\ r = R_sqrt.sqrt (rsum errors / INR (length y)) /\
      forall i row v, x !! i = Some row -> y !! i = Some v ->
        exists k b p, fit_lasso_values lasso (without i x) (without i y) None alpha mi nm = Ok (k, b, p)
          /\ errors !! i = Some (Rsqr (v - model_value k b row)).
  Proof.
    unfold leave_one_out_rmse. intros H. apply rbind_ok in H as (errors & He & H).
    destruct (Nat.eqb_spec (length errors) 0) as [|_]; [done|]. injection H as <-.
    assert (L : length errors = length y) by (rewrite (rmapM_length _ _ _ He); apply seq_length).
    exists errors. split; [done|]. split; [unfold mean; by rewrite L|]. intros i row v Hx Hy.
    assert (Li : (i < length y)%nat) by (by eapply lookup_lt_Some).
    destruct (lookup_lt_is_Some_2 errors i) as [e Ee]; [lia|].
    assert (Hi : squared_error lasso x y alpha mi nm i = Ok e).
    { clear Hx Hy. revert He Ee. assert (G : forall (f : nat -> result R) l es j a e, rmapM f l = Ok es -> l !! j = Some a -> es !! j = Some e -> f a = Ok e).
      { intros f l. induction l as [|z l IH]; intros es j a e' Hm Ha He'; [done|]. cbn in Hm. apply rbind_ok in Hm as (q & Hq & Hm).
        apply rbind_ok in Hm as (qs & Hqs & Hm). injection Hm as <-. destruct j as [|j]; cbn in *; [congruence|]. by eapply IH. }
      intros He Ee. eapply (G _ _ _ i i); [exact He|by rewrite lookup_seq_lt by done|done]. }
    unfold squared_error in Hi. destruct (negb _); [done|]. apply rbind_ok in Hi as ([[k b] p] & Hf & Hi).
    rewrite Hx, Hy in Hi. injection Hi as <-. rewrite !masked_without in Hf. exists k, b, p. split; [done|]. rewrite Ee. done.
  Qed.
  Lemma without_fmap {A B} (f : A -> B) i l : without i (map f l) = map f (without i l).
  Proof. unfold without. rewrite map_app. f_equal; [symmetry; apply fmap_take|symmetry; apply fmap_drop]. Qed.
  Lemma without_Forall {A} (P : A -> Prop) i l : Forall P l -> Forall P (without i l).
  Proof. intros H. unfold without. apply Forall_app. split; [by apply Forall_take|by apply Forall_drop]. Qed.
  Lemma rmapM_weaken {A B} (f g : A -> result B) l es : rmapM f l = Ok es -> (forall a e, f a = Ok e -> g a = Ok e) -> rmapM g l = Ok es.
  Proof.
    intros H Hg. revert es H. induction l as [|a l IH]; intros es H; [done|]. cbn in *. apply rbind_ok in H as (e & He & H).
    apply rbind_ok in H as (q & Hq & H). by rewrite (Hg _ _ He), (IH _ Hq).
  Qed.
  Theorem score_energy_zero n x y alpha mi c r : well_shaped n x y None ->
    leave_one_out_rmse lasso x y alpha mi true = Ok r ->
    leave_one_out_rmse lasso x (map (fun v => v + c) y) alpha mi true = Ok r.
  Proof.
    intros [Hx Hy _] H. unfold leave_one_out_rmse in *. rewrite map_length. apply rbind_ok in H as (es & He & H).
    rewrite (rmapM_weaken _ (squared_error lasso x (map (fun v => v + c) y) alpha mi true) _ es He); [done|].
    intros i e Hi. unfold squared_error in *. rewrite map_length. destruct (negb _); [done|]. rewrite !masked_without in *.
    apply rbind_ok in Hi as ([[k b] p] & Hf & Hi). rewrite without_fmap.
    rewrite (energy_zero n _ _ None alpha mi c k b p); [| |exact Hf].
    - cbn [rbind fst snd] in *. rewrite list_lookup_fmap. destruct (x !! i), (y !! i); try done. cbn in *. injection Hi as <-. f_equal. f_equal. lra.
    - split; [by apply without_Forall| |done]. unfold without. rewrite !app_length, !take_length, !drop_length. lia.
  Qed.
End AnySolver.

(** ** An exact solver for tables with one column *)
Definition shrink (alpha b c : R) : R :=
  if Req_EM_T c 0 then 0
  else if Rlt_dec alpha b then (b - alpha) / c
  else if Rlt_dec alpha (- b) then (b + alpha) / c
  else 0.
Definition cross (w a b : list R) : R := rsum (zip_with Rmult w (zip_with Rmult a b)) / rsum w.
Definition one_column_lasso (alpha : R) (max_iter : Z) (intercept : bool) (x : list (list R)) (y : list R)
    (weight : option (list R)) : result (list R * R) :=
  let w := weights (length x) weight in
  let xs := column 0 x in
  if Rlt_dec alpha 0 then Err ValueError else
  if negb (forallb (fun row => Nat.eqb (length row) 1) x) then Err ValueError else
  if Nat.eqb (length x) 0 then Err ValueError else
  if negb (Nat.eqb (length y) (length x)) then Err ValueError else
  if negb (Nat.eqb (length w) (length x)) then Err ValueError else
  if intercept then
    let xc := map (fun v => v - average w xs) xs in
    let yc := map (fun v => v - average w y) y in
    let k := shrink alpha (cross w xc yc) (cross w xc xc) in
    Ok ([k], average w y - k * average w xs)
  else Ok ([shrink alpha (cross w xs y) (cross w xs xs)], 0).

Lemma shrink_best alpha b c k : 0 <= alpha -> 0 <= c -> (c = 0 -> b = 0) ->
  - (b * shrink alpha b c) + c * Rsqr (shrink alpha b c) / 2 + alpha * Rabs (shrink alpha b c)
  <= - (b * k) + c * Rsqr k / 2 + alpha * Rabs k.
Proof.
  intros Ha Hc Hb. unfold shrink. destruct (Req_EM_T c 0) as [->|N].
  - rewrite (Hb eq_refl), Rabs_R0. unfold Rsqr. pose proof (Rmult_le_pos _ _ Ha (Rabs_pos k)). lra.
  - assert (0 < c) by lra. destruct (Rlt_dec alpha b) as [L|L].
    + assert (alpha * k <= alpha * Rabs k) by (apply Rmult_le_compat_l; [done|apply Rle_abs]).
      rewrite (Rabs_right ((b - alpha) / c)) by (apply Rle_ge, Rle_mult_inv_pos; lra).
      assert (0 <= c * Rsqr (k - (b - alpha) / c)) by (apply Rmult_le_pos; [lra|apply Rle_0_sqr]).
      assert (E : - (b * ((b - alpha) / c)) + c * Rsqr ((b - alpha) / c) / 2 + alpha * ((b - alpha) / c)
        = - (b * k) + c * Rsqr k / 2 + alpha * k - c * Rsqr (k - (b - alpha) / c) / 2) by (unfold Rsqr; field; done).
      rewrite E. lra.
    + destruct (Rlt_dec alpha (- b)) as [L'|L'].
      * assert (alpha * - k <= alpha * Rabs k) by (apply Rmult_le_compat_l; [done|rewrite <-Rabs_Ropp; apply Rle_abs]).
        assert ((b + alpha) / c = - ((- b - alpha) / c)) as E0 by (field; done).
        assert (0 <= (- b - alpha) / c) by (apply Rle_mult_inv_pos; lra).
        rewrite (Rabs_left1 ((b + alpha) / c)) by lra.
        assert (0 <= c * Rsqr (k - (b + alpha) / c)) by (apply Rmult_le_pos; [lra|apply Rle_0_sqr]).
        assert (E : - (b * ((b + alpha) / c)) + c * Rsqr ((b + alpha) / c) / 2 + alpha * - ((b + alpha) / c)
          = - (b * k) + c * Rsqr k / 2 + alpha * - k - c * Rsqr (k - (b + alpha) / c) / 2) by (unfold Rsqr; field; done).
        rewrite E. lra.
      * rewrite Rabs_R0. assert (b * k <= alpha * Rabs k).
        { destruct (Rle_dec 0 k) as [P|P].
          - rewrite Rabs_right by lra. apply Rmult_le_compat_r; lra.
          - rewrite Rabs_left by lra. replace (b * k) with (- b * - k) by lra. apply Rmult_le_compat_r; lra. }
        unfold Rsqr. pose proof (Rmult_le_pos c (k * k) Hc (Rle_0_sqr k)). lra.
Qed.

Definition error_of (xs y w : list R) (k b : R) : R :=
  rsum (zip_with Rmult w (map (fun v => Rsqr (v - b)) (zip_with Rminus y (map (fun v => v * k) xs)))).
Lemma one_column_rows x : Forall (fun r => length r = 1%nat) x -> x = map (fun v => [v]) (column 0 x).
Proof.
  induction 1 as [|[|v [|u r]] x Hr _ IH]; try done. rewrite column_cons. cbn. by rewrite <-IH.
Qed.
Lemma one_column_error x y w k b : Forall (fun r => length r = 1%nat) x ->
  weighted_error x y w [k] b = error_of (column 0 x) y w k b / (2 * rsum w).
Proof.
  intros H. rewrite weighted_error_residuals. unfold error_of, residuals. f_equal. do 3 f_equal. f_equal.
  rewrite (one_column_rows x H) at 1. rewrite map_map. apply map_ext. intros v. unfold dot, rsum. simpl. lra.
Qed.
Lemma error_expand xs y w k : length y = length xs -> length w = length xs -> rsum w <> 0 ->
  error_of xs y w k 0 / (2 * rsum w) = cross w y y / 2 - cross w xs y * k + cross w xs xs * Rsqr k / 2.
Proof.
  intros Hy Hw HW. unfold cross.
  assert (error_of xs y w k 0 = rsum (zip_with Rmult w (zip_with Rmult y y)) - 2 * k * rsum (zip_with Rmult w (zip_with Rmult xs y))
    + k * k * rsum (zip_with Rmult w (zip_with Rmult xs xs))) as ->.
  { clear HW. unfold error_of. revert y w Hy Hw. induction xs as [|v xs IH]; intros [|u y] [|a w] Hy Hw; try done; [unfold rsum; simpl; lra|].
    cbn [map zip_with]. rewrite !rsum_cons, IH by (by simplify_eq/=). unfold Rsqr. lra. }
  unfold Rsqr. field. done.
Qed.
Lemma cross_square w xs : Forall (fun v => 0 <= v) w -> 0 < rsum w -> 0 <= cross w xs xs.
Proof.
  intros Hw HW. unfold cross. apply Rle_mult_inv_pos; [|done]. clear HW. revert xs. induction Hw as [|a w Ha _ IH]; intros xs; [unfold rsum; simpl; lra|].
  destruct xs as [|v xs]; [unfold rsum; simpl; lra|]. cbn [zip_with]. rewrite rsum_cons. specialize (IH xs).
  pose proof (Rmult_le_pos a (v * v) Ha (Rle_0_sqr v)). lra.
Qed.
Lemma cross_zero w xs y : Forall (fun v => 0 <= v) w -> 0 < rsum w -> cross w xs xs = 0 -> cross w xs y = 0.
Proof.
  intros Hw HW H. assert (HN : rsum w <> 0) by lra. unfold cross in *.
  assert (E : rsum (zip_with Rmult w (zip_with Rmult xs xs)) = 0).
  { apply (f_equal (fun v => v * rsum w)) in H. unfold Rdiv in H. rewrite Rmult_assoc, Rinv_l, Rmult_1_r in H by done. lra. }
  assert (Nn : forall w xs, Forall (fun v => 0 <= v) w -> 0 <= rsum (zip_with Rmult w (zip_with Rmult xs xs))).
  { clear. intros w xs Hw. revert xs. induction Hw as [|a w Ha _ IH]; intros xs; [unfold rsum; simpl; lra|].
    destruct xs as [|v xs]; [unfold rsum; simpl; lra|]. cbn [zip_with]. rewrite rsum_cons. specialize (IH xs).
    pose proof (Rmult_le_pos a (v * v) Ha (Rle_0_sqr v)). lra. }
  assert (rsum (zip_with Rmult w (zip_with Rmult xs y)) = 0) as ->; [|unfold Rdiv; lra].
  clear H HN HW. revert xs y E. induction Hw as [|a w Ha Hw IH]; intros xs y E; [unfold rsum; simpl; lra|].
  destruct xs as [|v xs], y as [|u y]; try (unfold rsum; simpl; lra). cbn [zip_with] in *. rewrite rsum_cons in *.
  pose proof (Rmult_le_pos a (v * v) Ha (Rle_0_sqr v)). pose proof (Nn w xs Hw). rewrite IH by lra.
  assert (a * (v * v) = 0) as Z by lra. apply Rmult_integral in Z as [Z|Z]; [rewrite Z; lra|].
  apply Rmult_integral in Z as [Z|Z]; rewrite Z; lra.
Qed.
Lemma error_centred xs y w k b : length y = length xs -> length w = length xs -> 0 < rsum w ->
  error_of xs y w k b = error_of (map (fun v => v - average w xs) xs) (map (fun v => v - average w y) y) w k 0
    + rsum w * Rsqr (b - (average w y - k * average w xs)).
Proof.
  intros Hy Hw HW. unfold error_of. set (z := zip_with Rminus y (map (fun v => v * k) xs)).
  assert (Lz : length z = length xs) by (unfold z; rewrite zip_with_length, map_length; lia).
  rewrite (best_constant w z b) by (try lia; lra).
  assert (Ea : average w z = average w y - k * average w xs).
  { unfold z. rewrite average_minus; [|lia|rewrite map_length; lia|lra]. f_equal.
    replace (map (fun v => v * k) xs) with (map (fun v => k * v + 0) xs) by (apply map_ext; intros; lra). rewrite average_affine by (try lia; lra). lra. }
  rewrite Ea. f_equal. f_equal. f_equal. unfold z. clear -Hy. generalize (average w y) (average w xs). intros p q. revert y Hy.
  induction xs as [|v xs IH]; intros [|u y] Hy; try done. cbn [map zip_with]. rewrite IH by (by simplify_eq/=). f_equal. unfold Rsqr. lra.
Qed.

Lemma one_column_solver : solver 0 one_column_lasso.
Proof.
  assert (Inv : forall alpha mi fi x y w k b, one_column_lasso alpha mi fi x y w = Ok (k, b) ->
    0 <= alpha /\ Forall (fun r => length r = 1%nat) x /\ x <> [] /\ length y = length x /\ length (weights (length x) w) = length x
    /\ exists c, k = [c] /\
      (if fi then c = shrink alpha (cross (weights (length x) w) (map (fun v => v - average (weights (length x) w) (column 0 x)) (column 0 x)) (map (fun v => v - average (weights (length x) w) y) y))
                    (cross (weights (length x) w) (map (fun v => v - average (weights (length x) w) (column 0 x)) (column 0 x)) (map (fun v => v - average (weights (length x) w) (column 0 x)) (column 0 x)))
                  /\ b = average (weights (length x) w) y - c * average (weights (length x) w) (column 0 x)
       else c = shrink alpha (cross (weights (length x) w) (column 0 x) y) (cross (weights (length x) w) (column 0 x) (column 0 x)) /\ b = 0)).
  { intros alpha mi fi x y w k b H. unfold one_column_lasso in H. destruct (Rlt_dec alpha 0); [done|].
    destruct (forallb _ x) eqn:F; [|done]. cbn [negb] in H. destruct (Nat.eqb_spec (length x) 0) as [|Nx]; [done|].
    destruct (Nat.eqb_spec (length y) (length x)) as [Ey|]; [|done]. destruct (Nat.eqb_spec (length (weights (length x) w)) (length x)) as [Ew|]; [|done].
    cbn [negb] in H. split; [lra|]. split. { apply Forall_forall. intros r Hr. rewrite forallb_forall in F. apply elem_of_list_In in Hr. by apply Nat.eqb_eq, F. }
    split; [by intros ->|]. split; [done|]. split; [done|]. destruct fi; injection H as <- <-; eauto. }
  assert (One : forall x n, x <> [] -> Forall (fun r : list R => length r = n) x -> Forall (fun r : list R => length r = 1%nat) x -> n = 1%nat).
  { intros x n Hne H1 H2. destruct x as [|r x]; [done|]. apply Forall_inv in H1, H2. congruence. }
  split.
  - intros alpha mi fi x y w k b n H Hx. destruct (Inv _ _ _ _ _ _ _ _ H) as (_ & H1 & Hne & Hy & _ & c & -> & Hc).
    rewrite (One x n Hne Hx H1). split; [done|]. split; [done|]. split; [done|]. intros ->. by destruct Hc.
  - intros alpha mi fi x y w k b n H Hx [Gw GW] k' b' Lk' Hb'.
    destruct (Inv _ _ _ _ _ _ _ _ H) as (Ha & H1 & Hne & Hy & Hw & c & -> & Hc). rewrite (One x n Hne Hx H1) in *.
    destruct k' as [|q [|? ?]]; try done. set (ww := weights (length x) w) in *.
    assert (Lc : length (column 0 x) = length x) by (apply (column_length 1); [done|lia]).
    assert (P : forall v, penalty (replicate 1 1) [v] = Rabs v) by (intros v; unfold penalty, rsum; simpl; lra).
    unfold objective. rewrite !P, !one_column_error by done. destruct fi.
    + destruct Hc as [-> ->]. set (xc := map (fun v => v - average ww (column 0 x)) (column 0 x)) in *. set (yc := map (fun v => v - average ww y) y) in *.
      set (c := shrink _ _ _). rewrite !(error_centred (column 0 x)) by (try lia; lra). fold xc yc.
      rewrite Rminus_diag_eq by done. rewrite Rsqr_0, Rmult_0_r, Rplus_0_r.
      assert (Lxc : length xc = length x) by (unfold xc; by rewrite map_length). assert (Lyc : length yc = length x) by (unfold yc; by rewrite map_length).
      assert (0 <= rsum ww * Rsqr (b' - (average ww y - q * average ww (column 0 x))) / (2 * rsum ww)).
      { apply Rle_mult_inv_pos; [|lra]. apply Rmult_le_pos; [lra|apply Rle_0_sqr]. }
      unfold Rdiv at 2. rewrite Rmult_plus_distr_r. change (?e * / (2 * rsum ww)) with (e / (2 * rsum ww)).
      rewrite !error_expand by (try lia; lra).
      pose proof (shrink_best alpha (cross ww xc yc) (cross ww xc xc) q Ha (cross_square ww xc Gw GW) (cross_zero ww xc yc Gw GW)). fold c in H2. lra.
    + destruct Hc as [-> ->]. rewrite (Hb' eq_refl). rewrite !error_expand by (try lia; lra).
      pose proof (shrink_best alpha (cross ww (column 0 x) y) (cross ww (column 0 x) (column 0 x)) q Ha (cross_square ww _ Gw GW) (cross_zero ww _ y Gw GW)). lra.
Qed.

(** ** Worked cases *)
Lemma one_column_accepts alpha mi fi x y w : 0 <= alpha -> Forall (fun r => length r = 1%nat) x -> x <> [] -> length y = length x ->
  length (weights (length x) w) = length x -> exists c b, one_column_lasso alpha mi fi x y w = Ok ([c], b).
Proof.
  intros Ha Hx Hne Hy Hw. unfold one_column_lasso. destruct (Rlt_dec alpha 0); [lra|].
  assert (forallb (fun row => Nat.eqb (length row) 1) x = true) as ->.
  { apply forallb_forall. intros r Hr. rewrite Forall_forall in Hx. apply Nat.eqb_eq, Hx. by apply elem_of_list_In. }
  destruct (Nat.eqb_spec (length x) 0); [by destruct x|]. rewrite Hy, Hw, Nat.eqb_refl. cbn [negb]. destruct fi; eauto.
Qed.
Lemma one_column_fits alpha mi nm x y : 0 <= alpha -> Forall (fun r => length r = 1%nat) x -> x <> [] -> length y = length x ->
  exists k b p, fit_lasso_values one_column_lasso x y None alpha mi nm = Ok (k, b, p).
Proof.
  intros Ha Hx Hne Hy. unfold fit_lasso_values. destruct nm; cbn [negb].
  - unfold offsets. rewrite Hy. destruct (Nat.eqb_spec (length x) 0); [by destruct x|]. cbn [orb rbind fst snd].
    assert (Lm : length (column_means x) = 1%nat) by (rewrite column_means_ones; by apply (weighted_means_length 1)).
    destruct (one_column_accepts alpha mi false (map (divide (column_scales (columns x) (map (center (column_means x)) x))) (map (center (column_means x)) x))
      (map (fun v => v - mean y) y) None) as (c & b & E).
    + done.
    + rewrite (columns_n 1) by done. rewrite column_means_ones, column_scales_factors by done. apply Forall_fmap.
      eapply Forall_impl; [apply (center_rows 1); [done|by apply weighted_means_length]|]. intros r Hr. cbv beta in Hr. unfold divide, compose. simpl.
      rewrite zip_with_length, factors_length. cbv beta in *; lia.
    + by destruct x.
    + by rewrite !map_length.
    + apply replicate_length.
    + rewrite E. cbn [rbind]. eauto.
  - destruct (one_column_accepts alpha mi true x y None) as (c & b & E); try done; [apply replicate_length|]. rewrite E. cbn [rbind]. eauto.
Qed.
(** Two points on a line are fitted exactly when nothing is penalised. *)
Lemma two_points a c mi : a <> c -> exists p,
  fit_lasso_values one_column_lasso [[a]; [c]] [a + 1; c + 1] None 0 mi true = Ok ([1], 1, p).
Proof.
  intros N. destruct (one_column_fits 0 mi true [[a]; [c]] [a + 1; c + 1]) as (k & b & p & E); [lra|by repeat constructor|done|done|].
  assert (Hs : well_shaped 1 [[a]; [c]] [a + 1; c + 1] None) by (split; [by repeat constructor|done|done]).
  assert (G : good_weights (weights 2 None)) by (split; [repeat constructor; lra|unfold rsum; simpl; lra]).
  destruct (normalised_fit_optimal 0 one_column_lasso one_column_solver 1 _ _ None 0 mi k b p Hs G E) as (Lk & _ & Opt).
  destruct k as [|q [|? ?]]; try done. specialize (Opt [1] 1 eq_refl). unfold objective, weighted_error, model_value, rsum in Opt. simpl in Opt. unfold Rsqr in Opt.
  set (e := (a + 1 - (a * q + 0 + b))). set (f := (c + 1 - (c * q + 0 + b))).
  assert (H : e * e + f * f <= 0) by (unfold e, f; lra).
  assert (He : e = 0). { apply Rsqr_0_uniq. pose proof (Rle_0_sqr e). pose proof (Rle_0_sqr f). unfold Rsqr in *. lra. }
  assert (Hf : f = 0). { apply Rsqr_0_uniq. pose proof (Rle_0_sqr e). pose proof (Rle_0_sqr f). unfold Rsqr in *. lra. }
  assert (q = 1). { assert ((a - c) * (1 - q) = 0) as Z by (unfold e, f in *; lra). apply Rmult_integral in Z as [Z|Z]; lra. }
  subst q. assert (b = 1) by (unfold e in He; lra). subst b. eauto.
Qed.
Lemma three_points_score mi : leave_one_out_rmse one_column_lasso [[0]; [1]; [2]] [0 + 1; 1 + 1; 2 + 1] 0 mi true = Ok 0.
Proof.
  unfold leave_one_out_rmse, squared_error. cbn [length Nat.eqb negb seq rmapM masked zip zip_with List.filter fst snd map].
  destruct (two_points 1 2 mi) as (p1 & E1); [lra|]. destruct (two_points 0 2 mi) as (p2 & E2); [lra|]. destruct (two_points 0 1 mi) as (p3 & E3); [lra|].
  unfold masked. cbn [length Nat.eqb negb seq rmapM masked zip zip_with List.filter fst snd map]. rewrite E1, E2, E3. cbn [rbind fst snd lookup list_lookup length Nat.eqb].
  f_equal. rewrite <-sqrt_0. f_equal. unfold mean, dot, rsum. simpl. unfold Rsqr. lra.
Qed.
(** Without normalising, the unit of a feature changes what is predicted. *)
Lemma plain_one q mi : (q = 1 \/ q = 2) ->
  fit_lasso_values one_column_lasso [[- q]; [q]] [-1; 1] None (1/2) mi false
  = Ok ([(q - 1/2) / (q * q)], 0 - (q - 1/2) / (q * q) * 0, predict [[- q]; [q]] [(q - 1/2) / (q * q)] (0 - (q - 1/2) / (q * q) * 0)).
Proof.
  intros Hq. unfold fit_lasso_values. cbn [negb]. unfold one_column_lasso. destruct (Rlt_dec (1/2) 0); [lra|]. cbn [length Nat.eqb negb forallb andb weights replicate].
  assert (average [1; 1] (column 0 [[- q]; [q]]) = 0) as -> by (unfold average, column, rsum; simpl; lra).
  assert (average [1; 1] [-1; 1] = 0) as -> by (unfold average, rsum; simpl; lra).
  assert (cross [1; 1] (map (fun v => v - 0) (column 0 [[- q]; [q]])) (map (fun v => v - 0) [-1; 1]) = q) as -> by (unfold cross, column, rsum; simpl; lra).
  assert (cross [1; 1] (map (fun v => v - 0) (column 0 [[- q]; [q]])) (map (fun v => v - 0) (column 0 [[- q]; [q]])) = q * q) as -> by (unfold cross, column, rsum; simpl; lra).
  unfold shrink. destruct (Req_EM_T (q * q) 0) as [Z|_]; [apply Rmult_integral in Z; lra|]. destruct (Rlt_dec (1/2) q); [|lra]. done.
Qed.
Lemma plain_units mi : exists k b p k' b' p',
  fit_lasso_values one_column_lasso [[-1]; [1]] [-1; 1] None (1/2) mi false = Ok (k, b, p)
  /\ fit_lasso_values one_column_lasso (rescaled [2] [0] [[-1]; [1]]) [-1; 1] None (1/2) mi false = Ok (k', b', p') /\ p <> p'.
Proof.
  pose proof (plain_one 1 mi (or_introl eq_refl)) as E1. pose proof (plain_one 2 mi (or_intror eq_refl)) as E2.
  assert (rescaled [2] [0] [[-1]; [1]] = [[-2]; [2]]) as Er.
  { unfold rescaled. cbn [map zip_with]. assert (2 * -1 + 0 = -2) as -> by lra. assert (2 * 1 + 0 = 2) as -> by lra. done. }
  rewrite Er. do 6 eexists. split; [exact E1|]. split; [exact E2|]. unfold predict, dot, rsum. simpl. intros [= H1 H2]. lra.
Qed.
Lemma predictions_ok lasso x y w alpha mi nm k b p :
  fit_lasso_values lasso x y w alpha mi nm = Ok (k, b, p) -> p = map (model_value k b) x.
Proof.
  intros H. unfold fit_lasso_values in H. destruct nm; cbn [negb] in H.
  - apply rbind_ok in H as (o & _ & H). apply rbind_ok in H as (e & _ & H). by injection H as <- <- <-.
  - apply rbind_ok in H as (e & _ & H). by injection H as <- <- <-.
Qed.
Lemma constant_feature_case mi : exists k b p,
  fit_lasso_values one_column_lasso [[3]; [3]] [1; 2] None (1/2) mi true = Ok ([k], b, p) /\ k = 0.
Proof.
  destruct (one_column_fits (1/2) mi true [[3]; [3]] [1; 2]) as (k & b & p & E); [lra|by repeat constructor|done|done|].
  assert (Hs : well_shaped 1 [[3]; [3]] [1; 2] None) by (split; [by repeat constructor|done|done]).
  assert (G : good_weights (weights 2 None)) by (split; [repeat constructor; lra|unfold rsum; simpl; lra]).
  destruct (normalised_fit_optimal 0 one_column_lasso one_column_solver 1 _ _ None (1/2) mi k b p Hs G E) as (Lk & _ & _).
  destruct k as [|q [|? ?]]; try done. exists q, b, p. split; [done|].
  pose proof (constant_column 0 one_column_lasso one_column_solver 1 _ _ None (1/2) mi [q] b p 0 3 q Hs G E ltac:(repeat constructor) eq_refl).
  pose proof (Rabs_pos q). destruct (Req_EM_T q 0) as [|N]; [done|]. pose proof (Rabs_pos_lt q N). lra.
Qed.
Lemma units_case mi : exists k b p,
  fit_lasso_values one_column_lasso [[0]; [1]] [0 + 1; 1 + 1] None 0 mi true = Ok ([k], b, p) /\ k <> 0
  /\ spread (weights 2 None) (column 0 [[0]; [1]]) <> 0.
Proof.
  destruct (two_points 0 1 mi) as (p & E); [lra|]. exists 1, 1, p. split; [done|]. split; [lra|].
  unfold spread. assert (average (weights 2 None) (column 0 [[0]; [1]]) = 1/2) as -> by (unfold average, column, rsum; simpl; lra).
  unfold column, rsum. simpl. unfold Rsqr. intros H. apply sqrt_eq_0 in H; lra.
Qed.

Lemma rsum_sqr_nonneg l : 0 <= rsum (map Rsqr l).
Proof.
  induction l as [|a l IH]; [apply Rle_refl|]. cbn [map]. rewrite rsum_cons.
  pose proof (Rle_0_sqr a). lra.
Qed.
Lemma rsum_sqr_zero l : rsum (map Rsqr l) = 0 -> Forall (fun a => a = 0) l.
Proof.
  induction l as [|a l IH]; [constructor|]. cbn [map]. rewrite rsum_cons. intros H.
  pose proof (Rle_0_sqr a). pose proof (rsum_sqr_nonneg l).
  constructor; [|apply IH; lra]. apply Rsqr_0_uniq. lra.
Qed.
Lemma training_error_lemma y p : length p = length y -> y <> [] ->
  0 <= rmse y p /\
  INR (length y) * (rmse y p * rmse y p) = rsum (zip_with (fun a b => (a - b) * (a - b)) y p) /\
  (rmse y p = 0 <-> p = y).
Proof.
  intros Hl Hy.
  assert (Hn : 0 < INR (length y)).
  { destruct y; [done|]. cbn [length]. apply lt_0_INR. lia. }
  pose (s := rsum (map Rsqr (zip_with Rminus y p))).
  assert (Hs : mean (map Rsqr (zip_with Rminus y p)) = s / INR (length y)).
  { unfold mean. rewrite map_length, zip_with_length_l_eq by done. done. }
  assert (Hs0 : 0 <= s / INR (length y)).
  { apply Rmult_le_pos; [apply rsum_sqr_nonneg|]. left. by apply Rinv_0_lt_compat. }
  assert (Hsq : rmse y p * rmse y p = s / INR (length y)).
  { unfold rmse. rewrite Hs. by apply R_sqrt.sqrt_sqrt. }
  assert (Hz : s = rsum (zip_with (fun a b => (a - b) * (a - b)) y p)).
  { unfold s. clear. revert p. induction y as [|a y IH]; intros [|b p]; try done.
    cbn [zip_with map]. rewrite !rsum_cons, IH. done. }
  split; [apply R_sqrt.sqrt_pos|]. split.
  { rewrite Hsq, <- Hz. field. lra. }
  split.
  - intros E. rewrite E in Hsq.
    assert (s = 0) as H0.
    { apply (Rmult_eq_reg_r (/ INR (length y))); [|apply Rinv_neq_0_compat; lra]. unfold Rdiv in Hsq. rewrite Rmult_0_l in Hsq. by rewrite Rmult_0_l. }
    apply rsum_sqr_zero in H0. clear -Hl H0. revert p Hl H0.
    induction y as [|a y IH]; intros [|b p] Hl H0; try done. cbn in H0. inversion H0; subst.
    f_equal; [by apply eq_sym, Rminus_diag_uniq|]. apply IH; [by injection Hl|done].
  - intros ->. assert (s = 0) as H0.
    { unfold s. clear. induction y as [|a y IH]; [done|]. cbn [zip_with map].
      rewrite rsum_cons, IH. unfold Rsqr. ring. }
    unfold rmse. rewrite Hs, H0. unfold Rdiv. rewrite Rmult_0_l. apply R_sqrt.sqrt_0.
Qed.
