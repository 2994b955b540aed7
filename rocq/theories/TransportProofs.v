(** Proofs about transport properties. *)
From Coq Require Import QArith Lqa Lia.
From Verif Require Import Py PyLemmas TrackerModel TransportModel TransportSpec.
Local Open Scope Q_scope.

Lemma qdiv_some a b : ~ b == 0 -> qdiv a b = Some (a / b).
Proof.
  intros H. unfold qdiv. destruct (Qeq_bool b 0) eqn:E; [|done].
  by apply Qeq_bool_eq in E.
Qed.
Lemma qdiv_zero a b : b == 0 -> qdiv a b = None.
Proof. intros H. unfold qdiv. by rewrite (proj2 (Qeq_bool_iff b 0) H). Qed.
Lemma qlen_pos {A} (l : list A) : l <> [] -> 0 < qlen l.
Proof. destruct l; [done|]. intros _. unfold qlen, Qlt, inject_Z. simpl. lia. Qed.
Lemma qlen_nonneg {A} (l : list A) : 0 <= qlen l.
Proof. unfold qlen, Qle, inject_Z. simpl. lia. Qed.
Lemma qlen_cons {A} (x : A) l : qlen (x :: l) == 1 + qlen l.
Proof.
  unfold qlen. simpl length. rewrite Nat2Z.inj_succ. unfold Z.succ.
  rewrite inject_Z_plus. ring.
Qed.

Lemma square_nonneg (x : Q) : 0 <= x * x.
Proof. nra. Qed.

(** Cauchy-Schwarz: the square of a sum of [n] numbers is at most [n] times the sum of
    their squares. *)
Lemma sum_square_le (l : list Q) :
  qsum l * qsum l <= qlen l * qsum (map (fun x => x * x) l).
Proof.
  induction l as [|x l IH]; [unfold qlen; simpl; nra|].
  rewrite qlen_cons. simpl.
  set (s := qsum l) in *. set (S := qsum (map (fun x => x * x) l)) in *.
  set (n := qlen l) in *.
  assert (Hn : 0 <= n) by apply qlen_nonneg.
  assert (HS : 0 <= S).
  { subst S. clear. induction l as [|y l IH]; simpl; [lra|]. pose proof (square_nonneg y). lra. }
  assert (H2 : 2 * s * x <= S + n * (x * x)).
  { destruct (Qlt_le_dec 0 n) as [Hp|Hz].
    - assert (H : 2 * n * (s * x) <= n * S + n * n * (x * x)).
      { pose proof (square_nonneg (s - n * x)). nra. }
      apply (Qmult_le_l _ _ n Hp). nra.
    - assert (n == 0) as E by lra. rewrite E in *. assert (s * s <= 0) by lra.
      assert (Hs0 : s == 0).
      { destruct (Qlt_le_dec 0 s); [exfalso; nra|]. destruct (Qlt_le_dec s 0); [exfalso; nra|].
        lra. }
      rewrite Hs0. lra. }
  nra.
Qed.

Lemma map_vx_sq l : qsum (map (fun x => x * x) (map vx l)) = qsum (map (fun v => vx v * vx v) l).
Proof. by rewrite map_map. Qed.
Lemma qsum_norm2 l :
  qsum (map norm2 l) == qsum (map (fun x => x * x) (map vx l)) +
    qsum (map (fun x => x * x) (map vy l)) + qsum (map (fun x => x * x) (map vz l)).
Proof. induction l as [|v l IH]; simpl; [ring|]. rewrite IH. unfold norm2. ring. Qed.
Lemma qlen_map {A B} (f : A -> B) l : qlen (map f l) = qlen l.
Proof. unfold qlen. by rewrite map_length. Qed.
Lemma total_le l : norm2 (total l) <= qlen l * qsum (map norm2 l).
Proof.
  rewrite qsum_norm2. unfold norm2, total. simpl.
  pose proof (sum_square_le (map vx l)) as Hx. pose proof (sum_square_le (map vy l)) as Hy.
  pose proof (sum_square_le (map vz l)) as Hz. rewrite qlen_map in Hx, Hy, Hz. lra.
Qed.
Lemma norm2_nonneg v : 0 <= norm2 v.
Proof.
  unfold norm2. pose proof (square_nonneg (vx v)). pose proof (square_nonneg (vy v)).
  pose proof (square_nonneg (vz v)). lra.
Qed.
Lemma qsum_nonneg {A} (f : A -> Q) l : (forall x, 0 <= f x) -> 0 <= qsum (map f l).
Proof. intros H. induction l as [|x l IH]; simpl; [lra|]. specialize (H x). lra. Qed.

Lemma vector_sum_total l :
  vx (vector_sum l) = vx (total l) /\ vy (vector_sum l) = vy (total l) /\
  vz (vector_sum l) = vz (total l).
Proof.
  induction l as [|v l IH]; [done|]. destruct IH as (H1 & H2 & H3).
  simpl in *. by rewrite H1, H2, H3.
Qed.
Lemma len2_total l : len2 (vector_sum l) = norm2 (total l).
Proof.
  destruct (vector_sum_total l) as (H1 & H2 & H3). unfold len2, norm2. by rewrite H1, H2, H3.
Qed.

Section TransportProofs.
  Variable pr : transport_params.
  Variable disp : list vec.
  Variable hops : list nat.
  Variable t : Q.
  Hypothesis Hdim : (0 < dimension pr)%Z.

  Lemma dim_pos : 0 < inject_Z (dimension pr).
  Proof. unfold Qlt, inject_Z. simpl. lia. Qed.

  Lemma defined_iff : diffusivities_defined disp t = true <-> 0 < t /\ disp <> [].
  Proof.
    clear Hdim. unfold diffusivities_defined. rewrite andb_true_iff, negb_true_iff, Nat.ltb_lt.
    rewrite <- not_true_iff_false, Qle_bool_iff. split.
    - intros [H1 H2]. split; [lra|]. destruct disp; [simpl in H2; lia|done].
    - intros [H1 H2]. split; [lra|]. destruct disp; [done|]. simpl. lia.
  Qed.

  Lemma jump_defined : 0 < t -> disp <> [] ->
    jump_value pr disp t =
    Some (norm2 (total disp) / (2 * inject_Z (dimension pr) * t * qlen disp) * angstrom2_to_cm2).
  Proof.
    intros Ht Hd. unfold jump_value. rewrite (proj2 defined_iff) by done.
    rewrite qdiv_some; [done|]. pose proof dim_pos. pose proof (qlen_pos disp Hd).
    assert (0 < 2 * inject_Z (dimension pr) * t * qlen disp); [|lra].
    repeat apply Qmult_lt_0_compat; lra.
  Qed.
  Lemma msd_defined : disp <> [] -> msd_value disp = Some (qsum (map norm2 disp) / qlen disp).
  Proof.
    clear Hdim. intros Hd. unfold msd_value, qmean. rewrite qlen_map. apply qdiv_some.
    pose proof (qlen_pos disp Hd). lra.
  Qed.
  Lemma tracer_defined : 0 < t -> disp <> [] ->
    tracer_value pr disp t =
    Some (qsum (map norm2 disp) / qlen disp / (2 * inject_Z (dimension pr) * t)
            * angstrom2_to_cm2).
  Proof.
    intros Ht Hd. unfold tracer_value. rewrite (proj2 defined_iff) by done.
    rewrite msd_defined by done. rewrite qdiv_some; [done|]. pose proof dim_pos.
    assert (0 < 2 * inject_Z (dimension pr) * t); [|lra].
    repeat apply Qmult_lt_0_compat; lra.
  Qed.

  Lemma not_defined : ~ (0 < t /\ disp <> []) ->
    jump_value pr disp t = None /\ tracer_value pr disp t = None /\
    conductivity_value pr disp t = None /\ havens_value pr disp t = None.
  Proof.
    clear Hdim. intros H.
    assert (E : diffusivities_defined disp t = false).
    { apply not_true_iff_false. by rewrite defined_iff. }
    unfold conductivity_value, havens_value, jump_value, tracer_value. by rewrite E.
  Qed.

  Lemma jump_scale : 0 < t -> disp <> [] ->
    exists j, jump_value pr disp t = Some j /\
      j * (2 * inject_Z (dimension pr) * t * qlen disp) ==
        norm2 (total disp) * angstrom2_to_cm2 /\ 0 <= j /\
      (j == 0 <-> norm2 (total disp) == 0).
  Proof.
    intros Ht Hd. rewrite jump_defined by done. eexists. split; [done|].
    pose proof dim_pos as Hdp. pose proof (qlen_pos disp Hd) as Hl.
    set (K := 2 * inject_Z (dimension pr) * t * qlen disp).
    assert (HK : 0 < K) by (subst K; repeat apply Qmult_lt_0_compat; lra).
    pose proof (norm2_nonneg (total disp)) as HN.
    set (N := norm2 (total disp)) in *. clearbody K N.
    assert (Hq : 0 <= N / K) by (apply Qle_shift_div_l; lra).
    unfold angstrom2_to_cm2. split; [field; lra|]. split; [lra|].
    assert (E : N / K * K == N) by (field; lra).
    split.
    - intros H. assert (N / K == 0) as H0 by lra. rewrite H0 in E. lra.
    - intros ->. field. lra.
  Qed.
  Lemma tracer_scale : 0 < t -> disp <> [] ->
    exists d, tracer_value pr disp t = Some d /\
      d * (2 * inject_Z (dimension pr) * t * qlen disp) ==
        qsum (map norm2 disp) * angstrom2_to_cm2 /\ 0 <= d.
  Proof.
    intros Ht Hd. rewrite tracer_defined by done. eexists. split; [done|].
    pose proof dim_pos as Hdp. pose proof (qlen_pos disp Hd) as Hl.
    pose proof (qsum_nonneg norm2 disp norm2_nonneg) as HN.
    set (N := qsum (map norm2 disp)) in *. set (n := qlen disp) in *. clearbody N n.
    set (D := inject_Z (dimension pr)) in *. clearbody D.
    unfold angstrom2_to_cm2. split; [field; repeat split; lra|].
    assert (0 <= N / n) by (apply Qle_shift_div_l; lra).
    assert (HK : 0 < 2 * D * t) by (repeat apply Qmult_lt_0_compat; lra).
    set (K := 2 * D * t) in *. clearbody K.
    assert (0 <= N / n / K) by (apply Qle_shift_div_l; lra). lra.
  Qed.

  (** The Haven ratio. *)
  Lemma havens_lemma : 0 < t -> disp <> [] ->
    match havens_value pr disp t with
    | Some h =>
        ~ len2 (vector_sum disp) == 0 /\
        h * len2 (vector_sum disp) == qsum (map len2 disp) /\ 1 <= h * qlen disp
    | None => len2 (vector_sum disp) == 0
    end.
  Proof.
    intros Ht Hd. unfold havens_value.
    destruct (jump_scale Ht Hd) as (j & -> & Hj & Hj0 & Hjz).
    destruct (tracer_scale Ht Hd) as (d & -> & Hdd & Hd0).
    rewrite len2_total. change (map len2 disp) with (map norm2 disp).
    destruct (Qeq_bool j 0) eqn:E.
    - apply Qeq_bool_eq in E. by apply Hjz.
    - assert (Hne : ~ j == 0) by (intros H; by rewrite (proj2 (Qeq_bool_iff j 0) H) in E).
      rewrite qdiv_some by done.
      pose proof dim_pos as Hdp. pose proof (qlen_pos disp Hd) as Hl.
      set (K := 2 * inject_Z (dimension pr) * t * qlen disp) in *.
      assert (HK : 0 < K) by (subst K; repeat apply Qmult_lt_0_compat; lra).
      pose proof (total_le disp) as Hcs.
      pose proof (norm2_nonneg (total disp)) as HN.
      set (N := norm2 (total disp)) in *. set (S := qsum (map norm2 disp)) in *.
      set (n := qlen disp) in *. clearbody K N S n.
      assert (HN0 : ~ N == 0) by (intros H; apply Hne; by apply Hjz).
      unfold angstrom2_to_cm2 in *.
      assert (Hh : d / j * N == S).
      { assert (d * N == S * j).
        { apply (Qmult_inj_r _ _ (K * (1 # 10000000000000000))); [lra|]. nra. }
        apply (Qmult_inj_r _ _ j); [done|]. rewrite <- H. field. done. }
      split; [done|]. split; [done|].
      apply (Qmult_le_r _ _ N); [lra|].
      setoid_replace (d / j * n * N) with (n * (d / j * N)) by ring. rewrite Hh. lra.
  Qed.

  Lemma conductivity_lemma : 0 < t -> disp <> [] -> 0 < volume pr -> 0 < temperature pr ->
    exists j s, jump_value pr disp t = Some j /\ conductivity_value pr disp t = Some s /\
      s * (boltzmann_mev_per_k * temperature pr * volume pr) ==
      j * qlen disp * (charge pr * charge pr) * conductivity_factor /\ 0 <= s.
  Proof.
    intros Ht Hd Hv HT. destruct (jump_scale Ht Hd) as (j & Hj & _ & Hj0 & _).
    unfold conductivity_value. rewrite Hj. rewrite qdiv_some by lra.
    pose proof (qlen_pos disp Hd) as Hl. set (n := qlen disp) in *. clearbody n.
    assert (Hk : 0 < boltzmann_mev_per_k * temperature pr)
      by (unfold boltzmann_mev_per_k; lra).
    rewrite qdiv_some by lra. simpl. eexists _, _. split; [done|]. split; [done|].
    set (B := boltzmann_mev_per_k * temperature pr) in *. clearbody B.
    unfold conductivity_factor.
    split; [field; lra|].
    assert (0 <= j * (n / volume pr) * (charge pr * charge pr)).
    { apply Qmult_le_0_compat; [|apply square_nonneg]. apply Qmult_le_0_compat; [done|].
      apply Qle_shift_div_l; lra. }
    assert (0 <= j * (n / volume pr) * (charge pr * charge pr) / B)
      by (apply Qle_shift_div_l; lra).
    lra.
  Qed.
End TransportProofs.

(** ** Time scaling *)
Lemma time_scaling_lemma pr disp t k :
  (0 < dimension pr)%Z -> 0 < k -> 0 < t -> disp <> [] ->
  odiv_by k (jump_value pr disp t) (jump_value pr disp (k * t)) /\
  odiv_by k (tracer_value pr disp t) (tracer_value pr disp (k * t)).
Proof.
  intros Hdim Hk Ht Hd.
  assert (Hkt : 0 < k * t) by (by apply Qmult_lt_0_compat).
  rewrite !jump_defined, !tracer_defined by done. simpl.
  pose proof (dim_pos pr Hdim) as Hdp. pose proof (qlen_pos disp Hd) as Hl.
  set (N := norm2 (total disp)). set (S := qsum (map norm2 disp)).
  set (n := qlen disp) in *. set (D := inject_Z (dimension pr)) in *. clearbody N S n D.
  split; field; repeat split; lra.
Qed.

(** ** Relabelling the ions *)
Lemma qsum_perm l l' : l ≡ₚ l' -> qsum l == qsum l'.
Proof.
  induction 1; simpl; [reflexivity| | |].
  - by rewrite IHPermutation.
  - ring.
  - by rewrite IHPermutation1.
Qed.
Lemma qlen_perm {A} (l l' : list A) : l ≡ₚ l' -> qlen l = qlen l'.
Proof. intros H. unfold qlen. by rewrite (Permutation_length H). Qed.
Lemma qdiv_ext a a' b b' : a == a' -> b == b' -> oeq (qdiv a b) (qdiv a' b').
Proof.
  intros Ha Hb. unfold qdiv.
  destruct (Qeq_bool b 0) eqn:E.
  - apply Qeq_bool_eq in E. rewrite (proj2 (Qeq_bool_iff b' 0)); [done|]. by rewrite <- Hb.
  - destruct (Qeq_bool b' 0) eqn:E'.
    + apply Qeq_bool_eq in E'. rewrite (proj2 (Qeq_bool_iff b 0)) in E; [done|]. by rewrite Hb.
    + simpl. by rewrite Ha, Hb.
Qed.
Lemma oscale_ext a b k : oeq a b -> oeq (oscale a k) (oscale b k).
Proof. destruct a, b; simpl; try done. by intros ->. Qed.
Lemma norm2_total_perm l l' : l ≡ₚ l' -> norm2 (total l) == norm2 (total l').
Proof.
  intros H. unfold norm2, total. simpl.
  rewrite (qsum_perm (map vx l) (map vx l')), (qsum_perm (map vy l) (map vy l')),
    (qsum_perm (map vz l) (map vz l')); [reflexivity|by apply Permutation_map..].
Qed.
Lemma all_finite_perm l l' : l ≡ₚ l' ->
  match all_finite l, all_finite l' with
  | Some xs, Some ys => xs ≡ₚ ys
  | None, None => True
  | _, _ => False
  end.
Proof.
  induction 1 as [|x l l' H IH|x y l|l1 l2 l3 H1 IH1 H2 IH2]; simpl.
  - done.
  - destruct x; [|done]. destruct (all_finite l), (all_finite l'); try done. by constructor.
  - destruct x, y; try done. destruct (all_finite l); [|done]. by constructor.
  - destruct (all_finite l1), (all_finite l2), (all_finite l3); try done. by etransitivity.
Qed.

Section Relabel.
  Variable pr : transport_params.
  Variable t : Q.
  Variable rows rows' : list (vec * nat).
  Hypothesis Hperm : rows ≡ₚ rows'.

  Lemma rel_disp : map fst rows ≡ₚ map fst rows'.
  Proof. by apply Permutation_map. Qed.
  Lemma rel_hops : map snd rows ≡ₚ map snd rows'.
  Proof. by apply Permutation_map. Qed.
  Lemma rel_msd : oeq (msd_value (map fst rows)) (msd_value (map fst rows')).
  Proof.
    pose proof rel_disp as H. unfold msd_value, qmean. rewrite !qlen_map.
    apply qdiv_ext.
    - apply qsum_perm. by apply Permutation_map.
    - pose proof (qlen_perm _ _ Hperm) as E. by rewrite E.
  Qed.
  Lemma rel_defined :
    diffusivities_defined (map fst rows) t = diffusivities_defined (map fst rows') t.
  Proof.
    unfold diffusivities_defined. by rewrite (Permutation_length rel_disp).
  Qed.
  Lemma rel_jump : oeq (jump_value pr (map fst rows) t) (jump_value pr (map fst rows') t).
  Proof.
    unfold jump_value. rewrite rel_defined.
    destruct (diffusivities_defined _ _); [|done].
    apply oscale_ext, qdiv_ext.
    - apply norm2_total_perm, rel_disp.
    - by rewrite (qlen_perm _ _ rel_disp).
  Qed.
  Lemma rel_tracer : oeq (tracer_value pr (map fst rows) t) (tracer_value pr (map fst rows') t).
  Proof.
    unfold tracer_value. rewrite rel_defined.
    destruct (diffusivities_defined _ _); [|done].
    pose proof rel_msd as H.
    destruct (msd_value (map fst rows)), (msd_value (map fst rows')); try done.
    by apply oscale_ext, qdiv_ext.
  Qed.
  Lemma rel_conductivity :
    oeq (conductivity_value pr (map fst rows) t) (conductivity_value pr (map fst rows') t).
  Proof.
    unfold conductivity_value. pose proof rel_jump as H.
    destruct (jump_value pr (map fst rows) t), (jump_value pr (map fst rows') t); try done.
    rewrite (qlen_perm _ _ rel_disp). destruct (qdiv _ (volume pr)); [|done].
    apply oscale_ext, qdiv_ext; [|done]. simpl in H. by rewrite H.
  Qed.
  Lemma rel_havens :
    oeq (havens_value pr (map fst rows) t) (havens_value pr (map fst rows') t).
  Proof.
    unfold havens_value. pose proof rel_jump as H. pose proof rel_tracer as H'.
    destruct (jump_value pr (map fst rows) t) as [j|], (jump_value pr (map fst rows') t) as [j'|];
      try done.
    destruct (tracer_value pr (map fst rows) t), (tracer_value pr (map fst rows') t); try done.
    simpl in H, H'.
    assert (E : Qeq_bool j 0 = Qeq_bool j' 0).
    { apply eq_true_iff_eq. rewrite !Qeq_bool_iff. by rewrite H. }
    rewrite E. destruct (Qeq_bool j' 0); [done|]. by apply qdiv_ext.
  Qed.
  Lemma zip_rows (f : vec -> nat -> option Q) (l : list (vec * nat)) :
    zip_with f (map fst l) (map snd l) = map (fun r => f r.1 r.2) l.
  Proof. induction l as [|[d h] l IH]; [done|]. simpl. by rewrite IH. Qed.
  Lemma rel_correlation :
    oeq (correlation_value pr (map fst rows) (map snd rows))
        (correlation_value pr (map fst rows') (map snd rows')).
  Proof.
    unfold correlation_value. rewrite (Permutation_length rel_hops).
    destruct (Nat.ltb 0 (length (map snd rows'))); [|done].
    rewrite !zip_rows.
    pose proof (all_finite_perm _ _
      (Permutation_map (fun r : vec * nat => correlation_by_ion pr r.1 r.2) Hperm)) as H.
    destruct (all_finite _) as [xs|], (all_finite _) as [ys|]; try done.
    unfold qmean. apply qdiv_ext; [by apply qsum_perm|]. by rewrite (qlen_perm _ _ H).
  Qed.
  Lemma relabel_lemma name :
    oeq (transport_value pr (map fst rows) (map snd rows) t name)
        (transport_value pr (map fst rows') (map snd rows') t name).
  Proof.
    unfold transport_value.
    destruct (String.eqb name "msd"); [apply rel_msd|].
    destruct (String.eqb name "jump_diffusivity"); [apply rel_jump|].
    destruct (String.eqb name "tracer_diffusivity"); [apply rel_tracer|].
    destruct (String.eqb name "conductivity"); [apply rel_conductivity|].
    destruct (String.eqb name "havens_ratio"); [apply rel_havens|].
    destruct (String.eqb name "correlation_factor"); [apply rel_correlation|]. done.
  Qed.
End Relabel.

(** ** Correlation factor *)
Lemma qsum_len2_const a steps :
  Forall (fun v => len2 v == a * a) steps -> qsum (map norm2 steps) == qlen steps * (a * a).
Proof.
  induction 1 as [|v l H _ IH]; [unfold qlen; simpl; ring|].
  rewrite qlen_cons. simpl. rewrite IH. change (norm2 v) with (len2 v). rewrite H. ring.
Qed.
Lemma made_of_hops_bound a d n :
  made_of_hops a d n -> norm2 d <= inject_Z (Z.of_nat n) * inject_Z (Z.of_nat n) * (a * a).
Proof.
  intros (steps & <- & Hf & H1 & H2 & H3).
  assert (E : norm2 d == norm2 (total steps)).
  { rewrite <- len2_total. unfold norm2, len2. by rewrite H1, H2, H3. }
  rewrite E. pose proof (total_le steps) as H. rewrite qsum_len2_const in H by done.
  unfold qlen in H. lra.
Qed.
Lemma made_of_zero a d : made_of_hops a d 0 -> norm2 d == 0.
Proof.
  intros (steps & Hl & _ & H1 & H2 & H3). destruct steps; [|done]. simpl in *.
  unfold norm2. rewrite H1, H2, H3. ring.
Qed.
Lemma made_of_one a d : made_of_hops a d 1 -> norm2 d == a * a.
Proof.
  intros (steps & Hl & Hf & H1 & H2 & H3). destruct steps as [|v [|]]; try done.
  apply Forall_inv in Hf. simpl in *.
  unfold norm2. rewrite H1, H2, H3. rewrite <- Hf. unfold len2. ring.
Qed.

Lemma by_ion_lemma pr d h :
  ~ hop_distance pr == 0 -> made_of_hops (hop_distance pr) d h ->
  exists f, correlation_by_ion pr d h = Some f /\ 0 <= f <= inject_Z (Z.of_nat h) /\
    f * inject_Z (Z.of_nat h) * (hop_distance pr * hop_distance pr) == norm2 d /\
    (h = 1%nat -> f == 1).
Proof.
  intros Ha Hm. unfold correlation_by_ion.
  assert (Haa : 0 < hop_distance pr * hop_distance pr).
  { pose proof (square_nonneg (hop_distance pr)).
    destruct (Qlt_le_dec 0 (hop_distance pr * hop_distance pr)); [done|].
    exfalso. apply Ha. assert (E : hop_distance pr * hop_distance pr == 0) by lra.
    apply Qmult_integral in E. tauto. }
  destruct (Nat.eqb_spec h 0) as [->|Hh].
  - exists 0. split; [done|]. split; [unfold inject_Z, Qle; simpl; lia|].
    split; [|done]. rewrite (made_of_zero _ _ Hm). ring.
  - pose proof (made_of_hops_bound _ _ _ Hm) as Hb. pose proof (norm2_nonneg d) as Hn.
    set (a2 := hop_distance pr * hop_distance pr) in *.
    assert (Hhp : 0 < inject_Z (Z.of_nat h)) by (unfold Qlt, inject_Z; simpl; lia).
    set (H := inject_Z (Z.of_nat h)) in *.
    assert (HK : 0 < H * a2) by (by apply Qmult_lt_0_compat).
    rewrite qdiv_some by lra. eexists. split; [done|].
    split; [split|split].
    + apply Qle_shift_div_l; lra.
    + apply Qle_shift_div_r; lra.
    + field. lra.
    + intros E. subst H. rewrite E in *.
      rewrite (made_of_one _ _ Hm).
      fold a2. field. lra.
Qed.

Lemma all_finite_ok (l : list (option Q)) (P : Q -> Prop) :
  Forall (fun o => exists x, o = Some x /\ P x) l ->
  exists xs, all_finite l = Some xs /\ length xs = length l /\ Forall P xs.
Proof.
  induction 1 as [|o l (x & -> & Hx) _ IH]; [by exists []|].
  destruct IH as (xs & E & Hl & Hf). exists (x :: xs). simpl. rewrite E.
  split; [done|]. split; [simpl; by rewrite Hl|]. by constructor.
Qed.
Lemma qsum_bounds (xs : list Q) lo hi :
  Forall (fun x => lo <= x <= hi) xs -> qlen xs * lo <= qsum xs <= qlen xs * hi.
Proof.
  induction 1 as [|x l [H1 H2] _ IH]; [unfold qlen; simpl; split; ring_simplify; lra|].
  rewrite qlen_cons. simpl. nra.
Qed.
Lemma mean_bounds (xs : list Q) lo hi :
  xs <> [] -> Forall (fun x => lo <= x <= hi) xs ->
  exists m, qmean xs = Some m /\ lo <= m <= hi.
Proof.
  intros Hne H. pose proof (qsum_bounds _ _ _ H) as [H1 H2]. pose proof (qlen_pos _ Hne) as Hl.
  unfold qmean. rewrite qdiv_some by lra. eexists. split; [done|].
  split; [apply Qle_shift_div_l|apply Qle_shift_div_r]; lra.
Qed.

Lemma correlation_lemma pr disp hops lo hi :
  ~ hop_distance pr == 0 -> hops <> [] ->
  Forall2 (made_of_hops (hop_distance pr)) disp hops ->
  Forall2 (fun d h => forall f, correlation_by_ion pr d h = Some f -> lo <= f <= hi) disp hops ->
  exists c, correlation_value pr disp hops = Some c /\ lo <= c <= hi.
Proof.
  intros Ha Hne Hm Hb. unfold correlation_value.
  assert (Hl : Nat.ltb 0 (length hops) = true).
  { apply Nat.ltb_lt. destruct hops; [done|]. simpl. lia. }
  rewrite Hl.
  destruct (all_finite_ok (zip_with (correlation_by_ion pr) disp hops) (fun x => lo <= x <= hi))
    as (xs & -> & Hlen & Hf).
  { clear Hne Hl. induction Hm as [|d h ds hs H1 _ IH]; [constructor|].
    apply Forall2_cons in Hb as [Hb1 Hb2]. simpl. constructor; [|by apply IH].
    destruct (by_ion_lemma pr d h Ha H1) as (f & Hf & _). exists f. split; [done|].
    by apply Hb1. }
  apply mean_bounds; [|done].
  intros ->. destruct Hm; [done|]. done.
Qed.
Lemma correlation_range_lemma pr disp hops m :
  ~ hop_distance pr == 0 -> hops <> [] ->
  Forall2 (made_of_hops (hop_distance pr)) disp hops ->
  Forall (fun h => (h <= m)%nat) hops ->
  exists c, correlation_value pr disp hops = Some c /\ 0 <= c <= inject_Z (Z.of_nat m).
Proof.
  intros Ha Hne Hm Hmax. eapply correlation_lemma; try done.
  clear Hne. induction Hm as [|d h ds hs H1 _ IH]; [constructor|].
  apply Forall_cons in Hmax as [Hh Hmax]. constructor; [|by apply IH].
  intros f Hf. destruct (by_ion_lemma pr d h Ha H1) as (f' & Hf' & [H2 H3] & _).
  rewrite Hf in Hf'. injection Hf' as <-.
  assert (inject_Z (Z.of_nat h) <= inject_Z (Z.of_nat m)) by (rewrite <- Zle_Qle; lia). lra.
Qed.
Lemma correlation_single_lemma pr disp hops :
  ~ hop_distance pr == 0 -> hops <> [] ->
  Forall2 (made_of_hops (hop_distance pr)) disp hops ->
  Forall (fun h => h = 1%nat) hops ->
  exists c, correlation_value pr disp hops = Some c /\ c == 1.
Proof.
  intros Ha Hne Hm Hone.
  destruct (correlation_lemma pr disp hops 1 1) as (c & Hc & H1 & H2); try done.
  - clear Hne. induction Hm as [|d h ds hs H1 _ IH]; [constructor|].
    apply Forall_cons in Hone as [Hh Hone]. constructor; [|by apply IH].
    intros f Hf. destruct (by_ion_lemma pr d h Ha H1) as (f' & Hf' & _ & _ & H3).
    rewrite Hf in Hf'. injection Hf' as <-. specialize (H3 Hh). lra.
  - exists c. split; [done|]. lra.
Qed.

(** ** Summary lemmas *)
Lemma einstein_lemma pr disp t :
  (0 < dimension pr)%Z -> 0 < t -> disp <> [] ->
  exists m dt dj,
    msd_value disp = Some m /\ tracer_value pr disp t = Some dt /\
    jump_value pr disp t = Some dj /\
    m * qlen disp == qsum (map len2 disp) /\
    dt * (2 * inject_Z (dimension pr) * t) == m * (1 # 10000000000000000) /\
    dj * (2 * inject_Z (dimension pr) * t * qlen disp) ==
      len2 (vector_sum disp) * (1 # 10000000000000000) /\
    0 <= m /\ 0 <= dt /\ 0 <= dj.
Proof.
  intros Hdim Ht Hd.
  destruct (jump_scale pr disp t Hdim Ht Hd) as (j & Hj & H1 & H2 & _).
  destruct (tracer_scale pr disp t Hdim Ht Hd) as (d & Hdd & H3 & H4).
  eexists _, d, j. split; [by apply msd_defined|]. split; [done|]. split; [done|].
  rewrite len2_total. change (map len2 disp) with (map norm2 disp).
  pose proof (qlen_pos disp Hd) as Hl. pose proof (qsum_nonneg norm2 disp norm2_nonneg) as HN.
  pose proof (dim_pos pr Hdim) as Hdp.
  set (N := qsum (map norm2 disp)) in *. set (n := qlen disp) in *.
  set (D := inject_Z (dimension pr)) in *. clearbody N n D.
  split; [field; lra|]. split.
  - apply (Qmult_inj_r _ _ n); [lra|].
    setoid_replace (d * (2 * D * t) * n) with (d * (2 * D * t * n)) by ring. rewrite H3.
    unfold angstrom2_to_cm2. field. lra.
  - split; [exact H1|]. split; [apply Qle_shift_div_l; lra|]. by split.
Qed.

Lemma single_ion_lemma pr d t :
  (0 < dimension pr)%Z -> 0 < t -> ~ len2 d == 0 ->
  exists h, havens_value pr [d] t = Some h /\ h == 1.
Proof.
  intros Hdim Ht Hd. pose proof (havens_lemma pr [d] t Hdim Ht ltac:(done)) as H.
  assert (E : len2 (vector_sum [d]) == len2 d) by (unfold len2; simpl; ring).
  assert (E' : qsum (map len2 [d]) == len2 d) by (simpl; ring).
  destruct (havens_value pr [d] t) as [h|].
  - exists h. split; [done|]. destruct H as (_ & H & _). rewrite E, E' in H.
    apply (Qmult_inj_r _ _ (len2 d)); [done|]. rewrite H. ring.
  - by rewrite E in H.
Qed.

Lemma transport_defined_lemma pr disp t :
  (0 < dimension pr)%Z -> 0 < volume pr -> 0 < temperature pr ->
  (msd_value disp <> None <-> disp <> []) /\
  (jump_value pr disp t <> None <-> 0 < t /\ disp <> []) /\
  (tracer_value pr disp t <> None <-> 0 < t /\ disp <> []) /\
  (conductivity_value pr disp t <> None <-> 0 < t /\ disp <> []) /\
  (havens_value pr disp t <> None <->
     0 < t /\ disp <> [] /\ ~ len2 (vector_sum disp) == 0).
Proof.
  intros Hdim Hv HT.
  assert (Hm : msd_value disp <> None <-> disp <> []).
  { split.
    - intros H ->. apply H. done.
    - intros H. by rewrite msd_defined. }
  split; [exact Hm|].
  assert (Hdec : (0 < t /\ disp <> []) \/ ~ (0 < t /\ disp <> [])).
  { destruct (Qlt_le_dec 0 t) as [Ht|Ht]; [|right; intros [H _]; lra].
    destruct disp as [|d l]; [right; by intros [_ H]|by left]. }
  destruct Hdec as [[Ht Hd]|Hnot].
  - destruct (jump_scale pr disp t Hdim Ht Hd) as (j & -> & _).
    destruct (tracer_scale pr disp t Hdim Ht Hd) as (d & -> & _).
    destruct (conductivity_lemma pr disp t Hdim Ht Hd Hv HT) as (j' & s & _ & -> & _).
    pose proof (havens_lemma pr disp t Hdim Ht Hd) as Hh.
    do 3 (split; [by split|]). destruct (havens_value pr disp t).
    + split; [|done]. intros _. split; [done|]. split; [done|]. apply Hh.
    + split; [done|]. intros (_ & _ & H). by apply H in Hh.
  - destruct (not_defined pr disp t Hnot) as (-> & -> & -> & ->).
    do 3 (split; [split; [done|by intros H]|]).
    split; [done|]. intros (H1 & H2 & _). by exfalso; apply Hnot.
Qed.
