(** The system of the examples and refutations of SharedProps.v, with what its model and
    its rates are after each step. *)
From Coq Require Import Reals Lra QArith.
From Verif Require Import Py PyLemmas Json ActiveSiteModel EventModel StateModel HopModel KmcModel
  LceModel CompositeModel CompositeSpec CompositeProofs SiteEnergyModel SiteEnergyProps SharedModel.
Local Open Scope nat_scope.

(** One hop between the first two of three sites; the external order is that of the
    active sites. *)
Definition z_lib : event_lib :=
  match generate_event_dependencies (add_event empty_lib x_e1) with
  | Ok l => l | Err _ => empty_lib end.
Definition z_tables : tables := Tables [0; 1; 2]%Z None None.
Definition z_none : cache nat := Cache z_tables DInt [] 0.
Definition z_select (_ : list R) (_ _ : R) : result (nat * R) := Ok (0, 1%R).
Definition z_u : R * R := (0, 0)%R.
Definition z_energy (g : nat -> list ext_value -> R) : cache nat -> list Z -> event -> result R :=
  se_compute (fun rt a _ _ _ => Ok (g rt a)) y_cfg.
Definition z_rate (g : nat -> list ext_value -> R) : cache nat -> list Z -> event -> result R :=
  compute_probability (z_energy g) x_comp None 1%R 300%R.
Definition z_init (m : cache nat) : list Z -> event_lib -> result (cache nat) :=
  composite_initialize (se_reinitialize x_text x_int x_float y_cfg None m) x_comp z_none.
Definition z_apply apply_fn : cache nat -> event -> list Z -> result (cache nat) :=
  composite_apply (se_apply x_text x_int x_float apply_fn) x_comp.
(** The calls [l] on objects that share the model object [m]; [g] is the energy function of
    the caller and [apply_fn] its function that is told of accepted events. *)
Definition z_run apply_fn g (m : cache nat) (l : list (use R)) : result (cache nat * list (kmc R (cache nat))) :=
  performs Rplus z_init (z_apply apply_fn) (z_rate g) z_select (m, []) l.
Definition z_value (y : R) : R := (1 * exp (- (100 + y * 1 / 2) / (boltzmann_constant * 300)))%R.

Lemma z_rate_value g a rt occ x :
  occ = [0; 1; x]%Z \/ occ = [1; 0; x]%Z ->
  z_rate g (Cache z_tables DInt a rt) occ x_e1 = Ok (z_value (g rt a)).
Proof.
  intros Ho. unfold z_value, z_rate.
  assert (HdE : z_energy g (Cache z_tables DInt a rt) occ x_e1 = Ok (g rt a * 1)%R)
    by (by destruct Ho as [->| ->]).
  assert (Hk : Rcompute x_kra occ x_e1 = Ok 100%R).
  { unfold Rcompute; destruct Ho as [->| ->]; cbv -[Rplus Rmult IZR Ropp]; f_equal; lra. }
  destruct Ho as [->| ->].
  - by rewrite (rate_total_lemma _ x_comp None 1 300 _ _ _ (0, 1, 1, 0)%Z 1%Z x_kra 100 (g rt a * 1)%R);
      [|done|done|done|exact Hk|exact HdE|lra].
  - by rewrite (rate_total_lemma _ x_comp None 1 300 _ _ _ (0, 1, 1, 0)%Z (-1)%Z x_kra 100 (g rt a * 1)%R);
      [|done|done|done|exact Hk|exact HdE|lra].
Qed.

Lemma z_value_inj x y : z_value x = z_value y -> x = y.
Proof.
  unfold z_value. intros H.
  assert (He : (exp (- (100 + x * 1 / 2) / (boltzmann_constant * 300)) =
                exp (- (100 + y * 1 / 2) / (boltzmann_constant * 300)))%R) by lra.
  apply exp_inv in He. pose proof (k_B_pos : (0 < boltzmann_constant)%R).
  assert ((- (100 + x * 1 / 2) / (boltzmann_constant * 300) * (boltzmann_constant * 300) =
           - (100 + y * 1 / 2) / (boltzmann_constant * 300) * (boltzmann_constant * 300))%R)
    as Hx by (by rewrite He).
  field_simplify in Hx; lra.
Qed.

Definition z_state (occ : list Z) : state R := State occ 0%R 0%Z.
Definition z_engine (st : state R) (m : cache nat) (y : R) : kmc R (cache nat) :=
  Kmc z_lib None st m [z_value y] [z_value y].

Lemma z_make ap g a rt x ks :
  let m := Cache z_tables DInt [EInt 0; EInt 1; EInt x] rt in
  perform Rplus z_init (z_apply ap) (z_rate g) z_select
    (Cache z_tables DInt a rt, ks) (Make z_lib None (z_state [0; 1; x]%Z)) =
  Ok (m, (ks ++ [z_engine (z_state [0; 1; x]%Z) m (g rt [EInt 0; EInt 1; EInt x])])%list).
Proof.
  cbn [perform fst snd]. unfold construct. change (events z_lib) with [x_e1].
  change (z_init (Cache z_tables DInt a rt) (occupations (z_state [0; 1; x]%Z)) z_lib)
    with (Ok (Cache z_tables DInt [EInt 0; EInt 1; EInt x] rt)).
  cbn [rbind rmapM occupations z_state]. rewrite (z_rate_value g _ rt _ x) by (by left). reflexivity.
Qed.

(** A function of the caller that counts the accepted events it is told of. *)
Definition z_count (rt : nat) (_ : list ext_value) (_ : list change) (_ : event) (_ : list Z)
  : result nat := Ok (S rt).
Definition z_told (b : bool) := if b then Some z_count else None.
Lemma z_step (b : bool) g b0 b1 y rt x (ks : list (kmc R (cache nat))) i m0 y0 :
  ks !! i = Some (z_engine (z_state [0; 1; x]%Z) m0 y0) ->
  let rt' := if b then S rt else rt in
  let m := Cache z_tables DInt [EInt 1; EInt 0; EInt y] rt' in
  perform Rplus z_init (z_apply (z_told b)) (z_rate g) z_select
    (Cache z_tables DInt [EInt b0; EInt b1; EInt y] rt, ks) (Step i z_u) =
  Ok (m, <[i := z_engine (State [1; 0; x]%Z (0 + 1)%R 1%Z) m (g rt' [EInt 1; EInt 0; EInt y])]> ks).
Proof.
  intros Hk. cbn [perform fst snd]. rewrite Hk. cbv zeta. unfold propose.
  cbn [z_select rbind fst snd with_model z_engine k_lib k_cum].
  change (py_get (events z_lib) (Z.of_nat 0)) with (Ok x_e1). cbn [rbind fst snd].
  unfold update. cbn [k_state k_model k_lib k_prob with_model z_engine].
  change (apply_event Rplus (z_state [0; 1; x]%Z) x_e1 1%R)
    with (Ok (State [1; 0; x]%Z (0 + 1)%R 1%Z)). cbn [rbind occupations].
  assert (Ha : z_apply (z_told b) (Cache z_tables DInt [EInt b0; EInt b1; EInt y] rt) x_e1 [1; 0; x]%Z
          = Ok (Cache z_tables DInt [EInt 1; EInt 0; EInt y] (if b then S rt else rt)))
    by (by destruct b).
  rewrite Ha. cbn [rbind]. change (list_index (events z_lib) x_e1) with (Ok 0). cbn [rbind].
  change (get_dependent_events z_lib 0) with [0]%nat. cbn [rfold]. unfold refresh.
  change (py_get (events z_lib) (Z.of_nat 0)) with (Ok x_e1).
  cbn [rbind]. rewrite (z_rate_value g _ _ _ x) by (by right). reflexivity.
Qed.

(** The energy that reads the third site, and the energy that reads the evaluator. *)
Definition z_third (_ : nat) (a : list ext_value) : R :=
  match a !! 2 with Some (EInt 0%Z) => 0%R | _ => 1%R end.
Definition z_counted (rt : nat) (_ : list ext_value) : R := INR rt.
