(** C104: simulations that share a model object. *)
From Coq Require Import Reals Lra QArith.
From Verif Require Import Py ActiveSiteModel EventModel StateModel HopModel KmcModel
  CompositeModel LocalBarrierModel SiteEnergyModel SiteEnergyProps
  SharedModel SharedSpec SharedProofs SharedCase.
Local Open Scope nat_scope.

(** C104.  Objects that share a model which remembers nothing do not disturb each other:
    whatever is made and advanced in whatever order, every object ends with the state,
    clock and rates it has when its own steps are made alone with a model object of its
    own. *)
Theorem forgetful_model_can_be_shared :
  forall T (add : T -> T -> T) M reinitialize model_apply compute_probability select
         (m m0 : M) (l : list (use T)) s i k,
  forgetful reinitialize model_apply compute_probability ->
  performs add reinitialize model_apply compute_probability select (m, []) l = Ok s ->
  snd s !! i = Some k ->
  exists m1 k1,
    performs add reinitialize model_apply compute_probability select (m0, []) (own i 0 l)
      = Ok (m1, [k1]) /\ same_but_model k k1.
Proof.
  intros T add M re ap cp sel m m0 l s i k HF H Hk.
  exact (alone_lemma add re ap cp sel HF i l (m, []) s m0 k H (Nat.le_0_l i) Hk).
Qed.
Print Assumptions forgetful_model_can_be_shared.

(** C104.  An object alone, with a model object of its own, is an engine of KmcModel: its
    making is [construct], its steps are those of the run loop, and it fails where they
    fail. *)
Theorem object_alone_is_an_engine :
  forall T (add : T -> T -> T) M reinitialize model_apply compute_probability select
         (m : M) lib lk st n (draws : nat -> T * T),
  performs add reinitialize model_apply compute_probability select (m, [])
    (Make lib lk st :: map (fun j => Step 0 (draws j)) (seq 0 n)) =
  (let* k := construct add (reinitialize m) compute_probability lib lk st in
   let* kr := produce add model_apply compute_probability select
                (fun (_ : unit) _ _ => Ok tt) (fun _ _ => Ok tt) n 0 draws k tt in
   Ok (k_model (fst kr), [fst kr])).
Proof.
  intros T add M re ap cp sel. exact (object_alone_lemma add re ap cp sel).
Qed.
Print Assumptions object_alone_is_an_engine.

(** The local barrier model is one. *)
Theorem local_barrier_model_is_forgetful : forall m lk v temp,
  forgetful (fun _ : unit => lb_initialize) lb_apply (lb_rate m lk v temp).
Proof. intros m lk v temp. split; [done|]. split; intros; [by exists tt|by eexists]. Qed.
Print Assumptions local_barrier_model_is_forgetful.

(** The composite model without an external site-energy model is one. *)
Theorem composite_without_external_is_forgetful :
  forall E ext_initialize (ext_apply : E -> event -> list Z -> result E) ext_compute c lk v temp,
  c_site c <> ExternalSite ->
  forgetful (composite_initialize ext_initialize c) (composite_apply ext_apply c)
    (compute_probability ext_compute c lk v temp).
Proof.
  intros E ei ea ec c lk v temp Hc. split; [|split].
  - intros m m' occ e. unfold compute_probability, site_energy_difference.
    by destruct (c_site c).
  - intros m occ lib. unfold composite_initialize. destruct (c_site c); try done; by eexists.
  - intros m e occ. unfold composite_apply. destruct (c_site c); try done; by eexists.
Qed.
Print Assumptions composite_without_external_is_forgetful.

(** C104.  A model that initialisation puts into a state of its own can be used for one
    simulation after another: the last object, with steps of no other object after it was
    made, is what it would be with a model object not used before, the model included. *)
Theorem resetting_model_can_be_used_again :
  forall T (add : T -> T -> T) M reinitialize model_apply compute_probability select
         before lib lk st us (m0 m : M) s,
  resets reinitialize ->
  performs add reinitialize model_apply compute_probability select (m0, [])
    (before ++ Make lib lk st :: map (Step (length (List.filter
      (fun a => match a with Make _ _ _ => true | _ => false end) before))) us) = Ok s ->
  exists m' k', last (snd s) = Some k' /\
    performs add reinitialize model_apply compute_probability select (m, [])
      (Make lib lk st :: map (Step 0) us) = Ok (m', [k']) /\ m' = fst s.
Proof.
  intros T add M re ap cp sel before lib lk st us m0 m s HR H.
  exact (in_turn_lemma add re ap cp sel (fun _ => True) before lib lk st us m0 m s
    (fun _ _ _ _ _ _ => I) (fun _ _ _ _ _ _ => I) (fun a b o l _ _ => HR a b o l) I I H).
Qed.
Print Assumptions resetting_model_can_be_used_again.

(** C104.  A site-energy model without a function that is told of accepted events can be
    used for one simulation after another. *)
Theorem site_energy_model_can_be_used_again :
  forall text parse_int parse_float Rt compute_fn comp cfg given lk v temp select
         before lib lk' st us (m0 m : cache Rt) s,
  sc_runtime m = sc_runtime m0 ->
  let reinitialize m := composite_initialize
        (se_reinitialize text parse_int parse_float cfg given m) comp m0 in
  let run m := performs Rplus reinitialize
        (composite_apply (se_apply text parse_int parse_float None) comp)
        (compute_probability (se_compute compute_fn cfg) comp lk v temp) select (m, []) in
  run m0 (before ++ Make lib lk' st :: map (Step (length (List.filter
      (fun a => match a with Make _ _ _ => true | _ => false end) before))) us) = Ok s ->
  exists m' k', last (snd s) = Some k' /\
    run m (Make lib lk' st :: map (Step 0) us) = Ok (m', [k']) /\ m' = fst s.
Proof.
  intros text pi pf Rt cf comp cfg given lk v temp sel before lib lk' st us m0 m s Hm re run H.
  eapply (in_turn_lemma Rplus re _ _ sel (fun x => sc_runtime x = sc_runtime m0));
    [| | |reflexivity|exact Hm|exact H].
  - intros x occ l x' Hx. subst re. cbn beta. unfold composite_initialize.
    destruct (c_site comp); [by intros [= <-]|by intros [= <-]|].
    intros E. rewrite <- Hx. exact (reinit_runtime _ _ _ _ _ _ _ _ _ E).
  - intros x e occ x' Hx. unfold composite_apply.
    destruct (c_site comp); [by intros [= <-]|by intros [= <-]|].
    intros E. rewrite <- Hx. exact (apply_runtime _ _ _ _ _ _ _ E).
  - intros x x' occ l Hx Hx'. subst re. cbn beta. unfold composite_initialize, se_reinitialize.
    by rewrite Hx, Hx'.
Qed.
Print Assumptions site_energy_model_can_be_used_again.


(** C104, refuted in general: two objects on one external site-energy model disturb each
    other.  The second object is made between the making and the step of the first; the
    first then has another rate than it has alone. *)
Theorem external_model_can_be_shared_refuted :
  exists g lib (stA stB : state R) k k1 s m1,
    z_run None g z_none [Make lib None stA; Make lib None stB; Step 0 z_u] = Ok s /\
    snd s !! 0 = Some k /\
    z_run None g z_none [Make lib None stA; Step 0 z_u] = Ok (m1, [k1]) /\
    k_state k = k_state k1 /\ k_prob k <> k_prob k1.
Proof.
  exists z_third, z_lib, (z_state [0; 1; 0]%Z), (z_state [0; 1; 1]%Z). do 4 eexists.
  split. { unfold z_run, performs, z_none. cbn [rfold]. rewrite z_make. cbn [rbind].
    rewrite z_make. cbn [rbind]. erewrite (z_step false _ _ _ _ _ 0%Z _ 0) by reflexivity. reflexivity. }
  split; [reflexivity|].
  split. { unfold z_run, performs, z_none. cbn [rfold]. rewrite z_make. cbn [rbind].
    erewrite (z_step false _ _ _ _ _ 0%Z _ 0) by reflexivity. reflexivity. }
  split; [reflexivity|]. cbn [k_prob z_engine]. intros [= H%z_value_inj].
  cbn in H. lra.
Qed.
Print Assumptions external_model_can_be_shared_refuted.

(** C104, refuted in general: a model whose evaluator is told of accepted events cannot be
    used again.  The evaluator is not reset, so the next object starts with other rates
    than with a new model object. *)
Theorem told_model_can_be_used_again_refuted :
  exists g lib (stA stB : state R) k k1 s m1,
    z_run (Some z_count) g z_none [Make lib None stA; Step 0 z_u; Make lib None stB] = Ok s /\
    last (snd s) = Some k /\
    z_run (Some z_count) g z_none [Make lib None stB] = Ok (m1, [k1]) /\
    k_state k = k_state k1 /\ k_prob k <> k_prob k1.
Proof.
  exists z_counted, z_lib, (z_state [0; 1; 0]%Z), (z_state [0; 1; 0]%Z). do 4 eexists.
  split. { unfold z_run, performs, z_none. cbn [rfold]. rewrite z_make. cbn [rbind].
    erewrite (z_step true _ _ _ _ _ 0%Z _ 0) by reflexivity.
    cbn [rbind]. rewrite z_make. reflexivity. }
  split; [reflexivity|].
  split. { unfold z_run, performs, z_none. cbn [rfold]. rewrite z_make. reflexivity. }
  split; [reflexivity|]. cbn [k_prob z_engine]. intros [= H%z_value_inj].
  unfold z_counted in H. cbn in H. lra.
Qed.
Print Assumptions told_model_can_be_used_again_refuted.

(** The same system meets the hypotheses of [site_energy_model_can_be_used_again]: a first
    object is made and advanced, then a second. *)
Example external_model_used_again : exists s,
  z_run None z_third z_none
    ([Make z_lib None (z_state [0; 1; 1]%Z); Step 0 z_u] ++
     Make z_lib None (z_state [0; 1; 0]%Z) :: map (Step (length (List.filter
       (fun a : use R => match a with Make _ _ _ => true | _ => false end)
       [Make z_lib None (z_state [0; 1; 1]%Z); Step 0 z_u]))) [z_u]) = Ok s /\
  k_state <$> snd s = [State [1; 0; 1]%Z (0 + 1)%R 1%Z; State [1; 0; 0]%Z (0 + 1)%R 1%Z] /\
  k_prob <$> snd s = [[z_value 1]; [z_value 0]].
Proof.
  eexists. split.
  { unfold z_run, performs, z_none. cbn [rfold app map length List.filter]. rewrite z_make. cbn [rbind].
    erewrite (z_step false _ _ _ _ _ 1%Z _ 0) by reflexivity.
    cbn [rbind]. rewrite z_make. cbn [rbind].
    erewrite (z_step false _ _ _ _ _ 0%Z _ 1) by reflexivity.
    reflexivity. }
  by split.
Qed.

(** Two objects on a model that remembers nothing, advanced in turn; the rate depends on the
    first site. *)
Definition w_apply (_ : unit) (_ : event) (_ : list Z) : result unit := Ok tt.
Definition w_init (_ : unit) (_ : list Z) (_ : event_lib) : result unit := Ok tt.
Definition w_rate (_ : unit) (occ : list Z) (e : event) : result Q :=
  let* f := py_get occ 0 in Ok (if (f =? 0)%Z then 2%Q else 1%Q).
Definition w_select (_ : list Q) (_ dt : Q) : result (nat * Q) := Ok (0, dt).
Definition w_uses : list (use Q) :=
  [Make z_lib None (State [0; 1; 0]%Z 0%Q 0%Z); Step 0 (0, 3)%Q;
   Make z_lib None (State [1; 0; 1]%Z 0%Q 0%Z); Step 1 (0, 5)%Q; Step 0 (0, 7)%Q].
Example two_objects_in_turn :
  forgetful w_init w_apply w_rate /\
  exists m k0 k1,
    performs Qplus w_init w_apply w_rate w_select (tt, []) w_uses = Ok (m, [k0; k1]) /\
    occupations (k_state k0) = [0; 1; 0]%Z /\ step (k_state k0) = 2%Z /\
    occupations (k_state k1) = [0; 1; 1]%Z /\ step (k_state k1) = 1%Z /\
    own 0 0 w_uses = [Make z_lib None (State [0; 1; 0]%Z 0%Q 0%Z); Step 0 (0, 3)%Q; Step 0 (0, 7)%Q].
Proof.
  split; [split; [done|]; split; intros; by exists tt|].
  do 3 eexists. split; [vm_compute; reflexivity|]. by vm_compute.
Qed.
