(** Properties C18-C22: the tracker follows the ions. *)
From Coq Require Import Reals Lra QArith.
From Verif Require Import Py Json ActiveSiteModel EventModel EventSpec EventProofs StateModel
  HopModel KmcModel KmcSpec ProposeModel LceModel CompositeModel CompositeSpec CompositeProofs
  TrackerModel TrackerSpec TrackerProofs.
Local Open Scope nat_scope.

(* ---------------- C18 ---------------- *)
(** [simulate] is [KMC.run] with any number of passes and any pass length, after any
    history of accepted events: the tracked sites are the sites holding the mobile
    species, each once; their number is that of the start of production; the next
    update of the tracker does not raise. *)
Theorem tracked_ions_are_the_mobile_ions :
  forall E S ext_initialize ext_apply (ext_compute : E -> list Z -> event -> result R)
         (sample : S -> list vec -> list nat -> state R -> result S)
         c lo lk v t init lib st k0 str mobile s0 hist k eqp kp pl draws k' r',
  lce_only c -> (0 < v)%R ->
  exact_dependencies (events lib) (get_dependent_events lib) ->
  indices_in_range (events lib) (length (occupations st)) ->
  codes_in_use lo (pass_length (symbols str) mobile) (events lib) lk ->
  events_consistent lk (events lib) -> (-1)%Z ∉ occupations st ->
  length (occupations st) <= length (frac_coords str) ->
  construct Rplus (composite_initialize ext_initialize c init)
    (compute_probability ext_compute c lo v t) lib lo st = Ok k0 ->
  updates Rplus (composite_apply ext_apply c)
    (compute_probability ext_compute c lo v t) k0 hist = Ok k ->
  (forall i, 0 <= fst (draws i) < 1)%R ->
  simulate ext_apply ext_compute sample c lo v t str mobile s0 eqp kp pl draws k = Ok (k', r') ->
  exactly_mobile lk (occupations (k_state k')) (t_locations r') /\
  (forall u1 u2 e dt k'', (0 <= u1 < 1)%R -> propose Rselect k' u1 u2 = Ok (e, dt) ->
     KmcModel.update Rplus (composite_apply ext_apply c)
       (compute_probability ext_compute c lo v t) k' e dt = Ok k'' ->
     exists r'', update str r' (occupations (k_state k')) e = Ok r'').
Proof.
  intros. edestruct (simulation_lemma ext_initialize ext_apply ext_compute sample c lo lk v t init
    lib st k0 str mobile s0) as (k1 & eq & prod & r & Hall); [eassumption..|].
  destruct Hall as (_ & _ & _ & _ & _ & _ & Hex & _ & _ & _ & _ & _ & Hnext). by split.
Qed.
Print Assumptions tracked_ions_are_the_mobile_ions.

Theorem tracker_creation_succeeds :
  forall E S ext_initialize ext_apply (ext_compute : E -> list Z -> event -> result R)
         c lo lk v t init lib st k0 str mobile (s0 : S) hist k,
  length (occupations st) <= length (frac_coords str) ->
  codes_in_use lo (pass_length (symbols str) mobile) (events lib) lk ->
  construct Rplus (composite_initialize ext_initialize c init)
    (compute_probability ext_compute c lo v t) lib lo st = Ok k0 ->
  updates Rplus (composite_apply ext_apply c)
    (compute_probability ext_compute c lo v t) k0 hist = Ok k ->
  length (mobile_state_by_site lk) <= length (occupations st) ->
  exists tr, create str mobile s0 (occupations (k_state k)) (k_lookup k) = Ok tr.
Proof.
  intros. by eapply (creation_lemma ext_initialize ext_apply ext_compute c lo lk v t init lib st k0).
Qed.
Print Assumptions tracker_creation_succeeds.

(* ---------------- C20, C22 ---------------- *)
(** The production part of the run, from its first state: every ion's row ends where
    its journey ends, counts the hops of its journey, and stores the sum of the
    minimum-image displacements of these hops; the counters add up to the number of
    production events. *)
Theorem tracker_rows_follow_journeys :
  forall E S ext_initialize ext_apply (ext_compute : E -> list Z -> event -> result R)
         (sample : S -> list vec -> list nat -> state R -> result S)
         c lo lk v t init lib st k0 str mobile s0 hist k eqp kp pl draws k' r',
  lce_only c -> (0 < v)%R ->
  exact_dependencies (events lib) (get_dependent_events lib) ->
  indices_in_range (events lib) (length (occupations st)) ->
  codes_in_use lo (pass_length (symbols str) mobile) (events lib) lk ->
  events_consistent lk (events lib) -> (-1)%Z ∉ occupations st ->
  length (occupations st) <= length (frac_coords str) ->
  construct Rplus (composite_initialize ext_initialize c init)
    (compute_probability ext_compute c lo v t) lib lo st = Ok k0 ->
  updates Rplus (composite_apply ext_apply c)
    (compute_probability ext_compute c lo v t) k0 hist = Ok k ->
  (forall i, 0 <= fst (draws i) < 1)%R ->
  simulate ext_apply ext_compute sample c lo v t str mobile s0 eqp kp pl draws k = Ok (k', r') ->
  exists k1 eq prod starts,
    walk Rplus (composite_apply ext_apply c) (compute_probability ext_compute c lo v t)
      Rselect (fun _ => 0%R) draws 0 k eq k1 /\
    walk Rplus (composite_apply ext_apply c) (compute_probability ext_compute c lo v t)
      Rselect (fun dt => dt) draws (length eq) k1 prod k' /\
    length eq = Z.to_nat eqp * pl /\ length prod = Z.to_nat kp * pl /\
    exactly_mobile lk (occupations (k_state k1)) starts /\
    length (t_locations r') = length starts /\ length (t_hops r') = length starts /\
    length (t_displacement r') = length starts /\
    sum_list (t_hops r') = length prod /\
    forall j p, starts !! j = Some p ->
      let hops := journey lo
        (occupation_history (occupations (k_state k1)) (map fst prod)) p in
      t_locations r' !! j = Some (journey_end p hops) /\
      t_hops r' !! j = Some (length hops) /\
      exists d fs, t_displacement r' !! j = Some d /\
        Forall2 (fun h f => image_of str (fst h) (snd h) f) hops fs /\
        veq d (cartesian (lattice str) (vsum fs)).
Proof.
  intros. edestruct (simulation_lemma ext_initialize ext_apply ext_compute sample c lo lk v t init
    lib st k0 str mobile s0) as (k1 & eq & prod & r & Hall); [eassumption..|].
  destruct Hall as (Hw1 & _ & Hw2 & Hl1 & Hl2 & Hex & _ & Hlen & Hlh & Hld & Hsum & Hrows & _).
  exists k1, eq, prod, (t_locations r).
  do 5 (split; [done|]). split; [done|]. split; [congruence|]. split; [congruence|].
  by split.
Qed.
Print Assumptions tracker_rows_follow_journeys.

(** The sum of the displacements of a journey is the difference of its end points, up
    to a lattice translation. *)
Theorem displacement_telescopes :
  forall str lk hist p fs c,
  Forall2 (fun h f => image_of str (fst h) (snd h) f) (journey lk hist p) fs ->
  py_get (frac_coords str) p = Ok c ->
  exists c' n, py_get (frac_coords str) (journey_end p (journey lk hist p)) = Ok c' /\
    integral n /\ veq (vsum fs) (vadd (vsub c' c) n).
Proof. intros. eapply telescope; [apply journey_chained|done..]. Qed.
Print Assumptions displacement_telescopes.

(** A run with two production steps: one event, two ions, the second step undoes the
    first. *)
Definition t_lk : lookup := HopLookup [0; 0; 0; 0]%Z [1; 1; 1; 1]%Z.
Definition t_lib : event_lib :=
  match generate_event_dependencies (add_event empty_lib (Event [0; 1]%Z [2; 3]%Z)) with
  | Ok l => l | Err _ => empty_lib end.
Definition t_kra : lce R :=
  {| l_sites := [[[0]; [1]]]%Z; l_decorations := None;
     l_features := ["p"]%string; l_env_hash := None;
     l_keci := Some [10%R]; l_empty := Some 300%R;
     l_param_fingerprints := None; l_param_hash := None |}.
Definition t_comp : composite := Composite (Some t_kra) NoSite.
Definition t_str : structure :=
  Structure ["Na"; "Na"; "Na"; "Na"]%string
    [Vec (1#10) 0 0; Vec (9#10) 0 0; Vec (1#2) 0 0; Vec (1#2) (1#2) 0]
    (Vec 10 0 0, Vec 0 10 0, Vec 0 0 10).
Definition t_ext (_ : unit) (_ : list Z) (_ : event) : result R := Err AttributeError.
Definition t_init (_ : list Z) (_ : event_lib) : result unit := Ok tt.
Definition t_apply (m : unit) (_ : event) (_ : list Z) : result unit := Ok m.
Definition t_sample (s : unit) (_ : list vec) (_ : list nat) (_ : state R) : result unit := Ok s.
Definition t_rate := compute_probability t_ext t_comp (Some t_lk) 5 300.

Lemma t_rates occ : occ = [0; 1; 1; 0]%Z \/ occ = [1; 0; 1; 0]%Z ->
  exists r, (0 < r)%R /\ t_rate tt occ (Event [0; 1]%Z [2; 3]%Z) = Ok r.
Proof.
  intros Hocc.
  assert (Hr : exists r, t_rate tt occ (Event [0; 1]%Z [2; 3]%Z) = Ok r).
  { pose proof k_B_pos. assert (k_B * 300 <> 0)%R by lra.
    destruct Hocc as [-> | ->]; unfold t_rate, compute_probability; simpl;
      destruct (Req_EM_T _ _); eauto; lra. }
  destruct Hr as [r Hr]. exists r. split; [|done].
  destruct (rate_positive_lemma t_ext t_comp (Some t_lk) 5 300 tt occ
    (Event [0; 1]%Z [2; 3]%Z) (0, 1, 1, 0)%Z r) as [H _]; [lra|reflexivity|exact Hr|].
  apply H. destruct Hocc as [-> | ->]; do 4 eexists; (split; [reflexivity|]);
    (split; [reflexivity|]); (split; [reflexivity|]); [by left|by right].
Qed.

Lemma t_select r u : (0 < r)%R -> Rselect [r] (1/2) u = Ok (0, Rwaiting r u).
Proof.
  intros Hr. unfold Rselect, select_event. cbn [last]. unfold Rzero.
  destruct (Req_EM_T r 0); [lra|]. unfold searchsorted_right. cbn. unfold Rleb.
  destruct (Rle_dec _ _) as [H|]; [|done]. exfalso.
  replace (r / r)%R with 1%R in H by (field; lra). lra.
Qed.

Example tracker_example :
  lce_only t_comp /\
  exact_dependencies (events t_lib) (get_dependent_events t_lib) /\
  indices_in_range (events t_lib) 4 /\ events_consistent t_lk (events t_lib) /\
  exists k0 k' r',
    construct Rplus (composite_initialize t_init t_comp tt) t_rate t_lib (Some t_lk)
      (State [0; 1; 1; 0]%Z 0%R 0%Z) = Ok k0 /\
    simulate t_apply t_ext t_sample t_comp (Some t_lk) 5 300 t_str "Na" tt 1 1 1
      (fun _ => (1/2, 1/2)%R) k0 = Ok (k', r') /\
    (** one equilibration step moves the ion to site 1, the production step back *)
    t_locations r' = [0; 3]%Z /\ t_hops r' = [1; 0] /\
    Forall2 veq (t_displacement r') [Vec 2 0 0; vzero].
Proof.
  split; [done|]. split.
  { destruct (generate_total (add_event empty_lib (Event [0; 1]%Z [2; 3]%Z))) as (l & Hl).
    pose proof (generate_exact _ _ Hl) as [H _].
    unfold t_lib. rewrite Hl. rewrite (proj1 (generate_events_same _ _ Hl)). exact H. }
  split.
  { intros e s He Hs. change (events t_lib) with [Event [0; 1]%Z [2; 3]%Z] in He.
    apply elem_of_cons in He as [->|He]; [|by apply elem_of_nil in He];
    destruct Hs as [Hs|Hs]; simpl in Hs; repeat (apply elem_of_cons in Hs as [->|Hs]; [lia|]);
      by apply elem_of_nil in Hs. }
  split.
  { intros e codes He Hc. change (events t_lib) with [Event [0; 1]%Z [2; 3]%Z] in He.
    apply elem_of_cons in He as [->|He]; [|by apply elem_of_nil in He].
    vm_compute in Hc. injection Hc as <-. simpl. lia. }
  destruct (t_rates [0; 1; 1; 0]%Z) as (r1 & P1 & R1); [by left|].
  destruct (t_rates [1; 0; 1; 0]%Z) as (r2 & P2 & R2); [by right|].
  set (e := Event [0; 1]%Z [2; 3]%Z) in *.
  assert (Hup : forall occ occ' p r tm n, swap_occupations occ e = Ok occ' ->
    t_rate tt occ' e = Ok r -> forall dt,
    KmcModel.update Rplus (composite_apply t_apply t_comp) t_rate
      {| k_lib := t_lib; k_lookup := Some t_lk; k_state := State occ tm n; k_model := tt;
         k_prob := [p]; k_cum := [p] |} e dt =
    Ok {| k_lib := t_lib; k_lookup := Some t_lk; k_state := State occ' (tm + dt)%R (n + 1)%Z;
          k_model := tt; k_prob := [r]; k_cum := [r] |}).
  { intros occ occ' p r tm n Hs Hr dt. unfold KmcModel.update, apply_event.
    cbn [k_state occupations time step]. rewrite Hs. cbn [rbind occupations k_lib k_model].
    change (composite_apply t_apply t_comp tt e occ') with (@Ok unit tt). cbn [rbind].
    change (list_index (events t_lib) e) with (@Ok nat 0). cbn [rbind k_prob].
    change (get_dependent_events t_lib 0) with [0]. cbn [rfold rbind].
    unfold refresh. change (py_get (events t_lib) (Z.of_nat 0)) with (@Ok event e). cbn [rbind].
    rewrite Hr. reflexivity. }
  do 3 eexists. split; [|split].
  - unfold construct. change (events t_lib) with [e].
    cbn [rbind rmapM annotate_event]. 
    change (annotate_event t_lk e) with (@Ok codes4 (0, 1, 1, 0)%Z). cbn [rbind].
    cbn [composite_initialize t_comp c_site rbind occupations]. fold t_comp. rewrite R1.
    cbn [rbind cumsum cumsum_from]. reflexivity.
  - unfold simulate, run. change (Z.to_nat 1 * 1) with 1. cbn [equilibrate].
    unfold propose at 1. cbn [k_cum fst snd]. rewrite (t_select _ _ P1). cbn [rbind k_lib fst snd].
    change (py_get (events t_lib) (Z.of_nat 0)) with (@Ok event e). cbn [rbind fst snd].
    fold t_rate. rewrite (Hup [0; 1; 1; 0]%Z [1; 0; 1; 0]%Z r1 r2 _ _ eq_refl R2).
    cbn [rbind k_state k_lookup occupations].
    change (create t_str "Na" tt [1; 0; 1; 0]%Z (Some t_lk)) with
      (Ok (Tracker (Some t_lk) [1; 3]%Z [vzero; vzero] [0; 0] tt)). cbn [rbind produce].
    unfold propose at 1. cbn [k_cum fst snd]. rewrite (t_select _ _ P2). cbn [rbind k_lib fst snd].
    change (py_get (events t_lib) (Z.of_nat 0)) with (@Ok event e). cbn [rbind fst snd].
    cbn [k_state occupations].
    lazymatch goal with |- context [update t_str ?tr ?o e] =>
      let x := eval vm_compute in (update t_str tr o e) in
      replace (update t_str tr o e) with x by (vm_compute; reflexivity) end.
    cbn [rbind]. rewrite (Hup [1; 0; 1; 0]%Z [0; 1; 1; 0]%Z r2 r1 _ _ eq_refl R1).
    cbn [rbind]. unfold sample_properties, t_sample. cbn [rbind]. reflexivity.
  - cbn [t_locations t_hops t_displacement]. split; [done|]. split; [done|].
    repeat constructor; vm_compute; reflexivity.
Qed.

Example codes_in_use_example :
  codes_in_use (Some t_lk) (pass_length (symbols t_str) "Na") (events t_lib) t_lk /\
  codes_in_use None (pass_length (symbols t_str) "Na") (events t_lib) t_lk.
Proof.
  split; [done|]. split; [done|]. split; [done|]. intros e s He Hs.
  change (events t_lib) with [Event [0; 1]%Z [2; 3]%Z] in He.
  apply elem_of_cons in He as [->|He]; [|by apply elem_of_nil in He].
  simpl in Hs. repeat (apply elem_of_cons in Hs as [->|Hs]; [vm_compute; done|]).
  by apply elem_of_nil in Hs.
Qed.

(* ---------------- C21 ---------------- *)
Theorem hop_displacement_minimum_image :
  forall str f t env direction s d v,
  (direction = 1%Z /\ s = f /\ d = t) \/ (direction = (-1)%Z /\ s = t /\ d = f) ->
  wrapped_fraction str (Event [f; t] env) direction = Ok v -> image_of str s d v.
Proof. exact wrapped_fraction_image. Qed.
Print Assumptions hop_displacement_minimum_image.

Theorem reverse_hop_displacement_opposite :
  forall str f t env v v',
  wrapped_fraction str (Event [f; t] env) 1 = Ok v ->
  wrapped_fraction str (Event [f; t] env) (-1) = Ok v' ->
  veq v' (vscale (-1) v).
Proof. exact reverse_hop_opposite. Qed.
Print Assumptions reverse_hop_displacement_opposite.

Example hop_displacement_example :
  exists v, wrapped_fraction t_str (Event [0; 1]%Z []) 1 = Ok v /\ veq v (Vec (-(1#5)) 0 0).
Proof. eexists. split; [vm_compute; reflexivity|]. vm_compute. done. Qed.

(* ---------------- C19 ---------------- *)
(** The endpoints list the mobile species in different places: accepting a hop of a
    sodium ion leaves no sodium in the system as the lookup reads it. *)
Definition h_parse (s : string) : result species := Ok (Species s (Some s) None).
Theorem hop_conserves_ions_across_encodings_refuted :
  exists template mapping o lk occ e codes occ' s,
    from_structure_and_mapping h_parse (fun _ => "f"%string) template mapping None = Ok o /\
    lookup_from_order o "Na" = Ok lk /\
    annotate_event lk e = Ok codes /\ hoppable codes occ e /\
    (forall z, z ∈ mobile_ion_indices e -> (0 <= z < Z.of_nat (length occ))%Z) /\
    exactly_mobile lk occ [s] /\
    swap_occupations occ e = Ok occ' /\ exactly_mobile lk occ' [].
Proof.
  exists [Species "Na" (Some "Na") None; Species "K" (Some "K") None]%string,
    [(SStr "Na", AList [SStr "Na"; SStr "X"]);
     (SStr "K", AList [SStr "K"; SStr "X"; SStr "Na"])]%string.
  eexists. exists (HopLookup [0; 2]%Z [1; 1]%Z), [0; 1]%Z, (Event [0; 1]%Z []), (0, 1, 1, 2)%Z,
    [1; 0]%Z, 0%Z.
  split; [vm_compute; reflexivity|]. split; [vm_compute; reflexivity|].
  split; [reflexivity|]. split.
  { exists 0%Z, 1%Z, 0%Z, 1%Z. split; [done|]. split; [done|]. split; [done|]. by left. }
  split.
  { intros z Hz. simpl in Hz. repeat (apply elem_of_cons in Hz as [->|Hz]; [simpl; lia|]).
    by apply elem_of_nil in Hz. }
  split.
  { split; [apply NoDup_singleton|]. intros z. rewrite elem_of_list_singleton. split.
    - intros ->. split; [lia|]. by exists 0%Z.
    - intros (Hz & x & Hx & _ & Ho). destruct (Z.to_nat z) as [|[|n]] eqn:En; simpl in *; simplify_eq.
      lia. }
  split; [reflexivity|].
  split; [apply NoDup_nil_2|]. intros z. split; [by intros ?%elem_of_nil|].
  intros (Hz & x & Hx & _ & Ho). destruct (Z.to_nat z) as [|[|n]] eqn:En; simpl in *; simplify_eq.
Qed.
Print Assumptions hop_conserves_ions_across_encodings_refuted.

(** Without a lookup the tracker looks for ions among the first sites only.  Here the
    ion is on the last site of a two-site list (the structure holds one sodium): the
    hoppable event makes the tracker raise. *)
Theorem tracker_without_lookup_refuted :
  exists str occ e tr,
    create str "Na" tt occ None = Ok tr /\ hoppable default_hop_state_codes occ e /\
    update str tr occ e = Err RuntimeError.
Proof.
  exists (Structure ["Zr"; "Na"]%string [vzero; Vec (1#2) 0 0] (Vec 1 0 0, Vec 0 1 0, Vec 0 0 1)),
    [1; 0]%Z, (Event [0; 1]%Z []).
  eexists. split; [vm_compute; reflexivity|]. split; [|vm_compute; reflexivity].
  exists 0%Z, 1%Z, 1%Z, 0%Z. split; [done|]. split; [done|]. split; [done|]. by right.
Qed.
Print Assumptions tracker_without_lookup_refuted.

(** An endpoint written with a negative index: rates are computed, but the tracker
    raises when the event is accepted. *)
Theorem tracker_with_negative_index_refuted :
  exists str lk occ e tr codes,
    create str "Na" tt occ (Some lk) = Ok tr /\
    annotate_event lk e = Ok codes /\ endpoint_consistent codes /\ hoppable codes occ e /\
    update str tr occ e = Err RuntimeError.
Proof.
  exists (Structure ["Na"; "Na"]%string [vzero; Vec (1#2) 0 0] (Vec 1 0 0, Vec 0 1 0, Vec 0 0 1)),
    (HopLookup [0; 0]%Z [1; 1]%Z), [1; 0]%Z, (Event [-1; 0]%Z []).
  do 2 eexists. split; [vm_compute; reflexivity|]. split; [reflexivity|].
  split; [simpl; lia|]. split; [|vm_compute; reflexivity].
  exists (-1)%Z, 0%Z, 0%Z, 1%Z. split; [done|]. split; [done|]. split; [done|]. by left.
Qed.
Print Assumptions tracker_with_negative_index_refuted.
