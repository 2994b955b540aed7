(** Properties C41, C53-C55 and the local-barrier part of C06. *)
From Coq Require Import Reals QArith Lra.
From Verif Require Import Py PyLemmas Json ActiveSiteModel EventModel EventSpec EventProofs StateModel
  HopModel KmcModel KmcSpec LceModel CompositeModel CompositeSpec CompositeProofs
  LocalBarrierModel LocalBarrierSpec LocalBarrierProofs.
Local Open Scope nat_scope.

(* ---------------- C41 ---------------- *)
(** A reported property is that of the first rule that holds, or the default. *)
Theorem first_rule_decides :
  forall m occ e name q,
  lb_compute m occ e (JStr name) = Ok q -> name <> ""%string ->
  exists p, prescribed m occ e p /\ dget p name = Some q.
Proof. exact first_rule_lemma. Qed.
Print Assumptions first_rule_decides.

(** When every rule meant for the event can be evaluated, the query answers as
    prescribed, or raises KeyError: nothing prescribed, or no such property. *)
Theorem query_answers_as_prescribed :
  forall m occ e name,
  well_posed m occ e -> name <> ""%string ->
  (exists p, prescribed m occ e p /\
     lb_compute m occ e (JStr name) = match dget p name with Some q => Ok q | None => Err KeyError end)
  \/ ((forall r, r ∈ lb_rules m -> ~ rule_holds (lb_site_species m) r occ e) /\
      lb_default_properties m = None /\ lb_compute m occ e (JStr name) = Err KeyError).
Proof. exact well_posed_total_lemma. Qed.
Print Assumptions query_answers_as_prescribed.

(** The prescription is unambiguous, and no two exact rules of a model made by public
    calls hold together. *)
Theorem at_most_one_exact_rule_applies :
  forall show m occ e i j ri rj oi ci oj cj,
  (forall j, show j <> ""%string) -> built show m ->
  lb_rules m !! i = Some ri -> lb_rules m !! j = Some rj ->
  r_kind ri = KExact oi ci -> r_kind rj = KExact oj cj ->
  rule_holds (lb_site_species m) ri occ e -> rule_holds (lb_site_species m) rj occ e -> i = j.
Proof. exact one_exact_lemma. Qed.
Print Assumptions at_most_one_exact_rule_applies.

Theorem prescription_is_unique :
  forall m occ e p p', prescribed m occ e p -> prescribed m occ e p' -> p = p'.
Proof. exact prescribed_unique. Qed.
Print Assumptions prescription_is_unique.

(** Example: one event over sites 0,1 with neighbours 2,3.  A count rule comes before
    two exact rules and shadows them when both neighbours are occupied. *)
Definition w_show (j : json) : string := "?".
Definition w_e : event := Event [0; 1]%Z [2; 3]%Z.
Definition w_ints (l : list Z) : json := JList (map JInt l).
Definition w_exact (occ : list Z) (q : Q) : json :=
  JObj [("type", JStr "exact"); ("mobile_ion_indices", w_ints [0; 1]%Z);
        ("local_env_indices", w_ints [2; 3]%Z); ("occupations", w_ints occ);
        ("barrier", JFloat q)]%string.
Definition w_rules : list json :=
  [JObj [("type", JStr "state_count"); ("sites", JStr "local_env"); ("state", JInt 0);
         ("min_count", JInt 2); ("barrier", JFloat 450)]%string;
   w_exact [0; 1; 0; 1]%Z 300; w_exact [0; 1; 0; 0]%Z 310].
Definition w_new (rules : list json) (default : json) : result lb_model :=
  lb_new w_show (JList rules) (JStr "table") JNull default (JStr "barrier") supported_mode
    (JStr "barrier") JNull.
Definition or_empty (r : result lb_model) : lb_model :=
  match r with
  | Ok m => m
  | Err _ => LbModel JNull JNull JNull JNull [] None [] []
  end.
Lemma w_built rules default m : w_new rules default = Ok m -> built w_show m.
Proof. unfold w_new. apply built_new. Qed.
Definition w_m : lb_model := or_empty (w_new w_rules (JFloat 500)).
Example first_rule_example :
  w_new w_rules (JFloat 500) = Ok w_m /\ length (lb_rules w_m) = 3 /\
  lb_compute w_m [0; 1; 0; 1]%Z w_e (JStr "barrier") = Ok 300%Q /\
  lb_compute w_m [0; 1; 0; 0]%Z w_e (JStr "barrier") = Ok 450%Q /\
  lb_compute w_m [1; 0; 0; 1]%Z w_e (JStr "barrier") = Ok 500%Q /\
  lb_compute w_m [1; 0; 0; 1]%Z w_e (JStr "prefactor") = Err KeyError /\
  built w_show w_m /\ well_posed w_m [0; 1; 0; 0]%Z w_e.
Proof.
  do 6 (split; [reflexivity|]). split; [exact (w_built w_rules (JFloat 500) w_m eq_refl)|].
  assert (Hr : forall s, (0 <= s < 4)%Z -> exists v, holds [0; 1; 0; 0]%Z s v).
  { intros s Hs. assert (s = 0 \/ s = 1 \/ s = 2 \/ s = 3)%Z as [->|[->|[->| ->]]] by lia;
      eexists; reflexivity. }
  split; [by exists 0%Z, 1%Z|].
  split. { intros s Hs. apply Hr. repeat (apply elem_of_cons in Hs as [->|Hs]; [lia|]). by apply elem_of_nil in Hs. }
  split. { intros s Hs. apply Hr. repeat (apply elem_of_cons in Hs as [->|Hs]; [lia|]). by apply elem_of_nil in Hs. }
  intros r Hin _.
  apply elem_of_list_lookup in Hin as ([|[|[|i]]] & Hi); simpl in Hi; try done; injection Hi as <-; simpl; try done.
  intros l -> s Hs. apply Hr. repeat (apply elem_of_cons in Hs as [->|Hs]; [lia|]). by apply elem_of_nil in Hs.
Qed.

(** A table whose rules cover every state in which the event can hop does not suffice:
    an event that cannot hop still needs a barrier. *)
Definition v_e : event := Event [0; 1]%Z [].
Definition v_exact (occ : list Z) (q : Q) : json :=
  JObj [("type", JStr "exact"); ("mobile_ion_indices", w_ints [0; 1]%Z);
        ("local_env_indices", JList []); ("occupations", w_ints occ);
        ("barrier", JFloat q)]%string.
Definition v_rules : list json := [v_exact [0; 1]%Z 300; v_exact [1; 0]%Z 200].
Definition v_m : lb_model := or_empty (w_new v_rules JNull).
Theorem rules_for_hoppable_states_suffice_refuted :
  exists m e occ,
    built w_show m /\
    (forall occ', length occ' = length occ -> hoppable default_hop_state_codes occ' e ->
       exists r, lb_probability m None 1 300 occ' e = Ok r) /\
    lb_probability m None 1 300 occ e = Err KeyError.
Proof.
  exists v_m, v_e, [0; 0]%Z. split; [exact (w_built v_rules JNull v_m eq_refl)|]. split; [|reflexivity].
  intros occ' Hl (f & t & a & b & Hft & Ha & Hb & Hab). injection Hft as <- <-.
  destruct occ' as [|x [|y [|]]]; try discriminate Hl. injection Ha as ->. injection Hb as ->.
  destruct Hab as [[-> ->]|[-> ->]]; eexists;
    (eapply lb_rate_total; [reflexivity|reflexivity|reflexivity|reflexivity|lra]).
Qed.
Print Assumptions rules_for_hoppable_states_suffice_refuted.

(* ---------------- C53 ---------------- *)
(** If the rules look only at the event's own sites, no cached rate is ever stale. *)
Theorem local_barrier_rates_never_stale :
  forall m lk v t lib st (k : kmc R unit) hist k',
  exact_dependencies (events lib) (get_dependent_events lib) ->
  indices_in_range (events lib) (length (occupations st)) ->
  local_rules m (events lib) ->
  construct Rplus lb_initialize (lb_rate m lk v t) lib lk st = Ok k ->
  updates Rplus lb_apply (lb_rate m lk v t) k hist = Ok k' ->
  fresh (lb_rate m lk v t) k'.
Proof. exact lb_fresh_lemma. Qed.
Print Assumptions local_barrier_rates_never_stale.

(** Two events on disjoint sites, the first listed as in generated files. *)
Definition u_e1 : event := Event [0; 1]%Z [].
Definition u_e2 : event := Event [2; 3]%Z [].
Definition u_lib : event_lib :=
  match generate_event_dependencies (add_event (add_event empty_lib u_e1) u_e2) with
  | Ok l => l | Err _ => empty_lib end.
Definition u_st : state R := State [0; 1; 0; 1]%Z 0%R 0%Z.
Lemma u_exact : exact_dependencies (events u_lib) (get_dependent_events u_lib).
Proof.
  destruct (generate_total (add_event (add_event empty_lib u_e1) u_e2)) as (l & Hl).
  pose proof (generate_exact _ _ Hl) as [H _].
  unfold u_lib. rewrite Hl. rewrite (proj1 (generate_events_same _ _ Hl)). exact H.
Qed.
Lemma u_range : indices_in_range (events u_lib) 4.
Proof.
  intros e s He Hs. change (events u_lib) with [u_e1; u_e2] in He.
  apply elem_of_cons in He as [->|He]; [|apply elem_of_cons in He as [->|He]; [|by apply elem_of_nil in He]];
    destruct Hs as [Hs|Hs]; simpl in Hs; repeat (apply elem_of_cons in Hs as [->|Hs]; [simpl; lia|]);
    by apply elem_of_nil in Hs.
Qed.

Definition u_construct m := construct Rplus lb_initialize (lb_rate m None 1 300) u_lib None u_st.
Definition u_updates m k := updates Rplus lb_apply (lb_rate m None 1 300) k [(u_e1, 1%R)].
Lemma u_run m q1 q2 q1' :
  lb_probability_mode m = supported_mode -> lb_probability_property m = JStr "barrier" ->
  lb_compute m [0; 1; 0; 1]%Z u_e1 (JStr "barrier") = Ok q1 ->
  lb_compute m [0; 1; 0; 1]%Z u_e2 (JStr "barrier") = Ok q2 ->
  lb_compute m [1; 0; 0; 1]%Z u_e1 (JStr "barrier") = Ok q1' ->
  exists k k', u_construct m = Ok k /\ u_updates m k = Ok k' /\ occupations (k_state k') = [1; 0; 0; 1]%Z /\
    k_lib k' = u_lib /\
    k_prob k' !! 1 = Some (1 * 1 * exp (- Q2R q2 / (boltzmann_constant * 300)))%R.
Proof.
  intros Hm Hp H1 H2 H3. rewrite <- Hp in H1, H2, H3.
  assert (E1 : lb_rate m None 1 300 tt [0; 1; 0; 1]%Z u_e1 = Ok (1 * 1 * exp (- Q2R q1 / (boltzmann_constant * 300)))%R)
    by (apply (lb_rate_total m None 1 300 _ _ q1 default_hop_state_codes 1%Z); [done..|lra]).
  assert (E2 : lb_rate m None 1 300 tt [0; 1; 0; 1]%Z u_e2 = Ok (1 * 1 * exp (- Q2R q2 / (boltzmann_constant * 300)))%R)
    by (apply (lb_rate_total m None 1 300 _ _ q2 default_hop_state_codes 1%Z); [done..|lra]).
  assert (E3 : lb_rate m None 1 300 tt [1; 0; 0; 1]%Z u_e1 = Ok (1 * 1 * exp (- Q2R q1' / (boltzmann_constant * 300)))%R)
    by (apply (lb_rate_total m None 1 300 _ _ q1' default_hop_state_codes (-1)%Z); [done..|lra]).
  do 2 eexists. split.
  { unfold u_construct, construct. change (events u_lib) with [u_e1; u_e2].
    change (lb_initialize (occupations u_st) u_lib) with (Ok tt). cbn [rbind rmapM occupations u_st].
    rewrite E1. cbn [rbind]. rewrite E2. reflexivity. }
  split.
  { unfold u_updates, updates. cbn [rfold fst snd]. unfold update. cbn [k_state k_model k_lib k_prob].
    change (apply_event Rplus u_st u_e1 1%R) with (Ok (State [1; 0; 0; 1]%Z (0 + 1)%R 1%Z)).
    cbn [rbind occupations]. change (lb_apply tt u_e1 [1; 0; 0; 1]%Z) with (Ok tt).
    cbn [rbind]. change (list_index (events u_lib) u_e1) with (Ok 0). cbn [rbind].
    change (get_dependent_events u_lib 0) with [0]%nat. cbn [rfold]. unfold refresh.
    change (py_get (events u_lib) (Z.of_nat 0)) with (Ok u_e1).
    cbn [rbind]. rewrite E3. cbn [rbind]. reflexivity. }
  do 2 (split; [reflexivity|]). reflexivity.
Qed.

Definition u_rules : list json :=
  [JObj [("mobile_ion_indices", w_ints [0; 1]%Z); ("sites", JStr "from");
         ("pattern", JList [JInt 0]); ("barrier", JFloat 100)]%string;
   JObj [("sites", w_ints [2]%Z); ("mobile_ion_indices", w_ints [2; 3]%Z);
         ("pattern", JList [JInt 0]); ("barrier", JFloat 150)]%string].
Definition u_m : lb_model := or_empty (w_new u_rules (JFloat 200)).
Example never_stale_example :
  exists k k',
    exact_dependencies (events u_lib) (get_dependent_events u_lib) /\
    indices_in_range (events u_lib) (length (occupations u_st)) /\
    local_rules u_m (events u_lib) /\ length (lb_rules u_m) = 2 /\
    u_construct u_m = Ok k /\ u_updates u_m k = Ok k' /\
    k_prob k' !! 1 = Some (1 * 1 * exp (- Q2R 150 / (boltzmann_constant * 300)))%R /\
    fresh (lb_rate u_m None 1 300) k'.
Proof.
  destruct (u_run u_m 100 150 200) as (k & k' & Hk & Hk' & _ & _ & Hp); [reflexivity..|].
  exists k, k'. split; [exact u_exact|]. split; [exact u_range|].
  assert (Hl : local_rules u_m (events u_lib)).
  { intros r e Hr He Hc.
    apply elem_of_list_lookup in Hr as ([|[|i]] & Hi); simpl in Hi; try done; injection Hi as <-; [done|].
    destruct Hc as [[Hc|Hc] _]; [done|]. injection Hc as Hc. unfold reads_own. simpl. intros s Hs.
    left. rewrite <- Hc. apply elem_of_list_singleton in Hs as ->. by left. }
  do 5 (split; [done|]).
  exact (local_barrier_rates_never_stale u_m None 1 300 u_lib u_st k [(u_e1, 1%R)] k' u_exact u_range Hl Hk Hk').
Qed.

(* ---------------- C06 (local barriers) ---------------- *)
(** The full claim, without the restriction to own sites, fails: for a rule over the
    pattern of "all" sites and for a rule over an explicit site of another event. *)
Definition s_rules_all : list json :=
  [JObj [("sites", JStr "all"); ("pattern", JList [JInt 0; JStr "*"; JStr "*"; JStr "*"]);
         ("barrier", JFloat 100)]%string].
Definition s_rules_out : list json :=
  [JObj [("sites", w_ints [0]%Z); ("pattern", JList [JInt 0]); ("barrier", JFloat 100)]%string].
Lemma stale_run m :
  lb_probability_mode m = supported_mode -> lb_probability_property m = JStr "barrier" ->
  (forall e, e = u_e1 \/ e = u_e2 -> lb_compute m [0; 1; 0; 1]%Z e (JStr "barrier") = Ok 100%Q /\
     lb_compute m [1; 0; 0; 1]%Z e (JStr "barrier") = Ok 200%Q) ->
  exists k k', u_construct m = Ok k /\ u_updates m k = Ok k' /\ ~ fresh (lb_rate m None 1 300) k'.
Proof.
  intros Hm Hp Hc. destruct (Hc u_e1) as [H1 H1']; [by left|]. destruct (Hc u_e2) as [H2 H2']; [by right|].
  destruct (u_run m 100 100 200) as (k & k' & Hk & Hk' & Ho & Hlib & Hpr); [done..|].
  exists k, k'. split; [done|]. split; [done|]. intros [_ Hf].
  destruct (Hf 1 u_e2) as (r & Hr & Hrc). { by rewrite Hlib. }
  rewrite Hpr in Hr. injection Hr as <-. rewrite Ho in Hrc.
  assert (E : lb_rate m None 1 300 (k_model k') [1; 0; 0; 1]%Z u_e2 =
    Ok (1 * 1 * exp (- Q2R 200 / (boltzmann_constant * 300)))%R).
  { apply (lb_rate_total m None 1 300 _ _ 200 default_hop_state_codes 1%Z); try done; [by rewrite Hp|lra]. }
  rewrite E in Hrc. injection Hrc as Hx.
  assert (He : (exp (- Q2R 200 / (boltzmann_constant * 300)) = exp (- Q2R 100 / (boltzmann_constant * 300)))%R) by lra.
  apply exp_inv in He. pose proof (k_B_pos : (0 < boltzmann_constant)%R).
  assert (Q2R 200 = 200)%R by (unfold Q2R; simpl; lra). assert (Q2R 100 = 100)%R by (unfold Q2R; simpl; lra).
  assert ((- Q2R 200 / (boltzmann_constant * 300) * (boltzmann_constant * 300) = - Q2R 100 / (boltzmann_constant * 300) * (boltzmann_constant * 300))%R)
    as Hy by (by rewrite He).
  field_simplify in Hy; lra.
Qed.
Theorem rates_fresh_with_nonlocal_rules_refuted :
  forall rules, rules = s_rules_all \/ rules = s_rules_out ->
  exists m k k', w_new rules (JFloat 200) = Ok m /\
    exact_dependencies (events u_lib) (get_dependent_events u_lib) /\
    indices_in_range (events u_lib) (length (occupations u_st)) /\
    construct Rplus lb_initialize (lb_rate m None 1 300) u_lib None u_st = Ok k /\
    updates Rplus lb_apply (lb_rate m None 1 300) k [(u_e1, 1%R)] = Ok k' /\
    ~ fresh (lb_rate m None 1 300) k'.
Proof.
  intros rules Hr.
  destruct (stale_run (or_empty (w_new rules (JFloat 200)))) as (k & k' & Hk & Hk' & Hf);
    [by destruct Hr as [->| ->]..|by destruct Hr as [->| ->]; intros e [->| ->]|].
  eexists _, k, k'. split; [|split; [exact u_exact|split; [exact u_range|split; [exact Hk|done]]]].
  by destruct Hr as [->| ->].
Qed.
Print Assumptions rates_fresh_with_nonlocal_rules_refuted.

(* ---------------- C54 ---------------- *)
(** A rate is the Arrhenius rate of the reported barrier if the event can hop in one of
    its two directions, and zero otherwise. *)
Theorem local_barrier_rate :
  forall m lk v t occ e r codes,
  lb_probability m lk v t occ e = Ok r -> event_codes lk e = Ok codes ->
  exists q, lb_compute m occ e (lb_probability_property m) = Ok q /\
    (hoppable codes occ e -> r = v * exp (- Q2R q / (boltzmann_constant * t)))%R /\
    (~ hoppable codes occ e -> r = 0%R).
Proof. exact lb_rate_lemma. Qed.
Print Assumptions local_barrier_rate.

Example local_barrier_rate_example :
  lb_probability u_m None 2 300 [0; 1; 0; 1]%Z u_e2 = Ok (1 * 2 * exp (- Q2R 150 / (boltzmann_constant * 300)))%R /\
  hoppable default_hop_state_codes [0; 1; 0; 1]%Z u_e2 /\
  ~ hoppable default_hop_state_codes [0; 1; 0; 0]%Z u_e2 /\
  exists r, lb_probability u_m None 2 300 [0; 1; 0; 0]%Z u_e2 = Ok r /\ r = 0%R.
Proof.
  split. { apply (lb_rate_total u_m None 2 300 _ _ 150 default_hop_state_codes 1%Z); [reflexivity..|lra]. }
  split. { exists 2%Z, 3%Z, 0%Z, 1%Z. do 3 (split; [done|]). by left. }
  assert (Hn : ~ hoppable default_hop_state_codes [0; 1; 0; 0]%Z u_e2).
  { intros (f & t & a & b & [= <- <-] & [= <-] & [= <-] & [[? ?]|[? ?]]); done. }
  split; [done|].
  assert (E : lb_probability u_m None 2 300 [0; 1; 0; 0]%Z u_e2 = Ok (0 * 2 * exp (- Q2R 150 / (boltzmann_constant * 300)))%R).
  { apply (lb_rate_total u_m None 2 300 _ _ 150 default_hop_state_codes 0%Z); [reflexivity..|lra]. }
  exists (0 * 2 * exp (- Q2R 150 / (boltzmann_constant * 300)))%R. split; [exact E|].
  destruct (local_barrier_rate _ _ _ _ _ _ _ _ E eq_refl) as (q & _ & _ & H). by apply H.
Qed.

(** Rules that do not look at the endpoints give a hop and its reverse the same rate. *)
Theorem reverse_hop_has_the_same_rate :
  forall m lk v t f g env occ occ' codes d r,
  let e := Event [f; g] env in
  (0 <= f)%Z -> (0 <= g)%Z -> f <> g ->
  (forall r, r ∈ lb_rules m -> concerns r e -> ignores_endpoints r e) ->
  event_codes lk e = Ok codes -> endpoint_consistent codes ->
  event_direction occ e codes = Ok d -> d <> 0%Z ->
  swap_occupations occ e = Ok occ' ->
  lb_probability m lk v t occ e = Ok r ->
  event_direction occ' e codes = Ok (- d)%Z /\ lb_probability m lk v t occ' e = Ok r.
Proof. exact symmetric_lemma. Qed.
Print Assumptions reverse_hop_has_the_same_rate.

Definition t_rules : list json :=
  [JObj [("type", JStr "state_count"); ("sites", JStr "local_env"); ("state", JStr "vacant");
         ("count", JInt 1); ("barrier", JFloat 250)]%string].
Definition t_m : lb_model := or_empty (w_new t_rules (JFloat 400)).
Example reverse_hop_example :
  exists r, lb_probability t_m None 1 300 [0; 1; 0; 1]%Z w_e = Ok r /\
    swap_occupations [0; 1; 0; 1]%Z w_e = Ok [1; 0; 0; 1]%Z /\
    lb_probability t_m None 1 300 [1; 0; 0; 1]%Z w_e = Ok r /\ (0 < r)%R.
Proof.
  assert (E : lb_probability t_m None 1 300 [0; 1; 0; 1]%Z w_e = Ok (1 * 1 * exp (- Q2R 250 / (boltzmann_constant * 300)))%R).
  { apply (lb_rate_total t_m None 1 300 _ _ 250 default_hop_state_codes 1%Z); [reflexivity..|lra]. }
  exists (1 * 1 * exp (- Q2R 250 / (boltzmann_constant * 300)))%R. do 2 (split; [done|]). split.
  - eapply (reverse_hop_has_the_same_rate t_m None 1 300 0%Z 1%Z [2; 3]%Z); try exact E; try reflexivity; try done.
    intros r Hr _. apply elem_of_list_lookup in Hr as ([|i] & Hi); simpl in Hi; try done. injection Hi as <-.
    unfold ignores_endpoints. simpl. exists [2; 3]%Z. split; [by right|]. intros s Hs.
    apply elem_of_cons in Hs as [->|Hs]; [|apply elem_of_list_singleton in Hs as ->];
      (split; [lia|]); intros Hin; apply elem_of_cons in Hin as [?|Hin]; try done;
      apply elem_of_list_singleton in Hin; done.
  - pose proof (exp_pos (- Q2R 250 / (boltzmann_constant * 300))). lra.
Qed.

(** Exact rules do look at them: forward and backward rates of one event may differ. *)
Theorem reverse_hop_rate_with_exact_rules_refuted :
  exists m e occ occ' r r',
    built w_show m /\ swap_occupations occ e = Ok occ' /\
    lb_probability m None 1 300 occ e = Ok r /\ lb_probability m None 1 300 occ' e = Ok r' /\ r <> r'.
Proof.
  exists v_m, v_e, [0; 1]%Z, [1; 0]%Z. do 2 eexists.
  split; [exact (w_built v_rules JNull v_m eq_refl)|]. split; [reflexivity|].
  split; [apply (lb_rate_total v_m None 1 300 _ _ 300 default_hop_state_codes 1%Z); [reflexivity..|lra]|].
  split; [apply (lb_rate_total v_m None 1 300 _ _ 200 default_hop_state_codes (-1)%Z); [reflexivity..|lra]|].
  change (1 =? 0)%Z with false. change (-1 =? 0)%Z with false. cbv iota. intros Hx. fold boltzmann_constant in Hx. change k_B with boltzmann_constant in Hx.
  assert (He : (exp (- Q2R 300 / (boltzmann_constant * 300)) = exp (- Q2R 200 / (boltzmann_constant * 300)))%R) by lra.
  apply exp_inv in He. pose proof (k_B_pos : (0 < boltzmann_constant)%R).
  assert (Q2R 200 = 200)%R by (unfold Q2R; simpl; lra). assert (Q2R 300 = 300)%R by (unfold Q2R; simpl; lra).
  assert ((- Q2R 300 / (boltzmann_constant * 300) * (boltzmann_constant * 300) = - Q2R 200 / (boltzmann_constant * 300) * (boltzmann_constant * 300))%R)
    as Hy by (by rewrite He).
  field_simplify in Hy; lra.
Qed.
Print Assumptions reverse_hop_rate_with_exact_rules_refuted.

(* ---------------- C55 ---------------- *)
(** A model that can compute rates comes back from its own dictionary unchanged. *)
Theorem local_barrier_round_trip :
  forall show m,
  (forall j, show j <> ""%string) -> built show m ->
  lb_probability_mode m = supported_mode ->
  lb_from_dict show (JObj (lb_as_dict m)) = Ok m.
Proof. exact roundtrip_lemma. Qed.
Print Assumptions local_barrier_round_trip.

(** A model captured from simulation states gives every captured value back, in any
    state with the same contents on the event's sites, whatever else was captured. *)
Theorem captured_values_are_recalled :
  forall show caps (entries : list (list (string * json))) m name dp db dprop mode pprop ss i e occ
         (props : list (string * json)) nm occ' prop q,
  (forall j, show j <> ""%string) ->
  rmapM (fun c : event * list Z * list (string * json) * option json =>
    entry_from_event_state (fst (fst (fst c))) (snd (fst (fst c))) (snd (fst c)) (snd c)) caps = Ok entries ->
  from_exact_entries show entries name dp db dprop mode pprop ss = Ok m ->
  caps !! i = Some (e, occ, props, nm) ->
  same_contents e occ occ' -> NoDup (dkeys props) -> prop <> ""%string ->
  dget props prop = Some (JFloat q) ->
  lb_compute m occ' e (JStr prop) = Ok q.
Proof. exact captured_lemma. Qed.
Print Assumptions captured_values_are_recalled.

Definition c_caps : list (event * list Z * list (string * json) * option json) :=
  [(u_e1, [0; 1; 0; 1]%Z, [("barrier", JFloat 100)], None);
   (u_e2, [0; 1; 0; 1]%Z, [("barrier", JFloat 150); ("prefactor", JFloat 2)], Some (JStr "second"))]%string.
Definition c_entries : list (list (string * json)) :=
  match rmapM (fun c : event * list Z * list (string * json) * option json =>
    entry_from_event_state (fst (fst (fst c))) (snd (fst (fst c))) (snd (fst c)) (snd c)) c_caps with
  | Ok l => l | Err _ => [] end.
Definition c_m : lb_model :=
  or_empty (from_exact_entries w_show c_entries (JStr "captured") JNull JNull (JStr "barrier")
    supported_mode (JStr "barrier") JNull).
Example captured_example :
  rmapM (fun c : event * list Z * list (string * json) * option json =>
    entry_from_event_state (fst (fst (fst c))) (snd (fst (fst c))) (snd (fst c)) (snd c)) c_caps = Ok c_entries /\
  length (lb_rules c_m) = 2 /\
  lb_compute c_m [1; 0; 0; 1]%Z u_e2 (JStr "prefactor") = Ok 2%Q /\
  lb_from_dict w_show (JObj (lb_as_dict c_m)) = Ok c_m /\
  lb_from_dict w_show (JObj (lb_as_dict w_m)) = Ok w_m.
Proof.
  do 2 (split; [reflexivity|]). split; [|split; reflexivity].
  eapply (captured_values_are_recalled w_show c_caps c_entries c_m (JStr "captured") JNull JNull
    (JStr "barrier") supported_mode (JStr "barrier") JNull 1 u_e2 [0; 1; 0; 1]%Z); try reflexivity; try done.
  - intros s [Hs|Hs]; [|by apply elem_of_nil in Hs].
    apply elem_of_cons in Hs as [->|Hs]; [done|apply elem_of_list_singleton in Hs as ->; done].
  - unfold dkeys. simpl. apply NoDup_cons. split; [by intros ?%elem_of_list_singleton|apply NoDup_singleton].
Qed.

(** A model made without rules accepts any mode name, saves, and does not load. *)
Theorem every_saved_model_loads_refuted :
  exists m, built w_show m /\ exists x, lb_from_dict w_show (JObj (lb_as_dict m)) = Err x.
Proof.
  exists (or_empty (lb_new w_show JNull (JStr "m") JNull (JFloat 300) (JStr "barrier") (JStr "arrhenius")
    (JStr "barrier") JNull)).
  split; [|eexists; reflexivity].
  apply (built_new w_show JNull (JStr "m") JNull (JFloat 300) (JStr "barrier") (JStr "arrhenius")
    (JStr "barrier") JNull). reflexivity.
Qed.
Print Assumptions every_saved_model_loads_refuted.

(** Two exact rules for different environments that list the same sites are refused as
    duplicates although no event is concerned by both. *)
Definition d_rule (env : list Z) (q : Q) : json :=
  JObj [("type", JStr "exact"); ("mobile_ion_indices", w_ints [0; 1]%Z);
        ("local_env_indices", w_ints env); ("occupations", w_ints [0; 1; 0]%Z);
        ("barrier", JFloat q)]%string.
Theorem only_overlapping_exact_rules_rejected_refuted :
  exists m m' j r1 r2,
    built w_show m /\ w_new [j] JNull = Ok m' /\ add_rule w_show m j = Err ValueError /\
    lb_rules m = [r1] /\ lb_rules m' = [r2] /\ forall e, ~ (concerns r1 e /\ concerns r2 e).
Proof.
  exists (or_empty (w_new [d_rule [1; 2]%Z 100] JNull)), (or_empty (w_new [d_rule [2]%Z 200] JNull)), (d_rule [2]%Z 200).
  do 2 eexists. split; [exact (w_built [d_rule [1; 2]%Z 100] JNull _ eq_refl)|].
  do 4 (split; [reflexivity|]). intros e [[_ [H1|H1]] [_ [H2|H2]]]; simpl in *; try done.
  rewrite <- H2 in H1. done.
Qed.
Print Assumptions only_overlapping_exact_rules_rejected_refuted.
