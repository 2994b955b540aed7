(** Proofs about the kinetics of whole simulations. *)
From Coq Require Import Reals Lra Lia.
From stdpp Require Import relations.
From Verif Require Import Py PyLemmas EventModel StateModel StateProofs HopModel KmcModel KmcSpec KmcProofs TrackerModel LceModel CompositeModel CompositeSpec CompositeProofs
  ProposeModel ProposeSpec ProposeProofs MatcherModel GeneratorModel GeneratorSpec GeneratorProofs KineticsSpec.
Local Open Scope R_scope.

Definition related {A B} (rel : A -> B -> Prop) (a : result A) (b : result B) : Prop :=
  match a, b with Ok x, Ok y => rel x y | Err x, Err y => x = y | _, _ => False end.
Lemma related_bind {A B C D} (rel : A -> B -> Prop) (rel' : C -> D -> Prop) a b f g :
  related rel a b -> (forall x y, rel x y -> related rel' (f x) (g y)) -> related rel' (rbind a f) (rbind b g).
Proof. destruct a, b; simpl; try done; auto. Qed.
Lemma related_refl {A} (a : result A) : related eq a a.
Proof. by destruct a. Qed.
Lemma related_same {A C D} (rel' : C -> D -> Prop) (a : result A) f g :
  (forall x, related rel' (f x) (g x)) -> related rel' (rbind a f) (rbind a g).
Proof. intros H. destruct a; simpl; [apply H|done]. Qed.
Lemma related_rmapM {A B C} (rel : B -> C -> Prop) (f : A -> result B) (g : A -> result C) l :
  (forall x, related rel (f x) (g x)) -> related (Forall2 rel) (rmapM f l) (rmapM g l).
Proof.
  intros H. induction l as [|x l IH]; [constructor|]. cbn [rmapM].
  eapply related_bind; [apply H|]. intros y z Hyz. eapply related_bind; [exact IH|]. intros ys zs Hs. by constructor.
Qed.

Section Clock.
  Context (a : R) (Ha : 0 < a).
  Definition times (x y : R) : Prop := y = a * x.
  Lemma times_map p q : Forall2 times p q -> q = map (Rmult a) p.
  Proof. induction 1 as [|x y p q -> _ IH]; [done|]. cbn. by rewrite IH. Qed.
  Lemma map_times p : Forall2 times p (map (Rmult a) p).
  Proof. induction p; constructor; done. Qed.
  Lemma cumsum_times p : cumsum Rplus (map (Rmult a) p) = map (Rmult a) (cumsum Rplus p).
  Proof.
    destruct p as [|x p]; [done|]. cbn. f_equal. generalize x. clear x. induction p as [|y p IH]; intros x; [done|]. cbn.
    replace (a * x + a * y) with (a * (x + y)) by lra. f_equal. apply IH.
  Qed.
  Lemma select_times p u1 u2 :
    related (fun x y => fst x = fst y /\ snd y = snd x / a) (Rselect (cumsum Rplus p) u1 u2) (Rselect (cumsum Rplus (map (Rmult a) p)) u1 u2).
  Proof.
    rewrite cumsum_times. unfold Rselect, select_event. 
    assert (last (map (Rmult a) (cumsum Rplus p)) = option_map (Rmult a) (last (cumsum Rplus p))) as -> by apply fmap_last.
    destruct (last (cumsum Rplus p)) as [tot|]; [|done]. cbn [option_map].
    unfold Rzero. destruct (Req_EM_T tot 0) as [->|Hz]; [|destruct (Req_EM_T (a * tot) 0) as [H|_]].
    - destruct (Req_EM_T (a * 0) 0); [done|lra].
    - exfalso. apply Rmult_integral in H. lra.
    - rewrite map_map. assert (map (fun x => a * x / (a * tot)) (cumsum Rplus p) = map (fun c => c / tot) (cumsum Rplus p)) as ->.
      { apply map_ext. intros x. field. lra. }
      apply related_same. intros i. cbn. split; [done|]. unfold Rwaiting. field. lra.
  Qed.

  Context {E : Type} (ext_apply : E -> event -> list Z -> result E) (ext_compute : E -> list Z -> event -> result R).
  Context (c : composite) (lk : option lookup) (v temperature : R).
  Lemma rate_times m occ e :
    related times (compute_probability ext_compute c lk v temperature m occ e) (compute_probability ext_compute c lk (a * v) temperature m occ e).
  Proof.
    unfold compute_probability. apply related_same. intros codes. apply related_same. intros d.
    destruct (d =? 0)%Z; [unfold related, times; lra|]. destruct (kra_model c) as [kra|]; [|done].
    apply related_same. intros ek. apply related_same. intros delta. destruct (Req_EM_T _ _); [done|].
    unfold related, times. lra.
  Qed.

  (** The two engines differ in the rates and in the clock. *)
  Definition scaled (t0 : R) (k k' : kmc R E) : Prop :=
    k_lib k' = k_lib k /\ k_lookup k' = k_lookup k /\ k_model k' = k_model k
    /\ occupations (k_state k') = occupations (k_state k) /\ step (k_state k') = step (k_state k)
    /\ time (k_state k') - t0 = (time (k_state k) - t0) / a
    /\ k_prob k' = map (Rmult a) (k_prob k) /\ k_cum k = cumsum Rplus (k_prob k) /\ k_cum k' = cumsum Rplus (k_prob k').
  Notation upd v := (KmcModel.update Rplus (composite_apply ext_apply c) (compute_probability ext_compute c lk v temperature)).
  Lemma construct_times (ini : list Z -> event_lib -> result E) lib st :
    related (scaled (time st)) (construct Rplus ini (compute_probability ext_compute c lk v temperature) lib lk st)
      (construct Rplus ini (compute_probability ext_compute c lk (a * v) temperature) lib lk st).
  Proof.
    unfold construct. apply related_same. intros _. apply related_same. intros m.
    eapply related_bind; [apply related_rmapM; intros e; apply rate_times|]. intros p q ->%times_map.
    unfold related, scaled. cbn. repeat (split; [done|]). split; [|done]. lra.
  Qed.
  Lemma rfold_times (lib : event_lib) m occ deps : forall p q, Forall2 times p q ->
    related (Forall2 times) (rfold (refresh (compute_probability ext_compute c lk v temperature) lib m occ) p deps)
      (rfold (refresh (compute_probability ext_compute c lk (a * v) temperature) lib m occ) q deps).
  Proof.
    induction deps as [|j deps IH]; intros p q Hpq; [done|]. cbn [rfold].
    eapply related_bind; [|exact IH]. unfold refresh. apply related_same. intros e.
    eapply related_bind; [apply rate_times|]. intros x y Hxy.
    unfold py_set. rewrite <- (Forall2_length _ _ _ Hpq). destruct (py_norm (length p) (Z.of_nat j)); [|done].
    unfold related. by apply Forall2_insert.
  Qed.
  Lemma update_times t0 k k' e dt dt' : dt' = dt / a -> scaled t0 k k' -> related (scaled t0) (upd v k e dt) (upd (a * v) k' e dt').
  Proof.
    intros -> (H1 & H2 & H3 & H4 & H5 & H6 & H7 & H8 & H9). unfold KmcModel.update, apply_event. rewrite H1, H2, H3, H4, H5.
    destruct (swap_occupations (occupations (k_state k)) e) as [occ|]; [|done]. cbn [rbind occupations].
    apply related_same. intros m. apply related_same. intros i.
    eapply related_bind; [apply rfold_times; rewrite H7; apply map_times|]. intros p q ->%times_map.
    unfold related, scaled. cbn. do 5 (split; [done|]). split; [|done].
    replace (time (k_state k') + dt / a - t0) with (time (k_state k') - t0 + dt / a) by lra. rewrite H6. field. lra.
  Qed.
  Lemma propose_times t0 k k' u1 u2 : scaled t0 k k' ->
    related (fun x y => fst x = fst y /\ snd y = snd x / a) (propose Rselect k u1 u2) (propose Rselect k' u1 u2).
  Proof.
    intros (H1 & H2 & H3 & H4 & H5 & H6 & H7 & H8 & H9). unfold propose. rewrite H9, H8, H7, H1.
    eapply related_bind; [apply select_times|]. intros [i dt] [i' dt'] [H H']. cbn in H, H'. subst. cbn [fst snd].
    apply related_same. intros e. done.
  Qed.
  Lemma equilibrate_times t0 n draws : forall i k k', scaled t0 k k' ->
    related (scaled t0) (equilibrate 0 Rplus (composite_apply ext_apply c) (compute_probability ext_compute c lk v temperature) Rselect n i draws k)
      (equilibrate 0 Rplus (composite_apply ext_apply c) (compute_probability ext_compute c lk (a * v) temperature) Rselect n i draws k').
  Proof.
    induction n as [|n IH]; intros i k k' H; [done|]. cbn [equilibrate].
    eapply related_bind; [by apply propose_times with (1 := H)|]. intros [e dt] [e' dt'] [He _]. cbn in He. subst.
    eapply related_bind; [apply (update_times t0 k k' e' 0 0); [lra|done]|]. intros k1 k1' H1. by apply IH.
  Qed.
  Context {S : Type} (sample : S -> list vec -> list nat -> state R -> result S).
  Lemma produce_times str (Hs : clock_blind sample) t0 n draws : forall i k k' tr, scaled t0 k k' ->
    related (fun x y => scaled t0 (fst x) (fst y) /\ snd x = snd y)
      (produce Rplus (composite_apply ext_apply c) (compute_probability ext_compute c lk v temperature) Rselect
         (fun tr st e => TrackerModel.update str tr (occupations st) e) (sample_properties sample) n i draws k tr)
      (produce Rplus (composite_apply ext_apply c) (compute_probability ext_compute c lk (a * v) temperature) Rselect
         (fun tr st e => TrackerModel.update str tr (occupations st) e) (sample_properties sample) n i draws k' tr).
  Proof.
    induction n as [|n IH]; intros i k k' tr H; [done|]. cbn [produce].
    eapply related_bind; [by apply propose_times with (1 := H)|]. intros [e dt] [e' dt'] [He Hdt]. cbn in He, Hdt. subst e'.
    destruct H as (H1 & H2 & H3 & H4 & H5 & H6) eqn:EH. cbn [fst snd]. rewrite H4. apply related_same. intros tr1.
    eapply related_bind; [apply (update_times t0 k k' e dt dt'); done|]. intros k1 k1' H1'.
    destruct H1' as (G1 & G2 & G3 & G4 & G5 & G6) eqn:EG.
    assert (sample_properties sample tr1 (k_state k1') = sample_properties sample tr1 (k_state k1)) as ->.
    { unfold sample_properties. by rewrite (Hs _ _ _ (k_state k1') (k_state k1)). }
    apply related_same. intros tr2. by apply IH.
  Qed.
  Lemma whole_times ext_initialize init lib st str mobile s0 eqp kp pl draws : clock_blind sample ->
    related (fun x y => scaled (time st) (fst x) (fst y) /\ snd x = snd y)
      (whole_simulation ext_initialize ext_apply ext_compute sample c init lk v temperature lib st str mobile s0 eqp kp pl draws)
      (whole_simulation ext_initialize ext_apply ext_compute sample c init lk (a * v) temperature lib st str mobile s0 eqp kp pl draws).
  Proof.
    intros Hs. unfold whole_simulation. eapply related_bind; [apply construct_times|]. intros k k' Hk.
    unfold simulate, run. eapply related_bind; [by apply equilibrate_times with (1 := Hk)|]. intros k1 k1' H1.
    destruct H1 as (G1 & G2 & G3 & G4 & G5 & G6) eqn:EG. rewrite G2, G4. apply related_same. intros tr.
    by apply produce_times.
  Qed.
End Clock.

(** ** Transition probabilities *)
Fixpoint intervals (total : R) (es : list event) (p : list R) (s t : list Z) (acc : R) : list (R * R) :=
  match es, p with
  | e :: es', r :: p' =>
      let rest := intervals total es' p' s t (acc + r) in
      if decide (swap_occupations s e = Ok t) then (acc / total, (acc + r) / total) :: rest else rest
  | _, _ => []
  end.
Section Transition.
  Context (total : R) (Ht : 0 < total) (s t : list Z).
  Lemma apart_weaken x y l : y <= x -> apart_from x l -> apart_from y l.
  Proof. intros Hxy. destruct l as [|[a b] l]; [done|]. intros [H1 H2]. split; [lra|done]. Qed.
  Lemma div_le x y : x <= y -> x / total <= y / total.
  Proof. intros H. unfold Rdiv. apply Rmult_le_compat_r; [|done]. left. by apply Rinv_0_lt_compat. Qed.
  Lemma intervals_apart es : forall p acc, all_nonneg p -> apart_from (acc / total) (intervals total es p s t acc).
  Proof.
    induction es as [|e es IH]; intros p acc Hp; [done|]. destruct p as [|r p]; [done|]. inversion_clear Hp as [|? ? Hr Hp'].
    cbn [intervals]. pose proof (div_le acc (acc + r) ltac:(lra)). destruct (decide _).
    - split; [lra|]. by apply IH.
    - eapply apart_weaken; [|by apply IH]. done.
  Qed.
  Lemma intervals_in es : forall p acc u, length p = length es ->
    in_intervals (intervals total es p s t acc) u <->
    exists i e, es !! i = Some e /\ swap_occupations s e = Ok t
      /\ (acc + rate_before p i) / total <= u < (acc + rate_before p (S i)) / total.
  Proof.
    induction es as [|e es IH]; intros p acc u Hl; [split; [done|]; intros (i & e & H & _); by rewrite lookup_nil in H|].
    destruct p as [|r p]; [done|]. cbn [intervals]. injection Hl as Hl.
    assert (H0 : rate_before (r :: p) 0 = 0) by done. assert (H1 : rate_before (r :: p) 1 = r) by (unfold rate_before; simpl; lra).
    assert (HS : forall i, acc + rate_before (r :: p) (S i) = acc + r + rate_before p i) by (intros i; unfold rate_before; simpl; lra).
    destruct (decide _) as [Hd|Hd]; cbn [in_intervals]; rewrite IH by done; split.
    - intros [H|(i & e' & H & H' & H'')].
      + exists 0%nat, e. split; [done|]. split; [done|]. rewrite H0, H1. by rewrite Rplus_0_r.
      + exists (S i), e'. split; [done|]. split; [done|]. by rewrite !HS.
    - intros ([|i] & e' & H & H' & H'').
      + left. rewrite H0, H1, Rplus_0_r in H''. done.
      + right. exists i, e'. split; [done|]. split; [done|]. by rewrite !HS in H''.
    - intros (i & e' & H & H' & H''). exists (S i), e'. split; [done|]. split; [done|]. by rewrite !HS.
    - intros ([|i] & e' & H & H' & H''); [cbn in H; congruence|]. exists i, e'. split; [done|]. split; [done|]. by rewrite !HS in H''.
  Qed.
  Lemma intervals_size es : forall p acc, size (intervals total es p s t acc) = flow es p s t / total.
  Proof.
    unfold size. induction es as [|e es IH]; intros p acc; [simpl; lra|]. destruct p as [|r p]; [simpl; lra|]. cbn [intervals flow].
    destruct (decide _); cbn [map total_rate fst snd]; rewrite IH; field; lra.
  Qed.
  Lemma intervals_below es : forall p acc, all_nonneg p -> acc + total_rate p <= total ->
    Forall (fun ab => snd ab <= 1) (intervals total es p s t acc).
  Proof.
    induction es as [|e es IH]; intros p acc Hp H; [constructor|]. destruct p as [|r p]; [constructor|]. inversion_clear Hp as [|? ? Hr Hp'].
    cbn [total_rate] in H. assert (Hn : 0 <= total_rate p) by (clear -Hp'; induction Hp'; cbn; lra).
    cbn [intervals]. assert (HF := IH p (acc + r) Hp' ltac:(lra)). destruct (decide _); [|done]. constructor; [|done]. cbn.
    apply Rle_trans with (total / total); [by apply div_le; lra|]. right. field. lra.
  Qed.
End Transition.
Lemma transition_lemma {E} (k : kmc R E) u2 t : k_cum k = cumsum Rplus (k_prob k) -> length (k_prob k) = length (events (k_lib k)) ->
  all_nonneg (k_prob k) -> 0 < total_rate (k_prob k) ->
  probability (fun u => exists e dt, propose Rselect k u u2 = Ok (e, dt) /\ swap_occupations (occupations (k_state k)) e = Ok t)
    (flow (events (k_lib k)) (k_prob k) (occupations (k_state k)) t / total_rate (k_prob k)).
Proof.
  intros Hc Hl Hp Ht. set (tot := total_rate (k_prob k)) in *. set (s := occupations (k_state k)).
  exists (intervals tot (events (k_lib k)) (k_prob k) s t 0). split; [|split; [|split]].
  - pose proof (intervals_apart tot Ht s t (events (k_lib k)) (k_prob k) 0 Hp) as H. unfold Rdiv in H. by rewrite Rmult_0_l in H.
  - apply intervals_below; [done|done|]. unfold tot. lra.
  - intros u Hu. rewrite intervals_in by done. unfold propose. rewrite Hc. split.
    + intros (e & dt & H & Hs). destruct (Rselect (cumsum Rplus (k_prob k)) u u2) as [[i dt']|] eqn:Hsel; [|done]. cbn [rbind fst snd] in H.
      assert (Hi := proj1 (selection_interval_lemma _ u u2 i Hp Ht Hu) (ex_intro _ dt' Hsel)). destruct Hi as [_ Hi].
      destruct (py_get (events (k_lib k)) (Z.of_nat i)) as [e'|] eqn:He; [|done]. cbn in H. injection H as -> _.
      exists i, e. split; [by apply py_get_nat|]. split; [done|]. by rewrite !Rplus_0_l.
    + intros (i & e & He & Hs & H). rewrite !Rplus_0_l in H.
      assert (Hi : (i < length (k_prob k))%nat) by (rewrite Hl; by eapply lookup_lt_Some).
      destruct (proj2 (selection_interval_lemma _ u u2 i Hp Ht Hu) (conj Hi H)) as [dt Hdt]. exists e, dt. rewrite Hdt. cbn [rbind fst snd].
      rewrite (proj2 (py_get_nat _ _ _) He). done.
  - apply intervals_size. done.
Qed.

(** ** Stationarity *)
Lemma Rsum_ext {A} (f g : A -> R) l : (forall x, x ∈ l -> f x = g x) -> Rsum f l = Rsum g l.
Proof.
  induction l as [|x l IH]; intros H; [done|]. cbn. rewrite (H x) by left. fold (Rsum f l) (Rsum g l). rewrite IH; [done|].
  intros y Hy. apply H. by right.
Qed.
Lemma Rsum_plus {A} (f g : A -> R) l : Rsum (fun x => f x + g x) l = Rsum f l + Rsum g l.
Proof. induction l as [|x l IH]; cbn; [lra|]. fold (Rsum f l) (Rsum g l) (Rsum (fun x => f x + g x) l). rewrite IH. lra. Qed.
Lemma Rsum_scale {A} (f : A -> R) a l : Rsum (fun x => a * f x) l = a * Rsum f l.
Proof. induction l as [|x l IH]; cbn; [lra|]. fold (Rsum f l) (Rsum (fun x => a * f x) l). rewrite IH. lra. Qed.
Lemma Rsum_zero {A} (l : list A) : Rsum (fun _ => 0) l = 0.
Proof. induction l as [|x l IH]; cbn; [done|]. fold (Rsum (fun _ : A => 0) l). lra. Qed.
Lemma Rsum_swap {A B} (f : A -> B -> R) l l' : Rsum (fun x => Rsum (f x) l') l = Rsum (fun y => Rsum (fun x => f x y) l) l'.
Proof.
  induction l as [|x l IH]; cbn; [by rewrite Rsum_zero|]. fold (Rsum (fun x => Rsum (f x) l') l). rewrite IH, <- Rsum_plus. done.
Qed.
Lemma Rsum_single {A} `{EqDecision A} (f : A -> R) l x : NoDup l -> x ∈ l -> (forall y, y ∈ l -> y <> x -> f y = 0) -> Rsum f l = f x.
Proof.
  induction l as [|y l IH]; intros Hn Hx H; [by apply elem_of_nil in Hx|]. cbn. fold (Rsum f l). apply NoDup_cons in Hn as [Hy Hn].
  destruct (decide (y = x)) as [->|Hne].
  - assert (Rsum f l = 0) as ->; [|lra]. transitivity (Rsum (fun _ : A => 0) l); [|apply Rsum_zero]. apply Rsum_ext.
    intros z Hz. apply H; [by right|]. by intros ->.
  - apply elem_of_cons in Hx as [->|Hx]; [done|]. rewrite (H y), IH; [lra|done|done| |left|done]. intros z Hz. apply H. by right.
Qed.
Lemma flow_Rsum (rr : event -> R) es s t : flow es (map rr es) s t = Rsum (fun e => if decide (swap_occupations s e = Ok t) then rr e else 0) es.
Proof. induction es as [|e es IH]; [done|]. cbn. by rewrite IH. Qed.
Lemma total_Rsum (rr : event -> R) es : total_rate (map rr es) = Rsum rr es.
Proof. induction es as [|e es IH]; [done|]. cbn. by rewrite IH. Qed.

Lemma Rsum_nonneg {A} (f : A -> R) l : (forall x, x ∈ l -> 0 <= f x) -> 0 <= Rsum f l.
Proof.
  induction l as [|x l IH]; intros H; cbn; [lra|]. fold (Rsum f l).
  pose proof (H x (elem_of_list_here _ _)). assert (0 <= Rsum f l) by (apply IH; intros y Hy; apply H; by right). lra.
Qed.
Lemma Rsum_pos {A} (f : A -> R) l e : e ∈ l -> (forall x, x ∈ l -> 0 <= f x) -> 0 < f e -> 0 < Rsum f l.
Proof.
  induction 1 as [e l|e x l He IH]; intros H Hp; cbn; fold (Rsum f l).
  - assert (0 <= Rsum f l) by (apply Rsum_nonneg; intros y Hy; apply H; by right). lra.
  - pose proof (H x (elem_of_list_here _ _)). assert (0 < Rsum f l) by (apply IH; [intros y Hy; apply H; by right|done]). lra.
Qed.
Lemma Rmax_list {A} (h : A -> R) (l : list A) s : s ∈ l -> exists t, t ∈ l /\ forall u, u ∈ l -> h u <= h t.
Proof.
  revert s. induction l as [|x l IH]; intros s Hs; [by apply elem_of_nil in Hs|]. destruct l as [|y l].
  - exists x. split; [left|]. intros u Hu. apply elem_of_list_singleton in Hu as ->. lra.
  - destruct (IH y (elem_of_list_here _ _)) as (t & Ht & Hle). destruct (Rle_dec (h x) (h t)) as [Hx|Hx].
    + exists t. split; [by right|]. intros u Hu. apply elem_of_cons in Hu as [->|Hu]; [done|by apply Hle].
    + exists x. split; [left|]. intros u Hu. apply elem_of_cons in Hu as [->|Hu]; [lra|]. pose proof (Hle u Hu). lra.
Qed.

Section Stationary.
  Context {E : Type} (ext_compute : E -> list Z -> event -> result R) (c : composite) (lk : option lookup) (v temp : R) (ms : list Z -> E).
  Context (Hv : 0 < v).
  Context (H : list Z -> R) (states : list (list Z)) (es : list event) (rates : list Z -> list R).
  Notation rate s := (compute_probability ext_compute c lk v temp (ms s) s).
  Context (Hes : Forall (proper_event lk) es) (Hnd : NoDup states) (Hcl : closed_under lk states es) (Hsad : same_saddle ext_compute c lk ms H states es).
  Context (Hrates : forall s, s ∈ states -> rmapM (rate s) es = Ok (rates s)).
  Definition rr (s : list Z) (e : event) : R := match rate s e with Ok r => r | Err _ => 0 end.
  Definition boltzmann (s : list Z) : R := exp (- H s / (k_B * temp)).
  Lemma rates_map s : s ∈ states -> rates s = map (rr s) es /\ forall e, e ∈ es -> rate s e = Ok (rr s e).
  Proof.
    intros Hs. pose proof (Hrates s Hs) as Hr. revert Hr. generalize (rates s). clear -Hs. induction es as [|e es' IH]; intros p Hp.
    - cbn in Hp. injection Hp as <-. split; [done|]. intros e He. by apply elem_of_nil in He.
    - cbn [rmapM] in Hp. destruct (rate s e) as [r|] eqn:Hr; [|done]. cbn [rbind] in Hp.
      destruct (rmapM (rate s) es') as [q|] eqn:Hq; [|done]. cbn in Hp. injection Hp as <-. destruct (IH q eq_refl) as [-> IH'].
      assert (Hrr : rr s e = r) by (unfold rr; by rewrite Hr). split; [cbn; by rewrite Hrr|].
      intros e' He'. apply elem_of_cons in He' as [->|He']; [by rewrite Hrr|by apply IH'].
  Qed.
  Lemma swap_back e s t : proper_event lk e -> swap_occupations s e = Ok t -> swap_occupations t e = Ok s.
  Proof.
    intros (f & g & env & codes & -> & Hf & Hg & Hne & _) Hs. by eapply swap_twice.
  Qed.
  Lemma event_balance t e : t ∈ states -> e ∈ es ->
    Rsum (fun s => boltzmann s * (if decide (swap_occupations s e = Ok t) then rr s e else 0)) states = boltzmann t * rr t e.
  Proof.
    intros Ht He. rewrite Forall_forall in Hes. pose proof (Hes e He) as Hp. pose proof Hp as (f & g & env & codes & Ee & Hf & Hg & Hne & Hcodes & Hcons).
    pose proof (proj2 (rates_map t Ht) e He) as Hrt.
    pose proof (rate_inv _ _ _ _ _ _ _ _ _ Hrt) as (codes' & d & Hc' & Hd & _).
    assert (codes' = codes) as -> by congruence.
    assert (Hcons' : endpoint_consistent codes) by exact Hcons.
    destruct (decide (d = 0%Z)) as [->|Hd0].
    - assert (Hn : ~ hoppable codes t e) by (rewrite <- (direction_hoppable _ _ _ _ Hd); tauto).
      rewrite (proj2 (rate_positive_lemma _ _ _ _ _ _ _ _ _ _ Hv Hcodes Hrt) Hn), Rmult_0_r.
      transitivity (Rsum (fun _ : list Z => 0) states); [|apply Rsum_zero]. apply Rsum_ext. intros s Hs.
      destruct (decide _) as [Hsw|]; [|lra]. pose proof (proj2 (rates_map s Hs) e He) as Hrs.
      pose proof (rate_inv _ _ _ _ _ _ _ _ _ Hrs) as (codes' & ds & Hc'' & Hds & _). assert (codes' = codes) as -> by congruence.
      destruct (decide (ds = 0%Z)) as [->|Hds0].
      + assert (Hn' : ~ hoppable codes s e) by (rewrite <- (direction_hoppable _ _ _ _ Hds); tauto).
        rewrite (proj2 (rate_positive_lemma _ _ _ _ _ _ _ _ _ _ Hv Hcodes Hrs) Hn'). lra.
      + exfalso. subst e. destruct (hop_undone_lemma s f g env codes ds t Hf Hg Hne Hcons' Hds Hds0 Hsw) as [Hd' _].
        rewrite Hd in Hd'. injection Hd' as Hd'. lia.
    - assert (Hh : hoppable codes t e) by (rewrite <- (direction_hoppable _ _ _ _ Hd); done).
      destruct (Hcl t e codes Ht He Hcodes Hh) as (t' & Hsw & Ht').
      pose proof (swap_back _ _ _ Hp Hsw) as Hsw'. pose proof (proj2 (rates_map t' Ht') e He) as Hrt'.
      rewrite (Rsum_single _ states t' Hnd Ht').
      + rewrite decide_True by done.
        subst e. destruct (hop_undone_lemma t f g env codes d t' Hf Hg Hne Hcons' Hd Hd0 Hsw) as [Hd' _].
        apply rate_inv in Hrt as (c1 & d1 & Hc1 & Hd1 & [[-> _]|(Hd10 & kra & ek & dl & Hk & Hek & Hdl & Hkt & Hr1)]);
          [assert (c1 = codes) as -> by congruence; congruence|].
        apply rate_inv in Hrt' as (c2 & d2 & Hc2 & Hd2 & [[-> _]|(Hd20 & kra' & ek' & dl' & Hk' & Hek' & Hdl' & _ & Hr2)]);
          [assert (c2 = codes) as -> by congruence; rewrite Hd' in Hd2; injection Hd2; lia|].
        assert (HH : H t + (ek + dl / 2) = H t' + (ek' + dl' / 2)).
        { apply (Hsad t t' (Event [f; g] env) codes); try done; [by exists kra, c1, d1, ek, dl|by exists kra', c2, d2, ek', dl']. }
        rewrite Hr1, Hr2. unfold boltzmann.
        transitivity (v * (exp (- H t' / (k_B * temp)) * exp (- (ek' + dl' / 2) / (k_B * temp)))); [lra|].
        transitivity (v * (exp (- H t / (k_B * temp)) * exp (- (ek + dl / 2) / (k_B * temp)))); [|lra].
        rewrite <- !exp_plus. do 2 f_equal.
        transitivity (- (H t' + (ek' + dl' / 2)) / (k_B * temp)); [unfold Rdiv; ring|]. rewrite <- HH. unfold Rdiv. ring.
      + intros s Hs Hsne. rewrite decide_False; [lra|]. intros Hss. apply Hsne.
        pose proof (swap_back _ _ _ Hp Hss) as Hts. congruence.
  Qed.
  Lemma stationary_lemma t : t ∈ states ->
    Rsum (fun s => boltzmann s * flow es (rates s) s t) states = boltzmann t * total_rate (rates t).
  Proof.
    intros Ht. rewrite (proj1 (rates_map t Ht)), total_Rsum, <- Rsum_scale.
    transitivity (Rsum (fun s => Rsum (fun e => boltzmann s * (if decide (swap_occupations s e = Ok t) then rr s e else 0)) es) states).
    - apply Rsum_ext. intros s Hs. by rewrite (proj1 (rates_map s Hs)), flow_Rsum, Rsum_scale.
    - rewrite Rsum_swap. apply Rsum_ext. intros e He. by apply event_balance.
  Qed.
  Lemma pair_balance s t e : s ∈ states -> t ∈ states -> e ∈ es -> swap_occupations s e = Ok t -> boltzmann s * rr s e = boltzmann t * rr t e.
  Proof.
    intros Hs Ht He Hsw. rewrite <- (event_balance t e Ht He).
    rewrite (Rsum_single _ states s Hnd Hs); [by rewrite decide_True|].
    intros y Hy Hne. rewrite decide_False; [lra|]. intros Hy'. apply Hne. pose proof (proj1 (Forall_forall _ _) Hes e He) as Hp.
    pose proof (swap_back _ _ _ Hp Hy'). pose proof (swap_back _ _ _ Hp Hsw). congruence.
  Qed.
  Lemma flow_balance s t : s ∈ states -> t ∈ states -> boltzmann s * flow es (rates s) s t = boltzmann t * flow es (rates t) t s.
  Proof.
    intros Hs Ht. rewrite (proj1 (rates_map s Hs)), (proj1 (rates_map t Ht)), !flow_Rsum, <- !Rsum_scale. apply Rsum_ext. intros e He.
    pose proof (proj1 (Forall_forall _ _) Hes e He) as Hp.
    destruct (decide (swap_occupations s e = Ok t)) as [Hsw|Hn].
    - rewrite decide_True by (by apply (swap_back e)). by apply pair_balance.
    - rewrite decide_False; [lra|]. intros Hsw. apply Hn. by apply (swap_back e).
  Qed.
  Lemma path_snoc l a b : path_rate es rates (l ++ [a; b]) = path_rate es rates (l ++ [a]) * flow es (rates a) a b.
  Proof.
    induction l as [|x l IH]; [cbn; lra|]. destruct l as [|y l]; [cbn in *; lra|].
    change (path_rate es rates ((x :: y :: l) ++ [a; b])) with (flow es (rates x) x y * path_rate es rates ((y :: l) ++ [a; b])).
    change (path_rate es rates ((x :: y :: l) ++ [a])) with (flow es (rates x) x y * path_rate es rates ((y :: l) ++ [a])).
    rewrite IH. lra.
  Qed.
  Lemma path_lemma l s t : s ∈ states -> Forall (fun x => x ∈ states) l -> last (s :: l) = Some t ->
    boltzmann s * path_rate es rates (s :: l) = boltzmann t * path_rate es rates (rev (s :: l)).
  Proof.
    revert s. induction l as [|x l IH]; intros s Hs Hl Ht; [cbn in Ht; injection Ht as <-; done|].
    apply Forall_cons_1 in Hl as [Hx Hl]. change (rev (s :: x :: l)) with ((rev l ++ [x]) ++ [s]). rewrite <- app_assoc. cbn [app].
    rewrite path_snoc. change (rev l ++ [x]) with (rev (x :: l)).
    change (path_rate es rates (s :: x :: l)) with (flow es (rates s) s x * path_rate es rates (x :: l)).
    rewrite <- Rmult_assoc, (flow_balance s x Hs Hx).
    specialize (IH x Hx Hl Ht).
    transitivity (flow es (rates x) x s * (boltzmann x * path_rate es rates (x :: l))); [lra|]. rewrite IH. lra.
  Qed.
  Lemma rr_nonneg s e : s ∈ states -> e ∈ es -> 0 <= rr s e.
  Proof.
    intros Hs He. pose proof (proj2 (rates_map s Hs) e He) as Hr. pose proof (rate_inv _ _ _ _ _ _ _ _ _ Hr) as (codes & d & Hc & Hd & _).
    destruct (rate_positive_lemma _ _ _ _ _ _ _ _ _ _ Hv Hc Hr) as [H1 H2].
    destruct (decide (d = 0%Z)) as [->|Hd0].
    - rewrite H2; [lra|]. rewrite <- (direction_hoppable _ _ _ _ Hd). tauto.
    - apply Rlt_le, H1. by rewrite <- (direction_hoppable _ _ _ _ Hd).
  Qed.
  Lemma out_total t : t ∈ states -> Rsum (fun u => flow es (rates t) t u) states = total_rate (rates t).
  Proof.
    intros Ht. rewrite (proj1 (rates_map t Ht)), total_Rsum.
    transitivity (Rsum (fun u => Rsum (fun e => if decide (swap_occupations t e = Ok u) then rr t e else 0) es) states).
    { apply Rsum_ext. intros u _. apply flow_Rsum. }
    rewrite Rsum_swap. apply Rsum_ext. intros e He.
    pose proof (proj2 (rates_map t Ht) e He) as Hr. pose proof (rate_inv _ _ _ _ _ _ _ _ _ Hr) as (codes & d & Hc & Hd & _).
    destruct (rate_positive_lemma _ _ _ _ _ _ _ _ _ _ Hv Hc Hr) as [H1 H2].
    destruct (decide (d = 0%Z)) as [->|Hd0].
    - rewrite H2 by (rewrite <- (direction_hoppable _ _ _ _ Hd); tauto).
      transitivity (Rsum (fun _ : list Z => 0) states); [|apply Rsum_zero]. apply Rsum_ext. intros u _. by destruct (decide _).
    - destruct (Hcl t e codes Ht He Hc) as (t' & Hsw & Ht'); [by rewrite <- (direction_hoppable _ _ _ _ Hd)|].
      rewrite (Rsum_single _ states t' Hnd Ht'); [by rewrite decide_True|]. intros y _ Hy. rewrite decide_False; [done|congruence].
  Qed.
  Lemma flow_nonneg s t : s ∈ states -> 0 <= flow es (rates s) s t.
  Proof.
    intros Hs. rewrite (proj1 (rates_map s Hs)), flow_Rsum. apply Rsum_nonneg. intros e He. destruct (decide _); [by apply rr_nonneg|lra].
  Qed.
  Lemma hop_flow s t : s ∈ states -> one_hop lk es s t -> 0 < flow es (rates s) s t.
  Proof.
    intros Hs (e & codes & He & Hc & Hh & Hsw). rewrite (proj1 (rates_map s Hs)), flow_Rsum. apply (Rsum_pos _ _ e He).
    - intros y Hy. destruct (decide _); [by apply rr_nonneg|lra].
    - rewrite decide_True by done. pose proof (proj2 (rates_map s Hs) e He) as Hr.
      by apply (proj1 (rate_positive_lemma _ _ _ _ _ _ _ _ _ _ Hv Hc Hr)).
  Qed.
  Lemma boltzmann_pos s : 0 < boltzmann s.
  Proof. apply exp_pos. Qed.
  (** A function that is at each state the average of its values after the next hop is constant. *)
  Lemma harmonic (h : list Z -> R) : connected lk states es ->
    (forall t, t ∈ states -> Rsum (fun s => flow es (rates t) t s * (h s - h t)) states = 0) ->
    forall s t, s ∈ states -> t ∈ states -> h s = h t.
  Proof.
    intros Hcon Hh.
    assert (Hmax : forall s, s ∈ states -> exists t, t ∈ states /\ forall u, u ∈ states -> h u <= h t) by (intros s Hs; by apply (Rmax_list h states s)).
    intros s t Hs Ht. destruct (Hmax s Hs) as (z & Hz & Hle).
    assert (Hall : forall u, rtc (one_hop lk es) z u -> u ∈ states /\ h u = h z).
    { intros u Hu. pattern u. revert u Hu. apply rtc_ind_r; [done|]. intros y u _ Hyu [Hy Hhy].
      assert (Hu : u ∈ states).
      { destruct Hyu as (e & codes & He & Hc & Hp & Hsw). destruct (Hcl y e codes Hy He Hc Hp) as (u' & Hsw' & Hu'). congruence. }
      split; [done|]. rewrite <- Hhy. pose proof (hop_flow y u Hy Hyu) as Hpos. pose proof (Hh y Hy) as H0.
      assert (h u <= h y) as Huy by (rewrite Hhy; by apply Hle). destruct (Rle_lt_or_eq_dec _ _ Huy) as [Hlt|]; [|done]. exfalso.
      assert (0 < Rsum (fun s => - 1 * (flow es (rates y) y s * (h s - h y))) states).
      { apply (Rsum_pos _ _ u Hu).
        - intros w Hw. pose proof (flow_nonneg y w Hy). assert (h w <= h y) by (rewrite Hhy; by apply Hle).
          pose proof (Rmult_le_pos (flow es (rates y) y w) (h y - h w)). lra.
        - pose proof (Rmult_lt_0_compat (flow es (rates y) y u) (h y - h u)). lra. }
      rewrite Rsum_scale in H1. lra. }
    destruct (Hall s (Hcon z s Hz Hs)) as [_ ->]. by destruct (Hall t (Hcon z t Hz Ht)) as [_ ->].
  Qed.
  Lemma unique_lemma (f : list Z -> R) : connected lk states es ->
    (forall t, t ∈ states -> Rsum (fun s => f s * flow es (rates s) s t) states = f t * total_rate (rates t)) ->
    exists z, forall s, s ∈ states -> f s = z * boltzmann s.
  Proof.
    intros Hcon Hf. set (h := fun s => f s / boltzmann s).
    assert (Hfh : forall s, f s = h s * boltzmann s) by (intros s; unfold h; field; pose proof (boltzmann_pos s); lra).
    assert (Hc : forall s t, s ∈ states -> t ∈ states -> h s = h t).
    { apply harmonic; [done|]. intros t Ht.
      assert (boltzmann t * Rsum (fun s => flow es (rates t) t s * (h s - h t)) states = 0) as H0.
      { rewrite <- Rsum_scale. transitivity (Rsum (fun s => f s * flow es (rates s) s t + - f t * flow es (rates t) t s) states).
        - apply Rsum_ext. intros s Hs. rewrite !Hfh. pose proof (flow_balance s t Hs Ht) as Hb.
          replace (h s * boltzmann s * flow es (rates s) s t) with (h s * (boltzmann s * flow es (rates s) s t)) by lra. rewrite Hb. lra.
        - rewrite Rsum_plus, (Hf t Ht).
          replace (Rsum (fun s => - f t * flow es (rates t) t s) states) with (- f t * total_rate (rates t)) by (rewrite <- (out_total t Ht); symmetry; apply Rsum_scale).
          lra. }
      apply Rmult_integral in H0 as [H0|]; [|done]. pose proof (boltzmann_pos t). lra. }
    destruct states as [|s0 ss] eqn:Es; [exists 0; intros s Hs; by apply elem_of_nil in Hs|]. exists (h s0). intros s Hs. rewrite Hfh. f_equal.
    apply Hc; [done|left].
  Qed.
End Stationary.

(** ** Equal surroundings *)
Lemma rmapM_two {A B C} (f : A -> result C) (g : B -> result C) l l' : Forall2 (fun x y => f x = g y) l l' -> rmapM f l = rmapM g l'.
Proof. induction 1 as [|x y l l' E _ IH]; [done|]. cbn [rmapM]. by rewrite E, IH. Qed.
Lemma contents_lemma {E} (ext_compute : E -> list Z -> event -> result R) c lk v temp m m' occ occ' e e' : lce_only c ->
  same_contents occ occ' e e' -> event_codes lk e = event_codes lk e' ->
  compute_probability ext_compute c lk v temp m occ e = compute_probability ext_compute c lk v temp m' occ' e'.
Proof.
  intros Hlce [Hm He] Hcodes.
  assert (Hc : forall l : lce R, Rcompute l occ e = Rcompute l occ' e').
  { intros l. unfold Rcompute, lce_compute. by rewrite (rmapM_two _ _ _ _ He). }
  unfold compute_probability. rewrite Hcodes. destruct (event_codes lk e') as [codes|]; [|done]. cbn [rbind].
  assert (event_direction occ e codes = event_direction occ' e' codes) as ->.
  { unfold event_direction. destruct Hm as [|i j l l' E1 Hm]; [done|]. destruct Hm as [|i2 j2 l l' E2 Hm]; [done|].
    destruct Hm as [|i3 j3 l l' E3 Hm]; [|done]. cbn. by rewrite E1, E2. }
  destruct (event_direction occ' e' codes) as [d|]; [|done]. cbn [rbind]. destruct (d =? 0)%Z; [done|].
  destruct (kra_model c) as [kra|]; [|done]. rewrite Hc. destruct (Rcompute kra occ' e') as [ek|]; [|done]. cbn [rbind].
  assert (site_energy_difference ext_compute c m occ e d = site_energy_difference ext_compute c m' occ' e' d) as ->; [|done].
  unfold site_energy_difference. destruct (c_site c) as [|l|] eqn:Hs; [done|by rewrite Hc|by destruct Hlce].
Qed.
Lemma moved_nonneg n t k k' : positive n -> moved n t k k' -> (0 <= k)%Z /\ (0 <= k')%Z.
Proof.
  intros Hn (p & a & _ & -> & ->). split; [apply (number_bound n p a (S p)); [done|lia]|apply (number_bound n p (a +v t) (S p)); [done|lia]].
Qed.
Lemma moved_one_to_one n t k k' j j' : positive n -> moved n t k k' -> moved n t j j' -> k = j <-> k' = j'.
Proof.
  intros Hn (p & a & Ha & -> & ->) (q & b & Hb & -> & ->). split.
  - intros Heq. by apply number_inj in Heq as [-> ->].
  - intros Heq. apply number_eq_iff in Heq as [-> Hcong]; [|done]. apply number_eq_iff; [done|]. split; [done|].
    destruct n as [[n1 n2] n3], a as [[x y] z], b as [[x' y'] z'], t as [[t1 t2] t3].
    destruct Hcong as (i & j & k & Hx & Hy & Hz). exists i, j, k. lia.
Qed.
Lemma moved_py_get n t occ occ' k k' : positive n -> state_moved n t occ occ' -> moved n t k k' -> py_get occ k = py_get occ' k'.
Proof.
  intros Hn [Hl H] Hk. destruct (moved_nonneg _ _ _ _ Hn Hk) as [H1 H2]. specialize (H k k' Hk).
  unfold py_get, py_norm. rewrite !(proj2 (Z.leb_le 0 _)) by done. rewrite <- Hl.
  destruct (k <? Z.of_nat (length occ))%Z eqn:E1, (k' <? Z.of_nat (length occ))%Z eqn:E2; try done.
  - by rewrite H.
  - exfalso. apply Z.ltb_lt in E1. apply Z.ltb_ge in E2. assert (occ !! Z.to_nat k = None) as Hn1.
    { rewrite <- H. apply lookup_ge_None. rewrite <- Hl. lia. } apply lookup_ge_None in Hn1. lia.
  - exfalso. apply Z.ltb_ge in E1. apply Z.ltb_lt in E2. assert (occ' !! Z.to_nat k' = None) as Hn1.
    { rewrite H. apply lookup_ge_None. lia. } apply lookup_ge_None in Hn1. lia.
Qed.
Lemma moved_contents n t occ occ' e e' : positive n -> state_moved n t occ occ' -> event_moved n t e e' -> same_contents occ occ' e e'.
Proof.
  intros Hn Hs [H1 H2]. split; eapply Forall2_impl; [exact H1| |exact H2|]; intros i j Hij; by apply (moved_py_get n t).
Qed.
Lemma moved_swap n t occ occ' e e' occ1 : positive n -> state_moved n t occ occ' -> event_moved n t e e' -> swap_occupations occ e = Ok occ1 ->
  exists occ1', swap_occupations occ' e' = Ok occ1' /\ state_moved n t occ1 occ1'.
Proof.
  intros Hn Hs [Hm _] Hsw. destruct e as [ms env], e' as [ms' env']. cbn in Hm.
  destruct Hm as [|f f' ? ? Hf Hm]; [done|]. destruct Hm as [|g g' ? ? Hg Hm]; [done|]. destruct Hm; [|done].
  destruct (moved_nonneg _ _ _ _ Hn Hf) as [Hf0 Hf0'], (moved_nonneg _ _ _ _ Hn Hg) as [Hg0 Hg0'].
  pose proof Hsw as Hsw0. apply swap_in_range_inv in Hsw as (x & y & Hx & Hy & -> & _ & _); [|done..]. destruct Hs as [Hl H].
  pose proof (H _ _ Hf) as Hf'. pose proof (H _ _ Hg) as Hg'. rewrite Hx in Hf'. rewrite Hy in Hg'.
  rewrite (swap_in_range occ' f' g' env' x y) by done. eexists. split; [reflexivity|]. split; [by rewrite !insert_length|].
  intros k k' Hk. destruct (moved_nonneg _ _ _ _ Hn Hk) as [Hk0 Hk0'].
  pose proof (moved_one_to_one _ _ _ _ _ _ Hn Hk Hg) as Eg. pose proof (moved_one_to_one _ _ _ _ _ _ Hn Hk Hf) as Ef.
  apply lookup_lt_Some in Hx, Hy, Hf', Hg'.
  destruct (decide (k = g)) as [->|Hng].
  - rewrite <- (proj1 Eg eq_refl). rewrite !list_lookup_insert; [done|rewrite insert_length; lia|].
    rewrite insert_length. rewrite (proj1 Eg eq_refl). lia.
  - assert (k' <> g') by tauto. rewrite (list_lookup_insert_ne _ (Z.to_nat g')), (list_lookup_insert_ne _ (Z.to_nat g)) by lia.
    destruct (decide (k = f)) as [->|Hnf].
    + rewrite <- (proj1 Ef eq_refl). rewrite !list_lookup_insert; [done|lia|]. rewrite (proj1 Ef eq_refl). lia.
    + assert (k' <> f') by tauto. rewrite !list_lookup_insert_ne by lia. by apply H.
Qed.

(** ** Forms of the statements *)
Lemma clock_lemma a E S ext_initialize (ext_apply : E -> event -> list Z -> result E) ext_compute (sample : S -> list vec -> list nat -> state R -> result S)
    c init lk v temp lib st str mobile s0 eqp kp pl draws : 0 < a -> clock_blind sample ->
  match whole_simulation ext_initialize ext_apply ext_compute sample c init lk v temp lib st str mobile s0 eqp kp pl draws,
        whole_simulation ext_initialize ext_apply ext_compute sample c init lk (a * v) temp lib st str mobile s0 eqp kp pl draws with
  | Ok (k, tr), Ok (k', tr') =>
      tr' = tr /\ occupations (k_state k') = occupations (k_state k) /\ step (k_state k') = step (k_state k) /\ k_model k' = k_model k
      /\ k_prob k' = map (Rmult a) (k_prob k)
      /\ time (k_state k') - time st = (time (k_state k) - time st) / a
  | Err x, Err y => x = y
  | _, _ => False
  end.
Proof.
  intros Ha Hs. pose proof (whole_times a Ha ext_apply ext_compute c lk v temp sample ext_initialize init lib st str mobile s0 eqp kp pl draws Hs) as H.
  destruct (whole_simulation _ _ _ _ _ _ _ v _ _ _ _ _ _ _ _ _ _) as [[k tr]|], (whole_simulation _ _ _ _ _ _ _ (a * v) _ _ _ _ _ _ _ _ _ _) as [[k' tr']|]; try done.
  destruct H as [(H1 & H2 & H3 & H4 & H5 & H6 & H7 & _) H]. cbn in *. auto 10.
Qed.
Lemma running_cumsum p q : running_sums Rplus p q -> q = cumsum Rplus p.
Proof.
  intros (Hl & Hh & Hs). destruct p as [|x p], q as [|y q]; try done. cbn in Hh. injection Hh as ->. cbn. f_equal.
  assert (Hs' : forall i s z, (x :: q) !! i = Some s -> p !! i = Some z -> q !! i = Some (s + z)) by (intros i s z H1 H2; exact (Hs i s z H1 H2)).
  injection Hl as Hl. clear Hs. revert x q Hl Hs'. induction p as [|z p IH]; intros x q Hl Hs; [by destruct q|].
  destruct q as [|y q]; [done|]. cbn. pose proof (Hs 0%nat x z eq_refl eq_refl) as H0. cbn in H0. injection H0 as ->. f_equal.
  apply IH; [by injection Hl|]. intros i s w H1 H2. exact (Hs (S i) s w H1 H2).
Qed.
Lemma transition_lemma' E (k : kmc R E) u2 t : running_sums Rplus (k_prob k) (k_cum k) -> length (k_prob k) = length (events (k_lib k)) ->
  all_nonneg (k_prob k) -> 0 < total_rate (k_prob k) ->
  probability (fun u => exists e dt, propose Rselect k u u2 = Ok (e, dt) /\ swap_occupations (occupations (k_state k)) e = Ok t)
    (flow (events (k_lib k)) (k_prob k) (occupations (k_state k)) t / total_rate (k_prob k)).
Proof. intros Hc%running_cumsum. by apply transition_lemma. Qed.
Lemma stationary_both E (ext_compute : E -> list Z -> event -> result R) c lk v temp ms (H : list Z -> R) states es rates t :
  0 < v -> Forall (proper_event lk) es -> NoDup states -> closed_under lk states es ->
  same_saddle ext_compute c lk ms H states es ->
  (forall s, s ∈ states -> rmapM (compute_probability ext_compute c lk v temp (ms s) s) es = Ok (rates s)) -> t ∈ states ->
  let weight s := exp (- H s / (boltzmann_constant * temp)) in
  Rsum (fun s => weight s * flow es (rates s) s t) states = weight t * total_rate (rates t)
  /\ ((forall s, s ∈ states -> 0 < total_rate (rates s)) ->
      Rsum (fun s => weight s * total_rate (rates s) * (flow es (rates s) s t / total_rate (rates s))) states
      = weight t * total_rate (rates t)).
Proof.
  intros Hv Hes Hnd Hcl Hd Hr Hin weight.
  pose proof (stationary_lemma ext_compute c lk v temp ms Hv H states es rates Hes Hnd Hcl Hd Hr t Hin) as Hst. split; [exact Hst|].
  intros Hpos. transitivity (Rsum (fun s => weight s * flow es (rates s) s t) states); [|exact Hst].
  apply Rsum_ext. intros s Hs. pose proof (Hpos s Hs). field. lra.
Qed.
Lemma translation_lemma E (ext_compute : E -> list Z -> event -> result R) c lk v temp m m' n t occ occ' e e' : lce_only c -> positive n ->
  state_moved n t occ occ' -> event_moved n t e e' -> event_codes lk e = event_codes lk e' ->
  compute_probability ext_compute c lk v temp m occ e = compute_probability ext_compute c lk v temp m' occ' e'
  /\ forall occ1, swap_occupations occ e = Ok occ1 -> exists occ1', swap_occupations occ' e' = Ok occ1' /\ state_moved n t occ1 occ1'.
Proof.
  intros Hl Hn Hs He Hc. split; [apply contents_lemma; [done| |done]; by apply (moved_contents n t)|].
  intros occ1. by apply moved_swap.
Qed.
Lemma path_both E (ext_compute : E -> list Z -> event -> result R) c lk v temp ms (H : list Z -> R) states es rates s l t :
  0 < v -> Forall (proper_event lk) es -> NoDup states -> closed_under lk states es ->
  same_saddle ext_compute c lk ms H states es ->
  (forall s, s ∈ states -> rmapM (compute_probability ext_compute c lk v temp (ms s) s) es = Ok (rates s)) ->
  Forall (fun x => x ∈ states) (s :: l) -> last (s :: l) = Some t ->
  let weight s := exp (- H s / (boltzmann_constant * temp)) in
  weight s * path_rate es rates (s :: l) = weight t * path_rate es rates (rev (s :: l)).
Proof.
  intros Hv Hes Hnd Hcl Hd Hr Hin Hlast weight. apply Forall_cons_1 in Hin as [Hs Hin].
  exact (path_lemma ext_compute c lk v temp ms Hv H states es rates Hes Hnd Hcl Hd Hr l s t Hs Hin Hlast).
Qed.
Lemma unique_both E (ext_compute : E -> list Z -> event -> result R) c lk v temp ms (H : list Z -> R) states es rates f :
  0 < v -> Forall (proper_event lk) es -> NoDup states -> closed_under lk states es ->
  same_saddle ext_compute c lk ms H states es ->
  (forall s, s ∈ states -> rmapM (compute_probability ext_compute c lk v temp (ms s) s) es = Ok (rates s)) ->
  connected lk states es ->
  (forall t, t ∈ states -> Rsum (fun s => f s * flow es (rates s) s t) states = f t * total_rate (rates t)) -> Rsum f states = 1 ->
  let weight s := exp (- H s / (boltzmann_constant * temp)) in
  forall s, s ∈ states -> f s = weight s / Rsum weight states.
Proof.
  intros Hv Hes Hnd Hcl Hd Hr Hcon Hf H1 weight s Hs.
  destruct (unique_lemma ext_compute c lk v temp ms Hv H states es rates Hes Hnd Hcl Hd Hr f Hcon Hf) as [z Hz].
  assert (Hz' : forall s, s ∈ states -> f s = z * weight s) by exact Hz.
  assert (Hpos : 0 < Rsum weight states).
  { apply (Rsum_pos _ _ s Hs); [intros; apply Rlt_le|]; apply exp_pos. }
  assert (Hzz : z * Rsum weight states = 1) by (rewrite <- Rsum_scale, <- H1; symmetry; by apply Rsum_ext).
  rewrite (Hz' s Hs). apply (Rmult_eq_reg_r (Rsum weight states)); [|lra]. field_simplify; [|lra]. 
  replace (z * weight s * Rsum weight states) with (z * Rsum weight states * weight s) by lra. rewrite Hzz. lra.
Qed.
Lemma arrangements_elem s t : t ∈ arrangements s <-> t ≡ₚ s.
Proof.
  unfold arrangements. rewrite elem_of_remove_dups, permutations_Permutation. split; intros H; by symmetry.
Qed.
Lemma hoppable_swaps lk codes s e : proper_event lk e -> hoppable codes s e -> exists s', swap_occupations s e = Ok s'.
Proof.
  intros (f & g & env & codes' & -> & Hf & Hg & Hne & _) Hh. destruct codes as [[[a b] d] z]. destruct Hh as (f' & t' & x & y & Hm & Hx & Hy & _).
  cbn in Hm. injection Hm as <- <-. eexists. apply swap_in_range; [done|done|by apply py_get_nonneg|by apply py_get_nonneg].
Qed.
Lemma rfold_ext_in {A B} (f g : B -> A -> result B) l b : (forall acc x, x ∈ l -> f acc x = g acc x) -> rfold f b l = rfold g b l.
Proof.
  revert b. induction l as [|x l IH]; intros b H; [done|]. cbn. rewrite (H b x (elem_of_list_here _ _)). destruct (g b x); [|done]. cbn.
  apply IH. intros acc y Hy. apply H. by right.
Qed.
Lemma rmapM_ext_in {A B} (f g : A -> result B) l : (forall x, x ∈ l -> f x = g x) -> rmapM f l = rmapM g l.
Proof.
  induction l as [|x l IH]; intros H; [done|]. cbn. rewrite (H x (elem_of_list_here _ _)), IH; [done|]. intros y Hy. apply H. by right.
Qed.
Lemma enumerate_elem {A} (l : list A) i x : (i, x) ∈ enumerate l -> x ∈ l.
Proof. intros H%elem_of_enumerate. by eapply elem_of_list_lookup_2. Qed.
Lemma reads_same (l : lce R) o o' : (forall p, reads l p -> py_get o p = py_get o' p) ->
  calculate_correlation 0 1 Rplus Rmult IZR l o = calculate_correlation 0 1 Rplus Rmult IZR l o'.
Proof.
  intros H. unfold calculate_correlation. destruct (l_decorations l) as [[basis values]|].
  - unfold calc_corr_decorated. apply rmapM_ext_in. intros [i orbit] Hi%enumerate_elem. cbn. destruct (py_get basis (Z.of_nat i)) as [b|]; [|done]. cbn.
    apply rfold_ext_in. intros acc [j cl] Hj%enumerate_elem. cbn. destruct (py_get b (Z.of_nat j)) as [b'|]; [|done]. cbn. f_equal.
    apply rfold_ext_in. intros acc' [k p] Hk%enumerate_elem. cbn. unfold site_value. by rewrite (H p) by (by exists orbit, cl).
  - apply rmapM_ext_in. intros orbit Ho. apply rfold_ext_in. intros acc cl Hcl. f_equal. apply rfold_ext_in. intros acc' p Hp.
    by rewrite (H p) by (by exists orbit, cl).
Qed.
Lemma gathered_get (occ : list Z) env o p : rmapM (py_get occ) env = Ok o -> py_get o p = rbind (py_get env p) (py_get occ).
Proof.
  intros H. unfold py_get at 1 2. rewrite (rmapM_length _ _ _ H). destruct (py_norm (length env) p) as [i|] eqn:Hp; [|done].
  destruct (env !! i) as [j|] eqn:Hj.
  - destruct (rmapM_lookup_l _ _ _ _ _ H Hj) as (y & -> & Hy). cbn. by rewrite Hy.
  - apply lookup_ge_None in Hj. rewrite lookup_ge_None_2; [done|]. by rewrite (rmapM_length _ _ _ H).
Qed.
Lemma elsewhere_value (l : lce R) s e s' x x' f g env : e = Event [f; g] env -> (0 <= f)%Z -> (0 <= g)%Z ->
  (forall p i, reads l p -> py_get env p = Ok i -> (0 <= i)%Z /\ i ∉ [f; g]) -> swap_occupations s e = Ok s' ->
  Rcompute l s e = Ok x -> Rcompute l s' e = Ok x' -> x = x'.
Proof.
  intros -> Hf Hg Hr Hsw. unfold Rcompute, lce_compute. destruct (l_keci l) as [keci|]; [|done]. destruct (l_empty l) as [empty|]; [|done].
  destruct (validate_parameter_orbits _ _ _ _) as [kk|]; [|done]. cbn [rbind local_env_indices].
  destruct (rmapM (py_get s) env) as [o|] eqn:Ho; [|done]. destruct (rmapM (py_get s') env) as [o'|] eqn:Ho'; [|done]. cbn [rbind].
  rewrite (reads_same l o o'); [congruence|]. intros p Hp. rewrite (gathered_get _ _ _ _ Ho), (gathered_get _ _ _ _ Ho').
  destruct (py_get env p) as [i|] eqn:Hi; [|done]. cbn. destruct (Hr p i Hp Hi) as [Hi0 Hni]. symmetry. apply py_get_same; [done|by apply (swap_length s (Event [f; g] env))|].
  rewrite !elem_of_cons, elem_of_nil in Hni. apply (swap_others s f g env); [done|done|done| |]; intros Heq; apply Hni; [left|right; left]; lia.
Qed.
Lemma saddle_lemma E (ext_compute : E -> list Z -> event -> result R) c lk ms (H : list Z -> R) states es :
  lce_only c -> Forall (proper_event lk) es -> Forall (looks_elsewhere c) es -> differences_of ext_compute c lk ms H states es ->
  same_saddle ext_compute c lk ms H states es.
Proof.
  intros Hl Hes Hel Hd s s' e codes x x' Hs Hs' He Hc Hh Hsw (kra & c1 & d & ek & dl & Hk & Hc1 & Hd1 & Hek & Hdl & ->) (kra' & c2 & d' & ek' & dl' & Hk' & Hc2 & Hd2 & Hek' & Hdl' & ->).
  assert (c1 = codes) as -> by congruence. assert (c2 = codes) as -> by congruence. assert (kra' = kra) as -> by congruence.
  pose proof (proj1 (Forall_forall _ _) Hel e He) as Hle. pose proof (proj1 (Forall_forall _ _) Hes e He) as (f & g & env & codes' & -> & Hf & Hg & Hne & Hcc & Hcons).
  assert (codes' = codes) as -> by congruence.
  assert (Hd0 : d <> 0%Z) by (by apply (direction_hoppable codes s (Event [f; g] env) d)).
  destruct (hop_undone_lemma s f g env codes d s' Hf Hg Hne Hcons Hd1 Hd0 Hsw) as [Hdd _]. rewrite Hd2 in Hdd. injection Hdd as ->.
  assert (ek = ek') as <-.
  { apply (elsewhere_value kra s _ s' ek ek' f g env eq_refl Hf Hg); [|done|done|done]. intros p i Hp Hi. apply (Hle kra p i); [by left|done|done]. }
  assert (Hdl0 : dl = H s' - H s) by (pose proof (Hd s (Event [f; g] env) codes d s' Hs He Hc Hd1 Hd0 Hsw); congruence).
  unfold site_energy_difference in Hdl, Hdl'. destruct (c_site c) as [|l|] eqn:Hsite; [| |done].
  - injection Hdl as <-. injection Hdl' as <-. lra.
  - destruct (Rcompute l s _) as [y|] eqn:Hy; [|done]. destruct (Rcompute l s' _) as [y'|] eqn:Hy'; [|done]. cbn in Hdl, Hdl'.
    injection Hdl as Hdl. injection Hdl' as Hdl'.
    assert (y = y') as <-.
    { apply (elsewhere_value l s _ s' y y' f g env eq_refl Hf Hg); [|done|done|done]. intros p i Hp Hi. apply (Hle l p i); [by right|done|done]. }
    rewrite opp_IZR in Hdl'. lra.
Qed.
Lemma uniform_lemma E (ext_compute : E -> list Z -> event -> result R) c lk v temp m s0 es rates t :
  c_site c = NoSite -> 0 < v -> Forall (proper_event lk) es -> Forall (looks_elsewhere c) es ->
  (forall s, s ≡ₚ s0 -> rmapM (compute_probability ext_compute c lk v temp m s) es = Ok (rates s)) -> t ≡ₚ s0 ->
  Rsum (fun s => flow es (rates s) s t) (arrangements s0) = total_rate (rates t).
Proof.
  intros Hc Hv Hes Hel Hr Hin.
  destruct (stationary_both E ext_compute c lk v temp (fun _ => m) (fun _ => 0) (arrangements s0) es rates t) as [Hst _]; [| | | | | |by apply arrangements_elem|].
  - done.
  - done.
  - apply NoDup_remove_dups.
  - intros s e codes Hs He _ Hh. destruct (hoppable_swaps lk codes s e (proj1 (Forall_forall _ _) Hes e He) Hh) as [s' Hsw].
    exists s'. split; [done|]. apply arrangements_elem in Hs. apply arrangements_elem. rewrite <- Hs. by apply (swap_permutation s e).
  - apply saddle_lemma; [unfold lce_only; by rewrite Hc|done|done|].
    intros s e codes d s' _ _ _ _ _ _. unfold site_energy_difference. rewrite Hc. f_equal. lra.
  - intros s Hs%arrangements_elem. by apply Hr.
  - revert Hst. set (w := exp _). intros Hst. rewrite Rsum_scale in Hst. apply Rmult_eq_reg_l in Hst; [done|]. pose proof (exp_pos (- 0 / (boltzmann_constant * temp))). fold w in H. lra.
Qed.
Lemma ratio_lemma E (ext_compute : E -> list Z -> event -> result R) c lk v temp m m' s f g env s' r r' codes x x' :
  let e := Event [f; g] env in
  0 < v -> (0 <= f)%Z -> (0 <= g)%Z -> f <> g -> event_codes lk e = Ok codes -> endpoint_consistent codes ->
  hoppable codes s e -> swap_occupations s e = Ok s' ->
  compute_probability ext_compute c lk v temp m s e = Ok r -> compute_probability ext_compute c lk v temp m' s' e = Ok r' ->
  barrier ext_compute c lk m s e x -> barrier ext_compute c lk m' s' e x' ->
  0 < r' /\ r / r' = exp (- (x - x') / (boltzmann_constant * temp)).
Proof.
  intros e Hv Hf Hg Hne Hc Hcons Hh Hsw Hr Hr' (kra & c1 & d & ek & dl & Hk & Hc1 & Hd1 & Hek & Hdl & ->) (kra' & c2 & d' & ek' & dl' & Hk' & Hc2 & Hd2 & Hek' & Hdl' & ->).
  assert (c1 = codes) as -> by congruence. assert (c2 = codes) as -> by congruence.
  assert (Hd0 : d <> 0%Z) by (by apply (direction_hoppable codes s e d)).
  destruct (hop_undone_lemma s f g env codes d s' Hf Hg Hne Hcons Hd1 Hd0 Hsw) as [Hdd _]. fold e in Hdd.
  apply rate_inv in Hr as (c3 & d3 & Hc3 & Hd3 & Hr). assert (c3 = codes) as -> by congruence. assert (d3 = d) as -> by congruence.
  apply rate_inv in Hr' as (c4 & d4 & Hc4 & Hd4 & Hr'). assert (c4 = codes) as -> by congruence. assert (d4 = d') as -> by congruence.
  assert (d' = (- d)%Z) as -> by congruence.
  destruct Hr as [[? _]|(_ & k1 & e1 & dl1 & Hk1 & He1 & Hdl1 & Hkt & ->)]; [done|].
  destruct Hr' as [[? _]|(_ & k2 & e2 & dl2 & Hk2 & He2 & Hdl2 & _ & ->)]; [lia|].
  assert (k1 = kra) as -> by congruence. assert (k2 = kra') as -> by congruence.
  assert (e1 = ek) as -> by congruence. assert (e2 = ek') as -> by congruence. assert (dl1 = dl) as -> by congruence. assert (dl2 = dl') as -> by congruence.
  pose proof (exp_pos (- (ek' + dl' / 2) / (k_B * temp))) as Hp. split; [by apply Rmult_lt_0_compat|].
  apply (Rmult_eq_reg_r (v * exp (- (ek' + dl' / 2) / (k_B * temp)))); [|apply Rgt_not_eq; by apply Rmult_lt_0_compat].
  unfold Rdiv at 1. rewrite Rmult_assoc, Rinv_l, Rmult_1_r by (apply Rgt_not_eq; by apply Rmult_lt_0_compat).
  transitivity (v * (exp (- (ek + dl / 2 - (ek' + dl' / 2)) / (boltzmann_constant * temp)) * exp (- (ek' + dl' / 2) / (k_B * temp)))); [|lra].
  rewrite <- exp_plus. do 2 f_equal. change boltzmann_constant with k_B. unfold Rdiv. ring.
Qed.
