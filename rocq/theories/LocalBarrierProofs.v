(** Proofs about local barrier rules. *)
From Coq Require Import Reals Lra QArith Qreals.
From Verif Require Import Py PyLemmas Json ActiveSiteModel EventModel EventSpec StateModel
  StateProofs HopModel KmcModel KmcSpec KmcProofs LceModel CompositeModel CompositeSpec
  CompositeProofs SiteEnergyProofs
  LocalBarrierModel LocalBarrierSpec.
Local Open Scope nat_scope.

(* ---------------- canonical sites ---------------- *)
Lemma filter_filter_neq x (l : list Z) P :
  List.filter (fun y => negb (y =? x)%Z) (List.filter P l) =
  List.filter P (List.filter (fun y => negb (y =? x)%Z) l).
Proof.
  induction l as [|a l IH]; [done|]. simpl.
  destruct (P a) eqn:E1, (negb (a =? x)%Z) eqn:E2; simpl; rewrite ?E1, ?E2, IH; done.
Qed.

Lemma filter_all {A} (P : A -> bool) l : (forall x, In x l -> P x = true) -> List.filter P l = l.
Proof.
  induction l as [|x l IH]; intros H; simpl; [done|]. rewrite H by (by left).
  f_equal. apply IH. intros y Hy. apply H. by right.
Qed.

Lemma canonical_from_distinct seen l :
  canonical_from seen l = List.filter (fun y => negb (bool_decide (y ∈ seen))) (distinct l).
Proof.
  revert seen. induction l as [|x l IH]; intros seen; simpl; [done|].
  case_bool_decide as Hx; simpl.
  - rewrite IH. rewrite <- filter_filter_neq.
    symmetry. apply filter_all. intros y Hy. apply filter_In in Hy as [_ Hy].
    apply negb_true_iff, bool_decide_eq_false in Hy. apply negb_true_iff, Z.eqb_neq.
    intros ->. done.
  - f_equal. rewrite IH. clear -Hx.
    induction (distinct l) as [|y l' IH]; [done|]. simpl.
    destruct (Z.eqb_spec y x) as [->|Hne]; simpl.
    + rewrite bool_decide_eq_true_2 by set_solver. simpl. exact IH.
    + assert (bool_decide (y ∈ x :: seen) = bool_decide (y ∈ seen)) as ->.
      { apply bool_decide_ext. rewrite elem_of_cons. naive_solver. }
      destruct (bool_decide _); simpl; [exact IH|by f_equal].
Qed.

Lemma canonical_distinct mi le : canonical_site_indices mi le = distinct (mi ++ le).
Proof.
  unfold canonical_site_indices. rewrite canonical_from_distinct.
  apply filter_all. intros y _. apply negb_true_iff.
  apply bool_decide_eq_false. apply not_elem_of_nil.
Qed.

Lemma elem_of_distinct l s : s ∈ distinct l <-> s ∈ l.
Proof.
  induction l as [|x l IH]; simpl; [done|]. rewrite !elem_of_cons.
  rewrite elem_of_list_In, filter_In, <- elem_of_list_In, IH.
  destruct (Z.eqb_spec s x); naive_solver.
Qed.

(* ---------------- a rule is evaluated as specified ---------------- *)
Lemma event_indices_ok e mi le ca :
  event_indices e = Ok (mi, le, ca) ->
  mi = mobile_ion_indices e /\ le = local_env_indices e /\
  ca = distinct (mobile_ion_indices e ++ local_env_indices e) /\ mobile_ion_indices e <> [].
Proof.
  unfold event_indices. destruct (mobile_ion_indices e) eqn:E; [done|].
  intros [= <- <- <-]. rewrite canonical_distinct. done.
Qed.

Lemma selected_designates sel e occ l :
  selected_sites sel e occ = Ok l -> designates sel e (length occ) l.
Proof.
  unfold selected_sites. intros H. apply rbind_ok in H as ([[mi le] ca] & He & H).
  apply event_indices_ok in He as (-> & -> & -> & _).
  destruct sel; simpl; try (by injection H as <-).
  - apply rbind_ok in H as (s & Hs & [= <-]). apply py_get_nonneg in Hs; [|lia].
    simpl in Hs. destruct (mobile_ion_indices e) as [|a r]; [done|]. injection Hs as ->. eauto.
  - apply rbind_ok in H as (s & Hs & [= <-]). apply py_get_nonneg in Hs; [|lia].
    change (Z.to_nat 1) with 1 in Hs.
    destruct (mobile_ion_indices e) as [|a [|b r]]; [done|done|]. injection Hs as ->. eauto.
  - injection H as <-. rewrite map_length, seq_length. split; [done|].
    intros i Hi. change (map Z.of_nat) with (fmap (M:=list) Z.of_nat). rewrite list_lookup_fmap.
    rewrite lookup_seq_lt by done. done.
Qed.

Lemma designates_unique sel e n l l' :
  designates sel e n l -> designates sel e n l' -> l = l'.
Proof.
  destruct sel; simpl; try congruence.
  - intros (r & s & H & ->) (r' & s' & H' & ->). congruence.
  - intros (r & f & s & H & ->) (r' & f' & s' & H' & ->). congruence.
  - intros [H1 H2] [H3 H4]. apply list_eq. intros i. destruct (decide (i < n)).
    + by rewrite H2, H4.
    + rewrite !lookup_ge_None_2 by lia. done.
Qed.

Lemma pattern_values l occ p : occupation_pattern l occ = Ok p <-> Forall2 (holds occ) l p.
Proof. unfold occupation_pattern. rewrite rmapM_ok. done. Qed.

Lemma Forall2_holds_unique occ l p p' :
  Forall2 (holds occ) l p -> Forall2 (holds occ) l p' -> p = p'.
Proof.
  intros H. revert p'. induction H as [|s v l p Hs H IH]; intros p' H'.
  - by inversion H'.
  - inversion H' as [|? v' ? p'' Hs' H'']; subst. unfold holds in *.
    f_equal; [congruence|by apply IH].
Qed.

Lemma pattern_matches_spec occ l p ex :
  Forall2 (holds occ) l p -> length p = length ex ->
  pattern_matches ex p = true <->
  Forall2 (fun s x => match x with Some v => holds occ s v | None => True end) l ex.
Proof.
  intros H. revert ex. induction H as [|s v l p Hs H IH]; intros [|x ex] Hl; try discriminate.
  - simpl. split; [constructor|done].
  - simpl in *. injection Hl as Hl. rewrite andb_true_iff, IH by done.
    unfold holds in *. split.
    + intros [H1 H2]. constructor; [|done]. destruct x as [z|]; [|done].
      apply Z.eqb_eq in H1 as ->. done.
    + intros H1. inversion H1; subst. split; [|done]. destruct x as [z|]; [|done].
      apply Z.eqb_eq. congruence.
Qed.

Lemma count_state_spec st l : count_state st l = Z.of_nat (count_occ Z.eq_dec l st).
Proof.
  induction l as [|v l IH]; [done|]. simpl. rewrite IH.
  destruct (Z.eqb_spec v st), (Z.eq_dec v st); lia.
Qed.

Lemma count_matches_spec n c :
  count_matches (Z.of_nat n) c = true <-> within c n.
Proof.
  unfold count_matches, within. rewrite !andb_true_iff.
  destruct (c_count c) as [a|], (c_min c) as [b|], (c_max c) as [d|];
    rewrite ?negb_true_iff, ?Z.eqb_eq, ?Z.ltb_ge; split; intros H; repeat split;
    try (intros k [= <-]); try lia; try done; try (by apply H); destruct H as (H1 & H2 & H3);
    try (specialize (H1 _ eq_refl)); try (specialize (H2 _ eq_refl));
    try (specialize (H3 _ eq_refl)); try lia.
Qed.

Lemma species_label ss s v lab : species_for_site ss s v = Ok lab <-> labelled ss s v lab.
Proof.
  unfold species_for_site, labelled. destruct (dget ss s) as [m|].
  - destruct (dget m v) as [x|] eqn:E.
    + split; [intros [= <-]; eauto|intros (m' & [= <-] & H); congruence].
    + split; [done|intros (m' & [= <-] & H); congruence].
  - split; [done|intros (m' & H & _); done].
Qed.

Lemma str_in_elem s l : str_in s l = true <-> s ∈ l.
Proof.
  unfold str_in. rewrite existsb_exists. split.
  - intros (x & Hx & He). apply String.eqb_eq in He as ->. by apply elem_of_list_In.
  - intros H. exists s. split; [by apply elem_of_list_In|]. apply String.eqb_refl.
Qed.

Lemma count_species_spec ss wanted ps n :
  count_species ss wanted ps = Ok n <->
  exists labels, Forall2 (fun sv lab => labelled ss (fst sv) (snd sv) lab) ps labels /\
    n = Z.of_nat (length (List.filter (fun lab => bool_decide (lab ∈ wanted)) labels)).
Proof.
  revert n. induction ps as [|[s v] ps IH]; intros n; simpl.
  - split.
    + intros [= <-]. exists []. done.
    + intros (labels & H & ->). inversion H; subst. done.
  - split.
    + intros H. apply rbind_ok in H as (sp & Hsp & H). apply rbind_ok in H as (k & Hk & [= <-]).
      apply IH in Hk as (labels & Hl & ->). exists (sp :: labels). split.
      { constructor; [|done]. by apply species_label. }
      simpl. destruct (str_in sp wanted) eqn:E.
      * rewrite bool_decide_eq_true_2 by by apply str_in_elem. simpl. lia.
      * rewrite bool_decide_eq_false_2; [lia|]. intros H. apply str_in_elem in H. congruence.
    + intros (labels & H & ->). inversion H as [|? sp ? labels' Hsp Hl]; subst. simpl in Hsp.
      apply species_label in Hsp. rewrite Hsp. simpl.
      destruct (count_species ss wanted ps) as [k|x] eqn:Ek.
      * destruct (proj1 (IH k) eq_refl) as (labels2 & Hl2 & ->). simpl.
        assert (labels2 = labels') as ->.
        { clear -Hl Hl2. revert labels' Hl. induction Hl2 as [|sv lab ps labels2 H1 H2 IH]; intros l' H.
          - by inversion H.
          - inversion H as [|? lab' ? l'' H3 H4]; subst. f_equal; [|by apply IH].
            apply species_label in H1, H3. congruence. }
        destruct (str_in sp wanted) eqn:E.
        -- rewrite bool_decide_eq_true_2 by by apply str_in_elem. simpl. f_equal. lia.
        -- rewrite bool_decide_eq_false_2; [f_equal; lia|]. intros H'. apply str_in_elem in H'. congruence.
      * pose proof (proj2 (IH _) (ex_intro _ labels' (conj Hl eq_refl))) as H'. discriminate H'.
Qed.

Lemma constraints_spec r e b :
  event_constraints_match r e = Ok b -> (b = true <-> concerns r e) /\ mobile_ion_indices e <> [].
Proof.
  unfold event_constraints_match. intros H. apply rbind_ok in H as ([[mi le] ca] & He & [= <-]).
  apply event_indices_ok in He as (-> & -> & -> & Hne). split; [|done].
  unfold agrees, concerns. rewrite andb_true_iff.
  destruct (r_mobile r) as [a|], (r_env r) as [b|]; rewrite ?bool_decide_eq_true;
    split; intros [H1 H2]; split; try (by left); try (right; congruence); try done;
    try (destruct H1 as [H1|[= H1]]; done); try (destruct H2 as [H2|[= H2]]; done).
Qed.

Lemma rule_matches_spec ss r occ e b :
  rule_matches ss r occ e = Ok b -> b = true <-> rule_holds ss r occ e.
Proof.
  unfold rule_matches, rule_holds. intros H. apply rbind_ok in H as (c & Hc & H).
  apply constraints_spec in Hc as [Hc _].
  destruct c; simpl in H.
  2:{ injection H as <-. split; [done|]. intros [H _]. apply Hc in H. done. }
  assert (Hcon : concerns r e) by (by apply Hc). clear Hc.
  destruct (r_kind r) as [|occs ca|sel p|sel st cs|sel sp cs]; simpl.
  - injection H as <-. done.
  - apply rbind_ok in H as ([[mi le] ca'] & He & H).
    apply event_indices_ok in He as (-> & -> & -> & _). simpl in H.
    case_bool_decide as Heq; simpl in H.
    + apply rbind_ok in H as (p & Hp & [= <-]). apply pattern_values in Hp. subst ca.
      rewrite bool_decide_eq_true. split.
      * intros ->. done.
      * intros (_ & _ & H). by eapply Forall2_holds_unique.
    + injection H as <-. split; [done|]. intros (_ & H & _). congruence.
  - apply rbind_ok in H as (l & Hl & H). apply rbind_ok in H as (v & Hv & H).
    apply selected_designates in Hl. apply pattern_values in Hv.
    destruct (Nat.eqb_spec (length v) (length p)) as [Hlen|]; [|done]. injection H as <-.
    rewrite (pattern_matches_spec _ _ _ _ Hv Hlen). split.
    + intros H. eauto.
    + intros (_ & l' & Hl' & H). by rewrite (designates_unique _ _ _ _ _ Hl Hl').
  - apply rbind_ok in H as (l & Hl & H). apply rbind_ok in H as (v & Hv & [= <-]).
    apply selected_designates in Hl. apply pattern_values in Hv.
    rewrite count_state_spec, count_matches_spec. split.
    + intros H. eauto 10.
    + intros (_ & l' & vs & Hl' & Hvs & H). rewrite (designates_unique _ _ _ _ _ Hl' Hl) in Hvs.
      by rewrite (Forall2_holds_unique _ _ _ _ Hv Hvs).
  - apply rbind_ok in H as (l & Hl & H). apply rbind_ok in H as (v & Hv & H).
    apply rbind_ok in H as (n & Hn & [= <-]).
    apply selected_designates in Hl. apply pattern_values in Hv.
    pose proof Hn as Hn'. apply count_species_spec in Hn' as (labels & Hlab & ->).
    rewrite count_matches_spec. split.
    + intros H. split; [done|]. exists l, v, labels. done.
    + intros (_ & l' & vs & labels' & Hl' & Hvs & Hlab' & H).
      rewrite (designates_unique _ _ _ _ _ Hl' Hl) in Hvs, Hlab'.
      rewrite <- (Forall2_holds_unique _ _ _ _ Hv Hvs) in Hlab'.
      assert (Hx : count_species ss sp (zip l v) = Ok (Z.of_nat
        (length (List.filter (λ lab : string, bool_decide (lab ∈ sp)) labels')))).
      { apply count_species_spec. eauto. }
      rewrite Hn in Hx. injection Hx as Hx. by rewrite (Nat2Z.inj _ _ Hx).
Qed.

Lemma first_match_spec ss rules occ e o :
  first_match ss rules occ e = Ok o ->
  match o with
  | Some p => exists i r, rules !! i = Some r /\ rule_holds ss r occ e /\
      (forall j r', j < i -> rules !! j = Some r' -> ~ rule_holds ss r' occ e) /\
      p = r_properties r
  | None => forall r, r ∈ rules -> ~ rule_holds ss r occ e
  end.
Proof.
  induction rules as [|r rules IH]; simpl; intros H.
  - injection H as <-. intros r Hr. by apply elem_of_nil in Hr.
  - apply rbind_ok in H as (b & Hb & H). pose proof (rule_matches_spec _ _ _ _ _ Hb) as Hs.
    destruct b.
    + injection H as <-. exists 0, r. split; [done|]. split; [by apply Hs|].
      split; [intros j r' Hj; lia|done].
    + assert (Hn : ~ rule_holds ss r occ e). { intros Hc. apply Hs in Hc. done. }
      specialize (IH H). destruct o as [p|].
      * destruct IH as (i & r1 & H1 & H2 & H3 & ->). exists (S i), r1.
        split; [done|]. split; [done|]. split; [|done]. intros [|j] r' Hj Hr'.
        -- simpl in Hr'. congruence.
        -- apply (H3 j); [lia|done].
      * intros r' Hr'. apply elem_of_cons in Hr' as [->|Hr']; [done|]. by apply IH.
Qed.

Lemma matched_prescribed m occ e p :
  matched_properties m occ e = Ok p -> prescribed m occ e p.
Proof.
  unfold matched_properties. intros H. apply rbind_ok in H as (o & Ho & H).
  apply first_match_spec in Ho. destruct o as [p'|].
  - injection H as <-. left. done.
  - right. split; [done|]. destruct (lb_default_properties m) as [d|]; [by injection H as <-|].
    apply rbind_ok in H as (? & ? & H). apply rbind_ok in H as (? & ? & H). done.
Qed.

Lemma prescribed_unique m occ e p p' :
  prescribed m occ e p -> prescribed m occ e p' -> p = p'.
Proof.
  intros [(i & r & Hr & Hh & Hb & ->)|[Hn Hd]] [(i' & r' & Hr' & Hh' & Hb' & ->)|[Hn' Hd']].
  - destruct (lt_eq_lt_dec i i') as [[Hlt| ->]|Hlt].
    + by destruct (Hb' _ _ Hlt Hr).
    + congruence.
    + by destruct (Hb _ _ Hlt Hr').
  - exfalso. apply (Hn' r); [|done]. by eapply elem_of_list_lookup_2.
  - exfalso. apply (Hn r'); [|done]. by eapply elem_of_list_lookup_2.
  - congruence.
Qed.

Lemma first_rule_lemma m occ e name q :
  lb_compute m occ e (JStr name) = Ok q -> name <> ""%string ->
  exists p, prescribed m occ e p /\ dget p name = Some q.
Proof.
  unfold lb_compute. intros H Hn. apply rbind_ok in H as (p & Hp & H).
  apply matched_prescribed in Hp. exists p. split; [done|].
  unfold Json.truthy in H. rewrite (proj2 (String.eqb_neq _ _) Hn) in H. simpl in H.
  unfold dgetitem in H. destruct (dget p name); [by injection H as ->|done].
Qed.

(* ---------------- totality ---------------- *)
Lemma readable_pattern occ l : readable occ l -> exists p, occupation_pattern l occ = Ok p.
Proof. intros H. unfold occupation_pattern. apply rmapM_ok_exists. exact H. Qed.

Lemma selected_total sel e occ f t :
  mobile_ion_indices e = [f; t] -> exists l, selected_sites sel e occ = Ok l.
Proof.
  intros H. unfold selected_sites, event_indices. rewrite H. simpl.
  destruct sel; eauto.
Qed.

Lemma readable_app occ l1 l2 : readable occ l1 -> readable occ l2 -> readable occ (distinct (l1 ++ l2)).
Proof.
  intros H1 H2 s Hs. apply (proj1 (elem_of_distinct _ _)), elem_of_app in Hs as [Hs|Hs]; eauto.
Qed.

Lemma count_species_total ss wanted occ l p :
  Forall2 (holds occ) l p ->
  (forall s, s ∈ l -> exists v lab, holds occ s v /\ labelled ss s v lab) ->
  exists n, count_species ss wanted (zip l p) = Ok n.
Proof.
  intros H Hl. cut (exists labels, Forall2 (fun sv lab => labelled ss (fst sv) (snd sv) lab) (zip l p) labels).
  { intros (labels & Hlab). eexists. apply count_species_spec. eauto. }
  induction H as [|s v l p Hs H IH]; simpl.
  - exists []. constructor.
  - destruct IH as (labels & Hlab). { intros s' Hs'. apply Hl. by right. }
    destruct (Hl s) as (v' & lab & Hv' & Hlab'); [by left|].
    unfold holds in *. assert (v' = v) as -> by congruence.
    exists (lab :: labels). by constructor.
Qed.

Lemma well_posed_rule m occ e r :
  well_posed m occ e -> r ∈ lb_rules m ->
  exists b, rule_matches (lb_site_species m) r occ e = Ok b.
Proof.
  intros ((f & t & Hft) & Hm & He & Hr) Hin. specialize (Hr r Hin).
  unfold rule_matches. destruct (event_constraints_match r e) as [c|x] eqn:Hc.
  2:{ unfold event_constraints_match, event_indices in Hc. rewrite Hft in Hc. done. }
  simpl. pose proof (constraints_spec _ _ _ Hc) as [Hcs _].
  destruct c; simpl; [|eauto]. specialize (Hr (proj1 Hcs eq_refl)).
  destruct (r_kind r) as [|occs ca|sel p|sel st cs|sel sp cs]; simpl.
  - eauto.
  - destruct (event_indices e) as [[[mi le] ca']|] eqn:Hei.
    2:{ unfold event_indices in Hei. rewrite Hft in Hei. done. }
    apply event_indices_ok in Hei as (-> & -> & -> & _). simpl.
    destruct (negb _); [eauto|].
    destruct (readable_pattern occ _ (readable_app _ _ _ Hm He)) as (p & Hp).
    rewrite Hp. simpl. eauto.
  - destruct (selected_total sel e occ f t Hft) as (l & Hl). rewrite Hl. simpl.
    apply selected_designates in Hl. destruct (Hr l Hl) as [Hrd Hlen].
    destruct (readable_pattern occ l Hrd) as (v & Hv). rewrite Hv. simpl.
    apply pattern_values in Hv. apply Forall2_length in Hv.
    rewrite (proj2 (Nat.eqb_eq _ _)) by congruence. eauto.
  - destruct (selected_total sel e occ f t Hft) as (l & Hl). rewrite Hl. simpl.
    apply selected_designates in Hl. 
    destruct (readable_pattern occ l (Hr l Hl)) as (v & Hv). rewrite Hv. simpl. eauto.
  - destruct (selected_total sel e occ f t Hft) as (l & Hl). rewrite Hl. simpl.
    apply selected_designates in Hl. specialize (Hr l Hl).
    destruct (readable_pattern occ l) as (v & Hv).
    { intros s Hs. destruct (Hr s Hs) as (v & lab & Hv & _). eauto. }
    rewrite Hv. simpl. apply pattern_values in Hv.
    destruct (count_species_total _ sp _ _ _ Hv Hr) as (n & Hn). rewrite Hn. simpl. eauto.
Qed.

Lemma well_posed_first m occ e rules :
  well_posed m occ e -> (forall r, r ∈ rules -> r ∈ lb_rules m) ->
  exists o, first_match (lb_site_species m) rules occ e = Ok o.
Proof.
  intros Hw. induction rules as [|r rules IH]; intros Hin; simpl; [eauto|].
  destruct (well_posed_rule m occ e r Hw) as (b & Hb); [apply Hin; by left|].
  rewrite Hb. simpl. destruct b; [eauto|]. apply IH. intros r' Hr'. apply Hin. by right.
Qed.

Lemma well_posed_total_lemma m occ e name :
  well_posed m occ e -> name <> ""%string ->
  (exists p, prescribed m occ e p /\
     lb_compute m occ e (JStr name) = match dget p name with Some q => Ok q | None => Err KeyError end)
  \/ ((forall r, r ∈ lb_rules m -> ~ rule_holds (lb_site_species m) r occ e) /\
      lb_default_properties m = None /\ lb_compute m occ e (JStr name) = Err KeyError).
Proof.
  intros Hw Hn. destruct (well_posed_first m occ e (lb_rules m) Hw) as (o & Ho); [done|].
  unfold lb_compute. destruct (matched_properties m occ e) as [p|x] eqn:Hp.
  - left. exists p. split; [by apply matched_prescribed|]. simpl.
    rewrite (proj2 (String.eqb_neq _ _) Hn). simpl. unfold dgetitem. done.
  - right. unfold matched_properties in Hp. rewrite Ho in Hp. simpl in Hp.
    destruct o as [p|]; [done|]. destruct (lb_default_properties m) as [d|]; [done|].
    split; [exact (first_match_spec _ _ _ _ _ Ho)|]. split; [done|].
    destruct Hw as ((f & t & Hft) & Hm & He & _).
    destruct (event_indices e) as [[[mi le] ca']|] eqn:Hei.
    2:{ unfold event_indices in Hei. rewrite Hft in Hei. done. }
    apply event_indices_ok in Hei as (-> & -> & -> & _). simpl in Hp.
    destruct (readable_pattern occ _ (readable_app _ _ _ Hm He)) as (p & Hpp).
    rewrite Hpp in Hp. simpl in Hp. injection Hp as <-. done.
Qed.

(* ---------------- normalised rules ---------------- *)
Definition blank (s : string) : Prop := py_strip s = ""%string.
Definition wf_properties (d : dict string Q) : Prop :=
  d <> [] /\ NoDup (dkeys d) /\ forall k, k ∈ dkeys d -> ~ blank k.
Definition wf_selector (s : selector) : Prop := match s with Sites l => l <> [] | _ => True end.
Definition wf_bound (o : option Z) : Prop := forall z, o = Some z -> (0 <= z)%Z.
Definition wf_constraints (c : constraints) : Prop :=
  wf_bound (c_count c) /\ wf_bound (c_min c) /\ wf_bound (c_max c) /\
  (c_count c = None -> c_min c = None -> c_max c <> None) /\
  (c_count c <> None -> c_min c = None /\ c_max c = None).
Definition wf_kind (mobile env : option (list Z)) (k : rule_kind) : Prop :=
  match k with
  | KConstant => True
  | KExact occ ca => exists mi le, mobile = Some mi /\ env = Some le /\
      ca = canonical_site_indices mi le /\ length occ = length ca /\ occ <> [] /\
      Forall (fun z => 0 <= z)%Z occ
  | KPattern sel p => wf_selector sel /\ p <> [] /\ Forall wf_bound p
  | KStateCount sel st c => wf_selector sel /\ (0 <= st)%Z /\ wf_constraints c
  | KSpeciesCount sel sp c => wf_selector sel /\ wf_constraints c /\
      (length sp = 1 \/ sp <> [] /\ Forall (fun s => ~ blank s) sp)
  end.
Definition wf_rule (r : rule) : Prop :=
  r_name r <> ""%string /\ wf_properties (r_properties r) /\
  (forall l, r_mobile r = Some l -> l <> []) /\ wf_kind (r_mobile r) (r_env r) (r_kind r).

Lemma index_sequence_ne j l : normalize_index_sequence j false = Ok l -> l <> [].
Proof.
  unfold normalize_index_sequence. destruct j as [[| | | | |[|x js]|]|]; try done.
  intros H. apply rmapM_ok in H. inversion H; done.
Qed.

Lemma rmapM_inv {A B} (f : A -> result B) (g : B -> A) l :
  (forall x, x ∈ l -> f (g x) = Ok x) -> rmapM f (map g l) = Ok l.
Proof.
  intros H. rewrite rmapM_map. rewrite (rmapM_id _ (fun x => x)); [|done]. by rewrite map_id.
Qed.

Lemma index_sequence_ints l b : l <> [] \/ b = true ->
  normalize_index_sequence (Some (ints l)) b = Ok l.
Proof.
  intros H. assert (E : rmapM index_entry (map JInt l) = Ok l) by (by apply rmapM_inv).
  unfold normalize_index_sequence, ints. destruct l as [|z l]; [|exact E].
  simpl. destruct H as [H| ->]; done.
Qed.

Lemma dof_pairs_ne {K V} `{EqDecision K} (l : list (K * V)) : l <> [] -> dof_pairs l <> [].
Proof.
  destruct l as [|[k v] l]; [done|]. intros _ H.
  unfold dof_pairs in H. simpl in H.
  assert (G : forall (l : list (K * V)) d, d <> [] ->
    fold_left (fun d kv => dset d (fst kv) (snd kv)) l d <> []).
  { clear. induction l as [|[k v] l IH]; intros d Hd; simpl; [done|]. apply IH.
    destruct d as [|[k' v'] d]; simpl; [done|]. by destruct (decide _). }
  by apply (G l [(k, v)]) in H.
Qed.

Lemma normalize_properties_wf l d : normalize_properties l = Ok d -> wf_properties d.
Proof.
  unfold normalize_properties. destruct l as [|kv l0] eqn:E; [done|]. rewrite <- E.
  intros H. apply rbind_ok in H as (ps & Hps & [= <-]). split; [|split].
  - apply dof_pairs_ne. apply rmapM_ok in Hps. rewrite E in Hps. inversion Hps; done.
  - apply NoDup_dof_pairs.
  - intros k Hk. apply (proj2 (dget_in_keys _ _)) in Hk as (v & Hv).
    apply dget_dof_pairs_in in Hv. apply elem_of_list_lookup in Hv as (i & Hi).
    destruct (rmapM_lookup _ _ _ _ _ Hps Hi) as ([k' j] & _ & Hkj).
    unfold property_entry in Hkj. simpl in Hkj.
    destruct (String.eqb_spec (py_strip k') "") as [|Hne]; [done|].
    apply rbind_ok in Hkj as (q & _ & [= -> _]). exact Hne.
Qed.

Lemma normalize_properties_as_dict d :
  wf_properties d ->
  normalize_properties (map (fun kv : string * Q => (fst kv, JFloat (snd kv))) d) = Ok d.
Proof.
  intros (Hne & Hnd & Hb). unfold normalize_properties.
  assert (E : rmapM property_entry (map (fun kv : string * Q => (fst kv, JFloat (snd kv))) d) = Ok d).
  { apply rmapM_inv. intros [k q] Hx. unfold property_entry. simpl.
    destruct (String.eqb_spec (py_strip k) "") as [Hbl|]; [|done].
    destruct (Hb k); [|done]. apply elem_of_list_In, in_map_iff. exists (k, q).
    split; [done|]. by apply elem_of_list_In. }
  destruct d as [|kv d]; [done|]. simpl in *. rewrite E. simpl. by rewrite dof_pairs_NoDup.
Qed.

Lemma rule_name_ne show r dn :
  (forall j, show j <> ""%string) -> dn <> ""%string -> rule_name show r dn <> ""%string.
Proof.
  intros Hs Hd. unfold rule_name. destruct (dget r "name") as [j|]; [|done].
  destruct (Json.truthy j) eqn:E; [|done]. destruct j; try apply Hs.
  simpl in E. apply negb_true_iff, String.eqb_neq in E. done.
Qed.

Lemma normalize_state_nonneg j z : normalize_state_value j = Ok z -> (0 <= z)%Z.
Proof.
  unfold normalize_state_value. destruct j; try done.
  - destruct (Z.ltb_spec z0 0); [done|]. intros [= <-]. done.
  - destruct (dget _ _) as [v|] eqn:E.
    + intros [= <-]. apply dget_Some_in in E. unfold state_value_aliases in E.
      repeat (apply elem_of_cons in E as [[= _ ->]|E]; [lia|]). by apply elem_of_nil in E.
    + intros H. apply rbind_ok in H as (k & _ & H).
      destruct (Z.ltb_spec k 0); [done|]. injection H as <-. done.
Qed.

Lemma sites_spec_wf j d s : wf_selector d -> normalize_sites_spec j d = Ok s -> wf_selector s.
Proof.
  intros Hd. unfold normalize_sites_spec.
  assert (G : forall j, rmap Sites (normalize_index_sequence j false) = Ok s -> wf_selector s).
  { intros j'. destruct (normalize_index_sequence j' false) as [l|] eqn:E; [|done].
    simpl. intros [= <-]. simpl. by eapply index_sequence_ne. }
  destruct j as [[| | | |t| |]|]; try apply G; try (by intros [= <-]).
  destruct (dget _ _) as [sel|] eqn:E; [|done]. intros [= <-].
  apply dget_Some_in in E. unfold site_selectors in E.
  repeat (apply elem_of_cons in E as [[= _ ->]|E]; [done|]). by apply elem_of_nil in E.
Qed.

Lemma count_entry_wf r k o : count_entry r k = Ok o -> wf_bound o.
Proof.
  unfold count_entry. destruct (dget r k) as [[]|]; try done.
  - destruct (Z.ltb_spec z 0); [done|]. intros [= <-] z' [= <-]. done.
  - intros [= <-] z' [=].
Qed.

Lemma count_constraints_wf r c : normalize_count_constraints r = Ok c -> wf_constraints c.
Proof.
  unfold normalize_count_constraints. intros H.
  apply rbind_ok in H as (a & Ha & H). apply rbind_ok in H as (b & Hb & H).
  apply rbind_ok in H as (d & Hd & H).
  apply count_entry_wf in Ha, Hb, Hd. unfold wf_constraints.
  destruct a, b, d; try done; injection H as <-; simpl;
    (split; [done|split; [done|split; [done|split; [done|]]]]); intros ?; done.
Qed.

Lemma normalize_rule_wf show j dn r :
  (forall j, show j <> ""%string) -> dn <> ""%string ->
  normalize_rule show j dn = Ok r -> wf_rule r.
Proof.
  intros Hs Hdn H. unfold normalize_rule in H. destruct j as [| | | | | |d]; try done.
  apply rbind_ok in H as (ty & _ & H). cbv zeta in H.
  pose proof (rule_name_ne show d dn Hs Hdn) as Hname.
  set (name := rule_name show d dn) in *. clearbody name.
  apply rbind_ok in H as (props & Hp & H).
  assert (Hprops : wf_properties props).
  { unfold properties_from_rule in Hp. apply rbind_ok in Hp as (p1 & _ & Hp).
    apply rbind_ok in Hp as (p2 & _ & Hp). by eapply normalize_properties_wf. }
  apply rbind_ok in H as (mobile & Hm & H). apply rbind_ok in H as (env & He & H).
  assert (Hmob : forall l, mobile = Some l -> l <> []).
  { intros l ->. destruct (dget d "mobile_ion_indices") as [jm|]; [|done].
    destruct (normalize_index_sequence (Some jm) false) eqn:E; [|done].
    injection Hm as <-. by eapply index_sequence_ne. }
  destruct ty.
  - injection H as <-. done.
  - apply rbind_ok in H as (mi & Hmi & H). apply rbind_ok in H as (le & Hle & H).
    apply rbind_ok in H as (occ & Hocc & H).
    destruct (Nat.eqb_spec (length occ) (length (canonical_site_indices mi le))) as [Hl|]; [|done].
    injection H as <-. split; [done|]. split; [done|]. split.
    { intros l [= <-]. by eapply index_sequence_ne. }
    exists mi, le. do 4 (split; [done|]).
    unfold normalize_occupations in Hocc. destruct (dget d "occupations") as [[| | | | |[|x l]|]|]; try done.
    apply rmapM_ok in Hocc. split; [by inversion Hocc|].
    apply Forall_lookup. intros i z Hz. destruct (Forall2_lookup_r _ _ _ _ _ Hocc Hz) as (jz & _ & Hjz).
    by eapply normalize_state_nonneg.
  - apply rbind_ok in H as (sel & Hsel & H). apply rbind_ok in H as (p & Hpat & H).
    injection H as <-. do 3 (split; [done|]). split; [by eapply (sites_spec_wf _ Canonical)|].
    unfold normalize_pattern in Hpat. destruct (dget d "pattern") as [[| | | | |[|x l]|]|]; try done.
    apply rmapM_ok in Hpat. split; [by inversion Hpat|].
    apply Forall_lookup. intros i z Hz. destruct (Forall2_lookup_r _ _ _ _ _ Hpat Hz) as (jz & _ & Hjz).
    assert (G : forall j, rmap Some (normalize_state_value j) = Ok z -> wf_bound z).
    { intros j' Hj'. destruct (normalize_state_value j') eqn:E; [|done]. injection Hj' as <-.
      intros z' [= <-]. by eapply normalize_state_nonneg. }
    unfold pattern_entry in Hjz. destruct jz; try (by eapply G).
    destruct (String.eqb _ _); [|by eapply G]. injection Hjz as <-. intros z' [=].
  - apply rbind_ok in H as (sel & Hsel & H). apply rbind_ok in H as (st & Hst & H).
    apply rbind_ok in H as (c & Hc & H). injection H as <-. do 3 (split; [done|]).
    split; [by eapply (sites_spec_wf _ LocalEnv)|]. split; [|by eapply count_constraints_wf].
    destruct (dget d "occupation"); by eapply normalize_state_nonneg.
  - apply rbind_ok in H as (sel & Hsel & H). apply rbind_ok in H as (sp & Hsp & H).
    apply rbind_ok in H as (c & Hc & H). injection H as <-. do 3 (split; [done|]).
    split; [by eapply (sites_spec_wf _ LocalEnv)|]. split; [by eapply count_constraints_wf|].
    unfold normalize_species in Hsp. destruct (dget d "species") as [[| | | |s|[|x l]|]|]; try done.
    + injection Hsp as <-. by left.
    + right. apply rmapM_ok in Hsp. split; [by inversion Hsp|].
      apply Forall_lookup. intros i s Hs'. destruct (Forall2_lookup_r _ _ _ _ _ Hsp Hs') as (js & _ & Hjs).
      unfold species_item in Hjs. destruct js; try done.
      destruct (String.eqb_spec (py_strip s0) "") as [|Hne]; [done|]. injection Hjs as <-. done.
Qed.

Lemma sites_spec_json sel d : wf_selector sel ->
  normalize_sites_spec (Some (sites_as_json sel)) d = Ok sel.
Proof.
  intros H. destruct sel; try reflexivity. simpl in H. simpl sites_as_json.
  change (normalize_sites_spec (Some (ints l)) d)
    with (rmap Sites (normalize_index_sequence (Some (ints l)) false)).
  rewrite index_sequence_ints by (by left). done.
Qed.

Lemma state_value_int z : (0 <= z)%Z -> normalize_state_value (JInt z) = Ok z.
Proof. intros H. simpl. destruct (Z.ltb_spec z 0); [lia|done]. Qed.

Lemma count_entry_int r k z : (0 <= z)%Z -> dget r k = Some (JInt z) -> count_entry r k = Ok (Some z).
Proof. intros H E. unfold count_entry. rewrite E. destruct (Z.ltb_spec z 0); [lia|done]. Qed.
Lemma count_entry_none r k : dget r k = None -> count_entry r k = Ok None.
Proof. intros E. unfold count_entry. by rewrite E. Qed.

Local Arguments normalize_index_sequence : simpl never.
Local Arguments normalize_sites_spec : simpl never.
Local Arguments normalize_state_value : simpl never.
Local Arguments normalize_occupations : simpl never.
Local Arguments normalize_pattern : simpl never.
Local Arguments normalize_species : simpl never.
Lemma dget_app {V} (a b : dict string V) k :
  dget (a ++ b) k = match dget a k with Some v => Some v | None => dget b k end.
Proof. induction a as [|[k' v] a IH]; simpl; [done|]. by destruct (decide _). Qed.
Lemma dget_opt_eq {A} k (f : A -> json) o : dget (opt_item k f o) k = fmap f o.
Proof. destruct o; simpl; [by rewrite decide_True|done]. Qed.
Lemma dget_opt_ne {A} k k' (f : A -> json) o : k <> k' -> dget (opt_item k' f o) k = None.
Proof. intros H. destruct o; simpl; [by rewrite decide_False|done]. Qed.
Ltac rule_get :=
  cbn [type_name kind_items app];
  repeat first
    [ rewrite dget_hd | rewrite dget_tl by discriminate | rewrite dget_nil
    | rewrite dget_app | rewrite dget_opt_eq | rewrite dget_opt_ne by discriminate ];
  cbn [c_count c_min c_max];
  repeat match goal with |- context [match fmap ?f ?o with _ => _ end] => is_var o; destruct o end;
  try reflexivity.

Lemma counts_back a b d l :
  wf_constraints (Constraints a b d) ->
  dget l "count"%string = fmap JInt a -> dget l "min_count"%string = fmap JInt b ->
  dget l "max_count"%string = fmap JInt d -> normalize_count_constraints l = Ok (Constraints a b d).
Proof.
  intros (H1 & H2 & H3 & H4 & H5) E1 E2 E3. simpl in *. unfold normalize_count_constraints.
  assert (G : forall k o, wf_bound o -> dget l k = fmap JInt o -> count_entry l k = Ok o).
  { intros k [z|] Hw E; [apply count_entry_int; [by apply Hw|done]|by apply count_entry_none]. }
  rewrite (G _ _ H1 E1), (G _ _ H2 E2), (G _ _ H3 E3). simpl.
  destruct a as [a|].
  - destruct (H5 ltac:(done)) as [-> ->]. done.
  - destruct b, d; try done. by destruct (H4 eq_refl eq_refl).
Qed.

Lemma normalize_rule_as_dict show r dn :
  wf_rule r -> normalize_rule show (rule_as_dict r) dn = Ok r.
Proof.
  intros (Hn & Hp & Hm & Hk). destruct r as [name props mobile env kind].
  simpl in Hn, Hp, Hm, Hk.
  unfold rule_as_dict. cbn [r_name r_properties r_mobile r_env r_kind].
  match goal with |- normalize_rule show (JObj ?x) dn = _ => set (d := x) end.
  assert (Ename : dget d "name"%string = Some (JStr name)) by (unfold d; rule_get).
  assert (Etype : dget d "type"%string = Some (JStr (type_name kind))) by (unfold d; rule_get).
  assert (Eprops : dget d "properties"%string = Some (properties_as_dict props)) by (unfold d; rule_get).
  assert (Ebar : dget d "barrier"%string = None)
    by (unfold d; destruct kind; rule_get).
  assert (Emob : dget d "mobile_ion_indices"%string = fmap ints mobile)
    by (unfold d; destruct kind; rule_get).
  assert (Eenv : dget d "local_env_indices"%string = fmap ints env)
    by (unfold d; destruct kind; rule_get).
  assert (Hname : rule_name show d dn = name).
  { unfold rule_name. rewrite Ename. simpl. by rewrite (proj2 (String.eqb_neq _ _) Hn). }
  assert (Hprop : properties_from_rule d = Ok props).
  { unfold properties_from_rule. rewrite Eprops. unfold properties_as_dict. cbn [rbind].
    rewrite Ebar. cbn [rbind]. by apply normalize_properties_as_dict. }
  assert (Hmob : match dget d "mobile_ion_indices"%string with
    | None => Ok None | Some j => rmap Some (normalize_index_sequence (Some j) false) end = Ok mobile).
  { rewrite Emob. destruct mobile as [l|]; [|done]. cbn [fmap option_fmap option_map].
    rewrite index_sequence_ints; [done|]. left. by apply Hm. }
  assert (Henv : match dget d "local_env_indices"%string with
    | None => Ok None | Some j => rmap Some (normalize_index_sequence (Some j) true) end = Ok env).
  { rewrite Eenv. destruct env as [l|]; [|done]. cbn [fmap option_fmap option_map].
    rewrite index_sequence_ints; [done|]. by right. }
  unfold normalize_rule, coerce_rule_type. rewrite Etype.
  destruct kind as [|occ ca|sel p|sel st c|sel sp c].
  - change (dget rule_types (py_strip (type_name KConstant))) with (Some TConstant). cbn [rbind]. cbv zeta.
    rewrite Hname, Hprop. cbn [rbind]. rewrite Hmob. cbn [rbind]. rewrite Henv. done.
  - change (dget rule_types (py_strip (type_name (KExact occ ca)))) with (Some TExact). cbn [rbind]. cbv zeta.
    rewrite Hname, Hprop. cbn [rbind]. rewrite Hmob. cbn [rbind]. rewrite Henv. cbn [rbind].
    destruct Hk as (mi & le & -> & -> & Hca & Hl & Hne & Hocc).
    rewrite Emob, Eenv. cbn [fmap option_fmap option_map].
    rewrite !index_sequence_ints by (first [by right|left; by apply Hm]). cbn [rbind].
    assert (Eo : dget d "occupations"%string = Some (ints occ)) by (unfold d; rule_get).
    rewrite Eo.
    assert (Ho : normalize_occupations (Some (ints occ)) = Ok occ).
    { unfold normalize_occupations, ints. 
      assert (E : rmapM normalize_state_value (map JInt occ) = Ok occ).
      { apply rmapM_inv. intros z Hz. apply state_value_int. by eapply (proj1 (Forall_forall _ _)). }
      destruct occ as [|z occ]; [done|]. exact E. }
    rewrite Ho. cbn [rbind]. rewrite <- Hca, Hl, Nat.eqb_refl. done.
  - change (dget rule_types (py_strip (type_name (KPattern sel p)))) with (Some TPattern). cbn [rbind]. cbv zeta.
    rewrite Hname, Hprop. cbn [rbind]. rewrite Hmob. cbn [rbind]. rewrite Henv. cbn [rbind].
    destruct Hk as (Hsel & Hne & Hpat).
    assert (Ho : normalize_pattern (Some (pattern_as_json p)) = Ok p).
    { unfold normalize_pattern, pattern_as_json.
      assert (E : rmapM pattern_entry (map (fun x => match x with Some z => JInt z | None => JStr "*" end) p) = Ok p).
      { apply rmapM_inv. intros [z|] Hz; [|reflexivity].
        assert (0 <= z)%Z. { eapply (proj1 (Forall_forall _ _) Hpat); [exact Hz|done]. }
        unfold pattern_entry. by rewrite state_value_int. }
      destruct p as [|z p]; [done|]. exact E. }
    assert (Es : dget d "sites"%string = Some (sites_as_json sel)) by (unfold d; rule_get).
    assert (Ep : dget d "pattern"%string = Some (pattern_as_json p)) by (unfold d; rule_get).
    rewrite Es, Ep, sites_spec_json by done. cbn [rbind]. rewrite Ho. done.
  - change (dget rule_types (py_strip (type_name (KStateCount sel st c)))) with (Some TStateCount).
    cbn [rbind]. cbv zeta.
    rewrite Hname, Hprop. cbn [rbind]. rewrite Hmob. cbn [rbind]. rewrite Henv. cbn [rbind].
    destruct Hk as (Hsel & Hst & Hc). destruct c as [a b g].
    assert (Es : dget d "sites"%string = Some (sites_as_json sel)) by (unfold d; rule_get).
    assert (Eo : dget d "occupation"%string = None) by (unfold d; rule_get).
    assert (Est : dget d "state"%string = Some (JInt st)) by (unfold d; rule_get).
    rewrite Es, Eo, Est, sites_spec_json by done. cbn [rbind opt_json].
    rewrite state_value_int by done. cbn [rbind].
    rewrite (counts_back a b g); [done|done|unfold d; rule_get..].
  - change (dget rule_types (py_strip (type_name (KSpeciesCount sel sp c)))) with (Some TSpeciesCount).
    cbn [rbind]. cbv zeta.
    rewrite Hname, Hprop. cbn [rbind]. rewrite Hmob. cbn [rbind]. rewrite Henv. cbn [rbind].
    destruct Hk as (Hsel & Hc & Hsp). destruct c as [a b g].
    assert (Es : dget d "sites"%string = Some (sites_as_json sel)) by (unfold d; rule_get).
    assert (Est : dget d "species"%string = Some (species_as_json sp)) by (unfold d; rule_get).
    assert (Hs : normalize_species (Some (species_as_json sp)) = Ok sp).
    { unfold species_as_json. destruct sp as [|s [|s' sp]].
      - destruct Hsp as [|[? _]]; done.
      - done.
      - destruct Hsp as [|[_ Hsp]]; [done|].
        assert (E : rmapM species_item (map JStr (s :: s' :: sp)) = Ok (s :: s' :: sp)).
        { apply rmapM_inv. intros x Hx. pose proof (proj1 (Forall_forall _ _) Hsp x Hx) as Hb.
          unfold species_item. destruct (String.eqb_spec (py_strip x) ""); done. }
        exact E. }
    rewrite Es, Est, sites_spec_json by done. cbn [rbind]. rewrite Hs. cbn [rbind].
    rewrite (counts_back a b g); [done|done|unfold d; rule_get..].
Qed.

(* ---------------- reachable models ---------------- *)
Definition wf_species (ss : dict Z (dict Z string)) : Prop :=
  NoDup (dkeys ss) /\ forall s m, (s, m) ∈ ss -> NoDup (dkeys m) /\
    forall z lab, (z, lab) ∈ m -> (0 <= z)%Z /\ ~ blank lab.
Definition wf_model (m : lb_model) : Prop :=
  lb_keys m = omap exact_key_for_rule (lb_rules m) /\ NoDup (lb_keys m) /\
  Forall wf_rule (lb_rules m) /\ wf_species (lb_site_species m) /\
  (forall d, lb_default_properties m = Some d -> wf_properties d).

Lemma default_name_ne n : ("rule_" ++ n)%string <> ""%string.
Proof. done. Qed.

Lemma add_rule_inv show m j m' :
  add_rule show m j = Ok m' -> exists r dn, dn <> ""%string /\ normalize_rule show j dn = Ok r /\
    lb_rules m' = lb_rules m ++ [r] /\
    lb_keys m' = lb_keys m ++ omap exact_key_for_rule [r] /\
    (forall k, exact_key_for_rule r = Some k -> k ∉ lb_keys m) /\
    m' = with_rules m (lb_rules m') (lb_keys m').
Proof.
  unfold add_rule. intros H. apply rbind_ok in H as (r & Hr & H). exists r.
  eexists. split; [apply (default_name_ne (py_str_int (Z.of_nat (length (lb_rules m)))))|].
  split; [exact Hr|]. destruct (exact_key_for_rule r) as [k|] eqn:E.
  - destruct (bool_decide _) eqn:Hb; [done|]. apply bool_decide_eq_false in Hb. injection H as <-.
    simpl. rewrite E. split; [done|]. split; [done|]. split; [by intros k' [= <-]|done].
  - injection H as <-. simpl. rewrite E, app_nil_r. done.
Qed.

Lemma add_rule_wf show m j m' :
  (forall j, show j <> ""%string) -> wf_model m -> add_rule show m j = Ok m' -> wf_model m'.
Proof.
  intros Hs (H1 & H2 & H3 & H4 & H5) H.
  apply add_rule_inv in H as (r & dn & Hdn & Hr & Hrs & Hks & Hk & Hm).
  rewrite Hm. unfold wf_model. simpl. rewrite Hrs, Hks, omap_app, H1.
  split; [done|]. split.
  - rewrite <- H1. apply NoDup_app. split; [done|]. split.
    + intros k Hin Hin'. apply elem_of_list_omap in Hin' as (r' & Hr' & Hk').
      apply elem_of_list_singleton in Hr' as ->. by apply (Hk k).
    + simpl. destruct (exact_key_for_rule r); [apply NoDup_singleton|constructor].
  - split; [|done]. apply Forall_app. split; [done|]. constructor; [|done].
    by eapply normalize_rule_wf.
Qed.

Lemma rfold_add_wf show l m m' :
  (forall j, show j <> ""%string) -> wf_model m -> rfold (add_rule show) m l = Ok m' -> wf_model m'.
Proof.
  intros Hs. revert m. induction l as [|j l IH]; intros m Hm H; simpl in H.
  - by injection H as <-.
  - apply rbind_ok in H as (m1 & H1 & H). eapply IH; [|exact H]. by eapply add_rule_wf.
Qed.

Lemma with_rules_nil_wf m : wf_model m -> wf_model (with_rules m [] []).
Proof. intros (_ & _ & _ & H4 & H5). split; [done|]. split; [constructor|]. split; [constructor|]. done. Qed.

Lemma build_rules_wf show m rules m' :
  (forall j, show j <> ""%string) -> wf_model m -> build_rules show m rules = Ok m' -> wf_model m'.
Proof.
  intros Hs Hm H. unfold build_rules in H. apply rbind_ok in H as (_ & _ & H).
  apply with_rules_nil_wf in Hm.
  destruct rules; try done; [by injection H as <-|]. by eapply rfold_add_wf.
Qed.

Lemma site_species_wf j ss : normalize_site_species j = Ok ss -> wf_species ss.
Proof.
  unfold normalize_site_species. destruct j as [| | | | | |l]; try done.
  - intros [= <-]. split; [constructor|]. intros s m H. by apply elem_of_nil in H.
  - intros H. apply rbind_ok in H as (ps & Hps & [= <-]). split; [apply NoDup_dof_pairs|].
    intros s m Hsm.
    assert (Hin : (s, m) ∈ ps).
    { apply dget_dof_pairs_in. apply dget_in; [apply NoDup_dof_pairs|done]. }
    apply elem_of_list_lookup in Hin as (i & Hi).
    destruct (rmapM_lookup _ _ _ _ _ Hps Hi) as ([k j] & _ & Hkj).
    unfold site_entry in Hkj. apply rbind_ok in Hkj as (site & _ & Hkj). simpl in Hkj.
    destruct j as [| | | | | |l']; try done. apply rbind_ok in Hkj as (ms & Hms & [= -> <-]).
    split; [apply NoDup_dof_pairs|]. intros z lab Hz.
    assert (Hin : (z, lab) ∈ ms).
    { apply dget_dof_pairs_in. apply dget_in; [apply NoDup_dof_pairs|done]. }
    apply elem_of_list_lookup in Hin as (i' & Hi').
    destruct (rmapM_lookup _ _ _ _ _ Hms Hi') as ([k' j'] & _ & Hkj').
    unfold species_entry in Hkj'. apply rbind_ok in Hkj' as (st & Hst & Hkj'). simpl in Hkj'.
    destruct j' as [| | | |sp| |]; try done.
    destruct (String.eqb_spec (py_strip sp) "") as [|Hne]; [done|]. injection Hkj' as -> <-.
    split; [by eapply normalize_state_nonneg|done].
Qed.

Lemma barrier_not_blank : ~ blank "barrier".
Proof. intros H. vm_compute in H. discriminate H. Qed.

Lemma dsetdefault_wf (d : dict string Q) q : d = [] \/ wf_properties d ->
  wf_properties (dsetdefault d "barrier"%string q).
Proof.
  intros Hd. unfold dsetdefault, din.
  assert (Hnd : NoDup (dkeys d)) by (destruct Hd as [-> |(_ & H & _)]; [constructor|done]).
  assert (Hb : forall k, k ∈ dkeys d -> ~ blank k).
  { destruct Hd as [-> |(_ & _ & H)]; [|done]. intros k Hk. by apply elem_of_nil in Hk. }
  destruct (dget d "barrier") as [v|] eqn:E.
  - destruct Hd as [-> |Hd]; [done|done].
  - split; [|split].
    + rewrite dkeys_dset_notin by (by apply dget_None). by destruct d.
    + by apply NoDup_dkeys_dset.
    + intros k Hk. apply elem_of_dkeys_dset in Hk as [-> |Hk]; [apply barrier_not_blank|by apply Hb].
Qed.

Lemma lb_new_wf show rules name dp db dprop mode pprop ss m :
  (forall j, show j <> ""%string) ->
  lb_new show rules name dp db dprop mode pprop ss = Ok m -> wf_model m.
Proof.
  intros Hs H. unfold lb_new in H. apply rbind_ok in H as (ss' & Hss & H).
  apply rbind_ok in H as (dp1 & Hdp & H). apply rbind_ok in H as (dp2 & Hdp2 & H).
  assert (Hd1 : forall d, dp1 = Some d -> wf_properties d).
  { unfold normalize_optional_properties in Hdp. destruct dp as [| | | | | |l]; try done.
    - by injection Hdp as <-.
    - destruct (normalize_properties l) as [d|] eqn:E; [|done]. injection Hdp as <-.
      intros d' [= <-]. by eapply normalize_properties_wf. }
  assert (Hd2 : forall d, dp2 = Some d -> wf_properties d).
  { assert (G : forall j, (let* q := number j in
        Ok (Some (dsetdefault (match dp1 with Some d => d | None => [] end) "barrier" q))) = Ok dp2 ->
        forall d, dp2 = Some d -> wf_properties d).
    { intros j Hj. apply rbind_ok in Hj as (q & _ & [= <-]). intros d [= <-].
      apply dsetdefault_wf. destruct dp1 as [d|]; [right; by apply Hd1|by left]. }
    destruct db; try (by eapply G). by injection Hdp2 as <-. }
  assert (Hwf : wf_model {| lb_name := name; lb_default_property := dprop; lb_probability_mode := mode;
    lb_probability_property := pprop; lb_site_species := ss'; lb_default_properties := dp2;
    lb_rules := []; lb_keys := [] |}).
  { split; [done|]. split; [constructor|]. split; [constructor|].
    split; [by eapply site_species_wf|done]. }
  destruct rules; try (by injection H as <-); by eapply build_rules_wf.
Qed.

Lemma add_all_rfold show l m m' : add_all show m l = (m', Ok tt) <-> rfold (add_rule show) m l = Ok m'.
Proof.
  revert m. induction l as [|j l IH]; intros m; simpl.
  - split; [by intros [= ->]|by intros [= ->]].
  - destruct (add_rule show m j); simpl; [apply IH|done].
Qed.

Lemma build_inv show pf m rules dp db dprop mode pprop ss m' :
  build show pf m rules dp db dprop mode pprop ss = (m', Ok tt) ->
  exists d1 d2 ss',
    normalize_optional_properties dp = Ok d1 /\
    (db = JNull /\ d2 = match d1 with Some d => Some d | None => lb_default_properties m end \/
     db <> JNull /\ exists q, py_float pf db = Ok q /\ d2 = Some (dsetdefault
       (match match d1 with Some d => Some d | None => lb_default_properties m end with Some d => d | None => [] end)
       "barrier" q)) /\
    (ss = JNull /\ ss' = lb_site_species m \/ ss <> JNull /\ normalize_site_species ss = Ok ss') /\
    build_rules show {| lb_name := lb_name m; lb_default_property := or_given (lb_default_property m) dprop;
       lb_probability_mode := or_given (lb_probability_mode m) mode;
       lb_probability_property := or_given (lb_probability_property m) pprop;
       lb_site_species := ss'; lb_default_properties := d2; lb_rules := lb_rules m; lb_keys := lb_keys m |} rules = Ok m'.
Proof.
  intros H. unfold build in H.
  destruct (normalize_optional_properties dp) as [d1|] eqn:E1; [|done].
  set (m1 := match d1 with Some d => with_defaults m (Some d) | None => m end) in H.
  set (d0 := match d1 with Some d => Some d | None => lb_default_properties m end).
  assert (Hm1 : m1 = with_defaults m d0) by (subst m1 d0; destruct d1; [done|by destruct m]).
  clearbody m1. subst m1.
  set (p := match db with JNull => _ | _ => _ end) in H.
  destruct p as [m2 [u|]] eqn:Ep; [|done]. subst p.
  assert (exists d2, m2 = with_defaults m d2 /\
    (db = JNull /\ d2 = d0 \/ db <> JNull /\ exists q, py_float pf db = Ok q /\
       d2 = Some (dsetdefault (match d0 with Some d => d | None => [] end) "barrier" q))) as (d2 & -> & Hd2).
  { clear H. assert (Hdec : db = JNull \/ db <> JNull) by (destruct db; [by left|by right..]).
    destruct Hdec as [->|Hne].
    - injection Ep as <- <-. exists d0. split; [done|]. by left.
    - assert (Ep' : match py_float pf db with
        | Err x => (with_defaults (with_defaults m d0) (Some (match d0 with Some d => d | None => [] end)), Err x)
        | Ok q => (with_defaults (with_defaults m d0) (Some (dsetdefault (match d0 with Some d => d | None => [] end) "barrier" q)), Ok tt)
        end = (m2, Ok u)) by (destruct db; done).
      destruct (py_float pf db) as [q|] eqn:Eq; [|done]. injection Ep' as <- <-.
      eexists. split; [done|]. right. split; [done|]. by exists q. }
  clear Ep.
  set (p := match ss with JNull => _ | _ => _ end) in H.
  destruct p as [m3|] eqn:Ep; [|done]. subst p.
  assert (exists ss', m3 = with_species (with_names (with_defaults m d2) dprop mode pprop) ss' /\
    (ss = JNull /\ ss' = lb_site_species m \/ ss <> JNull /\ normalize_site_species ss = Ok ss')) as (ss' & -> & Hss).
  { clear H. assert (Hdec : ss = JNull \/ ss <> JNull) by (destruct ss; [by left|by right..]).
    destruct Hdec as [->|Hne].
    - injection Ep as <-. exists (lb_site_species m). split; [by destruct m|]. by left.
    - assert (Ep' : rmap (with_species (with_names (with_defaults m d2) dprop mode pprop)) (normalize_site_species ss) = Ok m3)
        by (destruct ss; done).
      destruct (normalize_site_species ss) as [s'|] eqn:Es; [|done]. injection Ep' as <-.
      exists s'. split; [done|]. by right. }
  clear Ep. exists d1, d2, ss'. split; [done|]. split; [exact Hd2|]. split; [exact Hss|].
  unfold build_rules.
  change (validate_probability_mode _) with (validate_probability_mode (with_species (with_names (with_defaults m d2) dprop mode pprop) ss')).
  destruct (validate_probability_mode _) as [[]|] eqn:Ev; [|done]. cbn [rbind].
  destruct rules; try done; [by injection H as <-|]. by apply add_all_rfold in H.
Qed.

Lemma build_wf show pf m rules dp db dprop mode pprop ss m' :
  (forall j, show j <> ""%string) -> wf_model m ->
  build show pf m rules dp db dprop mode pprop ss = (m', Ok tt) -> wf_model m'.
Proof.
  intros Hs Hm H. apply build_inv in H as (d1 & d2 & ss' & H1 & H2 & H3 & H).
  eapply build_rules_wf; [done| |exact H]. destruct Hm as (K1 & K2 & K3 & K4 & K5).
  split; [done|]. split; [done|]. split; [done|].
  split. { destruct H3 as [[_ ->]|[_ H3]]; [done|]. by eapply site_species_wf. }
  cbn [lb_default_properties].
  assert (Hd0 : forall d, match d1 with Some d => Some d | None => lb_default_properties m end = Some d -> wf_properties d).
  { destruct d1 as [d1|]; [|done]. intros d [= <-]. unfold normalize_optional_properties in H1.
    destruct dp as [| | | | | |l]; try done. destruct (normalize_properties l) as [d'|] eqn:E; [|done].
    injection H1 as <-. by eapply normalize_properties_wf. }
  destruct H2 as [[_ ->]|(_ & q & _ & ->)]; [done|]. intros d [= <-]. apply dsetdefault_wf.
  destruct (match d1 with Some d => Some d | None => lb_default_properties m end) as [d|]; [right; by apply Hd0|by left].
Qed.

Lemma built_wf show m : (forall j, show j <> ""%string) -> built show m -> wf_model m.
Proof.
  intros Hs. induction 1 as [| |].
  - by eapply lb_new_wf.
  - by eapply add_rule_wf.
  - by eapply build_wf.
Qed.

(* ---------------- at most one exact rule applies ---------------- *)
Lemma omap_NoDup_inj {A B} (f : A -> option B) (l : list A) i j x y k :
  NoDup (omap f l) -> l !! i = Some x -> l !! j = Some y -> f x = Some k -> f y = Some k -> i = j.
Proof.
  revert i j. induction l as [|a l IH]; intros i j Hnd Hi Hj Hx Hy; [done|].
  assert (Hin : forall n z, l !! n = Some z -> f z = Some k -> k ∈ omap f l).
  { intros n z Hn Hz. apply elem_of_list_omap. exists z. split; [|done]. by eapply elem_of_list_lookup_2. }
  destruct i as [|i], j as [|j]; simpl in *; [done|..].
  - injection Hi as ->. rewrite Hx in Hnd. apply NoDup_cons in Hnd as [Hn _].
    destruct Hn. by eapply Hin.
  - injection Hj as ->. rewrite Hy in Hnd. apply NoDup_cons in Hnd as [Hn _].
    destruct Hn. by eapply Hin.
  - f_equal. apply IH; try done. destruct (f a); [by apply NoDup_cons in Hnd as [_ ?]|done].
Qed.

Lemma exact_key_of_event ss r occ e occs ca :
  wf_rule r -> r_kind r = KExact occs ca -> rule_holds ss r occ e ->
  exact_key_for_rule r =
    Some (mobile_ion_indices e, distinct (mobile_ion_indices e ++ local_env_indices e), occs) /\
  Forall2 (holds occ) (distinct (mobile_ion_indices e ++ local_env_indices e)) occs.
Proof.
  intros (_ & _ & _ & Hk) E [[Hm _] Hc]. rewrite E in Hk, Hc. simpl in Hk, Hc.
  destruct Hk as (mi & le & Hmi & _). destruct Hc as [Hca Hf].
  unfold exact_key_for_rule. rewrite E, Hmi. rewrite Hmi in Hm.
  destruct Hm as [|[= ->]]; [done|]. subst ca. done.
Qed.

Lemma one_exact_lemma show m occ e i j ri rj oi ci oj cj :
  (forall j, show j <> ""%string) -> built show m ->
  lb_rules m !! i = Some ri -> lb_rules m !! j = Some rj ->
  r_kind ri = KExact oi ci -> r_kind rj = KExact oj cj ->
  rule_holds (lb_site_species m) ri occ e -> rule_holds (lb_site_species m) rj occ e -> i = j.
Proof.
  intros Hs Hb Hi Hj Ki Kj Hhi Hhj. apply built_wf in Hb as (Hk & Hnd & Hwf & _); [|done].
  pose proof (Forall_lookup_1 _ _ _ _ Hwf Hi) as Hwi.
  pose proof (Forall_lookup_1 _ _ _ _ Hwf Hj) as Hwj.
  destruct (exact_key_of_event _ _ _ _ _ _ Hwi Ki Hhi) as [Hki Hfi].
  destruct (exact_key_of_event _ _ _ _ _ _ Hwj Kj Hhj) as [Hkj Hfj].
  rewrite <- (Forall2_holds_unique _ _ _ _ Hfi Hfj) in Hkj.
  rewrite Hk in Hnd. by eapply omap_NoDup_inj.
Qed.

(* ---------------- saving and loading ---------------- *)
Fixpoint plain (s : string) : Prop :=
  match s with
  | EmptyString => True
  | String a s' => is_blank a = false /\ lower_ascii a = a /\ plain s'
  end.
Lemma plain_rstrip s : plain s -> rstrip s = s.
Proof.
  induction s as [|a s IH]; [done|]. intros (Ha & _ & Hs). simpl. rewrite IH by done.
  destruct s; [by rewrite Ha|done].
Qed.
Lemma plain_strip s : plain s -> py_strip s = s.
Proof.
  intros H. unfold py_strip. assert (lstrip s = s) as ->; [|by apply plain_rstrip].
  destruct s as [|a s]; [done|]. destruct H as (Ha & _). simpl. by rewrite Ha.
Qed.
Lemma plain_lower s : plain s -> py_lower s = s.
Proof. induction s as [|a s IH]; [done|]. intros (_ & Ha & Hs). simpl. by rewrite Ha, IH. Qed.
Lemma plain_uint d : plain (DecimalString.NilEmpty.string_of_uint d).
Proof. induction d; simpl; repeat split; done. Qed.
Lemma plain_int z : plain (py_str_int z).
Proof.
  unfold py_str_int, DecimalString.NilZero.string_of_int, DecimalString.NilZero.string_of_uint.
  destruct (Z.to_int z) as [d|d]; simpl.
  - destruct d; (split; [done|split; [done|]]); try apply plain_uint; done.
  - split; [done|]. split; [done|]. destruct d; (split; [done|split; [done|]]); try apply plain_uint; done.
Qed.

Local Opaque py_str_int.
Lemma state_value_str z : (0 <= z)%Z -> normalize_state_value (JStr (py_str_int z)) = Ok z.
Proof.
  intros Hz. unfold normalize_state_value. rewrite plain_strip by apply plain_int.
  rewrite plain_lower by apply plain_int.
  destruct (dget state_value_aliases (py_str_int z)) as [v|] eqn:E.
  - apply dget_Some_in in E. pose proof (py_int_str_of_int z) as Hi. unfold state_value_aliases in E.
    repeat (apply elem_of_cons in E as [E|E];
      [injection E as E _; rewrite E in Hi; vm_compute in Hi; discriminate Hi|]).
    by apply elem_of_nil in E.
  - rewrite py_int_str_of_int. cbn [rbind]. destruct (Z.ltb_spec z 0); [lia|done].
Qed.

Lemma map_pair_keys {K K' V V'} (f : K -> K') (g : K * V -> V') (l : list (K * V)) :
  map fst (map (fun kv => (f (fst kv), g kv)) l) = map f (map fst l).
Proof. rewrite !map_map. done. Qed.

Lemma site_species_back ss : wf_species ss -> normalize_site_species (site_species_as_dict ss) = Ok ss.
Proof.
  intros [Hnd Hin]. unfold site_species_as_dict, normalize_site_species.
  rewrite rmapM_inv.
  { simpl. by rewrite dof_pairs_NoDup. }
  intros [s m] Hsm. unfold site_entry. cbn [fst snd]. rewrite py_int_str_of_int. cbn [rbind].
  destruct (Hin s m Hsm) as [Hndm Hm]. rewrite rmapM_inv.
  { simpl. by rewrite dof_pairs_NoDup. }
  intros [z lab] Hz. unfold species_entry. cbn [fst snd]. destruct (Hm z lab Hz) as [Hz0 Hb].
  rewrite state_value_str by done. cbn [rbind].
  destruct (String.eqb_spec (py_strip lab) ""); [done|done].
Qed.

Lemma rfold_add_back show m rules done_ :
  Forall wf_rule rules ->
  NoDup (omap exact_key_for_rule (done_ ++ rules)) ->
  rfold (add_rule show) (with_rules m done_ (omap exact_key_for_rule done_)) (map rule_as_dict rules) =
  Ok (with_rules m (done_ ++ rules) (omap exact_key_for_rule (done_ ++ rules))).
Proof.
  revert done_. induction rules as [|r rules IH]; intros done_ Hwf Hnd.
  - simpl. by rewrite app_nil_r.
  - inversion Hwf as [|? ? Hr Hrs]; subst. cbn [map rfold]. unfold add_rule at 1.
    rewrite normalize_rule_as_dict by done. cbn [rbind].
    assert (Heq : (done_ ++ r :: rules)%list = ((done_ ++ [r]) ++ rules)%list) by (by rewrite <- app_assoc).
    rewrite Heq in Hnd |- *.
    assert (Hstep : (match exact_key_for_rule r with
      | Some key => if bool_decide (key ∈ omap exact_key_for_rule done_) then Err ValueError
          else Ok (with_rules m (done_ ++ [r]) (omap exact_key_for_rule done_ ++ [key]))
      | None => Ok (with_rules m (done_ ++ [r]) (omap exact_key_for_rule done_))
      end) = Ok (with_rules m (done_ ++ [r]) (omap exact_key_for_rule (done_ ++ [r])))).
    { rewrite omap_app. simpl. destruct (exact_key_for_rule r) as [k|] eqn:E.
      - rewrite bool_decide_eq_false_2; [done|]. intros Hin.
        rewrite !omap_app in Hnd. simpl in Hnd. rewrite E in Hnd. simpl in Hnd.
        apply NoDup_app in Hnd as (Hnd & _). apply NoDup_app in Hnd as (_ & Hd & _).
        apply (Hd k Hin). by left.
      - by rewrite app_nil_r. }
    unfold with_rules in Hstep |- *. cbn [lb_rules lb_keys lb_name lb_default_property
      lb_probability_mode lb_probability_property lb_site_species lb_default_properties] in *.
    rewrite Hstep. cbn [rbind]. apply (IH (done_ ++ [r])%list); [done|done].
Qed.

Lemma roundtrip_lemma show m :
  (forall j, show j <> ""%string) -> built show m ->
  lb_probability_mode m = supported_mode ->
  lb_from_dict show (JObj (lb_as_dict m)) = Ok m.
Proof.
  intros Hs Hb Hmode. apply built_wf in Hb as (Hk & Hnd & Hwf & Hss & Hdp); [|done].
  unfold lb_from_dict.
  assert (E1 : dget (lb_as_dict m) "model_type" = None) by (unfold lb_as_dict; dget_simpl; done).
  assert (E2 : get_or (lb_as_dict m) "rules" (JList []) = JList (map rule_as_dict (lb_rules m)))
    by (unfold get_or, lb_as_dict; dget_simpl; done).
  assert (E3 : get_or (lb_as_dict m) "name" (JStr "LocalBarrierModel") = lb_name m)
    by (unfold get_or, lb_as_dict; dget_simpl; done).
  assert (E4 : get_or (lb_as_dict m) "default_properties" JNull =
    match lb_default_properties m with Some d => properties_as_dict d | None => JNull end)
    by (unfold get_or, lb_as_dict; dget_simpl; done).
  assert (E5 : get_or (lb_as_dict m) "default_barrier" JNull = JNull)
    by (unfold get_or, lb_as_dict; dget_simpl; done).
  assert (E6 : get_or (lb_as_dict m) "default_property" (JStr "barrier") = lb_default_property m)
    by (unfold get_or, lb_as_dict; dget_simpl; done).
  assert (E7 : get_or (lb_as_dict m) "probability_mode" supported_mode = lb_probability_mode m)
    by (unfold get_or, lb_as_dict; dget_simpl; done).
  assert (E8 : get_or (lb_as_dict m) "probability_property" (JStr "barrier") = lb_probability_property m)
    by (unfold get_or, lb_as_dict; dget_simpl; done).
  assert (E9 : get_or (lb_as_dict m) "site_species" JNull = site_species_as_dict (lb_site_species m))
    by (unfold get_or, lb_as_dict; dget_simpl; done).
  rewrite E1. cbn [rbind]. rewrite E2, E3, E4, E5, E6, E7, E8, E9. clear E1 E2 E3 E4 E5 E6 E7 E8 E9.
  unfold lb_new. rewrite site_species_back by done. cbn [rbind].
  assert (Hd : normalize_optional_properties
    (match lb_default_properties m with Some d => properties_as_dict d | None => JNull end) =
    Ok (lb_default_properties m)).
  { destruct (lb_default_properties m) as [d|]; [|done]. simpl.
    rewrite normalize_properties_as_dict by (by apply Hdp). done. }
  rewrite Hd. cbn [rbind]. unfold build_rules, validate_probability_mode. cbn [lb_probability_mode].
  rewrite Hmode. unfold supported_mode at 1. change (String.eqb "barrier_arrhenius" "barrier_arrhenius") with true.
  cbn [rbind]. rewrite <- Hmode.
  pose proof (rfold_add_back show m (lb_rules m) [] Hwf) as H. simpl app in H.
  rewrite <- Hk in H. specialize (H Hnd). simpl omap in H.
  unfold with_rules in H |- *. cbn [lb_rules lb_keys lb_name lb_default_property
      lb_probability_mode lb_probability_property lb_site_species lb_default_properties].
  rewrite H. by destruct m.
Qed.

(* ---------------- what a rule reads ---------------- *)
Definition rule_reads (r : rule) (e : event) (n : nat) (s : Z) : Prop :=
  match r_kind r with
  | KConstant => False
  | KExact _ _ => s ∈ mobile_ion_indices e ++ local_env_indices e
  | KPattern sel _ | KStateCount sel _ _ | KSpeciesCount sel _ _ =>
      exists l, designates sel e n l /\ s ∈ l
  end.

Lemma selected_length sel e occ occ' :
  length occ' = length occ -> selected_sites sel e occ' = selected_sites sel e occ.
Proof. intros H. unfold selected_sites. rewrite H. done. Qed.

Lemma occupation_pattern_same l occ occ' :
  (forall s, s ∈ l -> py_get occ' s = py_get occ s) ->
  occupation_pattern l occ' = occupation_pattern l occ.
Proof. intros H. unfold occupation_pattern. by apply rmapM_ext. Qed.

Lemma rule_matches_same ss r occ occ' e :
  length occ' = length occ ->
  (concerns r e -> forall s, rule_reads r e (length occ) s -> py_get occ' s = py_get occ s) ->
  rule_matches ss r occ' e = rule_matches ss r occ e.
Proof.
  intros Hl Hs. unfold rule_matches.
  destruct (event_constraints_match r e) as [c|x] eqn:Hc; [|done]. simpl.
  apply constraints_spec in Hc as [Hc _]. destruct c; [|done]. simpl.
  specialize (Hs (proj1 Hc eq_refl)). unfold rule_reads in Hs.
  destruct (r_kind r) as [|occs ca|sel p|sel st cs|sel sp cs]; [done|..].
  - destruct (event_indices e) as [[[mi le] ca']|] eqn:He; [|done]. simpl.
    apply event_indices_ok in He as (-> & -> & -> & _).
    destruct (negb _); [done|]. rewrite (occupation_pattern_same _ occ occ'); [done|].
    intros s H. apply Hs. by apply elem_of_distinct.
  - rewrite (selected_length _ _ _ _ Hl). destruct (selected_sites sel e occ) as [l|] eqn:E; [|done].
    apply selected_designates in E. simpl. rewrite (occupation_pattern_same _ occ occ'); [done|].
    intros s H. apply Hs. eauto.
  - rewrite (selected_length _ _ _ _ Hl). destruct (selected_sites sel e occ) as [l|] eqn:E; [|done].
    apply selected_designates in E. simpl. rewrite (occupation_pattern_same _ occ occ'); [done|].
    intros s H. apply Hs. eauto.
  - rewrite (selected_length _ _ _ _ Hl). destruct (selected_sites sel e occ) as [l|] eqn:E; [|done].
    apply selected_designates in E. simpl. rewrite (occupation_pattern_same _ occ occ'); [done|].
    intros s H. apply Hs. eauto.
Qed.

Lemma first_match_same ss rules occ occ' e :
  (forall r, r ∈ rules -> rule_matches ss r occ' e = rule_matches ss r occ e) ->
  first_match ss rules occ' e = first_match ss rules occ e.
Proof.
  induction rules as [|r rules IH]; intros H; simpl; [done|].
  rewrite (H r) by (by left). destruct (rule_matches ss r occ e) as [[]|]; simpl; [done| |done].
  apply IH. intros r' Hr'. apply H. by right.
Qed.

(** When every rule gives the same answer, so does the table, except for the kind of
    exception raised when nothing matches. *)
Lemma matched_same_ok m occ occ' e p :
  (forall r, r ∈ lb_rules m ->
     rule_matches (lb_site_species m) r occ' e = rule_matches (lb_site_species m) r occ e) ->
  matched_properties m occ e = Ok p -> matched_properties m occ' e = Ok p.
Proof.
  intros H. unfold matched_properties. rewrite (first_match_same _ _ _ _ _ H).
  destruct (first_match _ _ occ e) as [[q|]|]; simpl; [done| |done].
  destruct (lb_default_properties m); [done|]. intros Hx.
  apply rbind_ok in Hx as (? & _ & Hx). apply rbind_ok in Hx as (? & _ & Hx). done.
Qed.

Lemma matched_same_own m occ occ' e :
  length occ' = length occ ->
  (forall r, r ∈ lb_rules m -> concerns r e -> reads_own r e) ->
  (forall s, touches e s -> py_get occ' s = py_get occ s) ->
  matched_properties m occ' e = matched_properties m occ e.
Proof.
  intros Hl Hown Hs. unfold matched_properties.
  assert (Hcan : forall s, s ∈ distinct (mobile_ion_indices e ++ local_env_indices e) ->
    py_get occ' s = py_get occ s).
  { intros s H. apply Hs. apply (proj1 (elem_of_distinct _ _)), elem_of_app in H. exact H. }
  rewrite (first_match_same _ _ occ occ').
  - destruct (first_match _ _ occ e) as [[q|]|]; simpl; [done| |done].
    destruct (lb_default_properties m); [done|].
    destruct (event_indices e) as [[[mi le] ca']|] eqn:He; [|done]. simpl.
    apply event_indices_ok in He as (-> & -> & -> & _).
    by rewrite (occupation_pattern_same _ occ occ').
  - intros r Hr. apply rule_matches_same; [done|]. intros Hc s Hrd. specialize (Hown r Hr Hc).
    unfold reads_own, rule_reads in *. apply Hs.
    assert (G : forall sel, match sel with
        | AllSites => False | Sites l => forall s, s ∈ l -> touches e s | _ => True end ->
        (exists l, designates sel e (length occ) l /\ s ∈ l) -> touches e s).
    { intros sel Hsel (l & Hd & Hin). destruct sel; simpl in Hd.
      - subst l. apply (proj1 (elem_of_distinct _ _)), elem_of_app in Hin. exact Hin.
      - subst l. by right.
      - subst l. by left.
      - destruct Hd as (rest & s' & Hm & ->). apply elem_of_list_singleton in Hin as ->.
        left. rewrite Hm. by left.
      - destruct Hd as (rest & f & s' & Hm & ->). apply elem_of_list_singleton in Hin as ->.
        left. rewrite Hm. right. by left.
      - done.
      - subst l0. by apply Hsel. }
    destruct (r_kind r); [done|apply elem_of_app in Hrd; exact Hrd|by eapply G..].
Qed.

Lemma direction_same occ occ' e codes :
  (forall s, s ∈ mobile_ion_indices e -> py_get occ' s = py_get occ s) ->
  event_direction occ' e codes = event_direction occ e codes.
Proof.
  intros H. unfold event_direction. destruct (unpack2 (mobile_ion_indices e)) as [[f t]|] eqn:E; [|done].
  apply unpack2_ok in E. simpl. rewrite !H; [done|rewrite E; set_solver..].
Qed.

Lemma lb_rate_same_own m lk v t occ occ' e :
  length occ' = length occ ->
  (forall r, r ∈ lb_rules m -> concerns r e -> reads_own r e) ->
  (forall s, touches e s -> py_get occ' s = py_get occ s) ->
  lb_probability m lk v t occ' e = lb_probability m lk v t occ e.
Proof.
  intros Hl Hown Hs. unfold lb_probability, lb_compute.
  rewrite (matched_same_own m occ occ' e Hl Hown Hs).
  assert (Hd : forall codes, event_direction occ' e codes = event_direction occ e codes).
  { intros codes. apply direction_same. intros s H. apply Hs. by left. }
  destruct (validate_probability_mode m); [simpl|done].
  match goal with |- rbind ?x _ = _ => destruct x; [simpl|done] end.
  destruct (event_codes lk e); [simpl|done]. by rewrite Hd.
Qed.

Lemma lb_local_lemma m lk v t lib n :
  indices_in_range (events lib) n -> local_rules m (events lib) ->
  rates_local lb_apply (lb_rate m lk v t) (events lib) n.
Proof.
  intros Hr Hown u occ e occ' u' e' Hlen He He' Hsw Ha Hns.
  unfold lb_rate. apply lb_rate_same_own; [by eapply swap_length|intros r Hin; by apply Hown|].
  intros s Hs. pose proof (swap_spec _ _ _ Hsw) as (f & tt & _ & _ & _ & _ & Hft & _).
  destruct e as [mi env]. simpl in Hft. subst mi.
  assert (Hf : (0 <= f < Z.of_nat n)%Z). { eapply Hr; [exact He|]. left. simpl. set_solver. }
  assert (Ht : (0 <= tt < Z.of_nat n)%Z). { eapply Hr; [exact He|]. left. simpl. set_solver. }
  assert (Hsr : (0 <= s < Z.of_nat n)%Z). { eapply Hr; [exact He'|done]. }
  assert (Hne : s <> f /\ s <> tt).
  { split; intros ->; apply Hns; eexists; (split; [|exact Hs]); left; simpl; set_solver. }
  apply py_get_same; [lia|by eapply swap_length|].
  eapply swap_others; [| |exact Hsw| |]; lia.
Qed.

Lemma lb_fresh_lemma m lk v t lib st (k : kmc R unit) hist k' :
  exact_dependencies (events lib) (get_dependent_events lib) ->
  indices_in_range (events lib) (length (occupations st)) ->
  local_rules m (events lib) ->
  construct Rplus lb_initialize (lb_rate m lk v t) lib lk st = Ok k ->
  updates Rplus lb_apply (lb_rate m lk v t) k hist = Ok k' ->
  fresh (lb_rate m lk v t) k'.
Proof.
  intros Hd Hr Hl Hc Hu. eapply fresh_always_lemma; [exact Hd| |exact Hc|exact Hu].
  by apply lb_local_lemma.
Qed.

(* ---------------- rates ---------------- *)
Lemma lb_rate_inv m lk v t occ e r :
  lb_probability m lk v t occ e = Ok r ->
  exists q codes d, lb_compute m occ e (lb_probability_property m) = Ok q /\
    event_codes lk e = Ok codes /\ event_direction occ e codes = Ok d /\ (k_B * t <> 0)%R /\
    r = ((if (d =? 0)%Z then 0 else 1) * v * exp (- Q2R q / (k_B * t)))%R.
Proof.
  unfold lb_probability. intros H. apply rbind_ok in H as (u & _ & H).
  apply rbind_ok in H as (q & Hq & H). apply rbind_ok in H as (codes & Hc & H).
  apply rbind_ok in H as (d & Hd & H). destruct (Req_EM_T _ _); [done|]. injection H as <-. eauto 10.
Qed.

Lemma lb_rate_lemma m lk v t occ e r codes :
  lb_probability m lk v t occ e = Ok r -> event_codes lk e = Ok codes ->
  exists q, lb_compute m occ e (lb_probability_property m) = Ok q /\
    (hoppable codes occ e -> r = v * exp (- Q2R q / (k_B * t)))%R /\
    (~ hoppable codes occ e -> r = 0%R).
Proof.
  intros H Hc. apply lb_rate_inv in H as (q & c & d & Hq & Hc' & Hd & _ & ->).
  rewrite Hc in Hc'. injection Hc' as <-. exists q. split; [done|].
  pose proof (direction_hoppable _ _ _ _ Hd) as Hh.
  destruct (Z.eqb_spec d 0) as [->|Hne]; split; intros Hx.
  - apply Hh in Hx. done.
  - lra.
  - lra.
  - destruct Hx. by apply Hh.
Qed.

Lemma symmetric_lemma m lk v t f tt env occ occ' codes d r :
  let e := Event [f; tt] env in
  (0 <= f)%Z -> (0 <= tt)%Z -> f <> tt ->
  (forall r, r ∈ lb_rules m -> concerns r e -> ignores_endpoints r e) ->
  event_codes lk e = Ok codes -> endpoint_consistent codes ->
  event_direction occ e codes = Ok d -> d <> 0%Z ->
  swap_occupations occ e = Ok occ' ->
  lb_probability m lk v t occ e = Ok r ->
  event_direction occ' e codes = Ok (- d)%Z /\ lb_probability m lk v t occ' e = Ok r.
Proof.
  intros e Hf Ht Hne Hig Hcodes Hcons Hd Hd0 Hsw Hr.
  destruct (hop_undone_lemma _ _ _ _ _ _ _ Hf Ht Hne Hcons Hd Hd0 Hsw) as [Hd' _].
  split; [exact Hd'|].
  assert (Hsame : forall r0, r0 ∈ lb_rules m ->
     rule_matches (lb_site_species m) r0 occ' e = rule_matches (lb_site_species m) r0 occ e).
  { intros r0 Hr0. apply rule_matches_same; [by eapply swap_length|]. intros Hc s Hrd.
    specialize (Hig r0 Hr0 Hc). unfold ignores_endpoints, rule_reads in *.
    assert (G : (0 <= s)%Z /\ s ∉ mobile_ion_indices e -> py_get occ' s = py_get occ s).
    { intros [Hs0 Hs]. simpl in Hs.
      apply py_get_same; [done|by eapply swap_length|].
      eapply swap_others; [exact Hf|exact Ht|exact Hsw| |].
      - intros Heq. apply Hs. replace s with f by lia. by left.
      - intros Heq. apply Hs. replace s with tt by lia. right. by left. }
    assert (G2 : forall sel,
      (exists l, (sel = Sites l \/ sel = LocalEnv /\ l = local_env_indices e) /\
        forall s, s ∈ l -> (0 <= s)%Z /\ s ∉ mobile_ion_indices e) ->
      (exists l, designates sel e (length occ) l /\ s ∈ l) -> py_get occ' s = py_get occ s).
    { intros sel (l & Hsel & Hl) (l' & Hdes & Hin). apply G, Hl.
      destruct Hsel as [->|[-> ->]]; simpl in Hdes; by subst l'. }
    destruct (r_kind r0); [done|done|by eapply G2..]. }
  unfold lb_probability in *. apply rbind_ok in Hr as (u & Hu & Hr). rewrite Hu. simpl.
  apply rbind_ok in Hr as (q & Hq & Hr).
  assert (Hq' : lb_compute m occ' e (lb_probability_property m) = Ok q).
  { unfold lb_compute in *. apply rbind_ok in Hq as (p & Hp & Hq).
    rewrite (matched_same_ok _ _ _ _ _ Hsame Hp). exact Hq. }
  rewrite Hq'. simpl. apply rbind_ok in Hr as (c & Hc & Hr). rewrite Hc. simpl.
  rewrite Hcodes in Hc. injection Hc as <-. rewrite Hd in Hr. simpl in Hr. fold e in Hd'. rewrite Hd'. simpl.
  destruct (Z.eqb_spec d 0); [done|]. destruct (Z.eqb_spec (- d) 0); [lia|]. exact Hr.
Qed.

(* ---------------- captured entries ---------------- *)
Lemma rfold_add_rules show l m m' :
  rfold (add_rule show) m l = Ok m' ->
  exists rs, lb_rules m' = lb_rules m ++ rs /\ lb_site_species m' = lb_site_species m /\
    Forall2 (fun j r => exists dn, dn <> ""%string /\ normalize_rule show j dn = Ok r) l rs.
Proof.
  revert m. induction l as [|j l IH]; intros m H; simpl in H.
  - injection H as <-. exists []. rewrite app_nil_r. done.
  - apply rbind_ok in H as (m1 & H1 & H).
    apply add_rule_inv in H1 as (r & dn & Hdn & Hr & Hrs & _ & _ & Hm1).
    destruct (IH _ H) as (rs & Hrs' & Hss & Hf). exists (r :: rs).
    rewrite Hrs', Hrs, <- app_assoc. split; [done|]. split.
    { rewrite Hss, Hm1. done. }
    constructor; [eauto|done].
Qed.

Lemma dsetdefault_get {V} (d : dict string V) k v k' : k' <> k -> dget (dsetdefault d k v) k' = dget d k'.
Proof. intros H. unfold dsetdefault. destruct (din d k); [done|]. by rewrite dget_dset_ne. Qed.

Lemma properties_value l d k q :
  NoDup (dkeys l) -> normalize_properties l = Ok d -> dget l k = Some (JFloat q) -> dget d k = Some q.
Proof.
  intros Hnd H Hk. unfold normalize_properties in H. destruct l as [|kv l0] eqn:E; [done|].
  rewrite <- E in *. apply rbind_ok in H as (ps & Hps & [= <-]).
  assert (Hkeys : map fst ps = map fst l).
  { clear -Hps. apply rmapM_ok in Hps. induction Hps as [|[k j] [k' q] l ps H Hps IH]; [done|].
    simpl. unfold property_entry in H. simpl in H. destruct (String.eqb _ _); [done|].
    apply rbind_ok in H as (x & _ & [= -> _]). by f_equal. }
  rewrite dof_pairs_NoDup by (unfold dkeys in Hnd; by rewrite Hkeys).
  apply dget_Some_in, elem_of_list_lookup in Hk as (i & Hi).
  destruct (rmapM_lookup_l _ _ _ _ _ Hps Hi) as ([k' q'] & Hi' & He).
  unfold property_entry in He. simpl in He. destruct (String.eqb _ _); [done|].
  simpl in He. injection He as -> ->. apply dget_in; [unfold dkeys in *; by rewrite Hkeys|].
  by eapply elem_of_list_lookup_2.
Qed.

Lemma states_back l : Forall (fun z => 0 <= z)%Z l -> rmapM normalize_state_value (map JInt l) = Ok l.
Proof. intros H. apply rmapM_inv. intros z Hz. apply state_value_int. by eapply (proj1 (Forall_forall _ _)). Qed.

Lemma occupations_int_inv o l :
  normalize_occupations (Some (JList (map JInt o))) = Ok l -> l = o.
Proof.
  unfold normalize_occupations. destruct o as [|z o]; [done|]. intros H.
  change (rmapM normalize_state_value (map JInt (z :: o)) = Ok l) in H.
  apply rmapM_ok in H. revert l H. induction (z :: o) as [|x l' IH]; intros l H.
  - by inversion H.
  - simpl in H. inversion H as [|? y ? l2 H1 H2]; subst. f_equal; [|by apply IH].
    unfold normalize_state_value in H1. destruct (_ <? _)%Z; [done|]. by injection H1.
Qed.

Lemma captured_rule show e occ props name entry idx dn r :
  entry_from_event_state e occ props name = Ok entry ->
  normalize_rule show (exact_rule_of_entry idx entry) dn = Ok r ->
  exists o, Forall2 (holds occ) (distinct (mobile_ion_indices e ++ local_env_indices e)) o /\
    r_mobile r = Some (mobile_ion_indices e) /\ r_env r = Some (local_env_indices e) /\
    r_kind r = KExact o (distinct (mobile_ion_indices e ++ local_env_indices e)) /\
    normalize_properties props = Ok (r_properties r) /\ mobile_ion_indices e <> [].
Proof.
  intros He Hr. unfold entry_from_event_state in He.
  apply rbind_ok in He as ([[mi le] ca] & Hei & He).
  apply event_indices_ok in Hei as (-> & -> & -> & Hne).
  apply rbind_ok in He as (o & Ho & [= <-]). change (rmapM (py_get occ)) with (fun l => occupation_pattern l occ) in Ho.
  apply pattern_values in Ho. exists o. split; [done|].
  unfold exact_rule_of_entry in Hr.
  match type of Hr with normalize_rule show (JObj ?x) dn = _ => set (d := x) in Hr end.
  assert (G : forall k j, k <> "name"%string ->
    dget [("type", JStr "exact"); ("mobile_ion_indices", JList (map JInt (mobile_ion_indices e)));
         ("local_env_indices", JList (map JInt (local_env_indices e))); ("occupations", JList (map JInt o));
         ("properties", JObj props)]%string k = j -> dget d k = j).
  { intros k j Hk Hj. unfold d. rewrite dsetdefault_get by done.
    rewrite dget_dset. destruct (decide _) as [Hk1|Hk2].
    - subst k. rewrite <- Hj. dget_simpl. done.
    - match goal with |- dget (?a :: ?b :: ?c :: ?d' :: ?e' :: ?tl) k = _ =>
        change (dget ([a; b; c; d'; e'] ++ tl)%list k = j) end.
      rewrite dget_app, Hj. destruct j; [done|].
      destruct name as [nm|]; [|done]. rewrite dget_tl by done. done. }
  assert (E1 : dget d "type" = Some (JStr "exact")) by (apply G; [done|dget_simpl; done]).
  assert (E2 : dget d "mobile_ion_indices" = Some (ints (mobile_ion_indices e))) by (apply G; [done|dget_simpl; done]).
  assert (E3 : dget d "local_env_indices" = Some (ints (local_env_indices e))) by (apply G; [done|dget_simpl; done]).
  assert (E4 : dget d "occupations" = Some (JList (map JInt o))) by (apply G; [done|dget_simpl; done]).
  assert (E5 : dget d "properties" = Some (JObj props)) by (apply G; [done|dget_simpl; done]).
  assert (E6 : dget d "barrier" = None) by (apply G; [done|dget_simpl; done]).
  unfold normalize_rule, coerce_rule_type in Hr. rewrite E1 in Hr.
  change (dget rule_types (py_strip "exact")) with (Some TExact) in Hr. cbn [rbind] in Hr. cbv zeta in Hr.
  apply rbind_ok in Hr as (ps & Hps & Hr). unfold properties_from_rule in Hps. rewrite E5 in Hps.
  cbn [rbind] in Hps. rewrite E6 in Hps. cbn [rbind] in Hps.
  rewrite E2, E3 in Hr. rewrite !index_sequence_ints in Hr by (first [by right|by left]).
  cbn [rmap rbind] in Hr. rewrite E4 in Hr. apply rbind_ok in Hr as (occs & Hoccs & Hr).
  apply occupations_int_inv in Hoccs as ->. destruct (Nat.eqb _ _); [|done].
  injection Hr as <-. simpl. rewrite canonical_distinct. done.
Qed.

Lemma exact_rule_evaluates ss r occ e o ca :
  r_kind r = KExact o ca -> mobile_ion_indices e <> [] ->
  readable occ (distinct (mobile_ion_indices e ++ local_env_indices e)) ->
  exists b, rule_matches ss r occ e = Ok b.
Proof.
  intros Hk Hne Hrd. unfold rule_matches, event_constraints_match, event_indices.
  destruct (mobile_ion_indices e) as [|x l] eqn:E; [done|]. rewrite canonical_distinct, <- E. simpl.
  destruct (negb _); [eauto|]. rewrite Hk. destruct (negb _); [eauto|].
  rewrite E. destruct (readable_pattern occ _ Hrd) as (p & Hp). rewrite Hp. simpl. eauto.
Qed.

Lemma first_match_found ss rules occ e i r :
  (forall r, r ∈ rules -> exists b, rule_matches ss r occ e = Ok b) ->
  rules !! i = Some r -> rule_holds ss r occ e ->
  (forall j r', rules !! j = Some r' -> rule_holds ss r' occ e -> j = i) ->
  first_match ss rules occ e = Ok (Some (r_properties r)).
Proof.
  intros Hev Hi Hh Huniq. destruct (first_match ss rules occ e) as [o|x] eqn:E.
  - pose proof (first_match_spec _ _ _ _ _ E) as Hs. destruct o as [p|].
    + destruct Hs as (i' & r' & Hi' & Hh' & _ & ->). assert (i' = i) as -> by (by eapply Huniq).
      rewrite Hi in Hi'. injection Hi' as ->. done.
    + destruct (Hs r); [|done]. by eapply elem_of_list_lookup_2.
  - exfalso. clear -Hev E. induction rules as [|r0 rules IH]; [done|]. simpl in E.
    destruct (Hev r0) as (b & Hb); [by left|]. rewrite Hb in E. simpl in E. destruct b; [done|].
    apply IH; [|done]. intros r' Hr'. apply Hev. by right.
Qed.

Lemma captured_lemma show caps (entries : list (list (string * json))) m name dp db dprop mode pprop ss i e occ
    (props : list (string * json)) nm occ' prop q :
  (forall j, show j <> ""%string) ->
  rmapM (fun c : event * list Z * list (string * json) * option json =>
    entry_from_event_state (fst (fst (fst c))) (snd (fst (fst c))) (snd (fst c)) (snd c)) caps = Ok entries ->
  from_exact_entries show entries name dp db dprop mode pprop ss = Ok m ->
  caps !! i = Some (e, occ, props, nm) ->
  same_contents e occ occ' -> NoDup (dkeys props) -> prop <> ""%string ->
  dget props prop = Some (JFloat q) ->
  lb_compute m occ' e (JStr prop) = Ok q.
Proof.
  intros Hs Hent Hm Hi Hsame Hnd Hp Hq.
  assert (Hb : built show m) by (unfold from_exact_entries in Hm; eapply built_new; exact Hm).
  pose proof (built_wf _ _ Hs Hb) as (_ & _ & Hwf & _).
  unfold from_exact_entries, lb_new in Hm. apply rbind_ok in Hm as (ss' & Hss & Hm).
  apply rbind_ok in Hm as (dp1 & _ & Hm). apply rbind_ok in Hm as (dp2 & _ & Hm). cbv zeta in Hm.
  unfold build_rules in Hm. apply rbind_ok in Hm as (_ & _ & Hm).
  apply rfold_add_rules in Hm as (rs & Hrs & _ & Hf). simpl in Hrs.
  assert (Hlk : forall n r, rs !! n = Some r -> exists e1 occ1 props1 nm1 o,
    caps !! n = Some (e1, occ1, props1, nm1) /\
    Forall2 (holds occ1) (distinct (mobile_ion_indices e1 ++ local_env_indices e1)) o /\
    r_mobile r = Some (mobile_ion_indices e1) /\ r_env r = Some (local_env_indices e1) /\
    r_kind r = KExact o (distinct (mobile_ion_indices e1 ++ local_env_indices e1)) /\
    normalize_properties props1 = Ok (r_properties r) /\ mobile_ion_indices e1 <> []).
  { intros n r Hr. destruct (Forall2_lookup_r _ _ _ _ _ Hf Hr) as (j & Hj & dn & _ & Hjr).
    change (map (fun ie : nat * list (string * json) => exact_rule_of_entry (fst ie) (snd ie)))
      with (fmap (M:=list) (fun ie : nat * list (string * json) => exact_rule_of_entry (fst ie) (snd ie))) in Hj.
    rewrite list_lookup_fmap, enumerate_lookup in Hj.
    destruct (entries !! n) as [entry|] eqn:En; [|done]. simpl in Hj. injection Hj as <-.
    destruct (rmapM_lookup _ _ _ _ _ Hent En) as ([[[e1 occ1] props1] nm1] & Hc & He1). simpl in He1.
    destruct (captured_rule _ _ _ _ _ _ _ _ _ He1 Hjr) as (o & Ho). exists e1, occ1, props1, nm1, o. tauto. }
  assert (Hri : exists r, rs !! i = Some r).
  { apply lookup_lt_is_Some_2. apply lookup_lt_Some in Hi. apply rmapM_length in Hent.
    apply Forall2_length in Hf. rewrite map_length in Hf. unfold enumerate in Hf.
    rewrite enum_from_length in Hf. apply (Nat.lt_le_trans _ _ _ Hi), Nat.eq_le_incl. etrans; [symmetry; exact Hent|exact Hf]. }
  destruct Hri as (r & Hr). destruct (Hlk i r Hr) as (e1 & occ1 & props1 & nm1 & o & Hc & Ho & Hrm & Hre & Hrk & Hrp & Hne).
  rewrite Hi in Hc. injection Hc as <- <- <- <-.
  assert (Hcon : forall s, s ∈ distinct (mobile_ion_indices e ++ local_env_indices e) ->
    py_get occ' s = py_get occ s).
  { intros s H. apply Hsame. apply (proj1 (elem_of_distinct _ _)), elem_of_app in H. exact H. }
  assert (Ho' : Forall2 (holds occ') (distinct (mobile_ion_indices e ++ local_env_indices e)) o).
  { apply pattern_values. rewrite (occupation_pattern_same _ occ occ') by done. by apply pattern_values. }
  assert (Hh : rule_holds (lb_site_species m) r occ' e).
  { split; [split; by right|]. rewrite Hrk. split; [done|exact Ho']. }
  assert (Hfm : first_match (lb_site_species m) (lb_rules m) occ' e = Ok (Some (r_properties r))).
  { rewrite Hrs. apply (first_match_found _ _ _ _ i).
    - intros r' Hr'. apply elem_of_list_lookup in Hr' as (n & Hn).
      destruct (Hlk n r' Hn) as (e2 & occ2 & props2 & nm2 & o2 & _ & _ & _ & _ & Hk2 & _ & _).
      eapply exact_rule_evaluates; [exact Hk2|done|]. intros s Hs'.
      apply elem_of_list_lookup in Hs' as (n' & Hn').
      destruct (Forall2_lookup_l _ _ _ _ _ Ho' Hn') as (v & _ & Hv). eauto.
    - done.
    - exact Hh.
    - intros j r' Hj Hh'. destruct (Hlk j r' Hj) as (e2 & occ2 & props2 & nm2 & o2 & _ & _ & _ & _ & Hk2 & _ & _).
      eapply (one_exact_lemma show m occ' e j i r' r); try done; rewrite Hrs; done. }
  unfold lb_compute, matched_properties. rewrite Hfm. simpl.
  rewrite (proj2 (String.eqb_neq _ _) Hp). simpl. unfold dgetitem.
  by rewrite (properties_value _ _ _ _ Hnd Hrp Hq).
Qed.

Lemma lb_rate_total m lk v t occ e q codes d :
  lb_probability_mode m = supported_mode ->
  lb_compute m occ e (lb_probability_property m) = Ok q ->
  event_codes lk e = Ok codes -> event_direction occ e codes = Ok d -> (0 < t)%R ->
  lb_probability m lk v t occ e =
    Ok ((if (d =? 0)%Z then 0 else 1) * v * exp (- Q2R q / (k_B * t)))%R.
Proof.
  intros Hm Hq Hc Hd Ht. unfold lb_probability, validate_probability_mode. rewrite Hm. simpl.
  rewrite Hq. simpl. rewrite Hc. simpl. rewrite Hd. simpl. pose proof k_B_pos.
  assert (0 < k_B * t)%R by (by apply Rmult_lt_0_compat).
  destruct (Req_EM_T _ _); [lra|done].
Qed.
