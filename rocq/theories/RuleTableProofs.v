(** Proofs about editing a table of local barrier rules. *)
From Coq Require Import QArith.
From Verif Require Import Py PyLemmas Json EventModel LocalBarrierModel LocalBarrierSpec LocalBarrierProofs RuleTableSpec.
Local Open Scope string_scope.
Local Open Scope nat_scope.

(* ---------------- properties ---------------- *)
Lemma number_numeric j q : number j = Ok q <-> numeric j q.
Proof.
  unfold numeric. destruct j; simpl; split; intros H; try done; try (by destruct H as [(z & ? & ?)|?]).
  - injection H as <-. left. by exists z.
  - destruct H as [(z' & [= <-] & ->)|?]; done.
  - injection H as <-. by right.
  - destruct H as [(z' & ? & ?)|[= <-]]; done.
Qed.

Lemma numeric_inj j q q' : numeric j q -> numeric j q' -> q = q'.
Proof. rewrite <- !number_numeric. congruence. Qed.

Lemma normalize_properties_iff l : (exists d, normalize_properties l = Ok d) <->
  l <> [] /\ forall k j, (k, j) ∈ l -> ~ empty_text k /\ exists q, numeric j q.
Proof.
  assert (Hdec : l = [] \/ l <> []) by (destruct l; auto). destruct Hdec as [->|Hne]; [split; [by intros (d & ?)|by intros [? _]]|].
  assert (normalize_properties l = (let* ps := rmapM property_entry l in Ok (dof_pairs ps))) as -> by (by destruct l).
  split.
  - intros (d & H). apply rbind_ok in H as (ps & Hps & _). split; [done|]. intros k j Hin.
    apply elem_of_list_lookup in Hin as (i & Hi).
    destruct (rmapM_lookup_l _ _ _ _ _ Hps Hi) as (y & _ & Hy). unfold property_entry in Hy. simpl in Hy.
    destruct (String.eqb_spec (py_strip k) "") as [|Hk]; [done|]. split; [done|].
    apply rbind_ok in Hy as (q & Hq & _). exists q. by apply number_numeric.
  - intros [_ H]. assert (exists ps, rmapM property_entry l = Ok ps) as (ps & ->); [|simpl; eauto].
    clear Hne. induction l as [|[k j] l IH]; [by exists []|].
    destruct IH as (ps & Hps). { intros k' j' Hin. apply H. by apply elem_of_list_further. }
    destruct (H k j) as (Hk & q & Hq); [by apply elem_of_list_here|]. apply number_numeric in Hq.
    exists ((k, q) :: ps). simpl. rewrite Hps. unfold property_entry. simpl.
    destruct (String.eqb_spec (py_strip k) "") as [|_]; [done|]. by rewrite Hq.
Qed.

Lemma normalize_properties_get l d k q : NoDup (dkeys l) -> normalize_properties l = Ok d ->
  dget d k = Some q <-> exists j, (k, j) ∈ l /\ numeric j q.
Proof.
  intros Hnd H. assert (Hn : normalize_properties l = (let* ps := rmapM property_entry l in Ok (dof_pairs ps))) by (by destruct l).
  rewrite Hn in H. clear Hn. apply rbind_ok in H as (ps & Hps & [= <-]).
  assert (Hkeys : map fst ps = map fst l).
  { clear -Hps. apply rmapM_ok in Hps. induction Hps as [|[k j] [k' q] l ps H Hps IH]; [done|].
    simpl. unfold property_entry in H. simpl in H. destruct (String.eqb _ _); [done|].
    apply rbind_ok in H as (x & _ & [= -> _]). by f_equal. }
  assert (Hnd' : NoDup (dkeys ps)) by (unfold dkeys in *; by rewrite Hkeys).
  rewrite dof_pairs_NoDup by done. split.
  - intros Hk. apply dget_Some_in, elem_of_list_lookup in Hk as (i & Hi).
    destruct (rmapM_lookup _ _ _ _ _ Hps Hi) as ([k' j] & Hi' & He).
    unfold property_entry in He. simpl in He. destruct (String.eqb _ _); [done|].
    apply rbind_ok in He as (x & Hx & [= -> ->]). exists j. split; [by eapply elem_of_list_lookup_2|].
    by apply number_numeric.
  - intros (j & Hin & Hj). apply elem_of_list_lookup in Hin as (i & Hi).
    destruct (rmapM_lookup_l _ _ _ _ _ Hps Hi) as ([k' q'] & Hi' & He).
    unfold property_entry in He. simpl in He. destruct (String.eqb _ _); [done|].
    apply rbind_ok in He as (x & Hx & [= -> ->]). apply number_numeric in Hx.
    rewrite (numeric_inj _ _ _ Hj Hx). apply dget_in; [done|]. by eapply elem_of_list_lookup_2.
Qed.

Lemma elem_of_dset {V} (d : dict string V) k v k' w : k ∉ dkeys d ->
  (k', w) ∈ dset d k v <-> (k', w) ∈ d \/ k' = k /\ w = v.
Proof.
  intros Hk. assert (E : dset d k v = (d ++ [(k, v)])%list).
  { induction d as [|[a b] d IH]; [done|]. simpl in *. apply not_elem_of_cons in Hk as [Hne Hk].
    destruct (decide (k = a)); [done|]. by rewrite IH. }
  rewrite E, elem_of_app, elem_of_list_singleton. naive_solver.
Qed.

Lemma keys_pairs {V} (d : dict string V) k : k ∈ dkeys d <-> exists v, (k, v) ∈ d.
Proof.
  unfold dkeys. rewrite elem_of_list_In, in_map_iff. split.
  - intros ([k' v] & <- & H). exists v. by apply elem_of_list_In.
  - intros (v & H). exists (k, v). split; [done|]. by apply elem_of_list_In.
Qed.

Lemma properties_of_rule_iff R b p : NoDup (dkeys (entries p)) ->
  dget R "properties" = Some (properties_or_empty p) -> dget R "barrier" = b ->
  ((exists d, properties_from_rule R = Ok d) <-> usable b p) /\
  (forall d, properties_from_rule R = Ok d -> holds_what_was_given b p d).
Proof.
  intros Hnd Hp Hb. unfold properties_from_rule. rewrite Hp. unfold properties_or_empty.
  change (match p with Some l => l | None => [] end) with (entries p). cbn [rbind]. rewrite Hb.
  set (l := entries p) in *. destruct b as [j|]; cycle 1.
  - cbn [rbind]. split.
    + rewrite normalize_properties_iff. unfold usable. fold l. split.
      * intros [H1 H2]. split; [by right|]. split; [done|exact H2].
      * intros ([H1|H1] & _ & H2); [done|]. done.
    + intros d Hd k q. fold l. rewrite (normalize_properties_get _ _ _ _ Hnd Hd).
      split; [by left|]. intros [H|(_ & _ & j & ? & _)]; done.
  - destruct (number j) as [q0|x] eqn:Ej; cbn [rbind]; cycle 1.
    + split; [|done]. split; [by intros (d & ?)|]. intros (_ & H & _).
      destruct (H j eq_refl) as (q & Hq). apply number_numeric in Hq. congruence.
    + apply number_numeric in Ej. unfold dsetdefault, din.
      destruct (dget l "barrier") as [w|] eqn:Ew.
      * assert (Hin : ("barrier"%string, w) ∈ l) by (by apply dget_Some_in).
        split.
        { rewrite normalize_properties_iff. unfold usable. fold l. split.
          - intros [H1 H2]. split; [by right|]. split; [|exact H2]. intros j' [= <-]. by exists q0.
          - intros (_ & _ & H2). split; [|exact H2]. intros E. rewrite E in Hin. by apply elem_of_nil in Hin. }
        { intros d Hd k q. fold l. rewrite (normalize_properties_get _ _ _ _ Hnd Hd).
          split; [by left|]. intros [H|(-> & H & _)]; [done|]. by destruct (H w). }
      * assert (Hk : "barrier"%string ∉ dkeys l) by (by apply dget_None).
        split.
        { rewrite normalize_properties_iff. unfold usable. fold l. split.
          - intros [_ H2]. split; [by left|]. split; [intros j' [= <-]; by exists q0|].
            intros k j' Hin. apply H2. apply elem_of_dset; [done|]. by left.
          - intros (_ & _ & H2). split. { intros E. rewrite dkeys_dset_notin in E by done. by apply app_nil in E as [_ ?]. }
            intros k j' Hin. apply elem_of_dset in Hin as [Hin|[-> ->]]; [by apply H2| |done].
            split; [apply barrier_not_blank|]. exists q0. by right. }
        { intros d Hd k q. fold l.
          rewrite (normalize_properties_get _ _ _ _ (NoDup_dkeys_dset _ _ _ Hnd) Hd).
          setoid_rewrite elem_of_dset; [|done]. split.
          - intros (j' & [Hin|[-> ->]] & Hq); [left; eauto|]. right. split; [done|].
            split. { intros w Hw. apply Hk, keys_pairs. eauto. }
            exists j. split; [done|]. destruct Hq as [(z & ? & _)|[= ->]]; done.
          - intros [(j' & Hin & Hq)|(-> & _ & j' & [= <-] & Hq)]; [exists j'; auto|].
            exists (JFloat q0). split; [by right|]. right. by rewrite (numeric_inj _ _ _ Hq Ej). }
Qed.

(* ---------------- names ---------------- *)
Lemma rule_name_named show R m name : dget R "name" = fmap JStr name ->
  named m name (rule_name show R ("rule_" ++ py_str_int (Z.of_nat (length (lb_rules m))))%string).
Proof.
  intros H. unfold named, rule_name. rewrite H. destruct name as [s|]; simpl; [|done].
  by destruct (String.eqb_spec s ""); simpl.
Qed.

(* ---------------- adding the rule that was written ---------------- *)
Lemma add_written_ok show m R r : 
  normalize_rule show (JObj R) ("rule_" ++ py_str_int (Z.of_nat (length (lb_rules m))))%string = Ok r ->
  (forall k, exact_key_for_rule r = Some k -> k ∉ lb_keys m) ->
  exists m', add_written show m R = (m', Ok (r_name r)) /\ appended m m' r.
Proof.
  intros Hr Hk. unfold add_written, add_rule. rewrite Hr. cbn [rbind].
  destruct (exact_key_for_rule r) as [k|] eqn:E.
  - rewrite bool_decide_eq_false_2 by (by apply Hk). eexists. split; [f_equal; cbn [lb_rules with_rules]; by rewrite last_snoc|by repeat split].
  - eexists. split; [f_equal; cbn [lb_rules with_rules]; by rewrite last_snoc|by repeat split].
Qed.

Lemma add_written_inv show m R m' n : add_written show m R = (m', Ok n) ->
  exists r, normalize_rule show (JObj R) ("rule_" ++ py_str_int (Z.of_nat (length (lb_rules m))))%string = Ok r /\
    (forall k, exact_key_for_rule r = Some k -> k ∉ lb_keys m) /\ n = r_name r /\ appended m m' r.
Proof.
  unfold add_written, add_rule. intros H.
  destruct (normalize_rule show (JObj R) _) as [r|x] eqn:Hr; cbn [rbind] in H; [|done].
  exists r. split; [done|].
  destruct (exact_key_for_rule r) as [k|] eqn:E.
  - destruct (bool_decide (k ∈ lb_keys m)) eqn:Ek; [done|]. apply bool_decide_eq_false in Ek.
    injection H as <- Hn. cbn [lb_rules with_rules] in Hn. rewrite last_snoc in Hn. injection Hn as <-.
    split; [by intros k' [= <-]|]. by repeat split.
  - injection H as <- Hn. cbn [lb_rules with_rules] in Hn. rewrite last_snoc in Hn. injection Hn as <-. split; [done|]. by repeat split.
Qed.

Lemma add_written_err show m R : (forall m' n, add_written show m R <> (m', Ok n)) -> exists x, add_written show m R = (m, Err x).
Proof.
  intros H. unfold add_written in *. destruct (add_rule show m (JObj R)) as [m'|x] eqn:E; [|by exists x].
  destruct (last (lb_rules m')) as [r|] eqn:El; [by destruct (H m' (r_name r))|].
  apply add_rule_inv in E as (r & _ & _ & _ & Hr & _). rewrite Hr, last_snoc in El. done.
Qed.

(** The outcome from what normalisation says. *)
Lemma adds_lemma show m R (acceptable : Prop) (is_the_rule : rule -> Prop) :
  (acceptable -> exists r, normalize_rule show (JObj R) ("rule_" ++ py_str_int (Z.of_nat (length (lb_rules m))))%string = Ok r /\
     (forall k, exact_key_for_rule r = Some k -> k ∉ lb_keys m) /\ is_the_rule r) ->
  (forall r, normalize_rule show (JObj R) ("rule_" ++ py_str_int (Z.of_nat (length (lb_rules m))))%string = Ok r ->
     (forall k, exact_key_for_rule r = Some k -> k ∉ lb_keys m) -> acceptable) ->
  adds m (add_written show m R) acceptable is_the_rule.
Proof.
  intros H1 H2. split.
  - intros Ha. destruct (H1 Ha) as (r & Hr & Hk & Hi).
    destruct (add_written_ok show m R r Hr Hk) as (m' & Hm & Happ). exists m', r. done.
  - intros Ha. apply add_written_err. intros m' n H. apply add_written_inv in H as (r & Hr & Hk & _).
    apply Ha. by eapply H2.
Qed.

(* ---------------- exact rules ---------------- *)
Lemma index_sequence_map_inv l b l' : normalize_index_sequence (Some (JList (map JInt l))) b = Ok l' -> l' = l /\ (l <> [] \/ b = true).
Proof.
  destruct l as [|z l].
  - simpl. destruct b; [|done]. intros [= <-]. auto.
  - intros H. assert (E : normalize_index_sequence (Some (ints (z :: l))) b = Ok (z :: l)) by (apply index_sequence_ints; by left). unfold ints in E.
    rewrite E in H. injection H as <-. auto.
Qed.

Lemma occupations_iff l l' : normalize_occupations (Some (JList (map JInt l))) = Ok l' <-> l' = l /\ l <> [] /\ Forall (fun z => 0 <= z)%Z l.
Proof.
  split.
  - intros H. pose proof (occupations_int_inv _ _ H) as ->. split; [done|].
    destruct l as [|z l]; [done|]. split; [done|]. apply Forall_forall. intros x Hx.
    change (rmapM normalize_state_value (map JInt (z :: l)) = Ok (z :: l)) in H.
    apply elem_of_list_lookup in Hx as (i & Hi). destruct (rmapM_lookup _ _ _ _ _ H Hi) as (j & _ & Hj).
    by eapply normalize_state_nonneg.
  - intros (-> & Hne & Hf). unfold normalize_occupations. pose proof (states_back l Hf) as E.
    destruct l; [done|]. exact E.
Qed.

Section Exact.
  Variables (show : json -> string) (m : lb_model) (mobile env occ : list Z) (barrier : option json)
    (properties : option (list (string * json))) (name : option string).
  Let R : list (string * json) :=
    ([("type", JStr "exact"); ("mobile_ion_indices", JList (map JInt mobile)); ("local_env_indices", JList (map JInt env));
        ("occupations", JList (map JInt occ)); ("properties", properties_or_empty properties)]
       ++ given "barrier" barrier ++ given "name" (fmap JStr name))%list.
  Lemma R_barrier : dget R "barrier" = barrier.
  Proof. subst R. destruct barrier, name; reflexivity. Qed.
  Lemma R_name : dget R "name" = fmap JStr name.
  Proof. subst R. destruct barrier, name; reflexivity. Qed.

  Lemma R_normal dn : normalize_rule show (JObj R) dn =
    (let* props := properties_from_rule R in
     let* mi := normalize_index_sequence (Some (JList (map JInt mobile))) false in
     let* le := normalize_index_sequence (Some (JList (map JInt env))) true in
     let* o := normalize_occupations (Some (JList (map JInt occ))) in
     if Nat.eqb (length o) (length (canonical_site_indices mi le))
     then Ok (Rule (rule_name show R dn) props (Some mi) (Some le) (KExact o (canonical_site_indices mi le)))
     else Err ValueError).
  Proof.
    unfold normalize_rule.
    change (coerce_rule_type R) with (Ok TExact).
    change (dget R "mobile_ion_indices") with (Some (JList (map JInt mobile))).
    change (dget R "local_env_indices") with (Some (JList (map JInt env))).
    change (dget R "occupations") with (Some (JList (map JInt occ))).
    cbn [rbind]. destruct (properties_from_rule R) as [props|]; cbn [rbind]; [|done].
    destruct (normalize_index_sequence (Some (JList (map JInt mobile))) false) as [mi|] eqn:E1; cbn [rmap rbind]; [|done].
    destruct (normalize_index_sequence (Some (JList (map JInt env))) true) as [le|] eqn:E2; cbn [rmap rbind]; [|done].
    done.
  Qed.

  Lemma exact_lemma : (forall j, show j <> ""%string) -> built show m -> NoDup (dkeys (entries properties)) ->
    adds m (add_exact_rule show m (map JInt mobile) (map JInt env) (map JInt occ) barrier properties (fmap JStr name))
      (mobile <> [] /\ length occ = length (distinct (mobile ++ env)) /\ Forall (fun z => 0 <= z)%Z occ /\ usable barrier properties /\
       forall r, r ∈ lb_rules m -> r_kind r = KExact occ (distinct (mobile ++ env)) -> r_mobile r <> Some mobile)
      (fun r => named m name (r_name r) /\ holds_what_was_given barrier properties (r_properties r) /\
         r_mobile r = Some mobile /\ r_env r = Some env /\ r_kind r = KExact occ (distinct (mobile ++ env))).
  Proof.
    intros Hs Hb Hnd. apply built_wf in Hb as (Hkeys & _ & Hwf & _); [|done].
    destruct (properties_of_rule_iff R barrier properties Hnd eq_refl R_barrier) as [Hp1 Hp2].
    assert (Hkey : forall n p, (forall k, exact_key_for_rule (Rule n p (Some mobile) (Some env) (KExact occ (canonical_site_indices mobile env))) = Some k -> k ∉ lb_keys m)
      <-> forall r, r ∈ lb_rules m -> r_kind r = KExact occ (distinct (mobile ++ env)) -> r_mobile r <> Some mobile).
    { intros n p. unfold exact_key_for_rule at 1. cbn [r_kind r_mobile]. rewrite canonical_distinct. split.
      - intros H r Hr Hk Hmo. apply (H _ eq_refl). rewrite Hkeys. apply elem_of_list_omap. exists r.
        split; [done|]. unfold exact_key_for_rule. by rewrite Hk, Hmo.
      - intros H k [= <-] Hin. rewrite Hkeys in Hin. apply elem_of_list_omap in Hin as (r & Hr & Hk).
        pose proof (proj1 (Forall_forall _ _) Hwf r Hr) as (_ & _ & _ & Hw).
        unfold exact_key_for_rule in Hk. destruct (r_kind r) as [|o ca| | |] eqn:Ek; try done.
        destruct Hw as (mi & le & Hmi & _). rewrite Hmi in Hk. injection Hk as -> -> ->. by apply (H r Hr). }
    apply adds_lemma.
    - intros (Hm & Hl & Hf & Hu & Hdup). apply Hp1 in Hu as (d & Hd).
      rewrite R_normal, Hd. cbn [rbind].
      pose proof (index_sequence_ints mobile false ltac:(auto)) as E1. pose proof (index_sequence_ints env true ltac:(auto)) as E2.
      unfold ints in E1, E2. rewrite E1, E2. cbn [rbind].
      assert (Hne : occ <> []).
      { intros ->. destruct mobile as [|x mo]; [done|]. done. }
      rewrite (proj2 (occupations_iff occ occ)) by done. cbn [rbind].
      rewrite canonical_distinct, Hl, Nat.eqb_refl. eexists. split; [done|].
      split. { rewrite <- canonical_distinct. by apply Hkey. }
      cbn. split; [apply rule_name_named, R_name|]. split; [by apply Hp2|done].
    - intros r Hr Hk. rewrite R_normal in Hr.
      apply rbind_ok in Hr as (d & Hd & Hr). apply rbind_ok in Hr as (mi & Hmi & Hr).
      apply rbind_ok in Hr as (le & Hle & Hr). apply rbind_ok in Hr as (o & Ho & Hr).
      apply index_sequence_map_inv in Hmi as (-> & [Hm|?]); [|done].
      apply index_sequence_map_inv in Hle as (-> & _). apply occupations_iff in Ho as (-> & Hne & Hf).
      destruct (Nat.eqb_spec (length occ) (length (canonical_site_indices mobile env))) as [El|]; [|done].
      injection Hr as <-. split; [done|]. rewrite <- canonical_distinct at 1. split; [done|]. split; [done|].
      split; [apply Hp1; eauto|]. by eapply Hkey.
  Qed.
End Exact.

(* ---------------- rules that select sites ---------------- *)
Lemma sites_written j sel d : writes_sites j sel -> normalize_sites_spec (Some j) d = Ok sel.
Proof.
  intros H. destruct H as [| | | | | |l Hl]; try reflexivity.
  exact (sites_spec_json (Sites l) d Hl).
Qed.
Lemma state_written j z : writes_state j z -> normalize_state_value j = Ok z.
Proof. intros [z' H| |]; [by apply state_value_int|reflexivity|reflexivity]. Qed.
Lemma species_written j l : writes_species j l -> normalize_species (Some j) = Ok l.
Proof.
  intros [s|l' Hne Hf]; [done|]. unfold normalize_species.
  assert (E : rmapM species_item (map JStr l') = Ok l').
  { apply rmapM_inv. intros s Hs. simpl. pose proof (proj1 (Forall_forall _ _) Hf s Hs) as Hb.
    by destruct (String.eqb_spec (py_strip s) "") as [?|]. }
  destruct l'; [done|]. exact E.
Qed.
Lemma cell_written j c : writes_cell j c -> pattern_entry j = Ok c.
Proof.
  intros [j' z H|]; [|reflexivity]. unfold pattern_entry. rewrite (state_written _ _ H).
  destruct H; [done|reflexivity|reflexivity].
Qed.
Lemma pattern_written js cells : cells <> [] -> Forall2 writes_cell js cells -> normalize_pattern (Some (JList js)) = Ok cells.
Proof.
  intros Hne H. unfold normalize_pattern. assert (E : rmapM pattern_entry js = Ok cells).
  { clear Hne. induction H as [|j c js cs Hc H IH]; [done|]. simpl. rewrite (cell_written _ _ Hc). simpl. by rewrite IH. }
  destruct js; [by inversion H; subst|]. exact E.
Qed.

Lemma proper_bounds_iff R count lo hi :
  dget R "count" = fmap JInt count -> dget R "min_count" = fmap JInt lo -> dget R "max_count" = fmap JInt hi ->
  (proper_bounds count lo hi -> normalize_count_constraints R = Ok (Constraints count lo hi)) /\
  (forall c, normalize_count_constraints R = Ok c -> proper_bounds count lo hi).
Proof.
  intros H1 H2 H3. unfold normalize_count_constraints, count_entry. rewrite H1, H2, H3.
  unfold proper_bounds. split.
  - intros [Hb Hx].
    assert (Hnn : forall o, (forall z, o = Some z -> (0 <= z)%Z) ->
      match fmap JInt o with None => Ok None | Some (JInt z) => if (z <? 0)%Z then Err ValueError else Ok (Some z) | Some _ => Err TypeError end = Ok o).
    { intros [z|] Ho; simpl; [|done]. specialize (Ho z eq_refl). destruct (Z.ltb_spec z 0); [lia|done]. }
    rewrite !Hnn by (intros z ->; apply Hb; auto). cbn [rbind].
    destruct count as [z|].
    + destruct (proj1 Hx ltac:(done)) as [-> ->]. done.
    + destruct lo as [z|]; [done|]. destruct hi as [z|]; [done|]. by destruct (proj2 Hx (conj eq_refl eq_refl)).
  - intros c H. apply rbind_ok in H as (a & Ha & H). apply rbind_ok in H as (b & Hb & H). apply rbind_ok in H as (d & Hd & H).
    assert (Hnn : forall (o o' : option Z),
      match fmap JInt o with None => Ok None | Some (JInt z) => if (z <? 0)%Z then Err ValueError else Ok (Some z) | Some _ => Err TypeError end = Ok o' ->
      o' = o /\ forall z, o = Some z -> (0 <= z)%Z).
    { intros [z|] o' Ho; simpl in Ho; [|by injection Ho as <-]. destruct (Z.ltb_spec z 0); [done|]. injection Ho as <-.
      split; [done|]. by intros z' [= <-]. }
    apply Hnn in Ha as [-> Ha]. apply Hnn in Hb as [-> Hb]. apply Hnn in Hd as [-> Hd].
    split. { intros z [E|[E|E]]; eauto. }
    destruct count, lo, hi; try done; naive_solver.
Qed.

Section StateCount.
  Variables (show : json -> string) (m : lb_model) (state sites : json) (st : Z) (sel : selector) (barrier : option json)
    (properties : option (list (string * json))) (name : option string) (count lo hi : option Z).
  Let R : list (string * json) :=
    ([("type", JStr "state_count"); ("sites", sites); ("state", state); ("properties", properties_or_empty properties)]
       ++ given "barrier" barrier ++ given "name" (fmap JStr name)
       ++ given "count" (fmap JInt count) ++ given "min_count" (fmap JInt lo) ++ given "max_count" (fmap JInt hi))%list.
  Lemma S_normal dn : normalize_rule show (JObj R) dn =
    (let* props := properties_from_rule R in
     let* s := normalize_sites_spec (Some sites) LocalEnv in
     let* z := normalize_state_value state in
     let* c := normalize_count_constraints R in
     Ok (Rule (rule_name show R dn) props None None (KStateCount s z c))).
  Proof.
    unfold normalize_rule.
    assert (coerce_rule_type R = Ok TStateCount) as -> by reflexivity.
    assert (dget R "mobile_ion_indices" = None) as -> by (subst R; destruct barrier, name, count, lo, hi; reflexivity).
    assert (dget R "local_env_indices" = None) as -> by (subst R; destruct barrier, name, count, lo, hi; reflexivity).
    assert (dget R "occupation" = None) as -> by (subst R; destruct barrier, name, count, lo, hi; reflexivity).
    change (dget R "sites") with (Some sites). change (dget R "state") with (Some state). cbn [rbind opt_json].
    destruct (properties_from_rule R); reflexivity.
  Qed.
  Lemma state_count_lemma : writes_state state st -> writes_sites sites sel -> NoDup (dkeys (entries properties)) ->
    adds m (add_state_count_rule show m state barrier properties (fmap JStr name) sites (fmap JInt count) (fmap JInt lo) (fmap JInt hi))
      (proper_bounds count lo hi /\ usable barrier properties)
      (fun r => named m name (r_name r) /\ holds_what_was_given barrier properties (r_properties r) /\
         r_mobile r = None /\ r_env r = None /\ r_kind r = KStateCount sel st (Constraints count lo hi)).
  Proof.
    intros Hst Hsel Hnd.
    assert (Hb : dget R "barrier" = barrier) by (subst R; destruct barrier, name, count, lo, hi; reflexivity).
    assert (Hn : dget R "name" = fmap JStr name) by (subst R; destruct barrier, name, count, lo, hi; reflexivity).
    destruct (properties_of_rule_iff R barrier properties Hnd eq_refl Hb) as [Hp1 Hp2].
    destruct (proper_bounds_iff R count lo hi) as [Hc1 Hc2];
      [subst R; destruct barrier, name, count, lo, hi; reflexivity..|].
    apply adds_lemma.
    - intros (Hpb & Hu). apply Hp1 in Hu as (d & Hd).
      rewrite S_normal, Hd, (sites_written _ _ _ Hsel), (state_written _ _ Hst), (Hc1 Hpb). cbn [rbind].
      eexists. split; [done|]. split; [done|]. cbn. split; [apply rule_name_named, Hn|]. split; [by apply Hp2|done].
    - intros r Hr _. rewrite S_normal in Hr. apply rbind_ok in Hr as (d & Hd & Hr).
      apply rbind_ok in Hr as (s & _ & Hr). apply rbind_ok in Hr as (z & _ & Hr). apply rbind_ok in Hr as (c & Hc & _).
      split; [by eapply Hc2|]. apply Hp1. eauto.
  Qed.
End StateCount.

Section SpeciesCount.
  Variables (show : json -> string) (m : lb_model) (species sites : json) (sp : list string) (sel : selector) (barrier : option json)
    (properties : option (list (string * json))) (name : option string) (count lo hi : option Z).
  Let R : list (string * json) :=
    ([("type", JStr "species_count"); ("sites", sites); ("species", species); ("properties", properties_or_empty properties)]
       ++ given "barrier" barrier ++ given "name" (fmap JStr name)
       ++ given "count" (fmap JInt count) ++ given "min_count" (fmap JInt lo) ++ given "max_count" (fmap JInt hi))%list.
  Lemma Sp_normal dn : normalize_rule show (JObj R) dn =
    (let* props := properties_from_rule R in
     let* s := normalize_sites_spec (Some sites) LocalEnv in
     let* z := normalize_species (Some species) in
     let* c := normalize_count_constraints R in
     Ok (Rule (rule_name show R dn) props None None (KSpeciesCount s z c))).
  Proof.
    unfold normalize_rule.
    assert (coerce_rule_type R = Ok TSpeciesCount) as -> by reflexivity.
    assert (dget R "mobile_ion_indices" = None) as -> by (subst R; destruct barrier, name, count, lo, hi; reflexivity).
    assert (dget R "local_env_indices" = None) as -> by (subst R; destruct barrier, name, count, lo, hi; reflexivity).
    change (dget R "sites") with (Some sites). change (dget R "species") with (Some species). cbn [rbind].
    destruct (properties_from_rule R); reflexivity.
  Qed.
  Lemma species_count_lemma : writes_species species sp -> writes_sites sites sel -> NoDup (dkeys (entries properties)) ->
    adds m (add_species_count_rule show m species barrier properties (fmap JStr name) sites (fmap JInt count) (fmap JInt lo) (fmap JInt hi))
      (proper_bounds count lo hi /\ usable barrier properties)
      (fun r => named m name (r_name r) /\ holds_what_was_given barrier properties (r_properties r) /\
         r_mobile r = None /\ r_env r = None /\ r_kind r = KSpeciesCount sel sp (Constraints count lo hi)).
  Proof.
    intros Hst Hsel Hnd.
    assert (Hb : dget R "barrier" = barrier) by (subst R; destruct barrier, name, count, lo, hi; reflexivity).
    assert (Hn : dget R "name" = fmap JStr name) by (subst R; destruct barrier, name, count, lo, hi; reflexivity).
    destruct (properties_of_rule_iff R barrier properties Hnd eq_refl Hb) as [Hp1 Hp2].
    destruct (proper_bounds_iff R count lo hi) as [Hc1 Hc2];
      [subst R; destruct barrier, name, count, lo, hi; reflexivity..|].
    apply adds_lemma.
    - intros (Hpb & Hu). apply Hp1 in Hu as (d & Hd).
      rewrite Sp_normal, Hd, (sites_written _ _ _ Hsel), (species_written _ _ Hst), (Hc1 Hpb). cbn [rbind].
      eexists. split; [done|]. split; [done|]. cbn. split; [apply rule_name_named, Hn|]. split; [by apply Hp2|done].
    - intros r Hr _. rewrite Sp_normal in Hr. apply rbind_ok in Hr as (d & Hd & Hr).
      apply rbind_ok in Hr as (s & _ & Hr). apply rbind_ok in Hr as (z & _ & Hr). apply rbind_ok in Hr as (c & Hc & _).
      split; [by eapply Hc2|]. apply Hp1. eauto.
  Qed.
End SpeciesCount.

Section Pattern.
  Variables (show : json -> string) (m : lb_model) (pattern : list json) (sites : json) (cells : list (option Z)) (sel : selector)
    (barrier : option json) (properties : option (list (string * json))) (name : option string).
  Let R : list (string * json) :=
    ([("type", JStr "pattern"); ("sites", sites); ("pattern", JList pattern); ("properties", properties_or_empty properties)]
       ++ given "barrier" barrier ++ given "name" (fmap JStr name))%list.
  Lemma P_normal dn : normalize_rule show (JObj R) dn =
    (let* props := properties_from_rule R in
     let* s := normalize_sites_spec (Some sites) Canonical in
     let* p := normalize_pattern (Some (JList pattern)) in
     Ok (Rule (rule_name show R dn) props None None (KPattern s p))).
  Proof.
    unfold normalize_rule.
    assert (coerce_rule_type R = Ok TPattern) as -> by reflexivity.
    assert (dget R "mobile_ion_indices" = None) as -> by (subst R; destruct barrier, name; reflexivity).
    assert (dget R "local_env_indices" = None) as -> by (subst R; destruct barrier, name; reflexivity).
    change (dget R "sites") with (Some sites). change (dget R "pattern") with (Some (JList pattern)). cbn [rbind].
    destruct (properties_from_rule R); reflexivity.
  Qed.
  Lemma pattern_lemma : Forall2 writes_cell pattern cells -> writes_sites sites sel -> NoDup (dkeys (entries properties)) ->
    adds m (add_pattern_rule show m pattern barrier properties (fmap JStr name) sites)
      (cells <> [] /\ usable barrier properties)
      (fun r => named m name (r_name r) /\ holds_what_was_given barrier properties (r_properties r) /\
         r_mobile r = None /\ r_env r = None /\ r_kind r = KPattern sel cells).
  Proof.
    intros Hst Hsel Hnd.
    assert (Hb : dget R "barrier" = barrier) by (subst R; destruct barrier, name; reflexivity).
    assert (Hn : dget R "name" = fmap JStr name) by (subst R; destruct barrier, name; reflexivity).
    destruct (properties_of_rule_iff R barrier properties Hnd eq_refl Hb) as [Hp1 Hp2].
    apply adds_lemma.
    - intros (Hne & Hu). apply Hp1 in Hu as (d & Hd).
      rewrite P_normal, Hd, (sites_written _ _ _ Hsel), (pattern_written _ _ Hne Hst). cbn [rbind].
      eexists. split; [done|]. split; [done|]. cbn. split; [apply rule_name_named, Hn|]. split; [by apply Hp2|done].
    - intros r Hr _. rewrite P_normal in Hr. apply rbind_ok in Hr as (d & Hd & Hr).
      apply rbind_ok in Hr as (s & _ & Hr). apply rbind_ok in Hr as (p & Hp & _).
      split; [|apply Hp1; eauto]. intros ->. by rewrite (Forall2_nil_inv_r _ _ Hst) in Hp.
  Qed.
End Pattern.

(* ---------------- what an appended rule changes ---------------- *)
Lemma appended_lemma m m' r occ e p : appended m m' r ->
  (some_rule_holds m occ e -> prescribed m' occ e p <-> prescribed m occ e p) /\
  (~ some_rule_holds m occ e -> rule_holds (lb_site_species m) r occ e -> prescribed m' occ e p <-> p = r_properties r) /\
  (~ rule_holds (lb_site_species m) r occ e -> prescribed m' occ e p <-> prescribed m occ e p).
Proof.
  intros (Hr & Hss & Hdp & _). unfold prescribed, some_rule_holds. rewrite Hr, Hss, Hdp.
  split; [|split].
  - intros (r0 & Hin & H0). split.
    + intros [(i & ri & Hi & Hh & Hlt & ->)|[Hno _]].
      * left. destruct (decide (i < length (lb_rules m))) as [Hl|Hl].
        { exists i, ri. rewrite lookup_app_l in Hi by done. split; [done|]. split; [done|]. split; [|done].
          intros j r' Hj Hjr. apply (Hlt j r' Hj). by apply lookup_app_l_Some. }
        { apply elem_of_list_lookup in Hin as (j & Hj). pose proof (lookup_lt_Some _ _ _ Hj).
          destruct (Hlt j r0); [lia|by apply lookup_app_l_Some|done]. }
      * destruct (Hno r0); [|done]. apply elem_of_app. by left.
    + intros [(i & ri & Hi & Hh & Hlt & ->)|[Hno _]].
      * left. exists i, ri. pose proof (lookup_lt_Some _ _ _ Hi). split; [by apply lookup_app_l_Some|]. split; [done|].
        split; [|done]. intros j r' Hj Hjr. rewrite lookup_app_l in Hjr by lia. by eapply Hlt.
      * by destruct (Hno r0 Hin).
  - intros Hno Hh. split.
    + intros [(i & ri & Hi & Hhi & Hlt & ->)|[Hn _]].
      * apply lookup_app_Some in Hi as [Hi|[Hl Hi]].
        { destruct Hno. exists ri. split; [by eapply elem_of_list_lookup_2|done]. }
        { apply list_lookup_singleton_Some in Hi as [_ <-]. done. }
      * destruct (Hn r); [|done]. apply elem_of_app. right. by apply elem_of_list_singleton.
    + intros ->. left. exists (length (lb_rules m)), r. split; [by rewrite lookup_app_r, Nat.sub_diag by lia|].
      split; [done|]. split; [|done]. intros j r' Hj Hjr Hh'. rewrite lookup_app_l in Hjr by done.
      apply Hno. exists r'. split; [by eapply elem_of_list_lookup_2|done].
  - intros Hnh. split.
    + intros [(i & ri & Hi & Hhi & Hlt & ->)|[Hn Hd]].
      * apply lookup_app_Some in Hi as [Hi|[Hl Hi]].
        { left. exists i, ri. split; [done|]. split; [done|]. split; [|done]. intros j r' Hj Hjr. apply (Hlt j r' Hj). by apply lookup_app_l_Some. }
        { apply list_lookup_singleton_Some in Hi as [_ <-]. done. }
      * right. split; [|done]. intros r' Hr'. apply Hn. apply elem_of_app. by left.
    + intros [(i & ri & Hi & Hhi & Hlt & ->)|[Hn Hd]].
      * left. exists i, ri. pose proof (lookup_lt_Some _ _ _ Hi). split; [by apply lookup_app_l_Some|]. split; [done|].
        split; [|done]. intros j r' Hj Hjr. rewrite lookup_app_l in Hjr by lia. by eapply Hlt.
      * right. split; [|done]. intros r' Hr'. apply elem_of_app in Hr' as [Hr'|Hr']; [by apply Hn|].
        apply elem_of_list_singleton in Hr' as ->. done.
Qed.

(* ---------------- one by one and all at once ---------------- *)
Lemma one_by_one_lemma show js name dp db dprop mode pprop ss m0 m :
  lb_new show (JList []) name dp db dprop mode pprop ss = Ok m0 ->
  lb_new show (JList js) name dp db dprop mode pprop ss = Ok m <-> rfold (add_rule show) m0 js = Ok m.
Proof.
  unfold lb_new. destruct (normalize_site_species ss) as [ss'|]; cbn [rbind]; [|done].
  destruct (normalize_optional_properties dp) as [d1|]; cbn [rbind]; [|done].
  set (x := match db with JNull => _ | _ => _ end). destruct x as [d2|]; cbn [rbind]; [|done].
  unfold build_rules. set (v := validate_probability_mode _). destruct v as [u|]; cbn [rbind]; [|done].
  cbn [rfold]. intros [= <-]. done.
Qed.

Lemma rejected_constructor show js js' name dp db dprop mode pprop ss m0 :
  lb_new show (JList []) name dp db dprop mode pprop ss = Ok m0 ->
  lb_new show (JList (js ++ js')) name dp db dprop mode pprop ss =
  let* m := lb_new show (JList js) name dp db dprop mode pprop ss in rfold (add_rule show) m js'.
Proof.
  unfold lb_new. destruct (normalize_site_species ss) as [ss'|]; cbn [rbind]; [|done].
  destruct (normalize_optional_properties dp) as [d1|]; cbn [rbind]; [|done].
  set (x := match db with JNull => _ | _ => _ end). destruct x as [d2|]; cbn [rbind]; [|done].
  unfold build_rules. set (v := validate_probability_mode _). destruct v as [u|]; cbn [rbind]; [|done].
  intros _. set (m1 := with_rules _ _ _). clearbody m1. revert m1.
  induction js as [|j js IH]; intros m1; [done|]. cbn [app rfold].
  destruct (add_rule show m1 j); cbn [rbind]; [apply IH|done].
Qed.

(* ---------------- build ---------------- *)
Lemma build_fresh_lemma show pf m js dp db dprop mode pprop ss m' :
  dp <> JNull -> dprop <> JNull -> mode <> JNull -> pprop <> JNull -> ss <> JNull ->
  lb_new show (JList js) (lb_name m) dp db dprop mode pprop ss = Ok m' ->
  build show pf m (JList js) dp db dprop mode pprop ss = (m', Ok tt).
Proof.
  intros Hdp Hdprop Hmode Hpp Hss. unfold lb_new, build.
  destruct (normalize_site_species ss) as [ss'|] eqn:Es; cbn [rbind]; [|done].
  destruct (normalize_optional_properties dp) as [d1|] eqn:Ed; cbn [rbind]; [|done].
  assert (exists d, d1 = Some d) as (d & ->).
  { unfold normalize_optional_properties in Ed. destruct dp; try done.
    destruct (normalize_properties l); [|done]. injection Ed as <-. eauto. }
  intros H. apply rbind_ok in H as (d2 & Hd2 & H). unfold build_rules in H.
  apply rbind_ok in H as ([] & Hv & H).
  assert (E : match db with
      | JNull => (with_defaults m (Some d), Ok tt)
      | _ => match py_float pf db with
             | Ok q => (with_defaults (with_defaults m (Some d)) (Some (dsetdefault d "barrier" q)), Ok tt)
             | Err x => (with_defaults (with_defaults m (Some d)) (Some d), Err x)
             end
      end = (with_defaults m d2, Ok tt)).
  { destruct db; try (injection Hd2 as <-; reflexivity); done. }
  cbn [lb_default_properties with_defaults]. 
  match goal with |- match ?x with _ => _ end = _ => replace x with (with_defaults m d2, @Ok unit tt) by (symmetry; exact E) end.
  assert (Eo : forall old new, new <> JNull -> or_given old new = new) by (intros old new; destruct new; done).
  assert (Es' : match ss with JNull => Ok (with_names (with_defaults m d2) dprop mode pprop)
     | _ => rmap (with_species (with_names (with_defaults m d2) dprop mode pprop)) (Ok ss') end
     = Ok (with_species (with_names (with_defaults m d2) dprop mode pprop) ss')).
  { destruct ss; done. }
  match goal with |- match ?x with _ => _ end = _ => replace x with (Ok (with_species (with_names (with_defaults m d2) dprop mode pprop) ss')) by (symmetry; exact Es') end.
  assert (Hmm : with_species (with_names (with_defaults m d2) dprop mode pprop) ss' =
    {| lb_name := lb_name m; lb_default_property := dprop; lb_probability_mode := mode; lb_probability_property := pprop;
       lb_site_species := ss'; lb_default_properties := d2; lb_rules := lb_rules m; lb_keys := lb_keys m |}).
  { unfold with_names, with_species, with_defaults. cbn. by rewrite !Eo by done. }
  rewrite Hmm. change (validate_probability_mode _) with (validate_probability_mode
    {| lb_name := lb_name m; lb_default_property := dprop; lb_probability_mode := mode; lb_probability_property := pprop;
       lb_site_species := ss'; lb_default_properties := d2; lb_rules := []; lb_keys := [] |}).
  rewrite Hv. by apply add_all_rfold.
Qed.

Lemma rfold_add_attributes show l m m' : rfold (add_rule show) m l = Ok m' ->
  lb_name m' = lb_name m /\ lb_default_property m' = lb_default_property m /\ lb_probability_mode m' = lb_probability_mode m /\
  lb_probability_property m' = lb_probability_property m /\ lb_site_species m' = lb_site_species m /\
  lb_default_properties m' = lb_default_properties m.
Proof.
  revert m. induction l as [|j l IH]; intros m H; simpl in H; [by injection H as <-|].
  apply rbind_ok in H as (m1 & H1 & H). apply add_rule_inv in H1 as (r & dn & _ & _ & _ & _ & _ & Hm).
  destruct (IH _ H) as (-> & -> & -> & -> & -> & ->). by rewrite Hm.
Qed.

Lemma build_attributes show pf m rules dp db dprop mode pprop ss m' :
  build show pf m rules dp db dprop mode pprop ss = (m', Ok tt) ->
  lb_name m' = lb_name m /\
  (dprop = JNull -> lb_default_property m' = lb_default_property m) /\
  (mode = JNull -> lb_probability_mode m' = lb_probability_mode m) /\
  (pprop = JNull -> lb_probability_property m' = lb_probability_property m) /\
  (ss = JNull -> lb_site_species m' = lb_site_species m) /\
  (dp = JNull -> db = JNull -> lb_default_properties m' = lb_default_properties m) /\
  (rules = JNull -> lb_rules m' = []) /\
  (forall k, dp = JNull -> k <> "barrier"%string -> option_bind _ _ (fun d => dget d k) (lb_default_properties m') = option_bind _ _ (fun d => dget d k) (lb_default_properties m)) /\
  (forall q, dp = JNull -> option_bind _ _ (fun d => dget d "barrier") (lb_default_properties m) = Some q ->
     option_bind _ _ (fun d => dget d "barrier") (lb_default_properties m') = Some q) /\
  (forall q, dp = JNull -> numeric db q -> option_bind _ _ (fun d => dget d "barrier") (lb_default_properties m) = None ->
     option_bind _ _ (fun d => dget d "barrier") (lb_default_properties m') = Some q).
Proof.
  intros H. apply build_inv in H as (d1 & d2 & ss' & H1 & H2 & H3 & H).
  unfold build_rules in H. apply rbind_ok in H as (_ & _ & H).
  assert (Ha : lb_name m' = lb_name m /\ lb_default_property m' = or_given (lb_default_property m) dprop /\
    lb_probability_mode m' = or_given (lb_probability_mode m) mode /\ lb_probability_property m' = or_given (lb_probability_property m) pprop /\
    lb_site_species m' = ss' /\ lb_default_properties m' = d2 /\ (rules = JNull -> lb_rules m' = [])).
  { destruct rules; try done; [by injection H as <-|].
    apply rfold_add_attributes in H as (-> & -> & -> & -> & -> & ->). done. }
  clear H. destruct Ha as (-> & -> & -> & -> & -> & -> & Hr).
  split; [done|]. split; [by intros ->|]. split; [by intros ->|]. split; [by intros ->|].
  split. { intros ->. by destruct H3 as [[_ ->]|[? _]]. }
  assert (Hd1 : dp = JNull -> d1 = None) by (intros ->; by injection H1 as <-).
  split. { intros E1 E2. destruct H2 as [[_ ->]|(? & _)]; [|done]. by rewrite (Hd1 E1). }
  split; [done|].
  split; [|split].
  - intros k E1 Hk. rewrite (Hd1 E1) in H2. destruct H2 as [[_ ->]|(_ & q & _ & ->)]; [done|]. simpl.
    rewrite dsetdefault_get by done. by destruct (lb_default_properties m).
  - intros q E1 Hq. rewrite (Hd1 E1) in H2. destruct H2 as [[_ ->]|(_ & q' & _ & ->)]; [done|]. simpl.
    destruct (lb_default_properties m) as [d|]; [|done]. simpl in Hq. unfold dsetdefault, din. by rewrite Hq.
  - intros q E1 Hn Hq. rewrite (Hd1 E1) in H2. destruct H2 as [[-> _]|(_ & q' & Hq' & ->)].
    { by destruct Hn as [(z & ? & _)|?]. }
    assert (q' = q) as ->.
    { destruct Hn as [(z & -> & ->)| ->]; simpl in Hq'; congruence. }
    simpl. unfold dsetdefault, din. destruct (lb_default_properties m) as [d|].
    + simpl in Hq. rewrite Hq. by rewrite dget_dset_eq.
    + reflexivity.
Qed.
