(** Proofs about configurations. *)
From Coq Require Import QArith Ascii.
From Verif Require Import Py PyLemmas Json ConfigModel ConfigSpec.
Local Open Scope nat_scope.
Local Open Scope string_scope.

(* ------------------------------------------------------------------ *)
(** ** Validation *)

Lemma rfold_unit {A} (f : A -> result unit) l :
  rfold (fun _ x => f x) tt l = Ok tt <-> forall x, x ∈ l -> f x = Ok tt.
Proof.
  induction l as [|x l IH]; simpl.
  - split; [|done]. intros _ x H. by apply elem_of_nil in H.
  - rewrite rbind_ok. split.
    + intros ([] & Hx & Hl) y Hy. apply elem_of_cons in Hy as [->|Hy]; [done|]. by apply IH.
    + intros H. exists tt. split; [apply H; left|]. apply IH. intros y Hy. apply H. by right.
Qed.
Lemma ok_tt (r : result unit) : (exists u, r = Ok u) <-> r = Ok tt.
Proof. split; [intros [[] H]; done|eauto]. Qed.
Lemma then_ok (r s : result unit) : (let* _ := r in s) = Ok tt <-> r = Ok tt /\ s = Ok tt.
Proof. destruct r as [[]|e]; simpl; [tauto|]. split; [done|]. by intros [[=] _]. Qed.
Lemma unless_ok (b : bool) (e : exn) (r : result unit) : (if b then Err e else r) = Ok tt <-> b = false /\ r = Ok tt.
Proof. destruct b; [split; [done|by intros [[=] _]]|tauto]. Qed.

Lemma positive_ok v : (let* b := le_zero v in if b then Err ValueError else Ok tt) = Ok tt <-> above_zero v.
Proof.
  unfold le_zero, above_zero, number_with. destruct (number v) as [q|]; simpl.
  - rewrite unless_ok. split.
    + intros [H _]. exists q. split; [done|]. apply Qnot_le_lt. intros H'. apply Qle_bool_iff in H'. congruence.
    + intros (x & [= <-] & H). split; [|done]. apply not_true_is_false. intros H'. apply Qle_bool_iff in H'. by apply Qle_not_lt in H'.
  - split; [done|]. by intros (x & [=] & _).
Qed.
Lemma int_whole v : is_int v = true <-> whole v.
Proof.
  unfold whole. destruct v as [[]|]; simpl; split; try done; eauto; intros [[? H]|[? H]]; done.
Qed.
Lemma none_iff v : is_none v = true <-> no_value v.
Proof. unfold no_value. destruct v as [[]|]; simpl; split; done. Qed.
Lemma optional_int_ok v :
  (if is_none v then Ok tt else if negb (is_int v) then Err TypeError
   else let* b := le_zero v in if b then Err ValueError else Ok tt) = Ok tt <->
  no_value v \/ whole v /\ above_zero v.
Proof.
  rewrite <- none_iff, <- int_whole. destruct (is_none v); [tauto|]. rewrite unless_ok, positive_ok, negb_false_iff.
  split; [tauto|]. by intros [[=]|?].
Qed.
Lemma schedule_ok i t : check_schedule i t = Ok tt <-> valid_schedule i t.
Proof.
  unfold check_schedule, valid_schedule. rewrite then_ok, optional_int_ok. apply and_iff_compat_l.
  rewrite <- none_iff. destruct (is_none t); [tauto|]. rewrite positive_ok. split; [tauto|]. by intros [[=]|?].
Qed.
Lemma toggles_ok v : validate_builtin_property_enabled v = Ok tt <-> valid_toggles v.
Proof.
  unfold validate_builtin_property_enabled, valid_toggles. destruct v as [[]|]; try (split; [done|by intros (l' & [=] & _)]).
  rewrite (rfold_unit (fun kv : string * json => if negb (bool_decide (fst kv ∈ builtin_property_fields)) then Err ValueError
               else match snd kv with JBool _ => Ok tt | _ => Err TypeError end)). split.
  - intros H. exists l. split; [done|]. intros k j Hkj. apply H in Hkj. cbn [fst snd] in Hkj.
    apply unless_ok in Hkj as [Hk Hj]. rewrite negb_false_iff, bool_decide_eq_true in Hk. split; [done|]. destruct j; eauto; done.
  - intros (l' & [= <-] & H) [k j] Hkj. apply H in Hkj as (Hk & b & ->). cbn [fst snd]. by rewrite bool_decide_true.
Qed.
Lemma bool_key_ok l k : check_bool_key l k = Ok tt <-> forall x, dget l k = Some x -> exists b, x = JBool b.
Proof.
  unfold check_bool_key. destruct (dget l k) as [x|]; [|done].
  split; [intros H y [= <-]; destruct x; eauto; done|]. intros H. destruct (H x eq_refl) as [b ->]. done.
Qed.
Lemma has_text_iff s : has_text s = true <-> exists c, c ∈ list_ascii_of_string s /\ is_blank c = false.
Proof.
  unfold has_text. rewrite existsb_exists. setoid_rewrite <- elem_of_list_In. setoid_rewrite negb_true_iff. done.
Qed.
Lemma callback_ok j : validate_callback j = Ok tt <-> valid_callback j.
Proof.
  unfold validate_callback, valid_callback. destruct j as [| | | | | |l]; try (split; [done|by intros (l' & [=] & _)]).
  rewrite unless_ok, !then_ok, schedule_ok. change (jget l) with (key_or_none l). rewrite optional_int_ok, !bool_key_ok.
  rewrite negb_false_iff, forallb_forall. setoid_rewrite <- elem_of_list_In. setoid_rewrite bool_decide_eq_true.
  split.
  - intros (H1 & H2 & H3 & H4 & H5 & H6). exists l. split; [done|]. split; [done|]. split.
    { destruct (dget l "callable") as [[]|]; try done. destruct (has_text s) eqn:E; [|done].
      apply has_text_iff in E as (c & Hc & Hb). exists s, c. done. }
    split; [done|]. split; [done|]. intros k [->| ->]; done.
  - intros (l' & [= <-] & H1 & (s & c & H2 & Hc & Hb) & H3 & H4 & H5). split; [done|]. split.
    { rewrite H2. assert (has_text s = true) as ->; [|done]. apply has_text_iff. eauto. }
    split; [done|]. split; [done|]. split; apply H5; auto.
Qed.
Lemma dimension_ok v : in_1_2_3 v = true <-> number_with (fun q => q == 1 \/ q == 2 \/ q == 3)%Q v.
Proof.
  unfold in_1_2_3, number_with. destruct (number v) as [q|]; [|by split; [|intros (? & [=] & _)]].
  rewrite !orb_true_iff, !Qeq_bool_iff. split; [intros [[?|?]|?]; eauto|]. intros (x & [= <-] & H). tauto.
Qed.
Lemma len_ok v : (exists n, py_len v = Ok n /\ n = 3) <-> three_entries v.
Proof. destruct v as [[]|]; simpl; naive_solver. Qed.
Lemma attr_ok d k v : attr d k = Ok v <-> dget d k = Some v.
Proof. unfold attr. destruct (dget d k); naive_solver. Qed.

Lemma system_ok d : system_post_init d = Ok tt <-> valid_system (dget d).
Proof.
  unfold system_post_init, valid_system. rewrite rbind_ok. setoid_rewrite attr_ok. split.
  - intros (v & Hv & H). apply unless_ok in H as [H1 H2]. rewrite negb_false_iff, dimension_ok in H1. split; [eauto|].
    apply rbind_ok in H2 as (w & Hw & H2). apply attr_ok in Hw. apply rbind_ok in H2 as (m & Hm & H2). apply unless_ok in H2 as [H2 _].
    rewrite negb_false_iff, Nat.eqb_eq in H2. exists w. split; [done|]. apply len_ok. eauto.
  - intros ((v & Hv & H) & w & Hw & H2). exists v. split; [done|]. apply unless_ok. split; [by rewrite negb_false_iff, dimension_ok|].
    apply rbind_ok. exists w. rewrite attr_ok. split; [done|]. apply len_ok in H2 as (m & Hm & ->). by rewrite Hm.
Qed.
Lemma attr_then {B} d k (f : value -> result B) b : (let* v := attr d k in f v) = Ok b <-> exists v, dget d k = Some v /\ f v = Ok b.
Proof. rewrite rbind_ok. by setoid_rewrite attr_ok. Qed.
Lemma lt_ok v (r : result unit) : (let* b := lt_zero v in if b then Err ValueError else r) = Ok tt <-> not_negative v /\ r = Ok tt.
Proof.
  unfold lt_zero, not_negative, number_with. destruct (number v) as [q|]; simpl.
  - rewrite unless_ok, negb_false_iff, Qle_bool_iff. naive_solver.
  - naive_solver.
Qed.
Lemma le_ok v (r : result unit) : (let* b := le_zero v in if b then Err ValueError else r) = Ok tt <-> above_zero v /\ r = Ok tt.
Proof.
  rewrite <- (positive_ok v). destruct (le_zero v) as [[]|]; simpl; naive_solver.
Qed.
Lemma runtime_ok d : runtime_post_init d = Ok tt <-> valid_runtime (dget d).
Proof.
  unfold runtime_post_init, valid_runtime. split.
  - intros H.
    apply attr_then in H as (t & Ht & H). apply le_ok in H as [H1 H].
    apply attr_then in H as (f & Hf & H). apply le_ok in H as [H2 H].
    apply attr_then in H as (e & He & H). apply lt_ok in H as [H3 H].
    apply attr_then in H as (p & Hp & H). apply le_ok in H as [H4 H].
    apply attr_then in H as (i & Hi & H). apply attr_then in H as (ti & Hti & H). apply then_ok in H as [H5 H]. apply schedule_ok in H5.
    apply attr_then in H as (be & Hbe & H). apply then_ok in H as [H6 H]. apply toggles_ok in H6.
    apply attr_then in H as (cs & Hcs & H). destruct cs as [[]|]; try done.
    rewrite (rfold_unit validate_callback) in H. setoid_rewrite callback_ok in H. do 6 (split; [by eauto|]). eauto.
  - intros ((t & Ht & H1) & (f & Hf & H2) & (e & He & H3) & (p & Hp & H4) & (i & ti & Hi & Hti & H5) & (be & Hbe & H6) & (l & Hcs & H7)).
    apply attr_then. exists t. split; [done|]. apply le_ok. split; [done|].
    apply attr_then. exists f. split; [done|]. apply le_ok. split; [done|].
    apply attr_then. exists e. split; [done|]. apply lt_ok. split; [done|].
    apply attr_then. exists p. split; [done|]. apply le_ok. split; [done|].
    apply attr_then. exists i. split; [done|]. apply attr_then. exists ti. split; [done|]. apply then_ok. split; [by apply schedule_ok|].
    apply attr_then. exists be. split; [done|]. apply then_ok. split; [by apply toggles_ok|].
    apply attr_then. exists (V (JList l)). split; [done|]. apply (rfold_unit validate_callback). intros x Hx. by apply callback_ok, H7.
Qed.
Lemma post_init_ok s d : post_init s d = Ok tt <-> valid_section s (dget d).
Proof. destruct s; [apply system_ok|apply runtime_ok]. Qed.

Lemma valid_ext s f g : (forall k, k ∈ field_names s -> f k = g k) -> valid_section s f <-> valid_section s g.
Proof.
  intros H. destruct s; simpl; unfold valid_system, valid_runtime.
  - rewrite !H by (apply (bool_decide_eq_true_1 (_ ∈ _)); vm_compute; reflexivity). done.
  - rewrite !H by (apply (bool_decide_eq_true_1 (_ ∈ _)); vm_compute; reflexivity). done.
Qed.

(* ------------------------------------------------------------------ *)
(** ** Instances *)

Lemma dget_map_values {A B} (f : string -> A -> B) (l : dict string A) k :
  dget (map (fun kv => (fst kv, f (fst kv) (snd kv))) l) k = option_map (f k) (dget l k).
Proof.
  induction l as [|[k' v] l IH]; [done|]. simpl. destruct (decide (k = k')) as [->|]; [done|]. apply IH.
Qed.
Lemma dkeys_map_values {A B} (f : string -> A -> B) (l : dict string A) :
  dkeys (map (fun kv => (fst kv, f (fst kv) (snd kv))) l) = dkeys l.
Proof. unfold dkeys. rewrite map_map. by apply map_ext. Qed.

Definition merged (base given : fields) : fields :=
  map (fun kv => (fst kv, match dget given (fst kv) with Some v => v | None => snd kv end)) base.
Lemma merged_keys base given : dkeys (merged base given) = dkeys base.
Proof. apply (dkeys_map_values (fun k v => match dget given k with Some w => w | None => v end)). Qed.
Lemma merged_get base given k : k ∈ dkeys base -> dget (merged base given) k = choose given base k.
Proof.
  intros Hk. unfold merged. rewrite (dget_map_values (fun k v => match dget given k with Some w => w | None => v end)).
  unfold choose. destruct (dget base k) as [v|] eqn:E; [by destruct (dget given k)|].
  apply dget_None in E. done.
Qed.

Lemma build_ok s base given d : dkeys base = field_names s ->
  build s base given = Ok d <->
  (forall k, k ∈ dkeys given -> k ∈ field_names s) /\ valid_section s (choose given base) /\ d = merged base given.
Proof.
  intros Hb. unfold build. fold (merged base given).
  assert (E : forallb (fun k => din base k) (dkeys given) = true <-> forall k, k ∈ dkeys given -> k ∈ field_names s).
  { rewrite forallb_forall. setoid_rewrite <- elem_of_list_In. rewrite <- Hb. unfold din. setoid_rewrite <- dget_in_keys.
    apply forall_proper. intros k. apply forall_proper. intros _. destruct (dget base k); naive_solver. }
  destruct (forallb _ _) eqn:F; simpl.
  - assert (V : valid_section s (choose given base) <-> valid_section s (dget (merged base given))).
    { apply valid_ext. intros k Hk. symmetry. apply merged_get. by rewrite Hb. }
    rewrite rbind_ok. setoid_rewrite V. rewrite <- post_init_ok. split.
    + intros ([] & H & [= <-]). split; [by apply E|]. done.
    + intros (_ & H & ->). eauto.
  - split; [done|]. intros (H & _). apply E in H. done.
Qed.

Lemma instance_nodup s : NoDup (field_names s).
Proof. destruct s; apply (bool_decide_eq_true_1 (NoDup _)); vm_compute; reflexivity. Qed.
Lemma names_disjoint k : k ∈ system_field_names -> k ∈ runtime_field_names -> False.
Proof.
  assert (H : forallb (fun k => negb (is_runtime_field k)) system_field_names = true) by reflexivity.
  rewrite forallb_forall in H. intros H1 H2. apply elem_of_list_In, H in H1. unfold is_runtime_field in H1.
  by rewrite bool_decide_true in H1.
Qed.
Lemma instance_defaults s : instance s (defaults s).
Proof.
  split; [by destruct s|]. apply post_init_ok. destruct s; vm_compute; reflexivity.
Qed.

Lemma dget_filter_keys {A} (p : string -> bool) (l : dict string A) k :
  dget (List.filter (fun kv => p (fst kv)) l) k = if p k then dget l k else None.
Proof.
  induction l as [|[k' v] l IH]; simpl; [by destruct (p k)|].
  destruct (p k') eqn:E; simpl; destruct (decide (k = k')) as [->|]; rewrite ?IH, ?E; try done.
Qed.
Lemma elem_of_keys_filter {A} (p : string -> bool) (l : dict string A) k :
  k ∈ dkeys (List.filter (fun kv => p (fst kv)) l) <-> p k = true /\ k ∈ dkeys l.
Proof. rewrite <- !dget_in_keys, dget_filter_keys. destruct (p k); naive_solver. Qed.

(** One of the two configurations. *)
Lemma create_ok s arg base given o : start s arg base -> (forall k, k ∈ dkeys given -> k ∈ field_names s) ->
  create_or_update s arg given = Ok o <-> valid_section s (choose given base) /\ o = Obj s (merged base given).
Proof.
  intros Hs Hk. destruct Hs as [[-> ->]|[-> [Hb Hv]]]; cbn [create_or_update].
  - rewrite rbind_ok. setoid_rewrite (build_ok s); [|by destruct s]. naive_solver.
  - destruct given as [|kv given].
    + assert (merged base [] = base) as ->; [|naive_solver]. unfold merged. simpl. rewrite <- (map_id base) at 2. apply map_ext. by intros [].
    + remember (kv :: given) as g. rewrite rbind_ok. setoid_rewrite (build_ok s); [|done]. naive_solver.
Qed.

Section New.
  Variable (s0 r0 : option object) (bs br : fields) (kw : fields).
  Hypothesis Hs : start Sys s0 bs.
  Hypothesis Hr : start Run r0 br.

  Definition given_something : Prop := s0 <> None \/ r0 <> None \/ kw <> [].
  Definition known_keys : Prop := forall k, k ∈ dkeys kw -> k ∈ system_field_names \/ k ∈ runtime_field_names.

  Lemma start_absent s arg base : start s arg base -> absent arg = true <-> arg = None.
  Proof. by intros [[-> _]|[-> _]]. Qed.

  Lemma start_keys s arg base : start s arg base -> dkeys base = field_names s.
  Proof. intros [[_ ->]|[_ [H _]]]; [by destruct s|done]. Qed.

  Lemma configuration_ok c : configuration_new s0 r0 kw = Ok c <->
    given_something /\ known_keys /\ valid_system (choose kw bs) /\ valid_runtime (choose kw br) /\
    c = Configuration (Obj Sys (merged bs kw)) (Obj Run (merged br kw)).
  Proof.
    unfold configuration_new.
    assert (E1 : absent s0 && absent r0 && Nat.eqb (length kw) 0 = false <-> given_something).
    { rewrite !andb_false_iff. pose proof (start_absent _ _ _ Hs) as A. pose proof (start_absent _ _ _ Hr) as B.
      unfold given_something. split.
      - intros [[H|H]|H]; [left; intros H'; apply A in H'; congruence|right; left; intros H'; apply B in H'; congruence|].
        right. right. intros ->. done.
      - intros [H|[H|H]]; [left; left|left; right|right].
        + destruct (absent s0); [|done]. destruct H. by apply A.
        + destruct (absent r0); [|done]. destruct H. by apply B.
        + destruct kw; [by destruct H|done]. }
    destruct (absent s0 && absent r0 && Nat.eqb (length kw) 0).
    { split; [done|]. intros (H & _). apply E1 in H. done. }
    set (fs := List.filter (fun kv : string * value => is_system_field (fst kv)) kw).
    set (fr := List.filter (fun kv : string * value => negb (is_system_field (fst kv)) && is_runtime_field (fst kv)) kw).
    assert (Hfs : forall k, k ∈ dkeys fs -> k ∈ field_names Sys).
    { intros k Hk. unfold fs in Hk. apply (elem_of_keys_filter is_system_field) in Hk as [Hk _]. by apply bool_decide_eq_true in Hk. }
    assert (Hfr : forall k, k ∈ dkeys fr -> k ∈ field_names Run).
    { intros k Hk. unfold fr in Hk. apply (elem_of_keys_filter (fun k => negb (is_system_field k) && is_runtime_field k)) in Hk as [Hk _].
      apply andb_true_iff in Hk as [_ Hk]. by apply bool_decide_eq_true in Hk. }
    assert (Gs : forall k, k ∈ system_field_names -> dget fs k = dget kw k).
    { intros k Hk. unfold fs. rewrite (dget_filter_keys is_system_field). unfold is_system_field. by rewrite bool_decide_true. }
    assert (Gr : forall k, k ∈ runtime_field_names -> dget fr k = dget kw k).
    { intros k Hk. unfold fr. rewrite (dget_filter_keys (fun k => negb (is_system_field k) && is_runtime_field k)). unfold is_system_field, is_runtime_field.
      rewrite (bool_decide_true _ Hk), bool_decide_false; [done|]. intros H. by apply (names_disjoint k). }
    assert (E2 : negb (Nat.eqb (length (List.filter (fun kv : string * value => negb (is_system_field (fst kv)) && negb (is_runtime_field (fst kv))) kw)) 0) = false <-> known_keys).
    { rewrite negb_false_iff, Nat.eqb_eq, length_zero_iff_nil. unfold known_keys. split.
      - intros H k Hk. destruct (is_system_field k) eqn:Ea; [left; by apply bool_decide_eq_true in Ea|].
        destruct (is_runtime_field k) eqn:Eb; [right; by apply bool_decide_eq_true in Eb|].
        assert (H' : k ∈ dkeys (List.filter (fun kv : string * value => negb (is_system_field (fst kv)) && negb (is_runtime_field (fst kv))) kw)).
        { apply (elem_of_keys_filter (fun k => negb (is_system_field k) && negb (is_runtime_field k))). rewrite Ea, Eb. done. }
        rewrite H in H'. by apply elem_of_nil in H'.
      - intros H. match goal with |- ?x = [] => destruct x as [|[k v] l] eqn:F; [done|] end. exfalso.
        assert (H' : k ∈ dkeys (List.filter (fun kv : string * value => negb (is_system_field (fst kv)) && negb (is_runtime_field (fst kv))) kw)).
        { rewrite F. left. }
        apply (elem_of_keys_filter (fun k => negb (is_system_field k) && negb (is_runtime_field k))) in H' as [H1 H2].
        apply andb_true_iff in H1 as [H1 H3]. rewrite negb_true_iff in H1, H3. apply H in H2 as [H2|H2].
        + unfold is_system_field in H1. by rewrite bool_decide_true in H1.
        + unfold is_runtime_field in H3. by rewrite bool_decide_true in H3. }
    match type of E2 with (?b = false <-> _) => destruct b end.
    { split; [done|]. intros (_ & H & _). apply E2 in H. done. }
    assert (Vs : valid_system (choose fs bs) <-> valid_system (choose kw bs)).
    { apply (valid_ext Sys). intros k Hk. unfold choose. by rewrite Gs. }
    assert (Vr : valid_runtime (choose fr br) <-> valid_runtime (choose kw br)).
    { apply (valid_ext Run). intros k Hk. unfold choose. by rewrite Gr. }
    assert (Ms : merged bs fs = merged bs kw).
    { unfold merged. apply map_ext_in. intros [k v] Hin. cbn [fst snd]. rewrite Gs; [done|].
      change system_field_names with (field_names Sys). rewrite <- (start_keys _ _ _ Hs). apply elem_of_list_In in Hin.
      apply (elem_of_list_fmap_1 fst) in Hin. done. }
    assert (Mr : merged br fr = merged br kw).
    { unfold merged. apply map_ext_in. intros [k v] Hin. cbn [fst snd]. rewrite Gr; [done|].
      change runtime_field_names with (field_names Run). rewrite <- (start_keys _ _ _ Hr). apply elem_of_list_In in Hin.
      apply (elem_of_list_fmap_1 fst) in Hin. done. }
    rewrite rbind_ok. setoid_rewrite (create_ok Sys s0 bs fs _ Hs Hfs). split.
    - intros (o & (H1 & ->) & H). apply rbind_ok in H as (o' & H2 & [= <-]).
      apply (create_ok Run r0 br fr _ Hr Hfr) in H2 as [H2 ->]. rewrite Ms, Mr.
      split; [by apply E1|]. split; [by apply E2|]. split; [by apply Vs|]. split; [by apply Vr|done].
    - intros (_ & _ & H1 & H2 & ->). exists (Obj Sys (merged bs fs)). split; [split; [by apply Vs|done]|].
      apply rbind_ok. exists (Obj Run (merged br fr)). split; [apply (create_ok Run r0 br fr _ Hr Hfr); split; [by apply Vr|done]|]. by rewrite Ms, Mr.
  Qed.
End New.

Lemma accepted_lemma s0 r0 bs br kw : start Sys s0 bs -> start Run r0 br ->
  ((exists c, configuration_new s0 r0 kw = Ok c) <->
   (s0 <> None \/ r0 <> None \/ kw <> []) /\
   (forall k, k ∈ dkeys kw -> k ∈ system_field_names \/ k ∈ runtime_field_names) /\
   valid_system (choose kw bs) /\ valid_runtime (choose kw br)).
Proof.
  intros Hs Hr. setoid_rewrite (configuration_ok s0 r0 bs br kw Hs Hr). unfold given_something, known_keys. naive_solver.
Qed.
Lemma routed_lemma s0 r0 bs br kw c : start Sys s0 bs -> start Run r0 br -> configuration_new s0 r0 kw = Ok c ->
  exists s r, c = Configuration (Obj Sys s) (Obj Run r) /\ instance Sys s /\ instance Run r /\
    (forall k, k ∈ system_field_names -> dget s k = choose kw bs k) /\
    (forall k, k ∈ runtime_field_names -> dget r k = choose kw br k).
Proof.
  intros Hs Hr H. apply (configuration_ok s0 r0 bs br kw Hs Hr) in H as (_ & _ & H1 & H2 & ->).
  pose proof (start_keys _ _ _ Hs) as Ks. pose proof (start_keys _ _ _ Hr) as Kr.
  exists (merged bs kw), (merged br kw). split; [done|].
  assert (Gs : forall k, k ∈ system_field_names -> dget (merged bs kw) k = choose kw bs k) by (intros k Hk; apply merged_get; by rewrite Ks).
  assert (Gr : forall k, k ∈ runtime_field_names -> dget (merged br kw) k = choose kw br k) by (intros k Hk; apply merged_get; by rewrite Kr).
  split; [|split]; [| |done].
  - split; [by rewrite merged_keys|]. by apply (valid_ext Sys _ (choose kw bs)).
  - split; [by rewrite merged_keys|]. by apply (valid_ext Run _ (choose kw br)).
Qed.

(** Reading a field through the configuration. *)
Lemma accessors_table s k : k ∈ field_names s -> dget accessors k = Some (s, k).
Proof.
  assert (H : forallb (fun k => match dget accessors k with Some (Sys, f) => String.eqb f k | _ => false end) system_field_names = true) by (vm_compute; reflexivity).
  assert (H' : forallb (fun k => match dget accessors k with Some (Run, f) => String.eqb f k | _ => false end) runtime_field_names = true) by (vm_compute; reflexivity).
  rewrite forallb_forall in H, H'. intros Hk. apply elem_of_list_In in Hk.
  destruct s; [apply H in Hk|apply H' in Hk]; destruct (dget accessors k) as [[[] f]|]; try done; by apply String.eqb_eq in Hk as ->.
Qed.
Lemma access_lemma s0 r0 bs br kw c k v : start Sys s0 bs -> start Run r0 br -> configuration_new s0 r0 kw = Ok c ->
  k ∈ system_field_names /\ choose kw bs k = Some v \/ k ∈ runtime_field_names /\ choose kw br k = Some v ->
  get_field c k = Ok v.
Proof.
  intros Hs Hr H Hk. destruct (routed_lemma _ _ _ _ _ _ Hs Hr H) as (s & r & -> & _ & _ & Gs & Gr). unfold get_field.
  destruct Hk as [[Hk Hv]|[Hk Hv]].
  - rewrite (accessors_table Sys k Hk). simpl. apply attr_ok. by rewrite Gs.
  - rewrite (accessors_table Run k Hk). simpl. apply attr_ok. by rewrite Gr.
Qed.

(* ------------------------------------------------------------------ *)
(** ** Dictionaries and files *)

Ltac spine d H :=
  repeat (destruct d as [|[? ?] d]; [discriminate H|]; cbn [dkeys map fst] in H; injection H as -> H);
  destruct d; [|discriminate H]; clear H.
Lemma system_spine (d : fields) : dkeys d = system_field_names -> exists v1 v2 v3 v4 v5 v6 v7 v8 v9 v10 v11 v12 v13, d = [("structure_file", v1); ("supercell_shape", v2); ("dimension", v3); ("mobile_ion_specie", v4); ("mobile_ion_charge", v5); ("elementary_hop_distance", v6); ("model_type", v7); ("model_file", v8); ("event_file", v9); ("site_mapping", v10); ("convert_to_primitive_cell", v11); ("initial_state_file", v12); ("initial_occupations", v13)].
Proof. intros H. unfold system_field_names in H. spine d H. repeat eexists. Qed.
Lemma runtime_spine (d : fields) : dkeys d = runtime_field_names -> exists v1 v2 v3 v4 v5 v6 v7 v8 v9 v10, d = [("temperature", v1); ("attempt_frequency", v2); ("equilibration_passes", v3); ("kmc_passes", v4); ("random_seed", v5); ("name", v6); ("property_sampling_interval", v7); ("property_sampling_time_interval", v8); ("builtin_property_enabled", v9); ("property_callbacks", v10)].
Proof. intros H. unfold runtime_field_names in H. spine d H. repeat eexists. Qed.

(** A function applied to all values. *)
Definition with_values (g : string -> value -> value) (d : fields) : fields :=
  map (fun kv => (fst kv, g (fst kv) (snd kv))) d.
Definition kept (paths : bool) (d : fields) : fields :=
  List.filter (fun kv => paths || negb (is_path (fst kv))) d.
Definition pathless (paths : bool) (g : string -> value -> value) (k : string) (v : value) : value :=
  if negb paths && is_path k then default_path k else g k v.

Lemma with_values_get g d k : dget (with_values g d) k = option_map (g k) (dget d k).
Proof. apply dget_map_values. Qed.
Lemma with_values_keys g d : dkeys (with_values g d) = dkeys d.
Proof. apply dkeys_map_values. Qed.

Lemma rebuild_lemma paths g s r : dkeys s = system_field_names -> dkeys r = runtime_field_names ->
  valid_system (dget (with_values g s)) -> valid_runtime (dget (with_values g r)) ->
  configuration_new None None (kept paths (with_values g s) ++ with_values g r)%list =
    Ok (Configuration (Obj Sys (with_values (pathless paths g) s)) (Obj Run (with_values (pathless paths g) r))).
Proof.
  intros Ks Kr Vs Vr.
  apply (configuration_ok None None system_defaults runtime_defaults); [by left|by left|].
  apply system_spine in Ks as (? & ? & ? & ? & ? & ? & ? & ? & ? & ? & ? & ? & ? & ->).
  apply runtime_spine in Kr as (? & ? & ? & ? & ? & ? & ? & ? & ? & ? & ->).
  destruct paths.
  - split; [right; right; discriminate|]. split; [|split; [|split]].
    + intros k Hk. revert k Hk. apply Forall_forall.
      apply (bool_decide_eq_true_1 (Forall (fun k => k ∈ system_field_names \/ k ∈ runtime_field_names) _)). vm_compute. reflexivity.
    + exact Vs.
    + exact Vr.
    + vm_compute. reflexivity.
  - split; [right; right; discriminate|]. split; [|split; [|split]].
    + intros k Hk. revert k Hk. apply Forall_forall.
      apply (bool_decide_eq_true_1 (Forall (fun k => k ∈ system_field_names \/ k ∈ runtime_field_names) _)). vm_compute. reflexivity.
    + exact Vs.
    + exact Vr.
    + vm_compute. reflexivity.
Qed.

Lemma copied_same l : (forall j, j ∈ l -> valid_callback j) ->
  rmapM (fun j => match j with JObj d => Ok (JObj d) | _ => Err TypeError end) l = Ok l.
Proof.
  induction l as [|j l IH]; intros H; [done|]. simpl. destruct (H j) as (d & -> & _); [left|]. simpl.
  rewrite IH; [done|]. intros j' Hj'. apply H. by right.
Qed.

Definition mark : fields := [("@module", V (JStr "kmcpy.simulator.config")); ("@class", V (JStr "Configuration"))].
Lemma as_dict_lemma s r paths : instance Sys s -> instance Run r ->
  as_dict (Configuration (Obj Sys s) (Obj Run r)) paths =
    Ok (mark ++ kept paths (with_values shape_listed s) ++ with_values shape_listed r)%list.
Proof.
  intros [Ks Vs] [Kr Vr].
  apply system_spine in Ks as (? & v & ? & ? & ? & ? & ? & ? & ? & ? & ? & ? & ? & ->).
  apply runtime_spine in Kr as (? & ? & ? & ? & ? & ? & ? & ? & b & cs & ->).
  destruct Vs as [_ (v' & [= <-] & Hv)].
  destruct Vr as (_ & _ & _ & _ & _ & (b' & [= <-] & (lb & -> & _)) & lc & [= ->] & Hc).
  assert (E : exists l, py_list_of v = Ok l /\ as_list v = V (JList l)).
  { destruct v as [[]|]; try done; simpl; eauto. }
  destruct E as (l & E1 & E2).
  unfold as_dict, system_as_dict. cbn [c_system c_runtime].
  assert (Ec : copied_callbacks (V (JList lc)) = Ok (V (JList lc))) by (unfold copied_callbacks; by rewrite copied_same).
  match goal with |- context [runtime_as_dict ?d] => assert (Er : runtime_as_dict d = Ok d) end.
  { unfold runtime_as_dict, runtime_field_names, attr. lazy -[copied_callbacks]. rewrite Ec. reflexivity. }
  rewrite Er. unfold attr. lazy -[py_list_of dupdate kept with_values mark runtime_as_dict dset ddel as_list]. rewrite E1.
  destruct paths; cbn -[as_list]; rewrite E2; reflexivity.
Qed.

(* ------------------------------------------------------------------ *)
(** ** Reading back *)

Lemma from_dict_lemma paths g s r : dkeys s = system_field_names -> dkeys r = runtime_field_names ->
  from_dict (mark ++ kept paths (with_values g s) ++ with_values g r)%list =
    configuration_new None None (kept paths (with_values g s) ++ with_values g r)%list.
Proof.
  intros Ks Kr.
  apply system_spine in Ks as (? & ? & ? & ? & ? & ? & ? & ? & ? & ? & ? & ? & ? & ->).
  apply runtime_spine in Kr as (? & ? & ? & ? & ? & ? & ? & ? & ? & ? & ->).
  destruct paths; reflexivity.
Qed.

Lemma from_marked paths g s r d : dkeys s = system_field_names -> dkeys r = runtime_field_names ->
  from_dict (of_json ([("@module", d); ("@class", JStr "Configuration")] ++ map (fun kv => (fst kv, jsonify (snd kv))) (kept paths (with_values g s) ++ with_values g r)))%list =
    configuration_new None None (kept paths (with_values (fun k v => V (jsonify (g k v))) s) ++ with_values (fun k v => V (jsonify (g k v))) r)%list.
Proof.
  intros Ks Kr.
  apply system_spine in Ks as (? & ? & ? & ? & ? & ? & ? & ? & ? & ? & ? & ? & ? & ->).
  apply runtime_spine in Kr as (? & ? & ? & ? & ? & ? & ? & ? & ? & ? & ->).
  destruct paths; reflexivity.
Qed.

Lemma three_listed v : three_entries v -> three_entries (as_list v).
Proof.
  destruct v as [[]|]; simpl; try done; rewrite map_length; [|done].
  intros H. rewrite <- H. clear. induction s as [|c s IH]; simpl; congruence.
Qed.
Lemma listed_valid s r : valid_system (dget s) -> valid_runtime (dget r) ->
  valid_system (dget (with_values shape_listed s)) /\ valid_runtime (dget (with_values shape_listed r)).
Proof.
  intros [(d & D1 & D2) (v & V1 & V2)] Hr. split.
  - unfold valid_system. rewrite !with_values_get, D1, V1. split; [by exists d|]. exists (as_list v). split; [done|]. by apply three_listed.
  - unfold valid_runtime in *. rewrite !with_values_get.
    destruct Hr as ((? & -> & ?) & (? & -> & ?) & (? & -> & ?) & (? & -> & ?) & (? & ? & -> & -> & ?) & (? & -> & ?) & ? & -> & ?).
    repeat split; try (eexists; split; [reflexivity|]; done).
    eexists _, _. split; [reflexivity|]. split; [reflexivity|]. done.
Qed.
Lemma jsonify_number v : number (V (jsonify v)) = number v.
Proof. by destruct v. Qed.
Lemma jsonify_none v : no_value (V (jsonify v)) <-> no_value v.
Proof. destruct v; [done|]. simpl. unfold no_value. split; intros [=]. Qed.
Lemma jsonify_whole v : whole v -> whole (V (jsonify v)).
Proof. intros [[z ->]|[b ->]]; [left|right]; eauto. Qed.
Lemma jsonify_schedule i t : valid_schedule i t -> valid_schedule (V (jsonify i)) (V (jsonify t)).
Proof.
  intros [H1 H2]. split.
  - destruct H1 as [H1|[H1 H1']]; [left; by apply jsonify_none|right]. split; [by apply jsonify_whole|].
    unfold above_zero, number_with. by rewrite jsonify_number.
  - destruct H2 as [H2|H2]; [left; by apply jsonify_none|right]. unfold above_zero, number_with. by rewrite jsonify_number.
Qed.
Lemma jsonify_valid s r : valid_system (dget s) -> valid_runtime (dget r) ->
  valid_system (dget (with_values (fun _ v => V (jsonify v)) s)) /\ valid_runtime (dget (with_values (fun _ v => V (jsonify v)) r)).
Proof.
  intros [(d & D1 & D2) (v & V1 & V2)] Hr. split.
  - unfold valid_system. rewrite !with_values_get, D1, V1. split.
    + eexists. split; [done|]. unfold number_with. by rewrite jsonify_number.
    + eexists. split; [done|]. by destruct v.
  - unfold valid_runtime in *. rewrite !with_values_get.
    destruct Hr as ((? & -> & ?) & (? & -> & ?) & (? & -> & ?) & (? & -> & ?) & (? & ? & -> & -> & ?) & (? & -> & (? & -> & ?)) & ? & -> & ?).
    unfold above_zero, not_negative, number_with in *.
    repeat split; try (eexists; split; [reflexivity|]; rewrite ?jsonify_number; done).
    + eexists _, _. split; [reflexivity|]. split; [reflexivity|]. by apply jsonify_schedule.
    + eexists. split; [reflexivity|]. eexists. split; [reflexivity|]. done.
Qed.
Lemma with_values_comp f g d : with_values f (with_values g d) = with_values (fun k v => f k (g k v)) d.
Proof. unfold with_values. rewrite map_map. done. Qed.
Lemma with_values_ext f g d : (forall k v, f k v = g k v) -> with_values f d = with_values g d.
Proof. intros H. unfold with_values. apply map_ext. intros [k v]. simpl. by rewrite H. Qed.

Lemma dict_roundtrip_lemma c paths : proper c -> exists d c', as_dict c paths = Ok d /\ from_dict d = Ok c' /\ changed (recorded paths) c c'.
Proof.
  intros (s & r & -> & Is & Ir). rewrite as_dict_lemma by done. eexists _, _. split; [done|].
  destruct Is as [Ks Vs], Ir as [Kr Vr]. rewrite from_dict_lemma by done.
  destruct (listed_valid s r Vs Vr) as [Vs' Vr']. split; [by apply rebuild_lemma|]. exists s, r. done.
Qed.

(** What a file holds. *)
Definition file_data (paths : bool) (s r : fields) : list (string * json) :=
  ([("@module", JStr "kmcpy.simulator.config"); ("@class", JStr "Configuration")] ++
   map (fun kv => (fst kv, jsonify (snd kv))) (kept paths (with_values shape_listed s) ++ with_values shape_listed r))%list.
Lemma read_back_lemma paths s r : instance Sys s -> instance Run r ->
  exists c', from_dict (of_json (file_data paths s r)) = Ok c' /\
    changed (written paths) (Configuration (Obj Sys s) (Obj Run r)) c'.
Proof.
  intros [Ks Vs] [Kr Vr]. unfold file_data. rewrite from_marked by done. eexists. split.
  - apply rebuild_lemma; [done|done| |].
    all: destruct (listed_valid s r Vs Vr) as [Vs' Vr'].
    all: destruct (jsonify_valid _ _ Vs' Vr') as [Vs'' Vr'']; rewrite with_values_comp in Vs'', Vr''; assumption.
  - exists s, r. split; [done|]. f_equal; f_equal; apply with_values_ext; intros k v; unfold pathless, written, recorded; destruct (negb paths && is_path k); try done; unfold default_path; destruct (String.eqb k _); done.
Qed.
Lemma file_data_keys paths s r : dkeys s = system_field_names -> dkeys r = runtime_field_names ->
  existsb (fun k => is_system_field k || is_runtime_field k) (dkeys (file_data paths s r)) = true.
Proof.
  intros Ks Kr.
  apply system_spine in Ks as (? & ? & ? & ? & ? & ? & ? & ? & ? & ? & ? & ? & ? & ->).
  apply runtime_spine in Kr as (? & ? & ? & ? & ? & ? & ? & ? & ? & ? & ->).
  destruct paths; reflexivity.
Qed.
Lemma to_json_data paths s r : to_json (mark ++ kept paths (with_values shape_listed s) ++ with_values shape_listed r)%list = JObj (file_data paths s r).
Proof. reflexivity. Qed.

Lemma flat_file_lemma c fmt existing paths tt : proper c -> fmt <> UnknownFormat ->
  exists j c', to_file c fmt existing paths None tt = Ok j /\ from_file fmt j None None = Ok c' /\ changed (written paths) c c'.
Proof.
  intros (s & r & -> & Is & Ir) Hf. destruct (read_back_lemma paths s r Is Ir) as (c' & Hc & Hch).
  exists (JObj (file_data paths s r)), c'. unfold to_file, from_file. rewrite as_dict_lemma by done.
  split; [by destruct fmt|]. split; [|done]. cbn [extract_file_config_data].
  rewrite file_data_keys by (destruct Is, Ir; done). by destruct fmt.
Qed.
Lemma section_file_lemma c existing paths name task : proper c -> task <> "type" ->
  (forall j, existing = Content j -> exists l, j = JObj l) ->
  exists l c', to_file c Yaml existing paths (Some name) task = Ok (JObj l) /\
    from_file Yaml (JObj l) (Some name) None = Ok c' /\ from_file Yaml (JObj l) (Some name) (Some task) = Ok c' /\
    changed (written paths) c c' /\
    (forall old other, existing = Content (JObj old) -> other <> name -> dget l other = dget old other) /\
    (name = "kmc" -> (forall old, existing = Content (JObj old) -> no_field_names old) ->
     from_file Yaml (JObj l) None None = Ok c').
Proof.
  intros (s & r & -> & Is & Ir) Ht He. destruct (read_back_lemma paths s r Is Ir) as (c' & Hc & Hch).
  unfold to_file. rewrite as_dict_lemma by done. cbn [rbind]. rewrite to_json_data.
  assert (exists old, match existing with Missing | Unreadable => Ok [] | Content (JObj d) => Ok d | Content _ => Err ValueError end = Ok old /\
            (forall o, existing = Content (JObj o) -> o = old) /\
            ((forall o, existing = Content (JObj o) -> no_field_names o) -> no_field_names old)) as (old & Eo & Ho & Hk).
  { assert (no_field_names []) by (intros k Hk; by apply elem_of_nil in Hk).
    destruct existing as [| |j]; [by exists []|by exists []|]. destruct (He j eq_refl) as [l ->]. exists l. split; [done|]. split; [by intros o [= <-]|]. intros Ho. by apply Ho. }
  rewrite Eo. cbn [rbind]. eexists _, c'. split; [reflexivity|].
  assert (Ed : dof_pairs [("type", JStr task); (task, JObj (file_data paths s r))] = [("type", JStr task); (task, JObj (file_data paths s r))]).
  { unfold dof_pairs. cbn. by rewrite decide_False. }
  assert (E1 : dget [("type", JStr task); (task, JObj (file_data paths s r))] "type" = Some (JStr task)) by (cbn; done).
  assert (E2 : dget [("type", JStr task); (task, JObj (file_data paths s r))] task = Some (JObj (file_data paths s r))).
  { cbn [dget]. rewrite decide_False by done. by rewrite decide_True. }
  assert (Ex : forall o, o = None \/ o = Some task ->
    extract_section_data (dset old name (JObj [("type", JStr task); (task, JObj (file_data paths s r))])) name o = Ok (file_data paths s r)).
  { intros o Hoo. unfold extract_section_data. rewrite dget_dset, decide_True by done. rewrite E1.
    destruct Hoo as [-> | ->]; cbn [task_key rbind]; rewrite E2; done. }
  rewrite Ed. unfold from_file. cbn [extract_file_config_data]. rewrite !Ex by eauto. cbn [rbind].
  split; [done|]. split; [done|]. split; [done|]. split.
  - intros o other -> Hn. rewrite (Ho o eq_refl). by rewrite dget_dset, decide_False.
  - intros -> Hold. specialize (Hk Hold).
    match goal with |- context [existsb ?f ?l] => assert (En : existsb f l = false) end.
    { apply not_true_iff_false. rewrite existsb_exists. intros (k & Hin & Hb). apply elem_of_list_In in Hin.
      apply dget_in_keys in Hin. rewrite dget_dset in Hin. destruct (decide (k = "kmc")) as [->|Hne]; [discriminate|].
      destruct (Hk k) as [N1 N2]; [by apply dget_in_keys|].
      unfold is_system_field, is_runtime_field in Hb. rewrite !bool_decide_false in Hb by done. done. }
    rewrite En. unfold din. rewrite dget_dset, decide_True by done. cbn [negb]. rewrite Ex by eauto. done.
Qed.

Lemma section_part_lemma file name task d :
  extract_section_data file name task = Ok d <-> section_part file name task d.
Proof.
  unfold extract_section_data, section_part. destruct (dget file name) as [x|] eqn:E.
  2: { split; [discriminate|]. intros (l & E' & _). discriminate. }
  destruct x as [|b|z|q|s|l|l]; cbn [rbind].
  1-6: split; [discriminate|intros (l' & E' & _); discriminate].
  destruct (dget l "type") as [ty|] eqn:Et.
  2: { cbn [rbind]. split.
       - intros [= <-]. eauto.
       - intros (l' & [= <-] & [[_ ->]|(ty & t & E' & _)]); [done|congruence]. }
  split.
  - intros H. exists l. split; [done|]. right. exists ty.
    destruct task as [t|]; cbn [rbind] in H.
    + exists t. destruct (dget l t) as [y|]; cbn [rbind] in H; [|discriminate]. destruct y; try discriminate. injection H as <-. eauto.
    + destruct ty as [|b|z|q|t|l'|l']; cbn [task_key rbind] in H; try discriminate.
      exists t. destruct (dget l t) as [y|]; cbn [rbind] in H; [|discriminate]. destruct y; try discriminate. injection H as <-. eauto.
  - intros (l' & [= <-] & [[E' _]|(ty' & t & E' & Ht & Hd)]); [congruence|]. rewrite Et in E'. injection E' as <-.
    destruct Ht as [->|[-> ->]]; cbn [task_key rbind]; rewrite Hd; done.
Qed.
Lemma has_field_names l :
  existsb (fun k => is_system_field k || is_runtime_field k) (dkeys l) = false <-> no_field_names l.
Proof.
  unfold no_field_names. rewrite <- not_true_iff_false, existsb_exists. unfold is_system_field, is_runtime_field. split.
  - intros H k Hk. split; intros Hin; apply H; exists k; (split; [by apply elem_of_list_In|]);
      rewrite (bool_decide_true _ Hin); [done|]. apply orb_true_r.
  - intros H (k & Hk & Hb). destruct (H k) as [N1 N2]; [by apply elem_of_list_In|].
    rewrite !bool_decide_false in Hb by done. done.
Qed.
Lemma selected_part_lemma fmt file name task c : fmt <> UnknownFormat ->
  from_file fmt (JObj file) name task = Ok c <->
  exists d, selected_part file name task d /\ from_dict (of_json d) = Ok c.
Proof.
  intros Hf.
  assert (forall d, extract_file_config_data (JObj file) name task = Ok d <-> selected_part file name task d) as Hs.
  { intros d. unfold extract_file_config_data, selected_part. destruct name as [s|]; [apply section_part_lemma|].
    pose proof (has_field_names file) as Hn. destruct (existsb _ _).
    - split; [intros [= <-]; left; split; [right; intros ?; by apply Hn in H|done]|].
      intros [[_ ->]|[H _]]; [done|by apply Hn in H].
    - pose proof (proj1 Hn eq_refl) as Hn'. unfold din. destruct (dget file "kmc") as [x|] eqn:E; cbn [negb].
      + rewrite section_part_lemma. split; [by right|]. intros [[[?|?] _]|[_ H]]; done.
      + split; [intros [= <-]; left; eauto|]. intros [[_ ->]|[_ (l & E' & _)]]; [done|congruence]. }
  assert (from_file fmt (JObj file) name task = let* d := extract_file_config_data (JObj file) name task in from_dict (of_json d)) as ->
    by (destruct fmt; done).
  split.
  - intros H. destruct (extract_file_config_data _ _ _) as [d|e] eqn:E; [|discriminate]. exists d. split; [by apply Hs|done].
  - intros (d & H & Hc). apply Hs in H. rewrite H. done.
Qed.

(* ------------------------------------------------------------------ *)
(** ** Changes *)

Lemma instance_absent s d : absent (Some (Obj s d)) = false.
Proof. done. Qed.
Lemma changes_lemma s c ch sd rd : c = Configuration (Obj Sys sd) (Obj Run rd) -> instance Sys sd -> instance Run rd ->
  forall c', with_changes s c ch = Ok c' <->
    (forall k, k ∈ dkeys ch -> k ∈ field_names s) /\
    valid_section s (choose ch (match s with Sys => sd | Run => rd end)) /\
    c' = match s with
         | Sys => Configuration (Obj Sys (merged sd ch)) (Obj Run rd)
         | Run => Configuration (Obj Sys sd) (Obj Run (merged rd ch))
         end.
Proof.
  intros -> [Ks Vs] [Kr Vr] c'. destruct s; unfold with_changes; cbn [c_system c_runtime]; rewrite rbind_ok; setoid_rewrite rbind_ok.
  - setoid_rewrite (build_ok Sys sd ch); [|done]. split.
    + intros (o & (d & (H1 & H2 & ->) & [= <-]) & Hf). cbn in Hf. injection Hf as <-. done.
    + intros (H1 & H2 & ->). eexists. split; [eexists; split; [split; [exact H1|split; [exact H2|reflexivity]]|reflexivity]|]. reflexivity.
  - setoid_rewrite (build_ok Run rd ch); [|done]. split.
    + intros (o & (d & (H1 & H2 & ->) & [= <-]) & Hf). destruct Hf as (? & [= <-] & [= <-]). done.
    + intros (H1 & H2 & ->). eexists. split; [eexists; split; [split; [exact H1|split; [exact H2|reflexivity]]|reflexivity]|]. eexists; done.
Qed.

Lemma merged_instance s base ch : instance s base -> valid_section s (choose ch base) -> instance s (merged base ch).
Proof.
  intros [K V] H. split; [by rewrite merged_keys|]. eapply valid_ext; [|exact H].
  intros k Hk. apply merged_get. by rewrite K.
Qed.
Lemma field_of_instance s0 d o k v : instance s0 d -> k ∈ field_names s0 -> dget d k = Some v ->
  get_field (match s0 with Sys => Configuration (Obj Sys d) o | Run => Configuration o (Obj Run d) end) k = Ok v.
Proof.
  intros _ Hk Hv. unfold get_field. rewrite (accessors_table s0 k Hk). destruct s0; cbn; unfold attr; by rewrite Hv.
Qed.

Lemma changes_accepted s c ch : proper c ->
  ((exists c', with_changes s c ch = Ok c') <->
   (forall k, k ∈ dkeys ch -> k ∈ field_names s) /\
   valid_section s (fun k => match dget ch k with Some v => Some v | None => match get_field c k with Ok v => Some v | Err _ => None end end)).
Proof.
  intros (sd & rd & E & Is & Ir). setoid_rewrite (changes_lemma s c ch sd rd E Is Ir).
  assert (Hv : valid_section s (choose ch (match s with Sys => sd | Run => rd end)) <->
     valid_section s (fun k => match dget ch k with Some v => Some v | None => match get_field c k with Ok v => Some v | Err _ => None end end)).
  { apply valid_ext. intros k Hk. unfold choose. destruct (dget ch k); [done|].
    subst c. unfold get_field. rewrite (accessors_table s k Hk). destruct s; cbn; unfold attr; by destruct (dget _ k). }
  rewrite <- Hv. split; [intros (c' & H1 & H2 & _); done|]. intros [H1 H2]. eauto.
Qed.
Lemma changes_effect s c ch c' : proper c -> with_changes s c ch = Ok c' ->
  proper c' /\ forall k, k ∈ system_field_names \/ k ∈ runtime_field_names ->
    get_field c' k = match dget ch k with Some v => Ok v | None => get_field c k end.
Proof.
  intros (sd & rd & E & Is & Ir) H. apply (changes_lemma s c ch sd rd E Is Ir) in H as (H1 & H2 & ->). subst c. split.
  - destruct s; eexists _, _; (split; [reflexivity|]); split; try done; by apply merged_instance.
  - intros k Hk. assert (exists t, k ∈ field_names t) as [t Ht] by (destruct Hk; [by exists Sys|by exists Run]).
    unfold get_field. rewrite (accessors_table t k Ht).
    assert (Hd : s <> t -> dget ch k = None).
    { intros Hst. apply dget_None. intros Hin. apply H1 in Hin. destruct s, t; try done; by eapply names_disjoint. }
    destruct Is as [Ks _], Ir as [Kr _].
    destruct s, t; cbn; unfold attr; try (rewrite Hd by done; done); rewrite merged_get by (rewrite ?Ks, ?Kr; done); unfold choose; destruct (dget ch k); done.
Qed.

Lemma as_list_twice v : as_list (as_list v) = as_list v.
Proof. by destruct v as [[]|]. Qed.
Lemma written_twice paths k v : written paths k (written paths k v) = written paths k v.
Proof.
  unfold written, recorded, shape_listed. destruct (negb paths && is_path k); [done|].
  destruct (String.eqb k _); [|by destruct v]. destruct v as [[]|]; done.
Qed.
Lemma written_stable paths c c1 c2 : changed (written paths) c c1 -> changed (written paths) c1 c2 -> c2 = c1.
Proof.
  intros (s & r & -> & ->) (s1 & r1 & [= <- <-] & ->). f_equal; f_equal; rewrite map_map; apply map_ext; intros [k v]; simpl; by rewrite written_twice.
Qed.

(* ------------------------------------------------------------------ *)
(** ** The command line *)

Lemma cli_never {A S K} (load : configuration -> result A) (f g : A -> value -> result S) (h : A -> S -> result K) a :
  cli_input a = None -> exists e, cli_start load f g h a = Err e.
Proof.
  intros Hi. unfold cli_start, cli_configuration. rewrite Hi.
  destruct (configuration_new None None (cli_fields a)) as [c|e] eqn:E; [|by exists e]. cbn [rbind].
  assert (F : forall k, k = "initial_occupations" \/ k = "initial_state_file" -> get_field c k = Ok (V JNull)).
  { intros k Hk. eapply (access_lemma None None system_defaults runtime_defaults); [by left|by left|exact E|]. left.
    split; [apply (bool_decide_eq_true_1 (_ ∈ _)); destruct Hk as [-> | ->]; vm_compute; reflexivity|].
    unfold choose. assert (N : dget (cli_fields a) k = None).
    { destruct a as [i o1 o2 o3 o4 o5 q1 q2 b]. unfold cli_fields. cbn.
      destruct Hk as [-> | ->]; destruct o1 as [[[??]?]|], o2, o3, o4, o5; reflexivity. }
    rewrite N. destruct Hk as [-> | ->]; reflexivity. }
  unfold from_config. destruct (get_field c "site_mapping") as [m|e]; [|by exists e]. cbn [rbind].
  destruct (is_none m); [by eexists|]. destruct (load c) as [x|e]; [|by exists e]. cbn [rbind].
  rewrite !F by eauto. cbn. by eexists.
Qed.
