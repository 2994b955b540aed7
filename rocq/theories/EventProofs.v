From Coq Require Import Lia Sorted.
From stdpp Require Import sorting.
From Verif Require Import Py Json PyLemmas ActiveSiteModel EventModel EventSpec.

(* ------------------------------------------------------------------ *)
(** ** The two-pointer scan *)

Lemma StronglySorted_drop_head (l : list Z) i x y :
  StronglySorted Z.le l -> l !! i = Some x -> y ∈ drop i l -> (x <= y)%Z.
Proof.
  revert i; induction l as [|z l IH]; intros i Hs Hi Hy; [done|].
  apply StronglySorted_inv in Hs as [Hs Hall].
  destruct i as [|i]; simpl in *.
  - injection Hi as ->. apply elem_of_cons in Hy as [->|Hy]; [lia|].
    rewrite Forall_forall in Hall. auto.
  - eauto.
Qed.

Lemma drop_S_elem {A} (l : list A) i x y :
  l !! i = Some x -> (y ∈ drop i l <-> y = x \/ y ∈ drop (S i) l).
Proof. intros Hi. rewrite (drop_S l x i Hi). rewrite elem_of_cons. done. Qed.

Lemma arrays_intersect_loop_spec fuel a1 a2 i j :
  StronglySorted Z.le a1 -> StronglySorted Z.le a2 ->
  (length a1 - i) + (length a2 - j) < fuel ->
  exists b, arrays_intersect_loop fuel a1 a2 i j = Ok b /\
    (b = true <-> exists x, x ∈ drop i a1 /\ x ∈ drop j a2).
Proof.
  intros Hs1 Hs2. revert i j.
  induction fuel as [|fuel IH]; intros i j Hf; [lia|]. simpl.
  destruct (a1 !! i) as [x|] eqn:Hx.
  2:{ exists false. split; [done|]. split; [done|].
      intros (z & Hz & _). rewrite drop_ge in Hz; [set_solver|].
      by apply lookup_ge_None. }
  destruct (a2 !! j) as [y|] eqn:Hy.
  2:{ exists false. split; [done|]. split; [done|].
      intros (z & _ & Hz). rewrite (drop_ge a2) in Hz; [set_solver|].
      by apply lookup_ge_None. }
  assert (Hi := lookup_lt_Some _ _ _ Hx). assert (Hj := lookup_lt_Some _ _ _ Hy).
  destruct (Z.eqb_spec x y) as [->|Hne].
  { exists true. split; [done|]. split; [|done]. intros _.
    exists y. rewrite (drop_S_elem _ _ _ _ Hx), (drop_S_elem _ _ _ _ Hy). auto. }
  destruct (Z.ltb_spec x y) as [Hlt|Hge].
  - destruct (IH (S i) j) as (b & Hb & Hspec); [lia|]. exists b. split; [done|].
    rewrite Hspec. split.
    + intros (z & Hz & Hz'). exists z. rewrite (drop_S_elem _ _ _ _ Hx). auto.
    + intros (z & Hz & Hz'). rewrite (drop_S_elem _ _ _ _ Hx) in Hz.
      destruct Hz as [->|Hz]; [|eauto].
      exfalso. pose proof (StronglySorted_drop_head a2 j y x Hs2 Hy Hz'). lia.
  - destruct (IH i (S j)) as (b & Hb & Hspec); [lia|]. exists b. split; [done|].
    rewrite Hspec. split.
    + intros (z & Hz & Hz'). exists z. rewrite (drop_S_elem _ _ _ _ Hy). auto.
    + intros (z & Hz & Hz'). rewrite (drop_S_elem _ _ _ _ Hy) in Hz'.
      destruct Hz' as [->|Hz']; [|eauto].
      exfalso. pose proof (StronglySorted_drop_head a1 i x y Hs1 Hx Hz). lia.
Qed.

Lemma sort_sites_sorted l : StronglySorted Z.le (sort_sites l).
Proof. apply (StronglySorted_merge_sort Z.le). Qed.

Lemma elem_of_sort_sites l x : x ∈ sort_sites l <-> x ∈ l.
Proof. unfold sort_sites. rewrite (merge_sort_Permutation Z.le l). done. Qed.

Lemma arrays_intersect_sorted l1 l2 :
  exists b, arrays_intersect (sort_sites l1) (sort_sites l2) = Ok b /\
    (b = true <-> exists x, x ∈ l1 /\ x ∈ l2).
Proof.
  destruct (arrays_intersect_loop_spec
    (S (length (sort_sites l1) + length (sort_sites l2)))
    (sort_sites l1) (sort_sites l2) 0 0) as (b & Hb & Hspec);
    [apply sort_sites_sorted|apply sort_sites_sorted|lia|].
  exists b. split; [exact Hb|]. rewrite Hspec. rewrite !drop_0.
  by setoid_rewrite elem_of_sort_sites.
Qed.

(* ------------------------------------------------------------------ *)
(** ** The matrix *)

Lemma dependency_row_spec l n ls :
  exists row, dependency_row (sort_sites l) n (map sort_sites ls) = Ok row /\
    StronglySorted lt row /\ Forall (fun j => n <= j) row /\
    forall j, j ∈ row <-> n <= j /\ exists lj, ls !! (j - n) = Some lj /\ exists x, x ∈ l /\ x ∈ lj.
Proof.
  revert n; induction ls as [|lj ls IH]; intros n; simpl.
  - exists []. split; [done|]. split; [constructor|]. split; [constructor|].
    intros j. split; [set_solver|]. intros (_ & lj & Hlj & _). done.
  - destruct (arrays_intersect_sorted l lj) as (b & Hb & Hbs).
    destruct (IH (S n)) as (row & Hrow & Hsort & Hall & Hmem).
    rewrite Hb. simpl. rewrite Hrow. simpl.
    eexists. split; [done|].
    assert (Hstep : forall j, n < j -> forall P : list Z -> Prop,
      (exists l', (lj :: ls) !! (j - n) = Some l' /\ P l') <->
      (exists l', ls !! (j - S n) = Some l' /\ P l')).
    { intros j Hj P. replace (j - n) with (S (j - S n)) by lia. done. }
    destruct b.
    + split; [|split].
      * constructor; [done|]. eapply Forall_impl; [exact Hall|]. simpl. lia.
      * constructor; [lia|]. eapply Forall_impl; [exact Hall|]. simpl. lia.
      * intros j. rewrite elem_of_cons, Hmem. split.
        -- intros [->|[Hle Hex]].
           ++ split; [lia|]. rewrite Nat.sub_diag. simpl.
              exists lj. split; [done|]. apply Hbs. done.
           ++ split; [lia|]. apply Hstep; [lia|]. done.
        -- intros [Hle Hex]. destruct (decide (j = n)) as [->|]; [auto|].
           right. split; [lia|]. apply Hstep in Hex; [done|lia].
    + split; [done|]. split.
      * eapply Forall_impl; [exact Hall|]. simpl. lia.
      * intros j. rewrite Hmem. split.
        -- intros [Hle Hex]. split; [lia|]. apply Hstep; [lia|]. done.
        -- intros [Hle Hex]. destruct (decide (j = n)) as [->|].
           ++ exfalso. rewrite Nat.sub_diag in Hex. simpl in Hex.
              destruct Hex as (l' & [= <-] & Hx). apply Hbs in Hx. done.
           ++ split; [lia|]. apply Hstep in Hex; [done|lia].
Qed.

Lemma matrix_total ls :
  exists m, generate_event_dependency_matrix ls = Ok m.
Proof.
  unfold generate_event_dependency_matrix. apply rmapM_ok_exists.
  intros x Hx. apply elem_of_list_fmap in Hx as (l & -> & _).
  destruct (dependency_row_spec l 0 ls) as (row & Hrow & _). eauto.
Qed.

Lemma matrix_spec ls m :
  generate_event_dependency_matrix ls = Ok m ->
  length m = length ls /\
  forall i row, m !! i = Some row ->
    exists li, ls !! i = Some li /\ StronglySorted lt row /\
      forall j, j ∈ row <-> exists lj, ls !! j = Some lj /\ exists x, x ∈ li /\ x ∈ lj.
Proof.
  unfold generate_event_dependency_matrix. intros H. split.
  { apply rmapM_length in H. rewrite map_length in H. done. }
  intros i row Hi. destruct (rmapM_lookup _ _ _ _ _ H Hi) as (sl & Hsl & Hrow).
  apply list_lookup_fmap_inv in Hsl as (li & -> & Hli).
  destruct (dependency_row_spec li 0 ls) as (row' & Hrow' & Hsort & _ & Hmem).
  rewrite Hrow in Hrow'. injection Hrow' as <-.
  exists li. split; [done|]. split; [done|].
  intros j. rewrite Hmem. rewrite Nat.sub_0_r. split; [tauto|]. split; [lia|done].
Qed.

Lemma elem_of_sites_involved e s : s ∈ sites_involved e <-> touches e s.
Proof. unfold sites_involved, touches. apply elem_of_app. Qed.

Lemma generate_total lib : exists lib', generate_event_dependencies lib = Ok lib'.
Proof.
  unfold generate_event_dependencies.
  destruct (matrix_total (map sites_involved (events lib))) as (m & Hm).
  rewrite Hm. simpl. eauto.
Qed.

Lemma generate_events_same lib lib' :
  generate_event_dependencies lib = Ok lib' ->
  events lib' = events lib /\ site_to_events lib' = site_to_events lib /\
  index_metadata lib' = index_metadata lib /\
  exists m, event_dependencies lib' = Some m /\ length m = length (events lib).
Proof.
  unfold generate_event_dependencies. intros H.
  apply rbind_ok in H as (m & Hm & [= <-]). simpl.
  apply matrix_spec in Hm as [Hlen _]. rewrite map_length in Hlen. eauto 6.
Qed.

Lemma generate_exact lib lib' :
  generate_event_dependencies lib = Ok lib' ->
  exact_dependencies (events lib) (get_dependent_events lib') /\
  forall i, length (events lib) <= i -> get_dependent_events lib' i = [].
Proof.
  unfold generate_event_dependencies. intros H.
  apply rbind_ok in H as (m & Hm & [= <-]).
  apply matrix_spec in Hm as [Hlen Hm]. rewrite map_length in Hlen.
  unfold get_dependent_events. simpl. split.
  - intros i ei Hi.
    destruct (lookup_lt_is_Some_2 m i) as [row Hrow].
    { rewrite Hlen. eapply lookup_lt_Some; eauto. }
    rewrite Hrow. destruct (Hm i row Hrow) as (li & Hli & Hsort & Hmem).
    apply list_lookup_fmap_inv in Hli as (e & -> & He).
    rewrite Hi in He. injection He as <-.
    split; [done|]. intros j. rewrite Hmem. split.
    + intros (lj & Hlj & x & Hx & Hx').
      apply list_lookup_fmap_inv in Hlj as (ej & -> & Hej).
      exists ej. split; [done|]. exists x. by rewrite <- !elem_of_sites_involved.
    + intros (ej & Hej & x & Hx & Hx'). exists (sites_involved ej).
      split; [by rewrite list_lookup_fmap, Hej|].
      exists x. by rewrite !elem_of_sites_involved.
  - intros i Hi. rewrite lookup_ge_None_2 by lia. done.
Qed.

Lemma dependencies_exact_lemma lib :
  exists lib', generate_event_dependencies lib = Ok lib' /\
    events lib' = events lib /\
    exact_dependencies (events lib) (get_dependent_events lib') /\
    (forall i, length (events lib) <= i -> get_dependent_events lib' i = []).
Proof.
  destruct (generate_total lib) as (lib' & H). exists lib'.
  split; [done|]. split; [by apply generate_events_same in H as [? _]|].
  by apply generate_exact.
Qed.

Lemma dependencies_symmetric_lemma lib lib' i j :
  generate_event_dependencies lib = Ok lib' ->
  i < length (events lib) -> j ∈ get_dependent_events lib' i ->
  i ∈ get_dependent_events lib' j.
Proof.
  intros H Hi Hj. apply generate_exact in H as [Hex _].
  destruct (lookup_lt_is_Some_2 (events lib) i Hi) as [ei Hei].
  pose proof (proj1 (proj2 (Hex i ei Hei) j) Hj) as (ej & Hej & s & Hs & Hs').
  apply (proj2 (Hex j ej Hej) i). exists ei. split; [done|]. exists s. done.
Qed.

Lemma dependencies_reflexive_lemma lib lib' i e s :
  generate_event_dependencies lib = Ok lib' ->
  events lib !! i = Some e -> touches e s -> i ∈ get_dependent_events lib' i.
Proof.
  intros H Hi Hs. apply generate_exact in H as [Hex _].
  apply (proj2 (Hex i e Hi) i). exists e. split; [done|]. exists s. done.
Qed.

(* ------------------------------------------------------------------ *)
(** ** The site index *)

Lemma register_site_get idx m s s' :
  default [] (dget (register_site idx m s) s') =
  default [] (dget m s') ++ (if decide (s' = s) then [idx] else []).
Proof.
  unfold register_site. destruct (dget m s) as [l|] eqn:E.
  - rewrite dget_dset. destruct (decide (s' = s)) as [->|].
    + rewrite E. done.
    + rewrite app_nil_r. done.
  - rewrite dget_dset. destruct (decide (s' = s)) as [->|].
    + rewrite E. done.
    + rewrite app_nil_r. done.
Qed.

Lemma register_sites_get idx l m s :
  default [] (dget (fold_left (register_site idx) l m) s) =
  default [] (dget m s) ++ repeat idx (count_occ Z.eq_dec l s).
Proof.
  revert m; induction l as [|x l IH]; intros m; simpl.
  - rewrite app_nil_r. done.
  - rewrite IH, register_site_get.
    destruct (Z.eq_dec x s) as [->|Hne].
    + rewrite decide_True by done. simpl. rewrite <- app_assoc. done.
    + rewrite decide_False by congruence. rewrite app_nil_r. done.
Qed.

Lemma mentions_spec e s : mentions e s = count_occ Z.eq_dec (sites_involved e) s.
Proof. unfold mentions, sites_involved. rewrite count_occ_app. done. Qed.

Lemma add_events_events es lib :
  events (fold_left add_event es lib) = events lib ++ es.
Proof.
  revert lib; induction es as [|e es IH]; intros lib; simpl; [rewrite app_nil_r; done|].
  rewrite IH. simpl. rewrite <- app_assoc. done.
Qed.

Lemma add_events_index es lib s :
  get_events_involving_site (fold_left add_event es lib) s =
  get_events_involving_site lib s ++ index_list (length (events lib)) es s.
Proof.
  revert lib; induction es as [|e es IH]; intros lib; simpl; [rewrite app_nil_r; done|].
  rewrite IH. simpl. rewrite app_length. simpl.
  replace (length (events lib) + 1) with (S (length (events lib))) by lia.
  rewrite app_assoc. f_equal.
  unfold get_events_involving_site. simpl.
  rewrite mentions_spec.
  pose proof (register_sites_get (length (events lib)) (sites_involved e) (site_to_events lib) s) as H.
  unfold default in H. destruct (dget (fold_left _ _ _) s), (dget (site_to_events lib) s); done.
Qed.

Lemma site_index_exact_lemma es s :
  get_events_involving_site (fold_left add_event es empty_lib) s = index_list 0 es s.
Proof. rewrite add_events_index. done. Qed.

Lemma mentions_pos e s : 0 < mentions e s <-> touches e s.
Proof.
  rewrite mentions_spec, <- elem_of_sites_involved, elem_of_list_In.
  rewrite (count_occ_In Z.eq_dec). lia.
Qed.

Lemma elem_of_index_list first es s i :
  i ∈ index_list first es s <->
  first <= i /\ exists e, es !! (i - first) = Some e /\ touches e s.
Proof.
  revert first; induction es as [|e es IH]; intros first; simpl.
  - split; [set_solver|]. intros (_ & e & He & _). done.
  - rewrite elem_of_app, IH. split.
    + intros [Hin|(Hle & e' & He' & Ht)].
      * apply elem_of_list_In, repeat_spec in Hin as Heq. subst i.
        split; [lia|]. rewrite Nat.sub_diag. simpl. exists e. split; [done|].
        apply mentions_pos. destruct (mentions e s); simpl in *; [set_solver|lia].
      * split; [lia|]. replace (i - first) with (S (i - S first)) by lia. eauto.
    + intros (Hle & e' & He' & Ht). destruct (decide (i = first)) as [->|].
      * left. rewrite Nat.sub_diag in He'. simpl in He'. injection He' as <-.
        apply mentions_pos in Ht. destruct (mentions e s); [lia|]. simpl. left.
      * right. split; [lia|]. replace (i - first) with (S (i - S first)) in He' by lia. eauto.
Qed.

Lemma site_index_members_lemma es s i :
  i ∈ get_events_involving_site (fold_left add_event es empty_lib) s <->
  exists e, es !! i = Some e /\ touches e s.
Proof.
  rewrite site_index_exact_lemma, elem_of_index_list, Nat.sub_0_r.
  split; [tauto|]. split; [lia|done].
Qed.

(* ------------------------------------------------------------------ *)
(** ** Histories of library operations *)

(** The matrix stored in a library is exact for a prefix of its events. *)
Definition matrix_of_prefix (lib : event_lib) : Prop :=
  match event_dependencies lib with
  | None => True
  | Some m => exists n, n <= length (events lib) /\ length m = n /\
      exact_dependencies (take n (events lib)) (get_dependent_events lib)
  end.

Lemma lib_step_err e ops : fold_left lib_step ops (Err e) = Err e.
Proof. induction ops as [|op ops IH]; simpl; done. Qed.

Lemma run_ops_snoc ops op : run_ops (ops ++ [op]) = lib_step (run_ops ops) op.
Proof. unfold run_ops. rewrite fold_left_app. done. Qed.

Lemma run_ops_total ops : exists lib, run_ops ops = Ok lib.
Proof.
  induction ops as [|op ops IH] using rev_ind; [by exists empty_lib|].
  rewrite run_ops_snoc. destruct IH as (lib & ->). simpl.
  destruct op; [eauto| |eauto]. apply generate_total.
Qed.

Lemma matrix_of_prefix_inv ops lib : run_ops ops = Ok lib -> matrix_of_prefix lib.
Proof.
  revert lib; induction ops as [|op ops IH] using rev_ind; intros lib H.
  { injection H as <-. done. }
  rewrite run_ops_snoc in H. unfold lib_step in H.
  apply rbind_ok in H as (lib0 & Hops & H). specialize (IH lib0 Hops).
  destruct op as [e| |].
  - injection H as <-. unfold matrix_of_prefix in *. simpl.
    destruct (event_dependencies lib0) as [m|] eqn:Em; [|done].
    destruct IH as (n & Hn & Hm & Hex). exists n.
    rewrite app_length. split; [lia|]. split; [done|].
    rewrite take_app_le by done.
    intros i ei Hi. specialize (Hex i ei Hi).
    unfold get_dependent_events in *. simpl. rewrite Em in *. done.
  - unfold matrix_of_prefix.
    pose proof (generate_exact _ _ H) as [Hex _].
    apply generate_events_same in H as (Hev & _ & _ & m & Hm & Hlen).
    rewrite Hm. exists (length (events lib0)). rewrite Hev. split; [done|].
    split; [done|]. rewrite firstn_all. done.
  - injection H as <-. done.
Qed.

Lemma get_dependent_events_history_lemma ops lib :
  run_ops ops = Ok lib ->
  match event_dependencies lib with
  | None => forall i, get_dependent_events lib i = []
  | Some m =>
      exists n, n <= length (events lib) /\
        exact_dependencies (take n (events lib)) (get_dependent_events lib) /\
        forall i, n <= i -> get_dependent_events lib i = []
  end.
Proof.
  intros H. pose proof (matrix_of_prefix_inv ops lib H) as Hinv.
  unfold matrix_of_prefix in Hinv.
  destruct (event_dependencies lib) as [m|] eqn:Em.
  - destruct Hinv as (n & Hn & Hm & Hex). exists n. split; [done|]. split; [done|].
    intros i Hi. unfold get_dependent_events. rewrite Em.
    rewrite lookup_ge_None_2 by lia. done.
  - intros i. unfold get_dependent_events. rewrite Em. done.
Qed.

Lemma run_ops_events ops lib :
  run_ops ops = Ok lib ->
  events lib = List.concat (map added ops) /\
  forall s, get_events_involving_site lib s = index_list 0 (events lib) s.
Proof.
  revert lib; induction ops as [|op ops IH] using rev_ind; intros lib H.
  { injection H as <-. done. }
  rewrite run_ops_snoc in H. unfold lib_step in H.
  apply rbind_ok in H as (lib0 & Hops & H).
  destruct (IH lib0 Hops) as [Hev Hidx].
  rewrite map_app, concat_app. simpl. rewrite app_nil_r.
  destruct op as [e| |]; simpl.
  - injection H as <-. split; [simpl; rewrite Hev; done|].
    intros s. pose proof (add_events_index [e] lib0 s) as Hadd. simpl in Hadd.
    rewrite Hadd, Hidx. simpl.
    assert (Happ : forall first es, index_list first (es ++ [e]) s =
      index_list first es s ++ repeat (first + length es) (mentions e s)).
    { intros first es. revert first. induction es as [|e' es IHes]; intros first; simpl.
      - rewrite Nat.add_0_r, app_nil_r. done.
      - rewrite IHes, <- app_assoc, Nat.add_succ_r. done. }
    rewrite Happ. rewrite app_nil_r. done.
  - apply generate_events_same in H as (He & Hs & _). rewrite app_nil_r, He.
    split; [done|]. intros s. unfold get_events_involving_site in *.
    rewrite Hs. apply Hidx.
  - injection H as <-. simpl. rewrite app_nil_r. split; [done|].
    intros s. apply Hidx.
Qed.

(* ------------------------------------------------------------------ *)
(** ** Serialisation *)

Lemma validate_active_indices_ok o l :
  validate_active_indices o l = Ok tt <->
  forall i, i ∈ l -> (0 <= i < Z.of_nat (active_site_count o))%Z.
Proof.
  unfold validate_active_indices.
  induction l as [|x l IH]; simpl; [split; [set_solver|done]|].
  destruct (Z.ltb_spec x 0), (Z.leb_spec (Z.of_nat (active_site_count o)) x); simpl.
  - split; [discriminate|]. intros Hr. specialize (Hr x ltac:(set_solver)). lia.
  - split; [discriminate|]. intros Hr. specialize (Hr x ltac:(set_solver)). lia.
  - split; [discriminate|]. intros Hr. specialize (Hr x ltac:(set_solver)). lia.
  - rewrite IH. split.
    + intros Hr i Hi. apply elem_of_cons in Hi as [->|Hi]; [lia|auto].
    + intros Hr i Hi. apply Hr. set_solver.
Qed.

Lemma validate_active_indices_err o l e :
  validate_active_indices o l = Err e -> e = IndexError.
Proof. unfold validate_active_indices. destruct (List.filter _ l); congruence. Qed.

Lemma validate_event_indices_ok lib o :
  validate_event_indices lib o = Ok tt <->
  indices_in_range (events lib) (active_site_count o).
Proof.
  unfold validate_event_indices, indices_in_range, touches.
  induction (events lib) as [|e es IH]; simpl.
  - split; [set_solver|done].
  - destruct (validate_active_indices o (mobile_ion_indices e)) as [[]|x] eqn:E1; simpl.
    + destruct (validate_active_indices o (local_env_indices e)) as [[]|x] eqn:E2; simpl.
      * rewrite IH. rewrite validate_active_indices_ok in E1, E2. split.
        -- intros H e' s He' Hs. apply elem_of_cons in He' as [->|He']; [|by apply (H e' s)].
           destruct Hs; [by apply E1|by apply E2].
        -- intros H e' s He' Hs. apply (H e' s); [|done]. by apply elem_of_cons; right.
      * split; [discriminate|]. intros H.
        assert (validate_active_indices o (local_env_indices e) = Ok tt) as H2; [|congruence].
        apply validate_active_indices_ok. intros i Hi. apply (H e i); [apply elem_of_cons; by left|by auto].
    + split; [discriminate|]. intros H.
      assert (validate_active_indices o (mobile_ion_indices e) = Ok tt) as H2; [|congruence].
      apply validate_active_indices_ok. intros i Hi. apply (H e i); [apply elem_of_cons; by left|by auto].
Qed.

Lemma int_list_JInt l : int_list (JList (map JInt l)) = Ok l.
Proof.
  unfold int_list. simpl. rewrite rmapM_map.
  rewrite (rmapM_id _ id) by done. rewrite map_id. done.
Qed.
Lemma text_list_JStr l : text_list (JList (map JStr l)) = Ok l.
Proof.
  unfold text_list. simpl. rewrite rmapM_map.
  rewrite (rmapM_id _ id) by done. rewrite map_id. done.
Qed.

Lemma order_roundtrip o :
  order_from_dict (order_as_dict o) =
  Ok {| o_prim_count := o_prim_count o; o_orig_count := o_orig_count o;
        o_prim_active := o_prim_active o; o_a2o := o_a2o o; o_a2p := o_a2p o;
        o_fixed := o_fixed o; o_shape := o_shape o; o_species := o_species o;
        o_allowed := o_allowed o; o_fp := o_fp o; o_template := None |}.
Proof.
  unfold order_from_dict, order_as_dict. dget_simpl.
  rewrite String.eqb_refl. cbn [negb].
  cbn [py_int rbind]. rewrite !int_list_JInt. cbn [rbind].
  rewrite text_list_JStr. cbn [rbind py_list].
  rewrite rmapM_map. rewrite (rmapM_id _ id) by (intros; apply text_list_JStr).
  rewrite map_id. done.
Qed.

Lemma event_roundtrip e : event_from_dict (event_as_dict e) = Ok e.
Proof.
  unfold event_from_dict, event_as_dict. cbn [py_obj rbind]. dget_simpl.
  rewrite !int_list_JInt. destruct e; done.
Qed.

Lemma json_nat_nat_json n : json_nat (nat_json n) = Ok n.
Proof.
  unfold json_nat, nat_json. simpl.
  destruct (Z.ltb_spec (Z.of_nat n) 0); [lia|]. rewrite Nat2Z.id. done.
Qed.

Lemma nat_list_roundtrip l : rmapM json_nat (map nat_json l) = Ok l.
Proof.
  rewrite rmapM_map, (rmapM_id _ id); [rewrite map_id; done|].
  intros; apply json_nat_nat_json.
Qed.

Lemma site_map_roundtrip (m : dict Z (list nat)) :
  rmapM (fun kv => rbind (py_int_str (fst kv)) (fun k =>
     rbind (py_list (snd kv)) (fun v => rbind (rmapM json_nat v) (fun v => Ok (k, v)))))
    (map (fun kv => (py_str_int (fst kv), JList (map nat_json (snd kv)))) m) = Ok m.
Proof.
  rewrite rmapM_map. rewrite (rmapM_id _ id); [rewrite map_id; done|].
  intros [k v] _. simpl. rewrite py_int_str_of_int. simpl.
  rewrite nat_list_roundtrip. done.
Qed.

Lemma lib_roundtrip_lemma lib o :
  index_metadata lib = Some (order_as_dict o) ->
  indices_in_range (events lib) (active_site_count o) ->
  NoDup (dkeys (site_to_events lib)) ->
  lib_from_dict (lib_as_dict lib) = Ok (reloaded lib).
Proof.
  intros Hmeta Hrange Hnd. unfold lib_from_dict, lib_as_dict. dget_simpl.
  rewrite Hmeta. cbn [py_obj rbind].
  rewrite order_roundtrip. cbn [py_list rbind].
  rewrite rmapM_map, (rmapM_id _ id) by (intros; apply event_roundtrip).
  rewrite map_id. cbn [rbind].
  match goal with |- context [validate_event_indices ?l ?o] =>
    assert (validate_event_indices l o = Ok tt) as -> end.
  { apply validate_event_indices_ok. exact Hrange. }
  cbn [rbind].
  rewrite site_map_roundtrip. cbn [rbind]. rewrite dof_pairs_NoDup by done.
  unfold reloaded.
  destruct (event_dependencies lib) as [[|r m]|] eqn:Em; cbn [truthy rbind map].
  - rewrite Hmeta. done.
  - cbn [py_list rbind].
    change (JList (map nat_json r) :: map (fun row => JList (map nat_json row)) m)
      with (map (fun row => JList (map nat_json row)) (r :: m)).
    rewrite rmapM_map.
    rewrite (rmapM_id _ id) by (intros; simpl; apply nat_list_roundtrip).
    rewrite map_id. cbn [rbind]. rewrite Hmeta. done.
  - rewrite Hmeta. done.
Qed.

Lemma NoDup_register idx l m :
  NoDup (dkeys m) -> NoDup (dkeys (fold_left (register_site idx) l m)).
Proof.
  revert m; induction l as [|x l IH]; intros m Hnd; simpl; [done|].
  apply IH. unfold register_site. destruct (dget m x); by apply NoDup_dkeys_dset.
Qed.

Lemma run_ops_NoDup ops lib : run_ops ops = Ok lib -> NoDup (dkeys (site_to_events lib)).
Proof.
  revert lib; induction ops as [|op ops IH] using rev_ind; intros lib H.
  { injection H as <-. constructor. }
  rewrite run_ops_snoc in H. unfold lib_step in H.
  apply rbind_ok in H as (lib0 & Hops & H). specialize (IH lib0 Hops).
  destruct op as [e| |].
  - injection H as <-. simpl. by apply NoDup_register.
  - apply generate_events_same in H as (_ & -> & _). done.
  - injection H as <-. done.
Qed.

Lemma saved_library_reloads_lemma ops lib o :
  run_ops ops = Ok lib ->
  snd (set_index_metadata lib o) = Ok tt ->
  lib_from_dict (lib_as_dict (fst (set_index_metadata lib o))) =
  Ok (reloaded (fst (set_index_metadata lib o))).
Proof.
  intros Hops Hval. eapply lib_roundtrip_lemma.
  - reflexivity.
  - simpl in Hval. by apply validate_event_indices_ok in Hval.
  - simpl. eapply run_ops_NoDup; eauto.
Qed.

Lemma lib_from_dict_validates d lib :
  lib_from_dict d = Ok lib ->
  exists meta o, index_metadata lib = Some meta /\ order_from_dict meta = Ok o /\
    indices_in_range (events lib) (active_site_count o).
Proof.
  unfold lib_from_dict. intros H.
  destruct (dget d "index_metadata") as [j|]; [|discriminate].
  destruct j; try discriminate; cbn -[order_from_dict rmapM validate_event_indices] in H; try discriminate.
  apply rbind_ok in H as (o & Ho & H).
  apply rbind_ok in H as (evs & Hevs & H).
  apply rbind_ok in H as ([] & Hval & H).
  apply rbind_ok in H as (deps & Hdeps & H).
  apply rbind_ok in H as (s2e & Hs2e & [= <-]). simpl.
  exists l, o. split; [done|]. split; [done|].
  by apply validate_event_indices_ok in Hval.
Qed.

Lemma from_file_has_dependencies_lemma payload lib :
  lib_from_file payload = Ok lib ->
  event_dependencies lib <> None /\
  exists meta o, index_metadata lib = Some meta /\ order_from_dict meta = Ok o /\
    indices_in_range (events lib) (active_site_count o).
Proof.
  unfold lib_from_file. destruct payload as [| | | | |l|d]; try discriminate.
  cbn [py_obj rbind].
  destruct (lib_from_dict d) as [lib0|] eqn:E; [|discriminate]. cbn [rbind].
  pose proof (lib_from_dict_validates d lib0 E) as Hv.
  destruct (event_dependencies lib0) as [m|] eqn:Em; intros H.
  - injection H as <-. split; [congruence|done].
  - apply generate_events_same in H as (He & _ & Hm & m & Hdep & _).
    rewrite He, Hm, Hdep. split; [congruence|done].
Qed.

(** Writing a library and loading the file: dependencies are exact for its events
    if they were exact before (or absent). *)
Lemma exact_dependencies_nil f : exact_dependencies [] f.
Proof. intros i ei Hi. done. Qed.

Lemma file_roundtrip_lemma lib o :
  index_metadata lib = Some (order_as_dict o) ->
  indices_in_range (events lib) (active_site_count o) ->
  NoDup (dkeys (site_to_events lib)) ->
  exists payload lib', lib_to_payload lib = Ok payload /\
    lib_from_file payload = Ok lib' /\
    events lib' = events lib /\ site_to_events lib' = site_to_events lib /\
    index_metadata lib' = index_metadata lib /\
    match event_dependencies lib with
    | Some (r :: m) => event_dependencies lib' = Some (r :: m)
    | _ => exact_dependencies (events lib) (get_dependent_events lib')
    end.
Proof.
  intros Hmeta Hrange Hnd. unfold lib_to_payload. rewrite Hmeta.
  exists (JObj (lib_as_dict lib)).
  unfold lib_from_file. cbn [py_obj rbind].
  rewrite (lib_roundtrip_lemma lib o) by done. cbn [rbind].
  destruct (event_dependencies lib) as [[|r m]|] eqn:Em; simpl; rewrite ?Em; simpl.
  - destruct (generate_total (reloaded lib)) as (lib' & H). exists lib'.
    split; [done|]. split; [done|].
    pose proof (generate_exact _ _ H) as [Hex _].
    apply generate_events_same in H as (He & Hs & Hm & _). simpl in *. rewrite Hmeta in Hm. auto.
  - exists (reloaded lib). split; [done|]. split; [done|].
    simpl. rewrite Em. auto.
  - destruct (generate_total (reloaded lib)) as (lib' & H). exists lib'.
    split; [done|]. split; [done|].
    pose proof (generate_exact _ _ H) as [Hex _].
    apply generate_events_same in H as (He & Hs & Hm & _). simpl in *. rewrite Hmeta in Hm. auto.
Qed.

Lemma no_metadata_rejected_lemma d :
  dget d "index_metadata"%string = None \/ dget d "index_metadata"%string = Some JNull ->
  lib_from_dict d = Err ValueError.
Proof. unfold lib_from_dict. intros [-> | ->]; done. Qed.

Lemma generate_then_adds_lemma ops es lib0 lib :
  run_ops (ops ++ [OpGenerate]) = Ok lib0 ->
  run_ops (ops ++ [OpGenerate] ++ map OpAdd es) = Ok lib ->
  events lib = events lib0 ++ es /\
  exact_dependencies (events lib0) (get_dependent_events lib) /\
  (forall i, length (events lib0) <= i -> get_dependent_events lib i = []).
Proof.
  intros H0 H. rewrite app_assoc in H. unfold run_ops in H. rewrite fold_left_app in H.
  fold (run_ops (ops ++ [OpGenerate])) in H. rewrite H0 in H.
  rewrite run_ops_snoc in H0. unfold lib_step in H0.
  apply rbind_ok in H0 as (lib1 & H1 & H0).
  pose proof (generate_exact _ _ H0) as [Hex Hout].
  apply generate_events_same in H0 as (He & _). rewrite He.
  assert (Hadd : forall es lib2, fold_left lib_step (map OpAdd es) (Ok lib2) =
                                 Ok (fold_left add_event es lib2)).
  { induction es0 as [|e es0 IH]; intros lib2; simpl; [done|]. apply IH. }
  rewrite Hadd in H. injection H as <-.
  rewrite add_events_events, He.
  assert (Hdep : forall es lib2, event_dependencies (fold_left add_event es lib2) =
                                 event_dependencies lib2).
  { induction es0 as [|e es0 IH]; intros lib2; simpl; [done|]. rewrite IH. done. }
  split; [done|]. unfold get_dependent_events in *. rewrite Hdep. split; done.
Qed.

Lemma stale_after_add_lemma :
  exists ops lib, run_ops ops = Ok lib /\ event_dependencies lib <> None /\
    ~ exact_dependencies (events lib) (get_dependent_events lib).
Proof.
  exists [OpAdd (Event [0; 1]%Z []); OpGenerate; OpAdd (Event [1; 2]%Z [])].
  eexists. split; [vm_compute; reflexivity|]. split; [done|].
  intros H. specialize (H 0 _ eq_refl) as [_ H].
  assert (Hin : 1 ∈ [0]).
  { apply (H 1). exists (Event [1; 2]%Z []). split; [done|]. exists 1%Z.
    unfold touches; simpl. set_solver. }
  set_solver.
Qed.

Lemma loaded_dependencies_trusted_lemma :
  exists payload lib, lib_from_file payload = Ok lib /\
    ~ exact_dependencies (events lib) (get_dependent_events lib).
Proof.
  pose (o := {| o_prim_count := 1; o_orig_count := 2; o_prim_active := [0];
     o_a2o := [0; 1]; o_a2p := [0; 0]; o_fixed := []; o_shape := [2; 1; 1];
     o_species := ["Na+"]; o_allowed := [["Na+"; "X0+"]]; o_fp := "fp";
     o_template := None |}%Z%string).
  exists (JObj [("index_metadata", JObj (order_as_dict o));
                ("events", JList [event_as_dict (Event [0; 1]%Z [])]);
                ("event_dependencies", JList [JList []])]%string).
  eexists. split; [vm_compute; reflexivity|].
  intros H. specialize (H 0 _ eq_refl) as [_ H].
  assert (Hin : 0 ∈ @nil nat).
  { apply (H 0). eexists. split; [reflexivity|]. exists 1%Z.
    unfold touches; simpl. set_solver. }
  set_solver.
Qed.

Lemma save_needs_metadata_lemma lib :
  (exists payload, lib_to_payload lib = Ok payload) <-> index_metadata lib <> None.
Proof.
  unfold lib_to_payload. destruct (index_metadata lib); split; try done; eauto.
  by intros [? ?].
Qed.
