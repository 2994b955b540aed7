From Coq Require Import Lia QArith Ascii.
From Verif Require Import Py Json PyLemmas ActiveSiteModel ActiveSiteProofs
  EventModel EventProofs StateModel.
Local Open Scope nat_scope.

(* ------------------------------------------------------------------ *)
(** ** Swapping two entries *)

Lemma swap_spec occ e occ' :
  swap_occupations occ e = Ok occ' ->
  exists f t i j x y, mobile_ion_indices e = [f; t] /\
    py_norm (length occ) f = Some i /\ py_norm (length occ) t = Some j /\
    occ !! i = Some x /\ occ !! j = Some y /\ occ' = <[j := x]> (<[i := y]> occ).
Proof.
  unfold swap_occupations. intros H.
  apply rbind_ok in H as ([f t] & Hu & H). apply unpack2_ok in Hu.
  apply rbind_ok in H as (y & Hy & H). apply rbind_ok in H as (x & Hx & H).
  apply rbind_ok in H as (occ1 & H1 & H2).
  apply py_get_lt in Hy as (j & Hj & Hy). apply py_get_lt in Hx as (i & Hi & Hx).
  unfold py_set in H1. rewrite Hi in H1. injection H1 as <-.
  unfold py_set in H2. rewrite insert_length, Hj in H2. injection H2 as <-.
  exists f, t, i, j, x, y. auto 10.
Qed.

Lemma swap_list_permutation {A} (l : list A) i j x y :
  l !! i = Some x -> l !! j = Some y -> <[j := x]> (<[i := y]> l) ≡ₚ l.
Proof.
  intros Hi Hj. destruct (decide (i = j)) as [->|Hne].
  - assert (x = y) as -> by congruence.
    rewrite list_insert_insert. rewrite list_insert_id; done.
  - apply Permutation_inj. split; [rewrite !insert_length; done|].
    exists (fun k => if decide (k = i) then j else if decide (k = j) then i else k).
    split.
    + intros a b Hab. repeat case_decide; congruence.
    + intros k. destruct (decide (k = j)) as [->|Hkj].
      * rewrite list_lookup_insert.
        2:{ rewrite insert_length. eapply lookup_lt_Some; eauto. }
        rewrite decide_False by done. done.
      * rewrite list_lookup_insert_ne by done.
        destruct (decide (k = i)) as [->|Hki].
        -- rewrite list_lookup_insert; [done|]. eapply lookup_lt_Some; eauto.
        -- rewrite list_lookup_insert_ne by done. done.
Qed.

Lemma swap_permutation occ e occ' : swap_occupations occ e = Ok occ' -> occ' ≡ₚ occ.
Proof.
  intros H. apply swap_spec in H as (f & t & i & j & x & y & _ & _ & _ & Hx & Hy & ->).
  by apply swap_list_permutation.
Qed.

Lemma swap_length occ e occ' : swap_occupations occ e = Ok occ' -> length occ' = length occ.
Proof. intros H. apply swap_permutation in H. by apply Permutation_length. Qed.

(** In-range endpoints. *)
Lemma swap_in_range occ f t env x y :
  (0 <= f)%Z -> (0 <= t)%Z ->
  occ !! Z.to_nat f = Some x -> occ !! Z.to_nat t = Some y ->
  swap_occupations occ (Event [f; t] env) =
  Ok (<[Z.to_nat t := x]> (<[Z.to_nat f := y]> occ)).
Proof.
  intros Hf Ht Hx Hy. unfold swap_occupations. simpl.
  rewrite (proj2 (py_get_nonneg occ t y Ht) Hy). simpl.
  rewrite (proj2 (py_get_nonneg occ f x Hf) Hx). simpl.
  apply lookup_lt_Some in Hx, Hy.
  rewrite py_set_ok by lia. simpl.
  rewrite py_set_ok by (rewrite insert_length; lia). done.
Qed.

Lemma swap_in_range_inv occ f t env occ' :
  (0 <= f)%Z -> (0 <= t)%Z ->
  swap_occupations occ (Event [f; t] env) = Ok occ' ->
  exists x y, occ !! Z.to_nat f = Some x /\ occ !! Z.to_nat t = Some y /\
    occ' = <[Z.to_nat t := x]> (<[Z.to_nat f := y]> occ) /\
    occ' !! Z.to_nat f = Some y /\ occ' !! Z.to_nat t = Some x.
Proof.
  intros Hf Ht H. apply swap_spec in H as (f' & t' & i & j & x & y & [= <- <-] & Hi & Hj & Hx & Hy & ->).
  assert (Hnf : i = Z.to_nat f).
  { unfold py_norm in Hi. rewrite (proj2 (Z.leb_le 0 f)) in Hi by lia.
    destruct (f <? _)%Z; congruence. }
  assert (Hnt : j = Z.to_nat t).
  { unfold py_norm in Hj. rewrite (proj2 (Z.leb_le 0 t)) in Hj by lia.
    destruct (t <? _)%Z; congruence. }
  subst i j. exists x, y. split; [done|]. split; [done|]. split; [done|].
  pose proof (lookup_lt_Some _ _ _ Hx). pose proof (lookup_lt_Some _ _ _ Hy).
  split.
  - destruct (decide (Z.to_nat f = Z.to_nat t)) as [E|E].
    + rewrite E. rewrite list_lookup_insert by (rewrite insert_length; done). congruence.
    + rewrite list_lookup_insert_ne by done. by rewrite list_lookup_insert.
  - rewrite list_lookup_insert by (rewrite insert_length; done). done.
Qed.

Lemma swap_others occ f t env occ' k :
  (0 <= f)%Z -> (0 <= t)%Z ->
  swap_occupations occ (Event [f; t] env) = Ok occ' ->
  k <> Z.to_nat f -> k <> Z.to_nat t -> occ' !! k = occ !! k.
Proof.
  intros Hf Ht H Hkf Hkt.
  apply swap_in_range_inv in H as (x & y & _ & _ & -> & _); [|done..].
  rewrite !list_lookup_insert_ne by done. done.
Qed.

Lemma swap_twice occ f t env occ' :
  (0 <= f)%Z -> (0 <= t)%Z ->
  swap_occupations occ (Event [f; t] env) = Ok occ' ->
  swap_occupations occ' (Event [f; t] env) = Ok occ.
Proof.
  intros Hf Ht H.
  pose proof H as H0.
  apply swap_in_range_inv in H as (x & y & Hx & Hy & Heq & Hx' & Hy'); [|done..].
  rewrite (swap_in_range occ' f t env y x) by done.
  f_equal. apply list_eq. intros k.
  pose proof (lookup_lt_Some _ _ _ Hx). pose proof (lookup_lt_Some _ _ _ Hy).
  assert (Hlen : length occ' = length occ) by (by eapply swap_length).
  destruct (decide (k = Z.to_nat t)) as [->|].
  { rewrite list_lookup_insert; [done|]. rewrite insert_length. lia. }
  rewrite list_lookup_insert_ne by done.
  destruct (decide (k = Z.to_nat f)) as [->|].
  { rewrite list_lookup_insert; [done|lia]. }
  rewrite list_lookup_insert_ne by done. apply (swap_others occ f t env occ' k); done.
Qed.

(* ------------------------------------------------------------------ *)
(** ** Payloads and checkpoints *)

Lemma state_roundtrip_lemma s : state_from_dict (state_as_dict s) = Ok s.
Proof.
  unfold state_from_dict, state_as_dict. dget_simpl.
  rewrite int_list_JInt. destruct s; done.
Qed.

Lemma last_component_app cur p q :
  (forall c, c ∈ q -> char_eqb c "/"%char = false) ->
  exists name, last_component cur (p ++ q) = name ++ q.
Proof.
  intros Hq. revert cur. induction p as [|c p IH]; intros cur; simpl.
  - exists cur. revert cur. induction q as [|d q IHq]; intros cur; simpl; [by rewrite app_nil_r|].
    rewrite (Hq d) by set_solver. rewrite IHq by (intros; apply Hq; set_solver).
    rewrite <- app_assoc. done.
  - destruct (char_eqb c "/"%char); apply IH.
Qed.

Lemma rfind_dot_app i best p q :
  rfind_dot i best (p ++ q) = rfind_dot (i + length p) (rfind_dot i best p) q.
Proof.
  revert i best; induction p as [|c p IH]; intros i best; simpl.
  - rewrite Nat.add_0_r. done.
  - rewrite IH. f_equal. lia.
Qed.

Lemma path_suffix_of name ext :
  (ext = ext_json \/ ext = ext_h5) -> name <> [] ->
  forall p, path_name p = name ++ ext -> lower (path_suffix p) = ext.
Proof.
  intros Hext Hne p Hp. unfold path_suffix. rewrite Hp.
  rewrite rfind_dot_app. simpl.
  destruct name as [|c name]; [done|].
  destruct Hext as [-> | ->].
  - simpl. rewrite app_length. simpl.
    replace (length name + 5 - 0) with (length name + 5) by lia.
    destruct (Nat.ltb_spec (S (length name)) (length name + 5)); [|lia].
    rewrite drop_app. done.
  - simpl. rewrite app_length. simpl.
    replace (length name + 3 - 0) with (length name + 3) by lia.
    destruct (Nat.ltb_spec (S (length name)) (length name + 3)); [|lia].
    rewrite drop_app. done.
Qed.

Lemma ends_with_app p ext : ends_with p ext = true -> exists q, p = q ++ ext.
Proof.
  unfold ends_with. intros H%bool_decide_eq_true.
  exists (take (length p - length ext) p). rewrite <- H at 2. symmetry. apply take_drop.
Qed.

Lemma ends_with_name p ext :
  (ext = ext_json \/ ext = ext_h5) ->
  ends_with p ext = true -> exists name, path_name p = name ++ ext.
Proof.
  intros Hext H. apply ends_with_app in H as (q & ->).
  apply last_component_app. intros c Hc.
  destruct Hext as [-> | ->]; unfold ext_json, ext_h5 in Hc;
    repeat (apply elem_of_cons in Hc as [->|Hc]; [done|]); set_solver.
Qed.

Lemma ends_with_h5_not_json p : ends_with p ext_h5 = true -> ends_with p ext_json = false.
Proof.
  intros H. apply not_true_is_false. intros H'.
  apply ends_with_app in H as (q & ->). apply ends_with_app in H' as (q' & E).
  apply (f_equal (fun l => last l)) in E. rewrite !last_app in E. done.
Qed.

Lemma checkpoint_roundtrip_lemma s p f :
  path_name p <> ext_json ->
  save_checkpoint s p = Ok f -> load_checkpoint p f = Ok s.
Proof.
  intros Hname. unfold save_checkpoint, load_checkpoint.
  destruct (ends_with p ext_json) eqn:Ej.
  - intros [= <-]. unfold state_from_file.
    destruct (ends_with_name p ext_json (or_introl eq_refl) Ej) as (name & Hn).
    assert (name <> []) as Hne by (intros ->; apply Hname; done).
    rewrite (path_suffix_of name ext_json (or_introl eq_refl) Hne p Hn).
    rewrite bool_decide_false by done. rewrite bool_decide_true by done. simpl negb. cbn iota.
    unfold state_from_json, state_as_dict.
    rewrite dget_hd. rewrite int_list_JInt. cbn [rbind].
    rewrite dget_tl, dget_hd by discriminate. cbn [py_float rbind].
    rewrite dget_tl, dget_tl, dget_hd by discriminate. cbn [py_int rbind].
    destruct s; done.
  - destruct (ends_with p ext_h5) eqn:Eh; [|discriminate].
    intros [= <-]. unfold load_h5. rewrite Eh. destruct s; done.
Qed.

Lemma dot_json_refuted_lemma :
  exists p f, forall s : state Q, occupations s = [1%Z] -> time s = 0%Q -> step s = 0%Z ->
    save_checkpoint s p = Ok f /\ load_checkpoint p f = Err ValueError.
Proof.
  exists ext_json, (CkJson (JObj (state_as_dict (State [1%Z] 0%Q 0%Z)))).
  intros [o t n] Ho Ht Hn. simpl in *. subst. split; vm_compute; reflexivity.
Qed.

(** Initial-state payloads. *)
Lemma reshaped_row_spec raw size p row :
  0 < size -> length raw mod size = 0 -> (0 <= p)%Z ->
  (reshaped_row raw size p = Ok row <->
   (p < Z.of_nat (length raw / size))%Z /\ length row = size /\
   forall c, c < size -> row !! c = raw !! (Z.to_nat p * size + c)).
Proof.
  intros Hs Hm Hp. unfold reshaped_row, py_norm.
  rewrite (proj2 (Z.leb_le 0 p)) by lia.
  destruct (Z.ltb_spec p (Z.of_nat (length raw / size))) as [Hlt|Hge].
  2:{ split; [discriminate|]. intros (H & _). lia. }
  assert (Hb : Z.to_nat p * size + size <= length raw).
  { pose proof (Nat.div_mod (length raw) size ltac:(lia)). nia. }
  assert (Hrow : length (take size (drop (Z.to_nat p * size) raw)) = size /\
    forall c, c < size ->
      take size (drop (Z.to_nat p * size) raw) !! c = raw !! (Z.to_nat p * size + c)).
  { split; [rewrite take_length, drop_length; lia|].
    intros c Hc. rewrite lookup_take by done. rewrite lookup_drop. done. }
  split.
  - intros [= <-]. split; [done|]. exact Hrow.
  - intros (_ & Hlen & Hl). f_equal. destruct Hrow as [Hlen' Hl'].
    apply list_eq_same_length with (n := size); [done..|].
    intros c x y Hc. rewrite Hl, Hl' by done. congruence.
Qed.

(* ------------------------------------------------------------------ *)
(** ** The two ways of loading an initial occupation agree *)

From Coq Require Import Sorted.
From Verif Require Import ActiveSiteSpec.

Lemma rmapM_bind {A B C} (f : B -> result C) (g : A -> list B) (l : list A) :
  rmapM f (l ≫= g) = rmap (@List.concat C) (rmapM (fun x => rmapM f (g x)) l).
Proof.
  induction l as [|x l IH]; [done|]. rewrite bind_cons, rmapM_app, IH. simpl.
  destruct (rmapM f (g x)); simpl; [|done].
  destruct (rmapM (fun x => rmapM f (g x)) l); done.
Qed.

Lemma reshaped_row_map raw size p :
  0 < size -> length raw mod size = 0 -> p < length raw / size ->
  reshaped_row raw size (Z.of_nat p) =
  rmapM (fun k => py_get raw (Z.of_nat k)) (seq (p * size) size).
Proof.
  intros Hs Hm Hp.
  assert (Hb : p * size + size <= length raw).
  { pose proof (Nat.div_mod (length raw) size ltac:(lia)). nia. }
  destruct (rmapM_ok_exists (fun k => py_get raw (Z.of_nat k)) (seq (p * size) size))
    as (out & Hout).
  { intros k Hk. apply elem_of_seq in Hk.
    destruct (py_get_ok raw (Z.of_nat k)) as (x & Hx & _); [lia|eauto]. }
  rewrite Hout. apply reshaped_row_spec; [done..|lia|].
  pose proof (rmapM_length _ _ _ Hout) as Hlen. rewrite seq_length in Hlen.
  split; [lia|]. split; [done|]. intros c Hc. rewrite Nat2Z.id.
  destruct (rmapM_lookup_l _ _ _ c (p * size + c) Hout) as (y & Hy & Hg).
  { rewrite lookup_seq_lt by done. done. }
  rewrite Hy. apply py_get_nonneg in Hg; [|lia]. rewrite Nat2Z.id in Hg. done.
Qed.

Lemma blocks_increasing size (l : list nat) :
  StronglySorted lt l -> StronglySorted lt (l ≫= fun p => seq (p * size) size).
Proof.
  intros Hs. induction Hs as [|p l Hs IH Hf]; [constructor|].
  rewrite bind_cons.
  assert (Hafter : Forall (fun k => p * size + size <= k) (l ≫= fun p => seq (p * size) size)).
  { apply Forall_forall. intros k Hk. apply elem_of_list_bind in Hk as (q & Hk & Hq).
    rewrite Forall_forall in Hf. specialize (Hf q Hq).
    apply elem_of_seq in Hk. nia. }
  assert (Hgen : forall n m, m + n <= p * size + size ->
    StronglySorted lt (seq m n ++ (l ≫= fun p => seq (p * size) size))).
  { induction n as [|n IHn]; intros m Hmn; simpl; [done|].
    constructor; [apply IHn; lia|]. apply Forall_app. split.
    - apply Forall_forall. intros k Hk. apply elem_of_seq in Hk. lia.
    - eapply Forall_impl; [exact Hafter|]. simpl. lia. }
  apply Hgen. lia.
Qed.

Lemma built_blocks parse fp template mapping shape o :
  built parse fp template mapping shape o ->
  exists vol pa, 0 < vol /\ Z.of_nat vol = cells (o_shape o) /\
    o_prim_active o = map Z.of_nat pa /\
    o_a2o o = map Z.of_nat (pa ≫= fun p => seq (p * vol) vol) /\
    (forall p, p ∈ pa -> (Z.of_nat p < o_prim_count o)%Z) /\
    o_orig_count o = (o_prim_count o * Z.of_nat vol)%Z.
Proof.
  intros H. pose proof (order_partition_lemma _ _ _ _ _ _ H) as [Horig (Hinc & _ & Hsp)].
  pose proof (fun k => order_active_iff_lemma _ _ _ _ _ _ k H) as Hact.
  apply built_inv in H as (a & b & c & allowed & Hpos & Hsh & _ & Hlen & _ & H).
  cbn zeta in H. destruct H as (Hpc & Hoc & Hpa & _ & _ & _ & _ & Hal & _).
  exists (Z.to_nat (a * (b * c))), (primitive_active allowed).
  assert (Hvol : Z.of_nat (Z.to_nat (a * (b * c))) = (a * (b * c))%Z) by nia.
  assert (Hcells : cells (o_shape o) = (a * (b * c))%Z).
  { rewrite Hsh. unfold cells. simpl. lia. }
  assert (Hin : forall p, p ∈ primitive_active allowed -> (Z.of_nat p < o_prim_count o)%Z).
  { intros p Hp. apply elem_of_primitive_active in Hp as (l & Hl & _).
    apply lookup_lt_Some in Hl. rewrite Hpc. lia. }
  split; [nia|]. split; [rewrite Hcells; done|]. split; [done|]. split.
  2:{ split; [done|]. rewrite Horig, Hcells, Hvol. done. }
  apply increasing_ext; [done| |].
  { apply increasing_of_nat, blocks_increasing, primitive_active_sorted. }
  intros k. rewrite elem_of_map_of_nat. split.
  - intros Hk. assert (Hr : (0 <= k < o_orig_count o)%Z) by (apply Hsp; auto).
    apply Hact in Hk; [|done]. rewrite Hal, Hcells in Hk.
    rewrite <- (allowed_lookup_labels allowed _ (fun n => 1 < n)) in Hk.
    apply elem_of_primitive_active in Hk.
    exists (Z.to_nat k). split; [lia|]. apply elem_of_list_bind.
    eexists. split; [|exact Hk]. apply elem_of_seq.
    pose proof (Z.div_mod k (a * (b * c)) ltac:(nia)).
    pose proof (Z.mod_pos_bound k (a * (b * c)) ltac:(nia)).
    assert (0 <= k / (a * (b * c)))%Z by (apply Z.div_pos; nia).
    split; nia.
  - intros (n & -> & Hn). apply elem_of_list_bind in Hn as (p & Hn & Hp).
    apply elem_of_seq in Hn. specialize (Hin p Hp).
    apply Hact.
    { rewrite Horig, Hcells. nia. }
    rewrite Hal, Hcells. rewrite <- (allowed_lookup_labels allowed _ (fun n => 1 < n)).
    apply elem_of_primitive_active.
    replace (Z.to_nat (Z.of_nat n / (a * (b * c)))) with p; [done|].
    assert (Z.of_nat p = (Z.of_nat n / (a * (b * c)))%Z); [|lia].
    apply (Z.div_unique _ _ _ (Z.of_nat n - Z.of_nat p * (a * (b * c)))); nia.
Qed.

Lemma select_sites_agrees_lemma parse fp template mapping shape o raw :
  built parse fp template mapping shape o ->
  Z.of_nat (length raw) = o_orig_count o ->
  initial_occupation raw (Some (o_shape o)) (Some (o_prim_active o)) None =
  initial_occupation raw None None (Some o).
Proof.
  intros H Hlen.
  destruct (select_active_values_lemma _ _ _ _ _ _ raw H) as (_ & Hsel & _).
  destruct (Hsel Hlen) as (out & Hout & Holen & Hol).
  assert (HR : initial_occupation raw None None (Some o) = Ok out).
  { unfold initial_occupation. unfold select_active_values in Hout.
    destruct (Nat.eqb (length raw) (active_site_count o)) eqn:E; [done|].
    unfold select_active_values. rewrite E. done. }
  rewrite HR.
  assert (Hget : rmapM (py_get raw) (o_a2o o) = Ok out).
  { apply order_partition_lemma in H as [_ (_ & _ & Hsp)].
    apply rmapM_ok. apply Forall2_same_length_lookup. split; [done|].
    intros a k y Hk Hy. rewrite (Hol a k Hk) in Hy.
    assert (Hr : (0 <= k < o_orig_count o)%Z).
    { apply Hsp. left. by eapply elem_of_list_lookup_2. }
    apply py_get_nonneg; [lia|done]. }
  destruct (built_blocks _ _ _ _ _ _ H) as (vol & pa & Hv & Hvol & Hpa & Ha2o & Hin & Horig).
  apply built_inv in H as (a & b & c & allowed & Hpos & Hsh & _).
  unfold initial_occupation. rewrite Hsh. cbn [length Nat.eqb negb existsb].
  destruct (Z.leb_spec a 0), (Z.leb_spec b 0), (Z.leb_spec c 0); [lia..|]. cbn [orb].
  rewrite <- Hsh. change (fold_right Z.mul 1%Z (o_shape o)) with (cells (o_shape o)).
  rewrite <- Hvol, Nat2Z.id.
  assert (Hmul : length raw = Z.to_nat (o_prim_count o) * vol) by nia.
  rewrite Hmul at 1. rewrite Nat.mod_mul by lia. cbn [Nat.eqb negb].
  rewrite Hpa, rmapM_map.
  rewrite (rmapM_ext _ (fun p => rmapM (fun k => py_get raw (Z.of_nat k)) (seq (p * vol) vol))).
  2:{ intros p Hp. apply reshaped_row_map; [done| |].
      - rewrite Hmul. apply Nat.mod_mul. lia.
      - rewrite Hmul, Nat.div_mul by lia. specialize (Hin p Hp). lia. }
  rewrite Ha2o, rmapM_map, rmapM_bind in Hget.
  destruct (rmapM (fun p => rmapM _ (seq (p * vol) vol)) pa); simpl in *; done.
Qed.

Lemma fingerprint_trusted_lemma :
  exists o1 d o2, order_from_dict d = Ok o2 /\ assert_same_order_dict o1 d = Ok tt /\
    o_a2o o1 <> o_a2o o2.
Proof.
  pose (mk := fun a2o => {| o_prim_count := 1; o_orig_count := 2; o_prim_active := [0];
     o_a2o := a2o; o_a2p := [0; 0]; o_fixed := []; o_shape := [2; 1; 1];
     o_species := ["Na+"]; o_allowed := [["Na+"; "X0+"]]; o_fp := "fp";
     o_template := None |}%Z%string).
  exists (mk [0; 1]%Z), (order_as_dict (mk [1; 0]%Z)), (mk [1; 0]%Z).
  split; [vm_compute; reflexivity|]. split; [vm_compute; reflexivity|]. discriminate.
Qed.
