(** Proofs about site-energy models. *)
From Coq Require Import Reals QArith Qround Lra.
From Verif Require Import Py PyLemmas Json ActiveSiteModel EventModel EventSpec EventProofs
  StateModel StateProofs HopModel KmcModel KmcSpec KmcProofs LceModel LceSpec LceProofs
  CompositeModel CompositeSpec CompositeProofs SiteEnergyModel SiteEnergySpec.
Local Open Scope nat_scope.

(* ---------------- Python equality ---------------- *)
Lemma ext_eqb_refl a : ext_eqb a a = true.
Proof.
  destruct a; simpl; [apply Z.eqb_refl|by apply Qeq_bool_iff|apply String.eqb_refl].
Qed.
Lemma ext_eqb_sym a b : ext_eqb a b = true -> ext_eqb b a = true.
Proof.
  destruct a, b; simpl; try done; rewrite ?Z.eqb_eq, ?Qeq_bool_iff, ?String.eqb_eq;
    by intros ->.
Qed.
Lemma inject_Z_inj x y : (inject_Z x == inject_Z y)%Q -> x = y.
Proof. unfold Qeq. simpl. lia. Qed.
Lemma ext_eqb_trans a b c : ext_eqb a b = true -> ext_eqb b c = true -> ext_eqb a c = true.
Proof.
  destruct a, b, c; simpl; try done; rewrite ?Z.eqb_eq, ?Qeq_bool_iff, ?String.eqb_eq;
    intros H1 H2; subst; try done; try (by rewrite H1); try (by rewrite <-H2).
  apply inject_Z_inj. by rewrite H1.
Qed.

Lemma trunc_comp p q : (p == q)%Q -> trunc p = trunc q.
Proof.
  intros H. unfold trunc. rewrite (Qfloor_comp _ _ H), (Qceiling_comp _ _ H).
  destruct (Qle_bool 0 p) eqn:E1, (Qle_bool 0 q) eqn:E2; try done.
  - apply Qle_bool_iff in E1. rewrite H in E1. apply Qle_bool_iff in E1. congruence.
  - apply Qle_bool_iff in E2. rewrite <-H in E2. apply Qle_bool_iff in E2. congruence.
Qed.
Lemma trunc_Z z : trunc (inject_Z z) = z.
Proof. unfold trunc. rewrite Qfloor_Z, Qceiling_Z. by destruct (Qle_bool _ _). Qed.

(* ---------------- dense state tables ---------------- *)
Lemma zmax_spec x l : (x <= zmax x l)%Z /\ forall y, y ∈ l -> (y <= zmax x l)%Z.
Proof.
  unfold zmax. revert x. induction l as [|z l IH]; intros x; simpl.
  { split; [lia|]. intros y Hy. by apply elem_of_nil in Hy. }
  destruct (IH (Z.max x z)) as [H1 H2]. split; [lia|].
  intros y Hy. apply elem_of_cons in Hy as [->|Hy]; [lia|auto].
Qed.
Lemma zmin_spec x l : (zmin x l <= x)%Z /\ forall y, y ∈ l -> (zmin x l <= y)%Z.
Proof.
  unfold zmin. revert x. induction l as [|z l IH]; intros x; simpl.
  { split; [lia|]. intros y Hy. by apply elem_of_nil in Hy. }
  destruct (IH (Z.min x z)) as [H1 H2]. split; [lia|].
  intros y Hy. apply elem_of_cons in Hy as [->|Hy]; [lia|auto].
Qed.

Lemma fill_table (lo : Z) (d : dict Z ext_value) (vs : list (option ext_value)) :
  NoDup (dkeys d) ->
  (forall k, k ∈ dkeys d -> (lo <= k < lo + Z.of_nat (length vs))%Z) ->
  let r := fold_left (fun vs p => <[Z.to_nat (fst p - lo) := Some (snd p)]> vs) d vs in
  length r = length vs /\
  forall i, i < length vs ->
    r !! i = match dget d (lo + Z.of_nat i)%Z with Some v => Some (Some v) | None => vs !! i end.
Proof.
  revert vs. induction d as [|[k v] d IH]; intros vs Hnd Hr; cbn -[dget]; [done|].
  unfold dkeys in *. simpl in Hnd, Hr. apply NoDup_cons in Hnd as [Hk Hnd].
  destruct (IH (<[Z.to_nat (k - lo) := Some v]> vs) Hnd) as [H1 H2].
  { intros k' Hk'. rewrite insert_length. apply Hr. by right. }
  rewrite insert_length in H1, H2. split; [done|]. intros i Hi. cbn. rewrite H2 by done.
  pose proof (Hr k (elem_of_list_here _ _)) as Hkr.
  destruct (decide ((lo + Z.of_nat i)%Z = k)) as [He|Hne].
  - assert (Hn : dget d (lo + Z.of_nat i)%Z = None) by (apply dget_None; unfold dkeys; by subst).
    rewrite Hn. replace (Z.to_nat (k - lo)) with i by lia. by apply list_lookup_insert.
  - destruct (dget d _); [done|]. apply list_lookup_insert_ne. lia.
Qed.

Lemma build_state_lookup_spec m sl s :
  NoDup (dkeys m) -> build_state_lookup (Some m) = Some sl ->
  state_lookup_value sl s = match dget m s with Some v => Ok v | None => Err ValueError end.
Proof.
  destruct m as [|[k0 v0] rest]; intros Hnd H.
  { injection H as <-. unfold state_lookup_value. simpl.
    by destruct (_ || _). }
  unfold build_state_lookup in H. cbn [fst] in H.
  set (d := (k0, v0) :: rest) in *.
  set (lo := zmin k0 (map fst rest)) in *. set (hi := zmax k0 (map fst rest)) in *.
  apply (inj Some) in H. subst sl.
  assert (Hrange : forall k, k ∈ dkeys d -> (lo <= k <= hi)%Z).
  { intros k Hk. unfold dkeys, d in Hk. simpl in Hk.
    destruct (zmin_spec k0 (map fst rest)) as [A1 A2].
    destruct (zmax_spec k0 (map fst rest)) as [B1 B2]. fold lo hi in A1, A2, B1, B2.
    apply elem_of_cons in Hk as [->|Hk]; [lia|]. split; [by apply A2|by apply B2]. }
  assert (Hlh : (lo <= hi)%Z).
  { pose proof (Hrange k0 ltac:(unfold dkeys, d; simpl; left)). lia. }
  destruct (fill_table lo d (replicate (Z.to_nat (hi - lo + 1)) None) Hnd) as [H1 H2].
  { intros k Hk. rewrite replicate_length. pose proof (Hrange k Hk). lia. }
  rewrite replicate_length in H1, H2.
  unfold state_lookup_value. cbn [sl_values sl_offset].
  rewrite H1.
  destruct ((s - lo <? 0)%Z || (Z.of_nat (Z.to_nat (hi - lo + 1)) <=? s - lo)%Z) eqn:E.
  - assert (Hn : dget d s = None).
    { apply dget_None. intros Hin. apply Hrange in Hin. apply orb_true_iff in E as [E|E];
        [apply Z.ltb_lt in E|apply Z.leb_le in E]; lia. }
    rewrite Hn. done.
  - apply orb_false_iff in E as [E1%Z.ltb_ge E2%Z.leb_gt].
    rewrite H2 by lia.
    replace (lo + Z.of_nat (Z.to_nat (s - lo)))%Z with s by lia.
    destruct (dget d s); [done|].
    destruct (_ !! _) as [[x|]|] eqn:Hx; [|done..].
    apply lookup_replicate in Hx as [? _]. done.
Qed.

(** The tables built for [n] sites agree with the user's mappings. *)
Definition tables_ok (c : se_config) (n : nat) (t : tables) : Prop :=
  length (t_lookup t) = n /\
  (forall i, i < n -> exists p, t_lookup t !! i = Some (Z.of_nat p) /\
     site_of c i = Some (Z.of_nat p)) /\
  forall i s, i < n -> external_value (t_states t) (t_by_site t) (Z.of_nat i) s =
    match value_of c i s with Some v => Ok v | None => Err ValueError end.

Lemma state_tables_spec c n i s :
  proper_dicts c -> i < n ->
  external_value (build_state_lookup (state_mapping c))
    (build_by_site c n (build_state_lookup (state_mapping c))) (Z.of_nat i) s =
  match value_of c i s with Some v => Ok v | None => Err ValueError end.
Proof.
  intros (_ & Hs & Hb) Hi. unfold external_value, build_by_site, value_of.
  assert (Hg : match build_state_lookup (state_mapping c) with
               | Some sl => state_lookup_value sl s
               | None => Ok (EInt s)
               end = match match state_mapping c with
                           | Some m => dget m s
                           | None => Some (EInt s)
                           end with Some v => Ok v | None => Err ValueError end).
  { destruct (state_mapping c) as [m|] eqn:Hm; [|done].
    destruct (build_state_lookup (Some m)) as [sl|] eqn:Hsl.
    - eapply build_state_lookup_spec; eauto.
    - destruct m as [|[]]; done. }
  destruct (state_mapping_by_site c) as [d|] eqn:Hd; [|exact Hg].
  assert (Hget : py_get (map (fun i => match dget d (Z.of_nat i) with
                   | Some m => build_state_lookup (Some m)
                   | None => build_state_lookup (state_mapping c) end) (seq 0 n)) (Z.of_nat i)
                 = Ok (match dget d (Z.of_nat i) with
                   | Some m => build_state_lookup (Some m)
                   | None => build_state_lookup (state_mapping c) end)).
  { apply py_get_nat. rewrite list_lookup_fmap, lookup_seq_lt by done. done. }
  rewrite Hget. cbn [rbind].
  destruct (dget d (Z.of_nat i)) as [m|] eqn:Hm; [|exact Hg].
  destruct (build_state_lookup (Some m)) as [sl|] eqn:Hsl.
  - eapply build_state_lookup_spec; [|done]. by apply (Hb d) in Hm.
  - destruct m as [|[]]; done.
Qed.

Lemma build_site_lookup_ok c n lk :
  build_site_lookup c n = Ok lk ->
  length lk = n /\ forall i, i < n -> exists p, lk !! i = Some (Z.of_nat p) /\
    site_of c i = Some (Z.of_nat p).
Proof.
  unfold build_site_lookup. intros H. apply rbind_ok in H as (l & Hl & H).
  assert (Hlen : length l = n /\ forall i p, l !! i = Some p -> i < n /\ site_of c i = Some p).
  { unfold site_of. destruct (site_mapping c) as [m|].
    - split; [rewrite (rmapM_length _ _ _ Hl); apply seq_length|].
      intros i p Hp. destruct (rmapM_lookup _ _ _ _ _ Hl Hp) as (j & Hj & Hd).
      apply lookup_seq in Hj as [-> ?]. simpl in *. destruct (dget m _); [|done].
      injection Hd as ->. done.
    - injection Hl as <-. rewrite map_length, seq_length. split; [done|].
      intros i p Hp. rewrite list_lookup_fmap in Hp.
      destruct (seq 0 n !! i) as [j|] eqn:Hj; [|done]. apply lookup_seq in Hj as [-> ?].
      simpl in Hp. injection Hp as <-. done. }
  destruct Hlen as [Hlen Hl'].
  destruct (existsb _ l) eqn:Hneg; [done|].
  assert (lk = l) as ->.
  { destruct (match initial_array c with Some _ => _ | None => _ end), (list_zmax l);
      try (destruct (_ <=? _)%Z); congruence. }
  split; [done|]. intros i Hi.
  destruct (lookup_lt_is_Some_2 l i) as [p Hp]; [lia|].
  assert (Hp0 : (0 <= p)%Z).
  { destruct (Z.ltb_spec p 0) as [Hlt|]; [|done]. exfalso.
    apply not_true_iff_false in Hneg. apply Hneg. apply existsb_exists.
    exists p. split; [|by apply Z.ltb_lt].
    apply elem_of_list_In. by eapply elem_of_list_lookup_2. }
  exists (Z.to_nat p). rewrite Z2Nat.id by done. split; [done|]. by apply Hl'.
Qed.

Section SiteEnergyProofs.
  Variable text : ext_value -> string.
  Variable parse_int : string -> option Z.
  Variable parse_float : string -> option Q.
  Notation cast := (cast text parse_int parse_float).
  Notation store := (store text parse_int parse_float).
  Notation mirrors := (mirrors text parse_int parse_float).

  Lemma cast_respects d a b w :
    (forall n, d = DText n -> (exists s, a = EStr s) /\ (exists t, b = EStr t)) ->
    ext_eqb a b = true -> cast d a = Ok w ->
    exists w', cast d b = Ok w' /\ ext_eqb w w' = true.
  Proof.
    intros Hd He Hc. destruct d as [| | |n].
    - destruct a, b; simpl in *; try done;
        rewrite ?Z.eqb_eq, ?Qeq_bool_iff, ?String.eqb_eq in He;
        try (injection Hc as <-); subst; eexists; (split; [done|]); simpl;
        rewrite ?Z.eqb_eq, ?Qeq_bool_iff; rewrite ?Z.eqb_refl; try done.
      + rewrite <-(trunc_comp _ _ He). by rewrite trunc_Z.
      + rewrite (trunc_comp _ _ He). by rewrite trunc_Z.
      + by rewrite (trunc_comp _ _ He).
      + apply ext_eqb_refl.
    - destruct a, b; simpl in *; try done;
        rewrite ?Z.eqb_eq, ?Qeq_bool_iff, ?String.eqb_eq in He;
        try (injection Hc as <-); subst; eexists; (split; [done|]); simpl;
        rewrite ?Z.eqb_eq, ?Qeq_bool_iff; rewrite ?Z.eqb_refl; try done.
      apply ext_eqb_refl.
    - simpl in *. injection Hc as <-. eauto.
    - destruct (Hd n eq_refl) as [[s ->] [t ->]]. simpl in He. apply String.eqb_eq in He as ->.
      exists w. split; [done|apply ext_eqb_refl].
  Qed.

  Lemma store_ok d a p v a' :
    store d a (Z.of_nat p) v = Ok a' ->
    exists w, cast d v = Ok w /\ p < length a /\ a' = <[p := w]> a.
  Proof.
    unfold SiteEnergyModel.store. intros H. apply rbind_ok in H as (w & Hw & H).
    apply py_set_nat in H as [Hp ->]. eauto.
  Qed.

  (* ---------------- building the array ---------------- *)
  Lemma store_fold (lk : list Z) (pos : nat -> nat) d n vs a a' :
    (forall i, n <= i < n + length vs -> lk !! i = Some (Z.of_nat (pos i))) ->
    (forall i j, n <= i < n + length vs -> n <= j < n + length vs -> pos i = pos j -> i = j) ->
    rfold (fun a p => let* i := py_get lk (Z.of_nat (fst p)) in store d a i (snd p))
      a (enum_from n vs) = Ok a' ->
    length a' = length a /\
    (forall i v, vs !! i = Some v -> exists w, cast d v = Ok w /\ a' !! pos (n + i) = Some w) /\
    (forall p, (forall i, n <= i < n + length vs -> pos i <> p) -> a' !! p = a !! p).
  Proof.
    revert n a. induction vs as [|v vs IH]; intros n a Hlk Hinj H; simpl in H.
    { injection H as <-. split; [done|]. split; [|done]. intros i v Hv. by rewrite lookup_nil in Hv. }
    apply rbind_ok in H as (a1 & H1 & H). apply rbind_ok in H1 as (q & Hq & H1).
    apply py_get_nat in Hq. rewrite Hlk in Hq by (simpl; lia). injection Hq as <-.
    apply store_ok in H1 as (w & Hw & Hp & ->).
    apply IH in H as (Hlen & Hv & Ho).
    2:{ intros i Hi. apply Hlk. simpl. lia. }
    2:{ intros i j Hi Hj. apply Hinj; simpl; lia. }
    rewrite insert_length in Hlen. split; [done|]. split.
    - intros [|i] u Hu; simpl in Hu.
      + injection Hu as ->. exists w. split; [done|]. rewrite Nat.add_0_r. rewrite Ho.
        * by apply list_lookup_insert.
        * intros i Hi Heq. apply Hinj in Heq; simpl; lia.
      + destruct (Hv i u Hu) as (w' & Hw' & Hl). exists w'. split; [done|].
        by replace (n + S i) with (S n + i) by lia.
    - intros p Hnp. rewrite Ho by (intros i Hi; apply Hnp; simpl; lia).
      apply list_lookup_insert_ne. apply Hnp. simpl. lia.
  Qed.

  Lemma build_external_mirrors c t occ d a :
    tables_ok c (length occ) t -> injective_sites c (length occ) ->
    build_external text parse_int parse_float c t occ = Ok (d, a) ->
    mirrors c d a occ.
  Proof.
    intros (Hlen & Hlk & Hval) Hinj H. unfold build_external in H.
    apply rbind_ok in H as (vs & Hvs & H).
    apply rbind_ok in H as (start & Hstart & H).
    apply rbind_ok in H as (a' & Hf & [= <- <-]).
    set (d := resolve_dtype c vs) in *.
    assert (Hvlen : length vs = length occ).
    { rewrite (rmapM_length _ _ _ Hvs). unfold enumerate. apply enum_from_length. }
    assert (exists pos, forall i, i < length occ -> t_lookup t !! i = Some (Z.of_nat (pos i)) /\
                     site_of c i = Some (Z.of_nat (pos i))) as [pos Hpos].
    { exists (fun i => match t_lookup t !! i with Some p => Z.to_nat p | None => 0 end).
      intros i Hi. destruct (Hlk i Hi) as (p & Hp & Hs). rewrite Hp, Nat2Z.id. done. }
    apply (store_fold _ pos) in Hf as (Hla & Hv & Ho).
    2:{ intros i Hi. apply Hpos. lia. }
    2:{ intros i j Hi Hj Heq. eapply Hinj; [lia|lia|apply Hpos; lia|].
        rewrite Heq. apply Hpos. lia. }
    split.
    - intros i s Hs. pose proof (lookup_lt_Some _ _ _ Hs) as Hi.
      destruct (lookup_lt_is_Some_2 vs i) as [v Hvi]; [lia|].
      destruct (rmapM_lookup _ _ _ _ _ Hvs Hvi) as ([j s'] & Hj & Hx).
      rewrite enumerate_lookup, Hs in Hj. simpl in Hj. injection Hj as <- <-.
      simpl in Hx. rewrite Hval in Hx by done.
      destruct (value_of c i s) as [v'|] eqn:Hv'; [|done]. injection Hx as ->.
      destruct (Hv i v Hvi) as (w & Hw & Ha).
      exists (pos i), v, w, w. split; [by apply Hpos|]. split; [done|]. split; [done|].
      split; [done|apply ext_eqb_refl].
    - intros p x Hx Hnot. rewrite Ho in Hx.
      2:{ intros i Hi Heq. apply (Hnot i); [lia|]. rewrite <-Heq. apply Hpos. lia. }
      unfold starting_value. destruct (initial_array c) as [arr|].
      + destruct (rmapM_lookup _ _ _ _ _ Hstart Hx) as (v & Hv0 & Hc). eauto.
      + destruct (external_length _ _ _ <? 0)%Z; [done|].
        apply rbind_ok in Hstart as (w & Hw & [= <-]).
        apply lookup_replicate in Hx as [-> _]. eauto.
  Qed.

  (* ---------------- applying changes ---------------- *)
  Notation apply_changes d a chs :=
    (rfold (fun b ch => store d b (ch_external ch) (ch_new ch)) a chs).

  Lemma one_change_ok c n t i old new o :
    tables_ok c n t -> i < n -> one_change t (Z.of_nat i, old, new) = Ok o ->
    exists p vo vn, site_of c i = Some (Z.of_nat p) /\ value_of c i old = Some vo /\
      value_of c i new = Some vn /\
      o = if ext_eqb vo vn then None
          else Some (Change (Z.of_nat i) (Z.of_nat p) old new vo vn).
  Proof.
    intros (Hlen & Hlk & Hval) Hi. unfold one_change. intros H.
    apply rbind_ok in H as (q & Hq & H). apply rbind_ok in H as (vo & Hvo & H).
    apply rbind_ok in H as (vn & Hvn & [= <-]).
    destruct (Hlk i Hi) as (p & Hp & Hs). apply py_get_nat in Hq. rewrite Hp in Hq.
    injection Hq as <-. rewrite Hval in Hvo, Hvn by done.
    destruct (value_of c i old) as [u|]; [|done]. injection Hvo as ->.
    destruct (value_of c i new) as [u|]; [|done]. injection Hvn as ->.
    exists p, vo, vn. done.
  Qed.

  (** What one (site, old, new) triple does to the array. *)
  Definition site_write c d (a a' : list ext_value) (x : nat * Z * Z) : Prop :=
    let '(i, old, new) := x in
    exists p vo vn, site_of c i = Some (Z.of_nat p) /\ value_of c i old = Some vo /\
      value_of c i new = Some vn /\
      (if ext_eqb vo vn then a' !! p = a !! p
       else exists w, cast d vn = Ok w /\ a' !! p = Some w).

  Definition zsite (x : nat * Z * Z) : Z * Z * Z := (Z.of_nat (fst (fst x)), snd (fst x), snd x).

  Lemma changes_write c n t d l chs a a' :
    tables_ok c n t -> injective_sites c n ->
    (forall x, x ∈ l -> fst (fst x) < n) -> NoDup (map (fun x => fst (fst x)) l) ->
    mapped_changes t (map zsite l) = Ok chs -> apply_changes d a chs = Ok a' ->
    length a' = length a /\
    (forall x, x ∈ l -> site_write c d a a' x) /\
    (forall p, (forall i, i ∈ map (fun x => fst (fst x)) l -> site_of c i <> Some (Z.of_nat p)) ->
       a' !! p = a !! p).
  Proof.
    intros Ht Hinj. revert a chs. induction l as [|[[i old] new] l IH]; intros a chs Hr Hnd Hm Ha.
    { simpl in Hm. injection Hm as <-. simpl in Ha. injection Ha as <-.
      split; [done|]. split; [|done]. intros x Hx. by apply elem_of_nil in Hx. }
    simpl in Hnd. apply NoDup_cons in Hnd as [Hni Hnd].
    unfold mapped_changes in Hm. apply rbind_ok in Hm as (cs & Hcs & [= <-]).
    cbn [map rmapM] in Hcs. apply rbind_ok in Hcs as (o & Ho & Hcs).
    apply rbind_ok in Hcs as (cs' & Hcs' & [= <-]).
    unfold zsite in Ho. cbn [fst snd] in Ho.
    assert (Hi : i < n) by (apply (Hr (i, old, new)); left).
    pose proof (one_change_ok _ _ _ _ _ _ _ Ht Hi Ho) as (p & vo & vn & Hs & Hvo & Hvn & ->).
    assert (Hrest : mapped_changes t (map zsite l) = Ok (omap (fun o => o) cs')).
    { unfold mapped_changes. rewrite Hcs'. done. }
    assert (Hpn : forall j, j ∈ map (fun x => fst (fst x)) l -> site_of c j <> Some (Z.of_nat p)).
    { intros j Hj Hsj. assert (j = i) as ->; [|done].
      apply elem_of_list_fmap in Hj as (y & -> & Hy).
      eapply Hinj; [apply Hr; by right|done|exact Hsj|exact Hs]. }
    destruct (ext_eqb vo vn) eqn:Heq; cbn [omap list_omap] in Ha.
    - destruct (IH _ _ (fun x Hx => Hr x (elem_of_list_further _ _ _ Hx)) Hnd Hrest Ha)
        as (Hlen & Hw & Hoth).
      split; [done|]. split.
      + intros x Hx. apply elem_of_cons in Hx as [->|Hx]; [|by apply Hw].
        exists p, vo, vn. do 3 (split; [done|]). rewrite Heq. by apply Hoth.
      + intros q Hq. apply Hoth. intros j Hj. apply Hq. simpl. by right.
    - cbn [rfold ch_external ch_new] in Ha. apply rbind_ok in Ha as (a1 & H1 & Ha).
      apply store_ok in H1 as (w & Hw & Hp & ->).
      destruct (IH _ _ (fun x Hx => Hr x (elem_of_list_further _ _ _ Hx)) Hnd Hrest Ha)
        as (Hlen & Hw' & Hoth).
      rewrite insert_length in Hlen. split; [done|]. split.
      + intros x Hx. apply elem_of_cons in Hx as [->|Hx].
        * exists p, vo, vn. do 3 (split; [done|]). rewrite Heq. exists w. split; [done|].
          rewrite Hoth by done. by apply list_lookup_insert.
        * specialize (Hw' x Hx). destruct x as [[j oj] nj].
          destruct Hw' as (q & uo & un & Hsq & Huo & Hun & Hq).
          exists q, uo, un. do 3 (split; [done|]). destruct (ext_eqb uo un); [|done].
          rewrite Hq. apply list_lookup_insert_ne. intros ->.
          apply (Hpn j); [|done]. apply elem_of_list_fmap. by exists (j, oj, nj).
      + intros q Hq. rewrite Hoth.
        * apply list_lookup_insert_ne. intros ->. apply (Hq i); [simpl; left|done].
        * intros j Hj. apply Hq. simpl. by right.
  Qed.

  (** The changes of a hop within range, as (site, old, new) triples. *)
  Lemma pre_changes_triples t f g env occ x y :
    occ !! f = Some x -> occ !! g = Some y ->
    changes_from_pre_state t (Event [Z.of_nat f; Z.of_nat g] env) occ =
    mapped_changes t (map zsite [(f, x, y); (g, y, x)]).
  Proof.
    intros Hx Hy. unfold changes_from_pre_state. cbn [mobile_ion_indices unpack2 rbind fst snd].
    rewrite (proj2 (py_get_nat occ f x) Hx), (proj2 (py_get_nat occ g y) Hy). done.
  Qed.
  Lemma post_changes_triples t f g env occ x y :
    occ !! f = Some y -> occ !! g = Some x ->
    changes_from_post_state t (Event [Z.of_nat f; Z.of_nat g] env) occ =
    mapped_changes t (map zsite [(f, x, y); (g, y, x)]).
  Proof.
    intros Hy Hx. unfold changes_from_post_state. cbn [mobile_ion_indices unpack2 rbind fst snd].
    rewrite (proj2 (py_get_nat occ f y) Hy), (proj2 (py_get_nat occ g x) Hx). done.
  Qed.

  Lemma same_site_no_change c n t f x chs :
    tables_ok c n t -> f < n ->
    mapped_changes t (map zsite [(f, x, x); (f, x, x)]) = Ok chs -> chs = [].
  Proof.
    intros Ht Hf H. unfold mapped_changes in H. apply rbind_ok in H as (cs & Hcs & [= <-]).
    cbn [map rmapM] in Hcs. apply rbind_ok in Hcs as (o & Ho & Hcs).
    rewrite Ho in Hcs. cbn [rbind] in Hcs. injection Hcs as <-.
    unfold zsite in Ho. cbn [fst snd] in Ho.
    apply (one_change_ok _ _ _ _ _ _ _ Ht Hf) in Ho as (p & vo & vn & _ & Hvo & Hvn & ->).
    rewrite Hvo in Hvn. injection Hvn as <-. rewrite ext_eqb_refl. done.
  Qed.

  (** Storing the changes of a swap turns a mirror of the state before into a mirror of
      the state after. *)
  Lemma mirrors_step c t d f g x y occ chs a a' :
    tables_ok c (length occ) t -> injective_sites c (length occ) -> text_only_for_text c d ->
    occ !! f = Some x -> occ !! g = Some y ->
    mapped_changes t (map zsite [(f, x, y); (g, y, x)]) = Ok chs ->
    apply_changes d a chs = Ok a' ->
    mirrors c d a occ -> mirrors c d a' (<[g := x]> (<[f := y]> occ)).
  Proof.
    intros Ht Hinj Htext Hf Hg Hm Ha [Hmir Hoth].
    pose proof (lookup_lt_Some _ _ _ Hf) as Hfn. pose proof (lookup_lt_Some _ _ _ Hg) as Hgn.
    destruct (decide (f = g)) as [->|Hfg].
    { rewrite Hf in Hg. injection Hg as ->.
      apply (same_site_no_change c (length occ)) in Hm as ->; [|done..].
      simpl in Ha. injection Ha as <-.
      rewrite list_insert_insert, list_insert_id by done. done. }
    destruct (changes_write c (length occ) t d [(f, x, y); (g, y, x)] chs a a')
      as (Hlen & Hw & Hun); [done|done| | |exact Hm|exact Ha|].
    { intros z Hz. rewrite !elem_of_cons in Hz.
        destruct Hz as [->|[->|Hz%elem_of_nil]]; [done|done|done]. }
    { simpl. apply NoDup_cons. split; [|apply NoDup_singleton].
      intros Hin%elem_of_list_singleton. done. }
    assert (Hwf := Hw (f, x, y) (elem_of_list_here _ _)).
    assert (Hwg := Hw (g, y, x) (elem_of_list_further _ _ _ (elem_of_list_here _ _))).
    clear Hw.
    assert (Hsite : forall i old new, occ !! i = Some old ->
              site_write c d a a' (i, old, new) ->
              exists p v w z, site_of c i = Some (Z.of_nat p) /\ value_of c i new = Some v /\
                cast d v = Ok w /\ a' !! p = Some z /\ ext_eqb z w = true).
    { intros i old new Hold (p & vo & vn & Hs & Hvo & Hvn & Hc).
      destruct (ext_eqb vo vn) eqn:Heq.
      - destruct (Hmir i old Hold) as (p' & v & w & z & Hs' & Hv & Hcw & Haz & Hzw).
        rewrite Hs in Hs'. injection Hs' as Hp. apply Nat2Z.inj in Hp as <-.
        rewrite Hvo in Hv. injection Hv as <-.
        destruct (cast_respects d vo vn w) as (w' & Hw' & Hww').
        + intros k Hk. unfold text_only_for_text in Htext. subst d. split; eapply Htext; eauto.
        + done.
        + done.
        + exists p, vn, w', z. do 3 (split; [done|]). rewrite Hc. split; [done|].
          by eapply ext_eqb_trans.
      - destruct Hc as (w & Hw & Hl). exists p, vn, w, w. do 4 (split; [done|]).
        apply ext_eqb_refl. }
    split.
    - intros i s Hi.
      destruct (decide (i = g)) as [->|Hig].
      { rewrite list_lookup_insert in Hi by (rewrite insert_length; done). injection Hi as <-.
        by eapply Hsite. }
      rewrite list_lookup_insert_ne in Hi by done.
      destruct (decide (i = f)) as [->|Hif].
      { rewrite list_lookup_insert in Hi by done. injection Hi as <-. by eapply Hsite. }
      rewrite list_lookup_insert_ne in Hi by done.
      destruct (Hmir i s Hi) as (p & v & w & z & Hs & Hv & Hc & Haz & Hzw).
      exists p, v, w, z. do 3 (split; [done|]). split; [|done]. rewrite Hun; [done|].
      pose proof (lookup_lt_Some _ _ _ Hi) as Hin.
      intros j Hj Hsj. assert (i = j) as <- by (eapply Hinj; [done| |done|done];
        simpl in Hj; rewrite !elem_of_cons in Hj; destruct Hj as [->|[->|Hj%elem_of_nil]]; done).
      simpl in Hj. rewrite !elem_of_cons in Hj. destruct Hj as [->|[->|Hj%elem_of_nil]]; done.
    - rewrite !insert_length. intros p z Hz Hnot. apply Hoth; [|done].
      rewrite <-Hz. symmetry. apply Hun. intros j Hj. apply Hnot.
      simpl in Hj. rewrite !elem_of_cons in Hj. destruct Hj as [->|[->|Hj%elem_of_nil]]; done.
  Qed.

  Lemma mirrors_same_values c d a b occ :
    injective_sites c (length occ) ->
    length a = length b -> mirrors c d a occ -> mirrors c d b occ ->
    same_values a b.
  Proof.
    intros Hinj Hlen [Ha1 Ha2] [Hb1 Hb2]. unfold same_values.
    apply Forall2_same_length_lookup_2; [done|]. intros p x y Hx Hy.
    destruct (decide (Exists (fun i => site_of c i = Some (Z.of_nat p)) (seq 0 (length occ))))
      as [He|Hne].
    - apply Exists_exists in He as (i & Hi & Hs). apply elem_of_seq in Hi as [_ Hi].
      destruct (lookup_lt_is_Some_2 occ i) as [s Hs']; [lia|].
      destruct (Ha1 i s Hs') as (p1 & v1 & w1 & x1 & H1 & H2 & H3 & H4 & H5).
      destruct (Hb1 i s Hs') as (p2 & v2 & w2 & x2 & H1' & H2' & H3' & H4' & H5').
      rewrite Hs in H1, H1'. injection H1 as H1%Nat2Z.inj. injection H1' as H1'%Nat2Z.inj.
      subst p1 p2. ok_eq. simplify_eq. ok_eq. simplify_eq.
      eapply ext_eqb_trans; [exact H5|]. by apply ext_eqb_sym.
    - assert (Hno : forall i, i < length occ -> site_of c i <> Some (Z.of_nat p)).
      { intros i Hi Hs. apply Hne. apply Exists_exists. exists i. split; [|done].
        apply elem_of_seq. lia. }
      destruct (Ha2 p x Hx Hno) as (v1 & Hv1 & Hc1). destruct (Hb2 p y Hy Hno) as (v2 & Hv2 & Hc2).
      simplify_eq. ok_eq. apply ext_eqb_refl.
  Qed.

  (* ---------------- the evaluator object ---------------- *)
  Context {Rt : Type}.
  Variable resolve_runtime : result Rt.
  Variable compute_fn : Rt -> list ext_value -> list change -> event -> list Z -> result R.
  Variable apply_fn : option (Rt -> list ext_value -> list change -> event -> list Z -> result Rt).
  Notation initialize_state :=
    (initialize_state text parse_int parse_float resolve_runtime).
  Notation se_apply := (se_apply text parse_int parse_float apply_fn).
  Notation se_compute := (se_compute compute_fn).

  Lemma with_order_same c h n i :
    site_of (with_order c h n) i = site_of c i /\
    (forall s, value_of (with_order c h n) i s = value_of c i s) /\
    (forall p, starting_value (with_order c h n) p = starting_value c p).
  Proof. done. Qed.

  Lemma initialize_ok c given occ lib m :
    proper_dicts c -> injective_sites c (length occ) ->
    initialize_state c given occ lib = Ok m ->
    tables_ok c (length occ) (sc_tables m) /\ mirrors c (sc_dtype m) (sc_external m) occ.
  Proof.
    intros Hp Hinj H. unfold SiteEnergyModel.initialize_state in H.
    apply rbind_ok in H as (c' & Hc' & H). apply rbind_ok in H as (u & _ & H).
    apply rbind_ok in H as (lk & Hlk & H). apply rbind_ok in H as ([d a] & Hda & H).
    apply rbind_ok in H as (us & _ & H). apply rbind_ok in H as (rt & _ & [= <-]).
    cbn [sc_tables sc_dtype sc_external fst snd].
    assert (Hcc : c' = c \/ exists h n, c' = with_order c h n).
    { unfold set_site_order in Hc'. destruct given as [[h n]|]; [|left; congruence].
      destruct (site_order_hash c); [destruct (String.eqb h s); [|done]|];
        injection Hc' as <-; right; eauto. }
    assert (Ht : tables_ok c' (length occ)
              (Tables lk (build_state_lookup (state_mapping c'))
                 (build_by_site c' (length occ) (build_state_lookup (state_mapping c'))))).
    { apply build_site_lookup_ok in Hlk as [Hlen Hl]. split; [done|]. split; [done|].
      intros i s Hi. apply state_tables_spec; [|done].
      by destruct Hcc as [->|(h & n & ->)]. }
    assert (Hm : mirrors c' d a occ).
    { eapply build_external_mirrors; [exact Ht| |exact Hda].
      by destruct Hcc as [->|(h & n & ->)]. }
    by destruct Hcc as [->|(h & n & ->)].
  Qed.

  Lemma apply_ok m e occ m' :
    se_apply m e occ = Ok m' ->
    sc_tables m' = sc_tables m /\ sc_dtype m' = sc_dtype m /\
    exists chs, changes_from_post_state (sc_tables m) e occ = Ok chs /\
      apply_changes (sc_dtype m) (sc_external m) chs = Ok (sc_external m').
  Proof.
    unfold SiteEnergyModel.se_apply. intros H. apply rbind_ok in H as (chs & Hchs & H).
    destruct chs as [|ch chs]; [injection H as <-; eauto 10|].
    apply rbind_ok in H as (rt & _ & H). apply rbind_ok in H as (a & Ha & [= <-]).
    cbn [sc_tables sc_dtype sc_external]. split; [done|]. split; [done|]. eauto.
  Qed.

  Lemma store_length d a i u a' : store d a i u = Ok a' -> length a' = length a.
  Proof.
    unfold SiteEnergyModel.store. intros H. apply rbind_ok in H as (w & _ & H).
    by eapply py_set_length.
  Qed.

  Lemma rfold_length {A B} (f : list A -> B -> result (list A)) l a a' :
    (forall b x b', f b x = Ok b' -> length b' = length b) ->
    rfold f a l = Ok a' -> length a' = length a.
  Proof.
    intros Hf. revert a. induction l as [|x l IH]; intros a H; simpl in H; [by injection H as ->|].
    apply rbind_ok in H as (b & Hb & H). rewrite (IH _ H). by eapply Hf.
  Qed.

  (** The length of the array depends on the configuration and the number of sites. *)
  Lemma initialize_length c given occ lib m given2 occ2 lib2 m2 :
    length occ2 = length occ ->
    initialize_state c given occ lib = Ok m -> initialize_state c given2 occ2 lib2 = Ok m2 ->
    length (sc_external m2) = length (sc_external m).
  Proof.
    assert (Hone : forall given occ lib m, initialize_state c given occ lib = Ok m ->
              exists lk0, build_site_lookup c (length occ) = Ok lk0 /\
              length (sc_external m) = match initial_array c with
                | Some a => length (a_values a)
                | None => Z.to_nat (external_length c lk0 (length occ))
                end).
    { intros gv oc lb mm H. unfold SiteEnergyModel.initialize_state in H.
      apply rbind_ok in H as (c' & Hc' & H). apply rbind_ok in H as (u & _ & H).
      apply rbind_ok in H as (lk0 & Hlk & H). apply rbind_ok in H as ([d a] & Hda & H).
      apply rbind_ok in H as (us & _ & H). apply rbind_ok in H as (rt & _ & [= <-]).
      cbn [sc_external snd].
      assert (Hcc : c' = c \/ exists h n, c' = with_order c h n).
      { unfold set_site_order in Hc'. destruct gv as [[h n]|]; [|left; congruence].
        destruct (site_order_hash c); [destruct (String.eqb h s); [|done]|];
          injection Hc' as <-; right; eauto. }
      exists lk0. split; [by destruct Hcc as [->|(h & n & ->)]|].
      unfold build_external in Hda. apply rbind_ok in Hda as (vs & _ & Hda).
      apply rbind_ok in Hda as (start & Hstart & Hda). apply rbind_ok in Hda as (a' & Hf & [= <- <-]).
      apply rfold_length in Hf.
      2:{ intros b x b' Hb. apply rbind_ok in Hb as (i & _ & Hb). by eapply store_length. }
      rewrite Hf.
      assert (Hia : initial_array c' = initial_array c) by (by destruct Hcc as [->|(h & n & ->)]).
      assert (Hel : external_length c' lk0 (length oc) = external_length c lk0 (length oc))
        by (by destruct Hcc as [->|(h & n & ->)]).
      rewrite Hia in Hstart. cbn [t_lookup] in Hstart. rewrite Hel in Hstart.
      destruct (initial_array c) as [arr|]; [by eapply rmapM_length|].
      destruct (_ <? 0)%Z; [done|]. apply rbind_ok in Hstart as (w & _ & [= <-]).
      by rewrite replicate_length. }
    intros Hlen H1 H2. destruct (Hone _ _ _ _ H1) as (l1 & Hl1 & ->).
    destruct (Hone _ _ _ _ H2) as (l2 & Hl2 & ->). rewrite Hlen in *.
    rewrite Hl1 in Hl2. injection Hl2 as <-. done.
  Qed.

  (** Endpoints of an event within range, as naturals. *)
  Lemma in_range_endpoints es n e occ occ' :
    indices_in_range es n -> e ∈ es -> length occ = n -> swap_occupations occ e = Ok occ' ->
    exists f g env x y, e = Event [Z.of_nat f; Z.of_nat g] env /\ f < n /\ g < n /\
      occ !! f = Some x /\ occ !! g = Some y /\ occ' = <[g := x]> (<[f := y]> occ) /\
      occ' !! f = Some y /\ occ' !! g = Some x.
  Proof.
    intros Hr He Hn Hsw.
    pose proof (swap_spec _ _ _ Hsw) as (f & g & _ & _ & _ & _ & Hfg & _).
    destruct e as [mi env]. simpl in Hfg. subst mi.
    assert (Hf : (0 <= f < Z.of_nat n)%Z) by (eapply Hr; [exact He|]; left; simpl; left).
    assert (Hg : (0 <= g < Z.of_nat n)%Z).
    { eapply Hr; [exact He|]. left. simpl. right. left. }
    apply swap_in_range_inv in Hsw as (x & y & Hx & Hy & -> & Hx' & Hy'); [|lia..].
    exists (Z.to_nat f), (Z.to_nat g), env, x, y.
    rewrite !Z2Nat.id by lia. repeat split; try done; lia.
  Qed.

  Definition cache_ok (c : se_config) (occ : list Z) (m : cache Rt) : Prop :=
    tables_ok c (length occ) (sc_tables m) /\ mirrors c (sc_dtype m) (sc_external m) occ.

  Lemma apply_mirrors c es occ e occ' m m' :
    injective_sites c (length occ) -> indices_in_range es (length occ) -> e ∈ es ->
    text_only_for_text c (sc_dtype m) ->
    swap_occupations occ e = Ok occ' -> se_apply m e occ' = Ok m' ->
    cache_ok c occ m -> cache_ok c occ' m'.
  Proof.
    intros Hinj Hr He Htext Hsw Ha [Ht Hm].
    destruct (in_range_endpoints _ _ _ _ _ Hr He eq_refl Hsw)
      as (f & g & env & x & y & -> & Hf & Hg & Hx & Hy & Hocc & Hx' & Hy').
    apply apply_ok in Ha as (Htb & Hd & chs & Hchs & Ha).
    rewrite (post_changes_triples _ _ _ _ _ _ _ Hx' Hy') in Hchs.
    split.
    - rewrite Htb. by rewrite (swap_length _ _ _ Hsw).
    - rewrite Hd, Hocc. eapply mirrors_step; eauto.
  Qed.

  (** Positions of sites that are not endpoints keep their content. *)
  Lemma apply_others c es occ e occ' m m' i p :
    injective_sites c (length occ) -> indices_in_range es (length occ) -> e ∈ es ->
    swap_occupations occ e = Ok occ' -> se_apply m e occ' = Ok m' ->
    tables_ok c (length occ) (sc_tables m) ->
    i < length occ -> Z.of_nat i ∉ mobile_ion_indices e -> site_of c i = Some (Z.of_nat p) ->
    sc_external m' !! p = sc_external m !! p.
  Proof.
    intros Hinj Hr He Hsw Ha Ht Hi Hni Hs.
    destruct (in_range_endpoints _ _ _ _ _ Hr He eq_refl Hsw)
      as (f & g & env & x & y & -> & Hf & Hg & Hx & Hy & Hocc & Hx' & Hy').
    apply apply_ok in Ha as (Htb & Hd & chs & Hchs & Ha).
    rewrite (post_changes_triples _ _ _ _ _ _ _ Hx' Hy') in Hchs.
    simpl in Hni. rewrite !not_elem_of_cons in Hni. destruct Hni as (Hnf & Hng & _).
    destruct (decide (f = g)) as [->|Hfg].
    { rewrite Hx in Hy. injection Hy as ->.
      apply (same_site_no_change c (length occ)) in Hchs as ->; [|done..].
      simpl in Ha. by injection Ha as <-. }
    destruct (changes_write c (length occ) (sc_tables m) (sc_dtype m) [(f, x, y); (g, y, x)] chs
      (sc_external m) (sc_external m')) as (_ & _ & Hun); [done|done| | |exact Hchs|exact Ha|].
    3: { apply Hun. intros j Hj Hsj. simpl in Hj. rewrite !elem_of_cons in Hj.
      assert (i = j) as <-.
      { eapply Hinj; [done| |done|done]. destruct Hj as [->|[->|Hj%elem_of_nil]]; done. }
      destruct Hj as [->|[->|Hj%elem_of_nil]]; done. }
    - intros z Hz. rewrite !elem_of_cons in Hz.
      destruct Hz as [->|[->|Hz%elem_of_nil]]; [done|done|done].
    - simpl. apply NoDup_cons. split; [|apply NoDup_singleton].
      intros Hin%elem_of_list_singleton. done.
  Qed.

  (* ---------------- in the engine ---------------- *)
  Variables (comp : composite) (cfg : se_config) (given : option (string * nat)).
  Variables (lk : option lookup) (v temp : R) (init : cache Rt).
  Notation rate := (compute_probability (se_compute cfg) comp lk v temp).
  Notation kconstruct :=
    (construct Rplus (composite_initialize (initialize_state cfg given) comp init) rate).
  Notation kupdate := (update Rplus (composite_apply se_apply comp) rate).
  Notation kupdates := (updates Rplus (composite_apply se_apply comp) rate).

  Definition mirror_ok (lib : event_lib) (n : nat) (d : dtype) (k : kmc R (cache Rt)) : Prop :=
    k_lib k = lib /\ length (occupations (k_state k)) = n /\ sc_dtype (k_model k) = d /\
    cache_ok cfg (occupations (k_state k)) (k_model k).

  Lemma update_mirror_ok lib n d k e dt k' :
    c_site comp = ExternalSite -> injective_sites cfg n -> indices_in_range (events lib) n ->
    text_only_for_text cfg d ->
    mirror_ok lib n d k -> kupdate k e dt = Ok k' -> mirror_ok lib n d k'.
  Proof.
    intros Hs Hinj Hr Ht (<- & <- & <- & Hok) Hu.
    apply update_inv in Hu as (Hlib & _ & Hsw & _ & _ & Hm & Hin & _ & _).
    unfold composite_apply in Hm. rewrite Hs in Hm.
    split; [done|]. split; [by eapply swap_length|].
    split; [by apply apply_ok in Hm as (_ & -> & _)|].
    by eapply apply_mirrors.
  Qed.

  Lemma construct_mirror_ok lib st k :
    c_site comp = ExternalSite -> proper_dicts cfg ->
    injective_sites cfg (length (occupations st)) ->
    kconstruct lib lk st = Ok k ->
    mirror_ok lib (length (occupations st)) (sc_dtype (k_model k)) k.
  Proof.
    intros Hs Hp Hinj Hc. pose proof (construct_inv _ _ _ _ _ _ _ Hc) as (Hlib & _ & Hst & _).
    split; [done|]. rewrite Hst. split; [done|]. split; [done|].
    unfold construct in Hc. apply rbind_ok in Hc as (u & _ & Hc).
    apply rbind_ok in Hc as (m & Hm & Hc). apply rbind_ok in Hc as (p & _ & [= <-]).
    cbn [k_model]. unfold composite_initialize in Hm. rewrite Hs in Hm.
    by eapply initialize_ok.
  Qed.

  Lemma follows_lemma lib st k hist k' :
    c_site comp = ExternalSite -> proper_dicts cfg ->
    injective_sites cfg (length (occupations st)) ->
    indices_in_range (events lib) (length (occupations st)) ->
    kconstruct lib lk st = Ok k ->
    text_only_for_text cfg (sc_dtype (k_model k)) ->
    kupdates k hist = Ok k' ->
    sc_dtype (k_model k') = sc_dtype (k_model k) /\
    mirrors cfg (sc_dtype (k_model k')) (sc_external (k_model k')) (occupations (k_state k')).
  Proof.
    intros Hs Hp Hinj Hr Hc Ht Hu.
    assert (H : mirror_ok lib (length (occupations st)) (sc_dtype (k_model k)) k').
    { eapply updates_inv; [|by apply construct_mirror_ok|exact Hu].
      intros k1 e dt k2 H1 H2. by eapply update_mirror_ok. }
    destruct H as (_ & _ & Hd & _ & Hm). done.
  Qed.

  Lemma fresh_build_lemma lib st k hist k' given2 lib2 m2 :
    c_site comp = ExternalSite -> proper_dicts cfg ->
    injective_sites cfg (length (occupations st)) ->
    indices_in_range (events lib) (length (occupations st)) ->
    kconstruct lib lk st = Ok k ->
    text_only_for_text cfg (sc_dtype (k_model k)) ->
    kupdates k hist = Ok k' ->
    initialize_state cfg given2 (occupations (k_state k')) lib2 = Ok m2 ->
    sc_dtype m2 = sc_dtype (k_model k) ->
    same_values (sc_external (k_model k')) (sc_external m2).
  Proof.
    intros Hs Hp Hinj Hr Hc Ht Hu Hm2 Hd2.
    set (n := length (occupations st)) in *.
    assert (H : mirror_ok lib n (sc_dtype (k_model k)) k' /\
                length (sc_external (k_model k')) = length (sc_external (k_model k))).
    { eapply (updates_inv Rplus _ _ (fun k1 => mirror_ok lib n (sc_dtype (k_model k)) k1 /\
        length (sc_external (k_model k1)) = length (sc_external (k_model k)))); [| |exact Hu].
      - intros k1 e dt k2 [H1 H1'] H2. split; [by eapply update_mirror_ok|].
        apply update_inv in H2 as (_ & _ & _ & _ & _ & Hm & _).
        unfold composite_apply in Hm. rewrite Hs in Hm.
        apply apply_ok in Hm as (_ & _ & chs & _ & Ha). rewrite <-H1'.
        eapply rfold_length; [|exact Ha]. intros b x b'. apply store_length.
      - split; [by apply construct_mirror_ok|done]. }
    destruct H as ((Hlib & Hn & Hd & Ht' & Hm) & Hlen).
    assert (Hinj' : injective_sites cfg (length (occupations (k_state k')))) by (by rewrite Hn).
    destruct (initialize_ok _ _ _ _ _ Hp Hinj' Hm2) as [_ Hmir].
    assert (Hm0 : initialize_state cfg given (occupations st) lib = Ok (k_model k)).
    { unfold construct in Hc. apply rbind_ok in Hc as (u & _ & Hc).
      apply rbind_ok in Hc as (m & Hm' & Hc). apply rbind_ok in Hc as (p & _ & [= <-]).
      cbn [k_model]. unfold composite_initialize in Hm'. by rewrite Hs in Hm'. }
    rewrite Hd in Hm. rewrite Hd2 in Hmir.
    eapply mirrors_same_values; [exact Hinj'| |exact Hm|exact Hmir].
    rewrite Hlen. symmetry. eapply initialize_length; [|exact Hm0|exact Hm2]. done.
  Qed.

  (* ---------------- freshness ---------------- *)
  Lemma rate_local occ e occ' m m' e' es :
    injective_sites cfg (length occ) -> indices_in_range es (length occ) ->
    e ∈ es -> e' ∈ es -> ~ share_site e e' ->
    local_function cfg (length occ) compute_fn ->
    c_site comp = ExternalSite ->
    swap_occupations occ e = Ok occ' -> se_apply m e occ' = Ok m' ->
    tables_ok cfg (length occ) (sc_tables m) ->
    rate m' occ' e' = rate m occ e'.
  Proof.
    intros Hinj Hr He He' Hns Hloc Hs Hsw Ha Ht.
    pose proof (swap_length _ _ _ Hsw) as Hlen.
    destruct (in_range_endpoints _ _ _ _ _ Hr He eq_refl Hsw)
      as (f & g & env & x & y & Heq & Hf & Hg & Hx & Hy & Hocc & Hx' & Hy').
    assert (Hother : forall s, touches e' s -> s ∉ mobile_ion_indices e).
    { intros s Hts Hin. apply Hns. exists s. split; [by left|done]. }
    assert (Hread : forall s, touches e' s -> py_get occ' s = py_get occ s).
    { intros s Hts. pose proof (Hr e' s He' Hts) as Hsr. pose proof (Hother s Hts) as Hno.
      subst e. simpl in Hno. rewrite !not_elem_of_cons in Hno. destruct Hno as (? & ? & _).
      apply py_get_same; [lia|done|]. subst occ'. rewrite !list_lookup_insert_ne by lia. done. }
    assert (Henv : forall s, s ∈ local_env_indices e' -> py_get occ' s = py_get occ s).
    { intros s Hse. apply Hread. by right. }
    assert (Hext : se_compute cfg m' occ' e' = se_compute cfg m occ e').
    { pose proof (apply_ok _ _ _ _ Ha) as (Htb & _ & _).
      unfold SiteEnergyModel.se_compute. rewrite Htb.
      assert (Hpre : changes_from_pre_state (sc_tables m) e' occ' =
                     changes_from_pre_state (sc_tables m) e' occ).
      { unfold changes_from_pre_state.
        destruct (unpack2 (mobile_ion_indices e')) as [[a b]|] eqn:Hu2; [|done].
        apply unpack2_ok in Hu2. cbn [rbind fst snd].
        rewrite (Hread a), (Hread b); [done|left; rewrite Hu2; right; left|left; rewrite Hu2; left]. }
      rewrite Hpre. destruct (changes_from_pre_state _ e' occ) as [[|ch chs]|]; [done| |done].
      cbn [rbind]. rewrite (Hloc (sc_runtime m') (sc_runtime m) (sc_external m')
        (sc_external m) _ _ occ' occ); [done|done|done|].
      intros i p Hti Hi Hsi. pose proof (Hother _ Hti) as Hno. split.
      - exact (apply_others cfg es occ e occ' m m' i p Hinj Hr He Hsw Ha Ht Hi Hno Hsi).
      - subst e. simpl in Hno. rewrite !not_elem_of_cons in Hno. destruct Hno as (? & ? & _).
        subst occ'. rewrite !list_lookup_insert_ne by lia. done. }
    unfold compute_probability. destruct (event_codes lk e') as [codes|]; [|done]. cbn [rbind].
    assert (Hd : event_direction occ' e' codes = event_direction occ e' codes).
    { unfold event_direction.
      destruct (unpack2 (mobile_ion_indices e')) as [[a b]|] eqn:Hu; [|done].
      apply unpack2_ok in Hu. cbn [rbind].
      rewrite (Hread a), (Hread b); [done|left; rewrite Hu; right; left|left; rewrite Hu; left]. }
    rewrite Hd. destruct (event_direction occ e' codes) as [d|]; [|done]. cbn [rbind].
    destruct (d =? 0)%Z; [done|]. destruct (kra_model comp) as [kra|]; [|done].
    rewrite (lce_reads_environment kra _ _ _ Henv).
    destruct (Rcompute kra occ e'); [|done]. cbn [rbind].
    unfold site_energy_difference. rewrite Hs, Hext. done.
  Qed.

  Lemma site_energy_fresh_lemma lib st k hist k' :
    c_site comp = ExternalSite -> proper_dicts cfg ->
    injective_sites cfg (length (occupations st)) ->
    local_function cfg (length (occupations st)) compute_fn ->
    exact_dependencies (events lib) (get_dependent_events lib) ->
    indices_in_range (events lib) (length (occupations st)) ->
    kconstruct lib lk st = Ok k ->
    kupdates k hist = Ok k' ->
    fresh rate k'.
  Proof.
    intros Hs Hp Hinj Hloc Hx Hr Hc Hu.
    set (n := length (occupations st)) in *.
    assert (H : k_lib k' = lib /\ length (occupations (k_state k')) = n /\
                tables_ok cfg n (sc_tables (k_model k')) /\ fresh rate k').
    { eapply (updates_inv Rplus _ _ (fun k => k_lib k = lib /\
        length (occupations (k_state k)) = n /\
        tables_ok cfg n (sc_tables (k_model k)) /\ fresh rate k)); [| |exact Hu].
      - intros k1 e dt k2 (<- & Hn & Ht & Hf) H2.
        pose proof (update_inv _ _ _ _ _ _ _ H2) as (Hlib & _ & Hsw & _ & _ & Hm & Hin & _).
        unfold composite_apply in Hm. rewrite Hs in Hm.
        split; [done|]. split; [by rewrite (swap_length _ _ _ Hsw)|].
        split; [by apply apply_ok in Hm as (-> & _)|].
        eapply update_fresh_step; [exact Hx| |done|done].
        intros e' He' Hns. rewrite <-Hn in Hinj, Hr, Hloc, Ht.
        exact (rate_local _ e _ _ _ e' _ Hinj Hr Hin He' Hns Hloc Hs Hsw Hm Ht).
      - destruct (construct_mirror_ok _ _ _ Hs Hp Hinj Hc) as (Hl & Hn & _ & Hok & _).
        split; [done|]. split; [done|]. rewrite Hn in Hok. split; [done|].
        by apply construct_inv in Hc as (_ & _ & _ & Hf & _). }
    apply H.
  Qed.

  (* ---------------- detailed balance ---------------- *)
  Lemma changes_back t c n f g x y chs :
    tables_ok c n t -> f < n -> g < n ->
    mapped_changes t (map zsite [(f, x, y); (g, y, x)]) = Ok chs ->
    mapped_changes t (map zsite [(f, y, x); (g, x, y)]) = Ok (map
      (fun ch => Change (ch_site ch) (ch_external ch) (ch_new_state ch) (ch_old_state ch)
                        (ch_new ch) (ch_old ch)) chs).
  Proof.
    intros Ht Hf Hg H. unfold mapped_changes in *. apply rbind_ok in H as (cs & Hcs & [= <-]).
    cbn [map rmapM] in *. apply rbind_ok in Hcs as (o1 & Ho1 & Hcs).
    apply rbind_ok in Hcs as (cs' & Hcs & [= <-]). apply rbind_ok in Hcs as (o2 & Ho2 & [= <-]).
    assert (Hone : forall i a b o, i < n -> one_change t (zsite (i, a, b)) = Ok o ->
              one_change t (zsite (i, b, a)) = Ok ((fun ch => Change (ch_site ch) (ch_external ch)
                (ch_new_state ch) (ch_old_state ch) (ch_new ch) (ch_old ch)) <$> o)).
    { intros i a b o Hi Ho. unfold zsite in *. cbn [fst snd] in *. unfold one_change in *.
      apply rbind_ok in Ho as (p & Hp & Ho). apply rbind_ok in Ho as (vo & Hvo & Ho).
      apply rbind_ok in Ho as (vn & Hvn & [= <-]). rewrite Hp, Hvn, Hvo. cbn [rbind].
      destruct (ext_eqb vo vn) eqn:E1, (ext_eqb vn vo) eqn:E2; try done.
      - apply ext_eqb_sym in E1. congruence.
      - apply ext_eqb_sym in E2. congruence. }
    rewrite (Hone _ _ _ _ Hf Ho1), (Hone _ _ _ _ Hg Ho2). cbn [rbind].
    destruct o1, o2; done.
  Qed.

  Lemma balance_lemma (H : list ext_value -> R) lib st k0 hist k e dt k' r r' codes :
    c_site comp = ExternalSite -> proper_dicts cfg ->
    injective_sites cfg (length (occupations st)) ->
    indices_in_range (events lib) (length (occupations st)) ->
    kconstruct lib lk st = Ok k0 ->
    text_only_for_text cfg (sc_dtype (k_model k0)) ->
    difference_of text parse_int parse_float H (sc_dtype (k_model k0)) compute_fn ->
    respects_values H ->
    (0 < v)%R -> (0 < temp)%R ->
    kupdates k0 hist = Ok k ->
    (forall f g, mobile_ion_indices e = [f; g] -> f <> g /\ f ∉ local_env_indices e /\
       g ∉ local_env_indices e) ->
    event_codes lk e = Ok codes -> endpoint_consistent codes ->
    hoppable codes (occupations (k_state k)) e ->
    kupdate k e dt = Ok k' ->
    rate (k_model k) (occupations (k_state k)) e = Ok r ->
    rate (k_model k') (occupations (k_state k')) e = Ok r' ->
    (0 < r' /\ r / r' = exp (- ((H (sc_external (k_model k')) - H (sc_external (k_model k)))
                            * unit_factor (energy_units cfg)) / (k_B * temp)))%R.
  Proof.
    intros Hs Hp Hinj Hr Hc Htext Hdiff Hresp Hv Htemp Hu Hend Hcodes Hcons Hhop Hup Hrate Hrate'.
    set (n := length (occupations st)) in *. set (d := sc_dtype (k_model k0)) in *.
    assert (Hmk : mirror_ok lib n d k).
    { eapply updates_inv; [|by apply construct_mirror_ok|exact Hu].
      intros k1 e1 dt1 k2 H1 H2. by eapply update_mirror_ok. }
    pose proof (update_mirror_ok _ _ _ _ _ _ _ Hs Hinj Hr Htext Hmk Hup) as Hmk'.
    destruct Hmk as (Hlib & Hn & Hd & Ht & Hm).
    destruct Hmk' as (_ & Hn' & Hd' & Ht' & Hm').
    pose proof (update_inv _ _ _ _ _ _ _ Hup) as (_ & _ & Hsw & _ & _ & Hap & Hin & _).
    unfold composite_apply in Hap. rewrite Hs in Hap. rewrite Hlib in Hin.
    set (occ := occupations (k_state k)) in *. set (occ' := occupations (k_state k')) in *.
    destruct (in_range_endpoints _ _ _ _ _ Hr Hin Hn Hsw)
      as (f & g & env & x & y & -> & Hf & Hg & Hx & Hy & Hocc & Hx' & Hy').
    destruct (Hend _ _ eq_refl) as (Hne & Hfe & Hge). cbn [local_env_indices] in *.
    pose proof (apply_ok _ _ _ _ Hap) as (Htb & _ & chs & Hchs & Happ).
    rewrite (post_changes_triples _ _ _ _ _ _ _ Hx' Hy') in Hchs. rewrite Hd in Happ.
    assert (Hfl : f < length occ) by (by rewrite Hn).
    assert (Hgl : g < length occ) by (by rewrite Hn).
    pose proof (changes_back _ _ _ _ _ _ _ _ Ht Hfl Hgl Hchs) as Hback.
    set (back := map _ chs) in Hback.
    (* forward difference *)
    assert (Hfwd : forall z, se_compute cfg (k_model k) occ (Event [Z.of_nat f; Z.of_nat g] env) = Ok z ->
              z = ((H (sc_external (k_model k')) - H (sc_external (k_model k)))
                   * unit_factor (energy_units cfg))%R).
    { intros z Hz. unfold SiteEnergyModel.se_compute in Hz.
      rewrite (pre_changes_triples _ _ _ _ _ _ _ Hx Hy), Hchs in Hz. cbn [rbind] in Hz.
      destruct chs as [|ch chs].
      - injection Hz as <-. simpl in Happ. injection Happ as <-. lra.
      - rewrite (Hdiff _ _ _ _ _ _ Happ) in Hz. cbn [rbind] in Hz. by injection Hz as <-. }
    assert (Hbwd : forall z, se_compute cfg (k_model k') occ' (Event [Z.of_nat f; Z.of_nat g] env) = Ok z ->
              z = ((H (sc_external (k_model k)) - H (sc_external (k_model k')))
                   * unit_factor (energy_units cfg))%R).
    { intros z Hz. unfold SiteEnergyModel.se_compute in Hz.
      rewrite Htb, (pre_changes_triples _ _ _ _ _ _ _ Hx' Hy'), Hback in Hz. cbn [rbind] in Hz.
      assert (Hstore : exists a, apply_changes d (sc_external (k_model k')) back = Ok a /\
                length a = length (sc_external (k_model k'))).
      { assert (Hall : forall ch, ch ∈ back -> exists w p, ch_external ch = Z.of_nat p /\
                  p < length (sc_external (k_model k')) /\ cast d (ch_new ch) = Ok w).
        { intros ch Hch. unfold back in Hch. apply elem_of_list_fmap in Hch as (ch0 & -> & Hch0).
          cbn [ch_external ch_new].
          assert (Hexi : exists i s, i < n /\ occ !! i = Some s /\
                    ch_external ch0 = default 0%Z (site_of cfg i) /\
                    site_of cfg i <> None /\ value_of cfg i s = Some (ch_old ch0)).
          { unfold mapped_changes in Hchs. apply rbind_ok in Hchs as (cs & Hcs & [= <-]).
            apply elem_of_list_omap in Hch0 as (o & Ho & ->).
            apply elem_of_list_lookup in Ho as (j & Ho).
            destruct (rmapM_lookup _ _ _ _ _ Hcs Ho) as (tr & Htr & Hone).
            assert (Htr2 : tr = zsite (f, x, y) \/ tr = zsite (g, y, x)).
            { destruct j as [|[|j]]; [left|right|]; [by injection Htr|by injection Htr|done]. }
            destruct Htr2 as [-> | ->]; unfold zsite in Hone; cbn [fst snd] in Hone;
              (eapply one_change_ok in Hone as (p & vo & vn & Hsp & Hvo & Hvn & Hif);
                 [|exact Ht|lia]);
              (destruct (ext_eqb vo vn); [done|]); injection Hif as ->; cbn [ch_external ch_old].
            - exists f, x. rewrite Hsp. split; [lia|]. split; [done|]. done.
            - exists g, y. rewrite Hsp. split; [lia|]. split; [done|]. done. }
          destruct Hexi as (i & s & Hi & His & Hext & Hsome & Hval).
          destruct Hm as [Hm1 _]. destruct (Hm1 i s His) as (p & v1 & w & z1 & Hsp & Hv1 & Hw & Haz & _).
          rewrite Hval in Hv1. injection Hv1 as <-. rewrite Hsp in Hext. simpl in Hext.
          exists w, p. split; [done|]. rewrite Hd in Hw. split; [|done].
          assert (Hl : length (sc_external (k_model k')) = length (sc_external (k_model k))).
          { clear -Happ. revert Happ. generalize (sc_external (k_model k)).
            induction chs as [|c0 chs IH]; intros a Ha; simpl in Ha; [by injection Ha as ->|].
            apply rbind_ok in Ha as (a1 & H1 & Ha). rewrite (IH _ Ha).
            unfold SiteEnergyModel.store in H1. apply rbind_ok in H1 as (w & _ & H1).
            by eapply py_set_length. }
          rewrite Hl. by eapply lookup_lt_Some. }
        revert Hall. generalize (sc_external (k_model k')).
        clear. induction back as [|ch back IH]; intros a Hall.
        { exists a. done. }
        destruct (Hall ch (elem_of_list_here _ _)) as (w & p & He & Hlt & Hw).
        assert (Hst : store d a (ch_external ch) (ch_new ch) = Ok (<[p := w]> a)).
        { unfold SiteEnergyModel.store. rewrite Hw. cbn [rbind]. rewrite He.
          apply py_set_nat. done. }
        destruct (IH (<[p := w]> a)) as (a' & Ha' & Hla).
        { intros ch' Hch'. rewrite insert_length. apply Hall. by right. }
        exists a'. cbn [rfold]. rewrite Hst. split; [done|]. by rewrite Hla, insert_length. }
      destruct Hstore as (a & Ha & Hla).
      (* the array after undoing the hop mirrors the state before it *)
      assert (Hma : mirrors cfg d a occ).
      { assert (Hback2 : mirrors cfg d a (<[g := y]> (<[f := x]> occ'))).
        { rewrite Hd' in Hm'.
          eapply (mirrors_step cfg (sc_tables (k_model k)) d f g y x occ' back
            (sc_external (k_model k')) a); try done.
          - rewrite <-Htb. done.
          - rewrite Hn'. done. }
        assert (Hocc2 : <[g := y]> (<[f := x]> occ') = occ).
        { rewrite Hocc. apply list_eq. intros j.
          destruct (decide (j = g)) as [->|].
          { rewrite list_lookup_insert by (rewrite !insert_length; lia). done. }
          rewrite list_lookup_insert_ne by done.
          destruct (decide (j = f)) as [->|].
          { rewrite list_lookup_insert by (rewrite !insert_length; lia). done. }
          rewrite !list_lookup_insert_ne by done. done. }
        by rewrite Hocc2 in Hback2. }
      assert (HHa : H a = H (sc_external (k_model k))).
      { apply Hresp. eapply mirrors_same_values; [|  |exact Hma|].
        - fold occ in Hn. rewrite Hn. exact Hinj.
        - rewrite Hla. clear -Happ. revert Happ. generalize (sc_external (k_model k)).
          induction chs as [|c0 chs IH]; intros b Ha; simpl in Ha; [by injection Ha as ->|].
          apply rbind_ok in Ha as (a1 & H1 & Ha). rewrite (IH _ Ha).
          unfold SiteEnergyModel.store in H1. apply rbind_ok in H1 as (w & _ & H1).
          by eapply py_set_length.
        - rewrite <-Hd. done. }
      destruct back as [|ch back'] eqn:Hbk.
      - injection Hz as <-. simpl in Ha. injection Ha as <-. rewrite HHa. lra.
      - rewrite (Hdiff _ _ _ _ _ _ Ha) in Hz. cbn [rbind] in Hz. injection Hz as <-.
        by rewrite HHa. }
    (* rates *)
    apply rate_inv in Hrate as (c1 & d1 & Hc1 & Hd1 & Hra).
    apply rate_inv in Hrate' as (c2 & d2 & Hc2 & Hd2 & Hrb).
    rewrite Hcodes in Hc1, Hc2. injection Hc1 as <-. injection Hc2 as <-.
    assert (Hd10 : d1 <> 0%Z) by (by apply (direction_hoppable _ _ _ _ Hd1)).
    destruct (hop_undone_lemma occ (Z.of_nat f) (Z.of_nat g) env codes d1 occ') as [Hdd _];
      [lia|lia|done|done|done|done|done|].
    rewrite Hdd in Hd2. injection Hd2 as <-.
    destruct Hra as [[? _]|(_ & kra & ek & delta & Hkra & Hek & Hdl & Hkt & ->)]; [done|].
    destruct Hrb as [[? _]|(_ & kra2 & ek2 & delta2 & Hkra2 & Hek2 & Hdl2 & _ & ->)]; [lia|].
    rewrite Hkra in Hkra2. injection Hkra2 as <-.
    assert (Hread : forall s, s ∈ local_env_indices (Event [Z.of_nat f; Z.of_nat g] env) ->
              py_get occ' s = py_get occ s).
    { intros s Hse. cbn [local_env_indices] in Hse.
      assert (Hsr : (0 <= s < Z.of_nat n)%Z) by (eapply Hr; [exact Hin|by right]).
      apply py_get_same; [lia|by eapply swap_length|]. rewrite Hocc.
      rewrite !list_lookup_insert_ne; [done|..]; intros ->; [apply Hfe|apply Hge];
        by rewrite Z2Nat.id by lia. }
    rewrite (lce_reads_environment kra _ _ _ Hread), Hek in Hek2. injection Hek2 as <-.
    unfold site_energy_difference in Hdl, Hdl2. rewrite Hs in Hdl, Hdl2.
    apply Hfwd in Hdl. apply Hbwd in Hdl2.
    set (h1 := H (sc_external (k_model k'))) in *. set (h0 := H (sc_external (k_model k))) in *.
    assert (Hneg : delta2 = (- delta)%R) by (rewrite Hdl, Hdl2; lra).
    clear Hdl2. subst delta2. rewrite <-Hdl. clear Hdl Hfwd Hbwd.
    split; [apply Rmult_lt_0_compat; [done|apply exp_pos]|].
    pose proof (exp_pos (- (ek + - delta / 2) / (k_B * temp))).
    replace (v * exp (- (ek + delta / 2) / (k_B * temp)) / (v * exp (- (ek + - delta / 2) / (k_B * temp))))%R
      with (exp (- (ek + delta / 2) / (k_B * temp)) * / exp (- (ek + - delta / 2) / (k_B * temp)))%R.
    2:{ field. lra. }
    rewrite <-exp_Ropp, <-exp_plus. f_equal. field. split.
    - intros ->. apply Hkt. lra.
    - pose proof k_B_pos. lra.
  Qed.
End SiteEnergyProofs.

(* ---------------- rejected configurations ---------------- *)
Lemma rmapM_in_ok {A B} (f : A -> result B) l l' x :
  rmapM f l = Ok l' -> x ∈ l -> exists y, f x = Ok y.
Proof.
  intros H Hin. apply elem_of_list_lookup in Hin as (i & Hi).
  destruct (rmapM_lookup_l _ _ _ _ _ H Hi) as (y & _ & Hy). eauto.
Qed.

Lemma order_rejected_lemma text parse_int parse_float {Rt} (resolve : result Rt) c h n occ lib :
  site_order_hash c <> None /\ site_order_hash c <> Some h \/ n <> length occ ->
  initialize_state text parse_int parse_float resolve c (Some (h, n)) occ lib = Err ValueError.
Proof.
  intros H. unfold initialize_state, set_site_order.
  destruct (site_order_hash c) as [h'|] eqn:Hh.
  - destruct (String.eqb_spec h h') as [<-|Hne]; [|done].
    destruct H as [[_ H]|H]; [done|]. cbn [rbind]. unfold validate_site_order. simpl.
    destruct (Nat.eqb_spec n (length occ)); done.
  - destruct H as [[? _]|H]; [done|]. cbn [rbind]. unfold validate_site_order. simpl.
    destruct (Nat.eqb_spec n (length occ)); done.
Qed.

Lemma unmapped_rejected_lemma text parse_int parse_float {Rt} (resolve : result Rt) c given occ lib i :
  i < length occ ->
  (site_of c i = None \/ exists p, site_of c i = Some p /\ (p < 0)%Z) ->
  exists x, initialize_state text parse_int parse_float resolve c given occ lib = Err x.
Proof.
  intros Hi Hbad.
  destruct (initialize_state text parse_int parse_float resolve c given occ lib) as [m|x] eqn:H;
    [exfalso|eauto].
  unfold initialize_state in H.
  apply rbind_ok in H as (c' & Hc' & H). apply rbind_ok in H as (u & _ & H).
  apply rbind_ok in H as (lk & Hlk & H).
  apply build_site_lookup_ok in Hlk as [_ Hl]. destruct (Hl i Hi) as (p & _ & Hp).
  assert (Hcc : site_of c' i = site_of c i).
  { unfold set_site_order in Hc'. destruct given as [[h n]|]; [|by injection Hc' as <-].
    destruct (site_order_hash c); [destruct (String.eqb h s); [|done]|]; by injection Hc' as <-. }
  rewrite Hcc in Hp. destruct Hbad as [Hb|(q & Hb & Hq)]; rewrite Hb in Hp; [done|].
  injection Hp as ->. lia.
Qed.

(* ---------------- normalised mappings ---------------- *)
Lemma NoDup_dof_pairs {K V} `{EqDecision K} (l : list (K * V)) : NoDup (dkeys (dof_pairs l)).
Proof.
  unfold dof_pairs. assert (H : NoDup (dkeys ([] : dict K V))) by constructor. revert H.
  generalize ([] : dict K V). induction l as [|[k v] l IH]; intros d Hd; [done|].
  simpl. apply IH. by apply NoDup_dkeys_dset.
Qed.

Lemma normalize_state_NoDup a m : normalize_state_mapping a = Ok (Some m) -> NoDup (dkeys m).
Proof.
  unfold normalize_state_mapping. destruct a as [[l|l]|]; [| |done].
  - intros H. apply rbind_ok in H as (ps & _ & [= <-]). apply NoDup_dof_pairs.
  - intros [= <-]. apply NoDup_dof_pairs.
Qed.

Lemma or_empty_NoDup a o : normalize_state_mapping a = Ok o -> NoDup (dkeys (or_empty o)).
Proof.
  destruct o as [m|]; simpl; [apply normalize_state_NoDup|]. intros _. constructor.
Qed.

Lemma dget_dof_pairs_in {K V} `{EqDecision K} (l : list (K * V)) k v :
  dget (dof_pairs l) k = Some v -> (k, v) ∈ l.
Proof.
  unfold dof_pairs.
  assert (H : forall d, dget (fold_left (fun d kv => dset d (fst kv) (snd kv)) l d) k = Some v ->
            (k, v) ∈ l \/ dget d k = Some v).
  { induction l as [|[k' v'] l IH]; intros d Hd; simpl in Hd; [by right|].
    destruct (IH _ Hd) as [Hin|Hg]; [left; by right|]. simpl in Hg. rewrite dget_dset in Hg.
    destruct (decide (k = k')) as [->|]; [|by right]. injection Hg as ->. left. left. }
  intros Hd. destruct (H _ Hd) as [|Hn]; [done|]. done.
Qed.

Lemma proper_dicts_lemma c sm st bs :
  normalize_site_mapping sm = Ok (site_mapping c) ->
  normalize_state_mapping st = Ok (state_mapping c) ->
  normalize_by_site bs = Ok (state_mapping_by_site c) -> proper_dicts c.
Proof.
  intros H1 H2 H3. split; [|split].
  - intros m Hm. rewrite Hm in H1. unfold normalize_site_mapping in H1.
    destruct sm as [[l|l]|]; [..|done]; apply rbind_ok in H1 as (ps & _ & [= <-]);
      apply NoDup_dof_pairs.
  - intros m Hm. rewrite Hm in H2. by eapply normalize_state_NoDup.
  - intros d Hd. rewrite Hd in H3. unfold normalize_by_site in H3.
    destruct bs as [[l|l]|]; [..|done]; apply rbind_ok in H3 as (ps & Hps & [= <-]);
      (split; [apply NoDup_dof_pairs|]); intros i m Hm; apply dget_dof_pairs_in in Hm;
      apply elem_of_list_lookup in Hm as (j & Hj);
      destruct (rmapM_lookup _ _ _ _ _ Hps Hj) as (x & _ & Hx).
    + apply rbind_ok in Hx as (k & _ & Hx). apply rbind_ok in Hx as (o & Ho & [= _ <-]).
      by eapply or_empty_NoDup.
    + apply rbind_ok in Hx as (o & Ho & [= _ <-]). by eapply or_empty_NoDup.
Qed.

Lemma translation_lemma text parse_int parse_float {Rt} (resolve : result Rt) c given occ lib m i s :
  proper_dicts c ->
  initialize_state text parse_int parse_float resolve c given occ lib = Ok m ->
  i < length occ ->
  external_value (t_states (sc_tables m)) (t_by_site (sc_tables m)) (Z.of_nat i) s =
  match value_of c i s with Some v => Ok v | None => Err ValueError end.
Proof.
  intros Hp H Hi. unfold initialize_state in H.
  apply rbind_ok in H as (c' & Hc' & H). apply rbind_ok in H as (u & _ & H).
  apply rbind_ok in H as (lk0 & Hlk & H). apply rbind_ok in H as ([d a] & Hda & H).
  apply rbind_ok in H as (us & _ & H). apply rbind_ok in H as (rt & _ & [= <-]).
  cbn [sc_tables t_states t_by_site].
  assert (Hcc : c' = c \/ exists h n, c' = with_order c h n).
  { unfold set_site_order in Hc'. destruct given as [[h n]|]; [|left; congruence].
    destruct (site_order_hash c); [destruct (String.eqb h s0); [|done]|];
      injection Hc' as <-; right; eauto. }
  destruct Hcc as [->|(h & n & ->)]; by apply (state_tables_spec c).
Qed.

(* ---------------- initialisation succeeds ---------------- *)
Lemma list_zmax_spec (l : list Z) : match list_zmax l with
  | None => l = []
  | Some mx => mx ∈ l /\ forall x, x ∈ l -> (x <= mx)%Z end.
Proof.
  destruct l as [|x l]; [done|]. simpl. split.
  - unfold zmax. revert x. induction l as [|y l IH]; intros x; simpl; [by left|].
    specialize (IH (Z.max x y)). rewrite elem_of_cons in IH. rewrite !elem_of_cons. destruct IH as [E|E]; [|auto].
    rewrite E. destruct (Z.max_spec x y) as [[_ ->]|[_ ->]]; auto.
  - intros y Hy. apply elem_of_cons in Hy as [->|Hy]; [exact (proj1 (zmax_spec x l))|exact (proj2 (zmax_spec x l) y Hy)].
Qed.

Lemma build_site_lookup_exists c n :
  initial_array c = None ->
  (forall i, i < n -> exists p, site_of c i = Some (Z.of_nat p) /\
     forall s, external_size c = Some s -> (Z.of_nat p < s)%Z) ->
  exists lk, build_site_lookup c n = Ok lk.
Proof.
  intros Ha Hs. unfold build_site_lookup. rewrite Ha.
  assert (exists lk, (match site_mapping c with
     | None => Ok (map Z.of_nat (seq 0 n))
     | Some m => rmapM (fun i => match dget m (Z.of_nat i) with
                                 | Some p => Ok p
                                 | None => Err ValueError
                                 end) (seq 0 n)
     end) = Ok lk /\ forall q, q ∈ lk -> exists i, i < n /\ site_of c i = Some q) as (lk & Hlk & Hin).
  { unfold site_of in *. destruct (site_mapping c) as [m|].
    - destruct (rmapM_ok_exists (fun i => match dget m (Z.of_nat i) with Some p => Ok p | None => Err ValueError end) (seq 0 n)) as [lk Hlk].
      { intros i Hi. apply elem_of_seq in Hi. destruct (Hs i) as (p & -> & _); [lia|eauto]. }
      exists lk. split; [done|]. intros q Hq. apply elem_of_list_lookup in Hq as [j Hj].
      destruct (rmapM_lookup _ _ _ _ _ Hlk Hj) as (i & Hi & Hd). apply lookup_seq in Hi as [-> Hi]. exists (0 + j).
      split; [done|]. destruct (dget m (Z.of_nat (0 + j))); [|done]. by injection Hd as ->.
    - eexists. split; [done|]. intros q Hq. apply elem_of_list_fmap in Hq as (i & -> & Hi). apply elem_of_seq in Hi.
      exists i. split; [lia|done]. }
  rewrite Hlk. cbn [rbind].
  assert (existsb (fun p => (p <? 0)%Z) lk = false) as ->.
  { apply not_true_iff_false. intros H. apply existsb_exists in H as (q & Hq & Hlt). apply elem_of_list_In, Hin in Hq as (i & Hi & Hsi).
    destruct (Hs i Hi) as (p & Hp & _). rewrite Hsi in Hp. injection Hp as ->. apply Z.ltb_lt in Hlt. lia. }
  destruct (external_size c) as [ub|]; [|eauto]. pose proof (list_zmax_spec lk) as Hm. destruct (list_zmax lk) as [mx|]; [|eauto].
  destruct Hm as [Hm _]. destruct (Hin mx Hm) as (i & Hi & Hsi). destruct (Hs i Hi) as (p & Hp & Hlt). rewrite Hsi in Hp. injection Hp as ->.
  specialize (Hlt ub eq_refl). destruct (Z.leb_spec ub (Z.of_nat p)); [lia|eauto].
Qed.

Lemma store_fold_exists text parse_int parse_float (lk : list Z) d vs : forall n a,
  (forall i, n <= i < n + length vs -> exists p, lk !! i = Some (Z.of_nat p) /\ p < length a) ->
  (forall v, v ∈ vs -> exists w, cast text parse_int parse_float d v = Ok w) ->
  exists a', rfold (fun a p => let* i := py_get lk (Z.of_nat (fst p)) in store text parse_int parse_float d a i (snd p))
      a (enum_from n vs) = Ok a' /\ length a' = length a.
Proof.
  induction vs as [|v vs IH]; intros n a Hl Hc; simpl; [eauto|].
  destruct (Hl n) as (p & Hp & Hlt); [simpl; lia|]. rewrite (proj2 (py_get_nat _ _ _) Hp). cbn [rbind].
  destruct (Hc v) as [w Hw]; [by left|]. unfold store at 1. rewrite Hw. cbn [rbind].
  assert (E : py_set a (Z.of_nat p) w = Ok (<[p := w]> a)) by (apply py_set_nat; done).
  rewrite E. cbn [rbind]. destruct (IH (S n) (<[p := w]> a)) as (a' & Ha & La).
  - intros i Hi. rewrite insert_length. apply Hl. simpl. lia.
  - intros u Hu. apply Hc. by right.
  - exists a'. split; [done|]. by rewrite La, insert_length.
Qed.

Lemma builds_lemma text parse_int parse_float {Rt} (rt : Rt) c given occ lib :
  proper_dicts c -> accepts_order c given (length occ) -> usable c occ (events lib) ->
  exists m, initialize_state text parse_int parse_float (Ok rt) c given occ lib = Ok m /\
    (forall s, external_size c = Some s -> Z.of_nat (length (sc_external m)) = s) /\
    (external_size c = None -> occ <> [] ->
       exists i, i < length occ /\ site_of c i = Some (Z.of_nat (length (sc_external m)) - 1)%Z).
Proof.
  intros Hpd Hord (Ha & Hd & Hf & Hsz & Hs & Hv & He).
  unfold initialize_state.
  assert (exists c', set_site_order c given = Ok c' /\ validate_site_order c' (length occ) = Ok tt /\
    (c' = c \/ exists h n, c' = with_order c h n)) as (c' & -> & Hval & Hcc).
  { unfold set_site_order, accepts_order in *. destruct given as [[h k]|].
    - destruct Hord as [-> Hh]. assert (V : validate_site_order (with_order c h (length occ)) (length occ) = Ok tt).
      { unfold validate_site_order. simpl. by rewrite Nat.eqb_refl. }
      destruct (site_order_hash c) as [h'|]; [rewrite (Hh h' eq_refl), String.eqb_refl|]; eexists; (split; [done|]); (split; [done|]); eauto.
    - exists c. split; [done|]. split; [|by left]. unfold validate_site_order. destruct (site_order c) as [[h k]|] eqn:E; [|done].
      rewrite (Hord h k eq_refl). by rewrite Nat.eqb_refl. }
  cbn [rbind]. rewrite Hval. cbn [rbind].
  assert (proper_dicts c' /\ initial_array c' = None /\ external_dtype c' = None /\ external_fill c' = external_fill c /\
    external_size c' = external_size c /\ (forall i, site_of c' i = site_of c i) /\ (forall i s, value_of c' i s = value_of c i s))
    as (Hpd' & Ha' & Hd' & Hf' & Hsz' & Hs' & Hv') by (by destruct Hcc as [->|(h & n & ->)]).
  destruct (build_site_lookup_exists c' (length occ)) as [lk Hlk]; [done| |].
  { intros i Hi. rewrite Hs', Hsz'. by apply Hs. }
  rewrite Hlk. cbn [rbind]. pose proof (build_site_lookup_ok _ _ _ Hlk) as [Hlen Hl].
  set (t := Tables lk (build_state_lookup (state_mapping c')) (build_by_site c' (length occ) (build_state_lookup (state_mapping c')))).
  assert (X : forall i s, i < length occ -> external_value (t_states t) (t_by_site t) (Z.of_nat i) s =
    match value_of c i s with Some v => Ok v | None => Err ValueError end).
  { intros i s Hi. simpl. rewrite (state_tables_spec c' (length occ) i s Hpd' Hi). by rewrite Hv'. }
  (* the array *)
  assert (exists d a, build_external text parse_int parse_float c' t occ = Ok (d, a) /\
    (forall s, external_size c = Some s -> Z.of_nat (length a) = s) /\
    (external_size c = None -> occ <> [] -> exists i, i < length occ /\ site_of c i = Some (Z.of_nat (length a) - 1)%Z))
    as (d & a & Hba & HL1 & HL2).
  { unfold build_external.
    destruct (rmapM_ok_exists (fun p => external_value (t_states t) (t_by_site t) (Z.of_nat (fst p)) (snd p)) (enumerate occ)) as [vs Hvs].
    { intros [i s] Hi. apply elem_of_enumerate in Hi. simpl. change (external_value _ _ _ _) with (external_value (t_states t) (t_by_site t) (Z.of_nat i) s).
      rewrite X by (by eapply lookup_lt_Some). destruct (Hv i s Hi) as [v ->]. eauto. }
    rewrite Hvs. cbn [rbind]. rewrite Ha'. unfold resolve_dtype. rewrite Hd', Ha', Hf'.
    set (d := match vs with [] => _ | _ => _ end).
    assert (Hcast : forall v, v ∈ vs -> exists w, cast text parse_int parse_float d v = Ok w).
    { intros v Hin. destruct vs as [|v0 vs0]; [by apply elem_of_nil in Hin|]. unfold d.
      destruct (forallb is_int (v0 :: vs0)) eqn:E1.
      - rewrite forallb_forall in E1. specialize (E1 v (proj1 (elem_of_list_In _ _) Hin)). destruct v; try done. simpl. eauto.
      - destruct (forallb is_number (v0 :: vs0)) eqn:E2; [|simpl; eauto].
        rewrite forallb_forall in E2. specialize (E2 v (proj1 (elem_of_list_In _ _) Hin)). destruct v; try done; simpl; eauto. }
    assert (exists w, cast text parse_int parse_float d (external_fill c) = Ok w) as [w Hw].
    { clearbody d. clear - Hf. destruct d; simpl; eauto; destruct (external_fill c); try done; eauto. }
    assert (Hn : (0 <= external_length c' (t_lookup t) (length occ))%Z /\
      (forall q, q ∈ lk -> (q < external_length c' (t_lookup t) (length occ))%Z) /\
      (external_size c = None -> occ <> [] -> (external_length c' (t_lookup t) (length occ) - 1)%Z ∈ lk)).
    { assert (Q : forall q, q ∈ lk -> exists i p, i < length occ /\ q = Z.of_nat p /\ site_of c i = Some q).
      { intros q Hq. apply elem_of_list_lookup in Hq as [i Hi]. assert (Hlt : i < length occ) by (rewrite <- Hlen; by eapply lookup_lt_Some).
        destruct (Hl i Hlt) as (p & Hp & Hsp). rewrite Hi in Hp. injection Hp as ->. exists i, p. rewrite <- Hs'. done. }
      unfold external_length. rewrite Hsz'. simpl. destruct (external_size c) as [s|] eqn:Es.
      - split; [by apply Hsz|]. split; [|done]. intros q Hq. destruct (Q q Hq) as (i & p & Hi & -> & Hsi).
        destruct (Hs i Hi) as (p' & Hp' & Hlt). rewrite Hsi in Hp'. injection Hp' as Hp'. rewrite Hp'. by apply Hlt.
      - pose proof (list_zmax_spec lk) as Hm. destruct (list_zmax lk) as [mx|].
        + destruct Hm as [Hm1 Hm2]. destruct (Q mx Hm1) as (i & p & Hi & -> & Hsi). split; [lia|]. split.
          * intros q Hq. specialize (Hm2 q Hq). lia.
          * intros _ _. by replace (Z.of_nat p + 1 - 1)%Z with (Z.of_nat p) by lia.
        + subst lk. split; [lia|]. split; [by intros q ?%elem_of_nil|]. intros _ Hne. destruct occ; [done|]. simpl in Hlen. lia. }
    destruct Hn as (N1 & N2 & N3). set (len := external_length c' (t_lookup t) (length occ)) in *.
    destruct (Z.ltb_spec len 0); [lia|]. rewrite Hw. cbn [rbind].
    assert (Hvl : length vs = length occ) by (rewrite (rmapM_length _ _ _ Hvs); unfold enumerate; apply enum_from_length).
    destruct (store_fold_exists text parse_int parse_float lk d vs 0 (replicate (Z.to_nat len) w)) as (a & Hfold & Hla); [|done|].
    { intros i Hi. destruct (Hl i) as (p & Hp & _); [lia|]. exists p. split; [done|]. rewrite replicate_length.
      assert (Hin : Z.of_nat p ∈ lk) by (by eapply elem_of_list_lookup_2). apply N2 in Hin. lia. }
    unfold enumerate at 1. change (t_lookup t) with lk. rewrite Hfold. cbn [rbind]. exists d, a. split; [done|].
    rewrite replicate_length in Hla. rewrite Hla. rewrite Z2Nat.id by done. split.
    - intros s Es. unfold len, external_length. by rewrite Hsz', Es.
    - intros Es Hne. specialize (N3 Es Hne). apply elem_of_list_lookup in N3 as [i Hi]. assert (Hlt : i < length occ) by (rewrite <- Hlen; by eapply lookup_lt_Some).
      destruct (Hl i Hlt) as (p & Hp & Hsp). rewrite Hi in Hp. injection Hp as Hp. exists i. split; [done|]. rewrite <- Hs', Hsp. by rewrite Hp. }
  rewrite Hba. cbn [rbind fst snd].
  destruct (rmapM_ok_exists (validate_event t occ) (events lib)) as [us Hus].
  { intros e Hin. destruct (He e Hin) as (f & g & x & y & Hm & Hx & Hy & V1 & V2). exists tt. unfold validate_event, changes_from_pre_state.
    rewrite Hm. cbn [unpack2 rbind fst snd]. rewrite (proj2 (py_get_nat _ _ _) Hx), (proj2 (py_get_nat _ _ _) Hy). cbn [rbind].
    pose proof (lookup_lt_Some _ _ _ Hx) as Lf. pose proof (lookup_lt_Some _ _ _ Hy) as Lg.
    destruct (Hl f Lf) as (pf & Hpf & _), (Hl g Lg) as (pg & Hpg & _).
    destruct (Hv f x Hx) as [vx Hvx], (Hv g y Hy) as [vy Hvy].
    destruct (value_of c f y) as [v1|] eqn:E1; [|done]. destruct (value_of c g x) as [v2|] eqn:E2; [|done].
    unfold mapped_changes, one_change. cbn [rmapM]. change (t_lookup t) with lk.
    rewrite (proj2 (py_get_nat _ _ _) Hpf), (proj2 (py_get_nat _ _ _) Hpg). cbn [rbind].
    rewrite !X by done. rewrite Hvx, E1, Hvy, E2. cbn [rbind]. done. }
  rewrite Hus. cbn [rbind]. eexists. split; [done|]. simpl. done.
Qed.
