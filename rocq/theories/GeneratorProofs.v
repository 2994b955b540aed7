From Coq Require Import QArith Qabs Qminmax Lia Sorted Ascii.
From Verif Require Import Py PyLemmas ActiveSiteModel ActiveSiteSpec ActiveSiteProofs EventModel EventSpec EventProofs
  MatcherModel MatcherSpec MatcherProofs GeneratorModel GeneratorSpec.
Local Open Scope nat_scope.
Local Arguments lattice_points : simpl never.
Local Arguments Z.mul : simpl never.
Local Arguments Z.add : simpl never.

(* ------------------------------------------------------------------ *)
(** ** Numbering *)

Definition norm3 (n a : image3) : image3 :=
  let '(n1, n2, n3) := n in let '(x, y, z) := a in (x mod n1, y mod n2, z mod n3)%Z.
Definition nats (a : image3) : cell3 := let '(x, y, z) := a in (Z.to_nat x, Z.to_nat y, Z.to_nat z).
Definition ints (a : cell3) : image3 := let '(x, y, z) := a in (Z.of_nat x, Z.of_nat y, Z.of_nat z).

Lemma norm3_inside n a : positive n -> inside n (norm3 n a).
Proof.
  destruct n as [[n1 n2] n3], a as [[x y] z]. simpl. intros (?&?&?).
  pose proof (Z.mod_pos_bound x n1). pose proof (Z.mod_pos_bound y n2). pose proof (Z.mod_pos_bound z n3). lia.
Qed.
Lemma norm3_id n a : inside n a -> norm3 n a = a.
Proof. destruct n as [[n1 n2] n3], a as [[x y] z]. simpl. intros (?&?&?). rewrite !Z.mod_small by lia. done. Qed.
Lemma number_norm n p a : positive n -> site_number n p (norm3 n a) = site_number n p a.
Proof. destruct n as [[n1 n2] n3], a as [[x y] z]. simpl. intros (?&?&?). rewrite !Z.mod_mod by lia. done. Qed.

Lemma mod_eq_congruent x u n : (0 < n)%Z -> (x mod n = u mod n)%Z <-> exists i, (u = x + i * n)%Z.
Proof.
  intros Hn. split.
  - intros H. exists (u / n - x / n)%Z. pose proof (Z.div_mod x n). pose proof (Z.div_mod u n). nia.
  - intros [i ->]. by rewrite Z.mod_add by lia.
Qed.
Lemma norm3_congruent n a b : positive n -> norm3 n a = norm3 n b <-> congruent n a b.
Proof.
  destruct n as [[n1 n2] n3], a as [[x y] z], b as [[u v] w]. simpl. intros (H1&H2&H3). split.
  - intros [= E1 E2 E3]. apply mod_eq_congruent in E1 as [i ?]; [|done]. apply mod_eq_congruent in E2 as [j ?]; [|done].
    apply mod_eq_congruent in E3 as [k ?]; [|done]. eauto 10.
  - intros (i & j & k & -> & -> & ->). rewrite !Z.mod_add by lia. done.
Qed.

Lemma number_inj n p q a b : positive n -> inside n a -> inside n b -> site_number n p a = site_number n q b -> p = q /\ a = b.
Proof.
  destruct n as [[n1 n2] n3], a as [[x y] z], b as [[u v] w]. simpl. intros (H1&H2&H3) (A1&A2&A3) (B1&B2&B3).
  rewrite !Z.mod_small by lia. intros E.
  assert (Ez : z = w /\ (Z.of_nat p * (n1 * n2) + x * n2 + y = Z.of_nat q * (n1 * n2) + u * n2 + v)%Z).
  { assert (z = w).
    { rewrite <- (Z.mod_small z n3), <- (Z.mod_small w n3) by lia.
      rewrite <- (Z.mod_add z (Z.of_nat p * (n1 * n2) + x * n2 + y) n3) by lia.
      rewrite <- (Z.mod_add w (Z.of_nat q * (n1 * n2) + u * n2 + v) n3) by lia. f_equal. nia. }
    subst. split; [done|]. nia. }
  destruct Ez as [-> E2].
  assert (Ey : y = v /\ (Z.of_nat p * n1 + x = Z.of_nat q * n1 + u)%Z).
  { assert (y = v).
    { rewrite <- (Z.mod_small y n2), <- (Z.mod_small v n2) by lia.
      rewrite <- (Z.mod_add y (Z.of_nat p * n1 + x) n2) by lia.
      rewrite <- (Z.mod_add v (Z.of_nat q * n1 + u) n2) by lia. f_equal. nia. }
    subst. split; [done|]. nia. }
  destruct Ey as [-> E1].
  assert (x = u).
  { rewrite <- (Z.mod_small x n1), <- (Z.mod_small u n1) by lia.
    rewrite <- (Z.mod_add x (Z.of_nat p) n1) by lia. rewrite <- (Z.mod_add u (Z.of_nat q) n1) by lia. f_equal. nia. }
  subst. split; [nia|done].
Qed.
Lemma number_eq_iff n p q a b : positive n -> site_number n p a = site_number n q b <-> p = q /\ congruent n a b.
Proof.
  intros Hn. rewrite <- norm3_congruent by done. split.
  - intros H. rewrite <- (number_norm n p a), <- (number_norm n q b) in H by done.
    by apply number_inj in H; [|done|apply norm3_inside|apply norm3_inside].
  - intros [-> H]. rewrite <- (number_norm n q a), H, number_norm by done. done.
Qed.
Lemma number_bound n p a m : positive n -> p < m -> (0 <= site_number n p a < Z.of_nat m * volume n)%Z.
Proof.
  intros Hn Hp. rewrite <- number_norm by done. pose proof (norm3_inside n a Hn) as Hi.
  destruct (norm3 n a) as [[x y] z], n as [[n1 n2] n3]. simpl in *. destruct Hn as (?&?&?), Hi as (?&?&?).
  rewrite !Z.mod_small by lia. split; [nia|].
  assert (x * n2 + y <= n1 * n2 - 1)%Z by nia.
  assert ((x * n2 + y) * n3 + z <= n1 * n2 * n3 - 1)%Z by nia.
  assert ((Z.of_nat p + 1) * (n1 * n2 * n3) <= Z.of_nat m * (n1 * n2 * n3))%Z; [|nia].
  apply Z.mul_le_mono_nonneg_r; nia.
Qed.

(* ------------------------------------------------------------------ *)
(** ** The supercell *)

Section Supercell.
  Context {A : Type}.
  Variable cell : list A.
  Variable n : image3.
  Hypothesis Hn : positive n.

  Lemma shape3_list : shape3 (list_of_image n) = nats n.
  Proof. clear Hn. destruct n as [[n1 n2] n3]. done. Qed.

  Lemma supercell_at k s c : kmc_supercell cell (nats n) !! k = Some (s, c) <->
    exists p, cell !! p = Some s /\ inside n (ints c) /\ Z.of_nat k = site_number n p (ints c).
  Proof.
    destruct n as [[n1 n2] n3]. destruct c as [[x y] z]. simpl in Hn. destruct Hn as (H1 & H2 & H3).
    unfold kmc_supercell, nats. cbn [ints inside].
    set (m1 := Z.to_nat n1) in *. set (m2 := Z.to_nat n2) in *. set (m3 := Z.to_nat n3) in *.
    assert (E1 : n1 = Z.of_nat m1) by lia. assert (E2 : n2 = Z.of_nat m2) by lia. assert (E3 : n3 = Z.of_nat m3) by lia.
    assert (P1 : 0 < m1) by lia. assert (P2 : 0 < m2) by lia. assert (P3 : 0 < m3) by lia.
    assert (Hv : 0 < m1 * m2 * m3) by nia.
    rewrite (bind_lookup_uniform _ _ (m1 * m2 * m3)); [|intros s'; rewrite (bind_length_uniform _ _ 1), lattice_points_length; [lia|done]|done].
    assert (Hin : forall (q : A) i, (lattice_points m1 m2 m3 ≫= fun t => [(q, t)]) !! i = (fun t => (q, t)) <$> lattice_points m1 m2 m3 !! i).
    { intros q i. rewrite (bind_lookup_uniform _ _ 1) by (simpl; lia || done).
      rewrite Nat.div_1_r, Nat.mod_1_r. destruct (_ !! i); done. }
    split.
    - intros H. apply bind_Some in H as (s' & Hs & H). rewrite Hin in H. apply fmap_Some in H as (t & Ht & [= -> <-]).
      apply lattice_points_lookup in Ht as (Hx & Hy & Hz & Ht).
      exists (k / (m1 * m2 * m3)). split; [done|]. split; [lia|]. simpl.
      rewrite !Z.mod_small by lia. pose proof (Nat.div_mod k (m1 * m2 * m3) ltac:(lia)) as Hk.
      rewrite E1, E2, E3. nia.
    - intros (p & Hp & (Hx & Hy & Hz) & Hk). simpl in Hk. rewrite !Z.mod_small in Hk by lia.
      assert (Hlin : (x * m2 + y) * m3 + z < m1 * m2 * m3).
      { assert (x * m2 + y + 1 <= m1 * m2) by nia. nia. }
      assert (Ek : k = m1 * m2 * m3 * p + ((x * m2 + y) * m3 + z)) by (rewrite E1, E2, E3 in Hk; nia).
      rewrite <- (Nat.div_unique k _ p _ Hlin Ek), <- (Nat.mod_unique k _ p _ Hlin Ek). rewrite Hp. simpl. rewrite Hin.
      rewrite (proj2 (lattice_points_lookup m1 m2 m3 _ x y z)); [done|]. lia.
  Qed.
  Lemma supercell_len : Z.of_nat (length (kmc_supercell cell (nats n))) = (Z.of_nat (length cell) * volume n)%Z.
  Proof.
    destruct n as [[n1 n2] n3]. unfold kmc_supercell, nats. simpl in Hn.
    rewrite (bind_length_uniform _ _ (Z.to_nat n1 * Z.to_nat n2 * Z.to_nat n3)).
    2:{ intros s. rewrite (bind_length_uniform _ _ 1), lattice_points_length; [lia|done]. }
    simpl. nia.
  Qed.
  Lemma inside_nat a : inside n a -> ints (nats a) = a.
  Proof. clear Hn. destruct n as [[n1 n2] n3], a as [[x y] z]. simpl. intros (?&?&?). f_equal; [f_equal|]; lia. Qed.
  Lemma supercell_number p s a : cell !! p = Some s ->
    kmc_supercell cell (nats n) !! Z.to_nat (site_number n p a) = Some (s, nats (norm3 n a)).
  Proof.
    intros Hs. apply supercell_at. exists p. split; [done|]. pose proof (norm3_inside n a Hn) as Hi.
    rewrite inside_nat by done. split; [done|].
    rewrite number_norm by done. pose proof (lookup_lt_Some _ _ _ Hs) as Hp.
    pose proof (number_bound n p a (length cell) Hn Hp). lia.
  Qed.
End Supercell.

(* ------------------------------------------------------------------ *)
(** ** The site index *)

Definition key_of (e : gsite * cell3) : site_key :=
  let '(x, y, z) := ints (snd e) in (x, y, z, gs_label (fst e), gs_local (fst e)).
Lemma key_ok e : site_index_key (list_of_cell (snd e)) (gs_label (fst e)) (gs_local (fst e)) = Ok (key_of e).
Proof. destruct e as [s [[x y] z]]. done. Qed.

Lemma index_fold (es : list (gsite * cell3)) : forall i (d : dict site_key nat), NoDup (dkeys d) ->
  rfold (fun index_by_key (e : nat * (gsite * cell3)) =>
           let (site_index, site) := e in
           let* key := site_index_key (list_of_cell (snd site)) (gs_label (fst site)) (gs_local (fst site)) in
           if negb false && din index_by_key key then Err KeyError
           else Ok (dset index_by_key key site_index)) d (enum_from i es) =
  if decide (NoDup (dkeys d ++ map key_of es)) then Ok (d ++ zip (map key_of es) (seq i (length es))) else Err KeyError.
Proof.
  induction es as [|e es IH]; intros i d Hd.
  { simpl. rewrite !app_nil_r. by rewrite decide_True. }
  cbn [enum_from rfold]. rewrite key_ok. cbn [rbind negb andb].
  unfold din. destruct (dget d (key_of e)) eqn:E.
  - rewrite decide_False; [done|]. intros [_ [H _]]%NoDup_app.
    apply (H (key_of e)); [apply dget_in_keys; eauto|left].
  - apply dget_None in E. cbn [rbind]. rewrite dkeys_dset_notin by done.
    assert (Hd' : NoDup (dkeys (d ++ [(key_of e, i)]))).
    { unfold dkeys. rewrite map_app. apply NoDup_app. split; [done|]. split; [|apply NoDup_singleton].
      simpl. intros x Hx Hx'. apply elem_of_list_singleton in Hx' as ->. done. }
    rewrite IH by done. unfold dkeys. rewrite map_app. cbn [map length seq zip fst]. rewrite <- !app_assoc. simpl. done.
Qed.
Lemma build_index_eq l : build_site_index l false =
  if decide (NoDup (map key_of l)) then Ok (zip (map key_of l) (seq 0 (length l))) else Err KeyError.
Proof. unfold build_site_index, enumerate. rewrite index_fold by constructor. done. Qed.
Lemma index_get l d k i : build_site_index l false = Ok d -> dget d k = Some i <-> exists e, l !! i = Some e /\ key_of e = k.
Proof.
  rewrite build_index_eq. destruct (decide _) as [Hnd|]; [|discriminate]. intros [= <-].
  assert (Hk : dkeys (zip (map key_of l) (seq 0 (length l))) = map key_of l).
  { unfold dkeys. change (map fst ?x) with (fst <$> x). rewrite fst_zip; [done|]. by rewrite seq_length, map_length. }
  split.
  - intros H. apply dget_Some_in, elem_of_list_lookup in H as [j Hj]. apply lookup_zip_with_Some in Hj as (a & b & [= <- <-] & Ha & Hb).
    apply lookup_seq in Hb as [-> Hb]. change (map key_of l) with (key_of <$> l) in Ha. rewrite list_lookup_fmap in Ha.
    apply fmap_Some in Ha as (e & He & ->). simpl. eauto.
  - intros (e & He & <-). apply dget_in; [by rewrite Hk|]. apply elem_of_list_lookup. exists i.
    apply lookup_zip_with_Some. exists (key_of e), i. split; [done|]. split.
    + change (map key_of l) with (key_of <$> l). rewrite list_lookup_fmap, He. done.
    + apply lookup_seq. split; [done|]. by eapply lookup_lt_Some.
Qed.

Lemma elem_of_migrating sites kind i k : k ∈ find_atom_indices sites kind i <-> exists s, sites !! k = Some s /\ is_valid_target_site s kind i = true.
Proof.
  unfold find_atom_indices. rewrite elem_of_filter_enum. done.
Qed.
Lemma NoDup_migrating sites kind i : NoDup (find_atom_indices sites kind i).
Proof. apply StronglySorted_lt_NoDup, (filter_enum_sorted _ 0). Qed.

Section Expand.
  Context {P : Type}.
  Variable cell : list gsite.
  Variable n : image3.
  Hypothesis Hn : positive n.
  Notation sc := (kmc_supercell cell (nats n)).

  Lemma index_ok_iff : (exists d, build_site_index sc false = Ok d) <-> NoDup (map (fun s => (gs_label s, gs_local s)) cell).
  Proof.
    rewrite build_index_eq. destruct (decide _) as [Hnd|Hnd].
    - split; [intros _|eauto]. apply NoDup_alt. intros p q x Hp Hq.
      change (map ?f ?l) with (f <$> l) in Hp, Hq. rewrite list_lookup_fmap in Hp, Hq.
      apply fmap_Some in Hp as (s & Hs & ->). apply fmap_Some in Hq as (t & Ht & E).
      pose proof (supercell_number cell n Hn p s (0, 0, 0)%Z Hs) as H1.
      pose proof (supercell_number cell n Hn q t (0, 0, 0)%Z Ht) as H2.
      rewrite NoDup_alt in Hnd.
      assert (Ei : Z.to_nat (site_number n p (0, 0, 0)%Z) = Z.to_nat (site_number n q (0, 0, 0)%Z)).
      { apply (Hnd _ _ (key_of (s, nats (norm3 n (0, 0, 0)%Z)))).
        - change (map ?f ?l) with (f <$> l). rewrite list_lookup_fmap, H1. done.
        - change (map ?f ?l) with (f <$> l). rewrite list_lookup_fmap, H2. simpl. f_equal.
          unfold key_of. simpl. injection E as -> ->. done. }
      pose proof (number_bound n p (0, 0, 0)%Z _ Hn (lookup_lt_Some _ _ _ Hs)).
      pose proof (number_bound n q (0, 0, 0)%Z _ Hn (lookup_lt_Some _ _ _ Ht)).
      assert (E' : site_number n p (0, 0, 0)%Z = site_number n q (0, 0, 0)%Z) by lia.
      by apply number_eq_iff in E' as [-> _].
    - split; [intros [d ?]; discriminate|]. intros H. contradict Hnd. apply NoDup_alt. intros i j k Hi Hj.
      change (map ?f ?l) with (f <$> l) in Hi, Hj. rewrite list_lookup_fmap in Hi, Hj.
      apply fmap_Some in Hi as ([s c] & Hs & ->). apply fmap_Some in Hj as ([t d] & Ht & E).
      apply supercell_at in Hs as (p & Hp & Hc & Ei); [|done]. apply supercell_at in Ht as (q & Hq & Hd & Ej); [|done].
      destruct c as [[x y] z], d as [[u v] w]. unfold key_of in E. simpl in E. injection E as E1 E2 E3 E4 E5.
      assert (p = q).
      { rewrite NoDup_alt in H. apply (H _ _ (gs_label s, gs_local s)); change (map ?f ?l) with (f <$> l); rewrite list_lookup_fmap.
        - by rewrite Hp. - rewrite Hq. simpl. by rewrite E4, E5. }
      subst q. simpl in Ei, Ej. rewrite E1, E2, E3 in Ei. lia.
  Qed.

  Lemma sc_index_get d : build_site_index sc false = Ok d -> forall p s a, cell !! p = Some s -> inside n a ->
    dget d (let '(x, y, z) := a in (x, y, z, gs_label s, gs_local s)) = Some (Z.to_nat (site_number n p a)).
  Proof.
    intros H p s a Hs Ha. apply (index_get _ _ _ _ H). exists (s, nats (norm3 n a)). split; [by apply supercell_number|].
    rewrite norm3_id by done. unfold key_of. simpl. rewrite (inside_nat n) by done. done.
  Qed.

  (** A neighbour that carries the properties of its primitive site. *)
  Definition faithful (nb : neighbor P) : Prop :=
    exists s, cell !! nb_index nb = Some s /\ nb_local nb = gs_local s /\ nb_label nb = gs_label s.
  Definition num (c : image3) (nb : neighbor P) : Z := site_number n (nb_index nb) (c +v nb_image nb).

  Lemma np_mod_pos a m : (0 < m)%Z -> np_mod a m = (a mod m)%Z.
  Proof. intros H. unfold np_mod. destruct (Z.eqb_spec m 0); [lia|done]. Qed.

  Lemma neighbor_site_eq d c nb : build_site_index sc false = Ok d -> faithful nb ->
    neighbor_site d (list_of_image n) c nb = Ok (Z.to_nat (num (ints c) nb)).
  Proof.
    intros Hd (s & Hs & Hl & Hb). unfold neighbor_site.
    assert (E : normalize_supercell_tuple (list_of_cell c) (list_of_image (nb_image nb)) (list_of_image n) None =
                Ok (list_of_image (norm3 n (ints c +v nb_image nb)))).
    { destruct c as [[x y] z], (nb_image nb) as [[u v] w]. pose proof Hn as Hn'. destruct n as [[n1 n2] n3].
      destruct Hn' as (?&?&?). unfold normalize_supercell_tuple. simpl. rewrite !np_mod_pos by done. done. }
    rewrite E. cbn [rbind]. clear E.
    pose proof (sc_index_get d Hd _ _ (norm3 n (ints c +v nb_image nb)) Hs (norm3_inside _ _ Hn)) as H.
    rewrite number_norm in H by done. unfold num.
    destruct (norm3 n (ints c +v nb_image nb)) as [[x y] z]. simpl. unfold dgetitem. rewrite Hl, Hb, H. done.
  Qed.

  Variable kind : selection_kind.
  Variable initial target : identifier.
  Definition tgt (nb : neighbor P) : bool :=
    match cell !! nb_index nb with Some t => is_valid_target_site t kind target | None => false end.
  Variable info : dict Z (list (neighbor P)).
  Definition site_events (i : nat) : list event :=
    match sc !! i with
    | Some (s, c) =>
        match dget info (gs_local s) with
        | Some env => map (fun nb => Event [Z.of_nat i; num (ints c) nb] (map (num (ints c)) env)) (List.filter tgt env)
        | None => []
        end
    | None => []
    end.

  Lemma events_of_site_eq d i s c env : build_site_index sc false = Ok d -> sc !! i = Some (s, c) ->
    dget info (gs_local s) = Some env -> (forall nb, nb ∈ env -> faithful nb) ->
    events_of_site sc d info (list_of_image n) kind target i = Ok (site_events i).
  Proof.
    intros Hd Hi He Hf. unfold events_of_site, site_events, at_nat. rewrite Hi. cbn [rbind fst snd].
    unfold dgetitem. rewrite He. cbn [rbind].
    rewrite (rmapM_id _ (fun nb => Z.to_nat (num (ints c) nb))).
    2:{ intros nb Hnb. apply neighbor_site_eq; [done|by apply Hf]. }
    cbn [rbind]. rewrite rmapM_map.
    rewrite (rmapM_id _ (fun nb => (Z.to_nat (num (ints c) nb), tgt nb))).
    2:{ intros nb Hnb. destruct (Hf _ Hnb) as (t & Ht & _). unfold num. rewrite (supercell_number cell n Hn _ t) by done.
        simpl. unfold tgt. rewrite Ht. done. }
    cbn [rbind]. f_equal.
    assert (Hz : forall nb, nb ∈ env -> Z.of_nat (Z.to_nat (num (ints c) nb)) = num (ints c) nb).
    { intros nb Hnb. destruct (Hf _ Hnb) as (t & Ht & _). unfold num.
      pose proof (number_bound n (nb_index nb) (ints c +v nb_image nb) _ Hn (lookup_lt_Some _ _ _ Ht)). lia. }
    assert (El : map Z.of_nat (map (fun nb => Z.to_nat (num (ints c) nb)) env) = map (num (ints c)) env).
    { rewrite map_map. apply map_ext_in. intros nb Hnb. apply Hz. by apply elem_of_list_In. }
    rewrite El. clear Hf El He. set (le := map (num (ints c)) env). clearbody le. induction env as [|nb env IH]; [done|].
    cbn [map List.filter snd fst]. assert (Hz' : forall nb', nb' ∈ env -> Z.of_nat (Z.to_nat (num (ints c) nb')) = num (ints c) nb').
    { intros nb' H. apply Hz. by right. }
    destruct (tgt nb); cbn [map fst]; [|by apply IH]. rewrite IH by done. f_equal. rewrite Hz by left. done.
  Qed.

  Lemma expand_eq : NoDup (map (fun s => (gs_label s, gs_local s)) cell) ->
    (forall p s, cell !! p = Some s -> is_valid_target_site s kind initial = true ->
       exists env, dget info (gs_local s) = Some env /\ forall nb, nb ∈ env -> faithful nb) ->
    expand cell info (list_of_image n) kind initial target = Ok (find_atom_indices (map fst sc) kind initial ≫= site_events).
  Proof.
    intros Hnd Henv. unfold expand. rewrite shape3_list. apply index_ok_iff in Hnd as [d Hd].
    rewrite Hd. cbn [rbind].
    rewrite (rmapM_id _ site_events).
    - cbn [rbind]. f_equal. induction (find_atom_indices _ _ _) as [|x l IH]; [done|]. cbn [map]. rewrite bind_cons, <- IH. done.
    - intros i Hi. apply elem_of_migrating in Hi as (s & Hs & Hv). change (map fst sc) with (fst <$> sc) in Hs.
      rewrite list_lookup_fmap in Hs. apply fmap_Some in Hs as ([s' c] & Hs & ->). simpl in Hv.
      pose proof Hs as Hs'. apply supercell_at in Hs as (p & Hp & _); [|done].
      destruct (Henv _ _ Hp Hv) as (env & He & Hf). by apply (events_of_site_eq d i s' c env).
  Qed.
  Lemma expand_no_index : ~ NoDup (map (fun s => (gs_label s, gs_local s)) cell) ->
    expand cell info (list_of_image n) kind initial target = Err KeyError.
  Proof.
    intros Hnd. unfold expand. rewrite shape3_list. destruct (build_site_index sc false) as [d|e] eqn:E.
    - destruct Hnd. apply index_ok_iff. eauto.
    - rewrite build_index_eq in E. destruct (decide _); [discriminate|]. injection E as <-. done.
  Qed.

  Notation all_events := (find_atom_indices (map fst sc) kind initial ≫= site_events).
  Lemma elem_of_events e : e ∈ all_events <->
    exists p s env a nb, cell !! p = Some s /\ is_valid_target_site s kind initial = true /\ inside n a /\
      dget info (gs_local s) = Some env /\ nb ∈ env /\ tgt nb = true /\ e = hop n p a env nb.
  Proof.
    rewrite elem_of_list_bind. split.
    - intros (i & He & Hi). apply elem_of_migrating in Hi as (s & Hs & Hv). change (map fst sc) with (fst <$> sc) in Hs.
      rewrite list_lookup_fmap in Hs. apply fmap_Some in Hs as ([s' c] & Hs & ->). simpl in Hv.
      unfold site_events in He. rewrite Hs in He. apply supercell_at in Hs as (p & Hp & Hc & Ei); [|done].
      destruct (dget info (gs_local s')) as [env|] eqn:Ee; [|set_solver].
      apply elem_of_list_fmap in He as (nb & -> & Hnb). apply elem_of_list_In, filter_In in Hnb as [Hnb Ht].
      exists p, s', env, (ints c), nb. do 4 (split; [done|]). split; [by apply elem_of_list_In|]. split; [done|].
      unfold hop. rewrite Ei. done.
    - intros (p & s & env & a & nb & Hp & Hv & Ha & He & Hnb & Ht & ->).
      exists (Z.to_nat (site_number n p a)). pose proof (supercell_number cell n Hn p s a Hp) as Hs.
      rewrite norm3_id in Hs by done. split.
      + unfold site_events. rewrite Hs, He. apply elem_of_list_fmap. exists nb. rewrite (inside_nat n) by done.
        pose proof (number_bound n p a _ Hn (lookup_lt_Some _ _ _ Hp)). split; [|apply elem_of_list_In, filter_In; split; [by apply elem_of_list_In|done]].
        unfold hop. rewrite Z2Nat.id by lia. done.
      + apply elem_of_migrating. exists s. split; [|done]. change (map fst sc) with (fst <$> sc).
        rewrite list_lookup_fmap, Hs. done.
  Qed.

  (** No event occurs twice exactly when different targets are different sites. *)
  Lemma events_NoDup :
    NoDup all_events <->
    forall p s env j k x y, cell !! p = Some s -> is_valid_target_site s kind initial = true ->
      dget info (gs_local s) = Some env -> j <> k -> env !! j = Some x -> env !! k = Some y -> tgt x = true -> tgt y = true ->
      nb_index x = nb_index y -> ~ congruent n (nb_image x) (nb_image y).
  Proof.
    assert (Hcong : forall a b c, congruent n b c <-> congruent n (a +v b) (a +v c)).
    { clear. intros [[x y] z] [[u v] w] [[u' v'] w']. destruct n as [[n1 n2] n3]. simpl.
      split; intros (i & j & k & ?); exists i, j, k; lia. }
    split.
    - intros Hnd p s env j k x y Hp Hv He Hjk Hj Hk Hx Hy Hq Hc.
      pose proof (supercell_number cell n Hn p s (0, 0, 0)%Z Hp) as Hs.
      set (i := Z.to_nat (site_number n p (0, 0, 0)%Z)) in *. set (c := nats (norm3 n (0, 0, 0)%Z)) in *.
      assert (Hi : i ∈ find_atom_indices (map fst sc) kind initial).
      { apply elem_of_migrating. exists s. split; [|done]. change (map fst sc) with (fst <$> sc).
        rewrite list_lookup_fmap, Hs. done. }
      assert (Hse : NoDup (site_events i)).
      { apply elem_of_Permutation in Hi as [l Hl]. rewrite Hl in Hnd. rewrite bind_cons in Hnd. by apply NoDup_app in Hnd as [? _]. }
      unfold site_events in Hse. rewrite Hs, He in Hse.
      assert (Hsub : NoDup (map (num (ints c)) (List.filter tgt env))).
      { eapply (NoDup_fmap_1 (fun z => Event [Z.of_nat i; z] (map (num (ints c)) env))). change (?f <$> ?l) with (map f l).
        rewrite map_map. exact Hse. }
      clear Hse Hnd.
      assert (Hnum : num (ints c) x = num (ints c) y).
      { unfold num. apply number_eq_iff; [done|]. split; [done|]. by apply Hcong. }
      assert (Hlt : exists j k, j < k /\ exists x y, env !! j = Some x /\ env !! k = Some y /\ tgt x = true /\ tgt y = true /\ num (ints c) x = num (ints c) y).
      { destruct (decide (j < k)); [exists j, k; split; [done|]; exists x, y; done|].
        exists k, j. split; [lia|]. exists y, x. done. }
      clear -Hsub Hlt. destruct Hlt as (j & k & Hjk & x & y & Hj & Hk & Hx & Hy & E).
      revert j k Hjk Hj Hk. induction env as [|z env IH]; intros j k Hjk Hj Hk; [done|].
      destruct k as [|k]; [lia|]. destruct j as [|j].
      + injection Hj as ->. cbn [List.filter] in Hsub. rewrite Hx in Hsub. cbn [map] in Hsub. apply NoDup_cons in Hsub as [Hnin _].
        apply Hnin. rewrite E. apply elem_of_list_fmap. exists y. split; [done|]. apply elem_of_list_In, filter_In. split; [|done].
        apply elem_of_list_In. eapply elem_of_list_lookup_2, Hk.
      + apply (IH) with (j := j) (k := k); [|lia|done|done]. cbn [List.filter] in Hsub. destruct (tgt z); [|done]. by apply NoDup_cons in Hsub as [_ ?].
    - intros H. apply NoDup_bind_disjoint.
      + apply NoDup_migrating.
      + intros i Hi. apply elem_of_migrating in Hi as (s & Hs & Hv). change (map fst sc) with (fst <$> sc) in Hs.
        rewrite list_lookup_fmap in Hs. apply fmap_Some in Hs as ([s' c] & Hs & ->). simpl in Hv.
        unfold site_events. rewrite Hs. apply supercell_at in Hs as (p & Hp & Hc & Ei); [|done].
        destruct (dget info (gs_local s')) as [env|] eqn:Ee; [|constructor].
        specialize (H p s' env). set (le := map (num (ints c)) env). clearbody le.
        assert (H' : forall j k x y, j <> k -> env !! j = Some x -> env !! k = Some y -> tgt x = true -> tgt y = true ->
                  num (ints c) x <> num (ints c) y).
        { intros j k x y Hjk Hj Hk Hx Hy E. unfold num in E. apply number_eq_iff in E as [E1 E2]; [|done].
          apply (H j k x y); try done. by apply Hcong in E2. }
        clear -H'. induction env as [|z env IH]; [constructor|]. cbn [List.filter].
        assert (Hr : forall j k x y, j <> k -> env !! j = Some x -> env !! k = Some y -> tgt x = true -> tgt y = true ->
                  num (ints c) x <> num (ints c) y).
        { intros j k x y Hjk Hj Hk. apply (H' (S j) (S k)); [lia|done|done]. }
        destruct (tgt z) eqn:Ez; [|by apply IH]. cbn [map]. apply NoDup_cons. split; [|by apply IH].
        intros Hin. apply elem_of_list_fmap in Hin as (y & E & Hy). apply elem_of_list_In, filter_In in Hy as [Hy Ht].
        apply elem_of_list_In, elem_of_list_lookup in Hy as [k Hk]. apply (H' 0 (S k) z y); try done. by injection E.
      + intros i j e Hi Hj He1 He2.
        assert (Hm : forall k, e ∈ site_events k -> exists z, mobile_ion_indices e = [Z.of_nat k; z]).
        { intros k Hk. unfold site_events in Hk. destruct (sc !! k) as [[s c]|]; [|set_solver].
          destruct (dget info (gs_local s)); [|set_solver]. apply elem_of_list_fmap in Hk as (nb & -> & _). simpl. eauto. }
        destruct (Hm _ He1) as [z1 E1], (Hm _ He2) as [z2 E2]. rewrite E1 in E2. injection E2 as E2 _. lia.
  Qed.
End Expand.

(* ------------------------------------------------------------------ *)
(** ** Cutoffs and neighbours *)

Lemma cutoff_lookup_get c a b : dget (cutoff_lookup c) (a, b) =
  match List.filter (pair_eqb a b) (rev c) with e :: _ => Some (snd e) | [] => None end.
Proof.
  induction c as [|[[x y] v] c IH] using rev_ind; [done|].
  unfold cutoff_lookup in *. rewrite fold_left_app. cbn [fold_left fst snd]. rewrite rev_unit. cbn [List.filter].
  rewrite !dget_dset. unfold pair_eqb. cbn [fst snd].
  destruct (decide ((a, b) = (y, x))) as [[= <- <-]|H1].
  { rewrite (bool_decide_true ((b, a) = (b, a))) by done. rewrite orb_true_r. done. }
  destruct (decide ((a, b) = (x, y))) as [[= <- <-]|H2].
  { rewrite (bool_decide_true ((a, b) = (a, b))) by done. done. }
  rewrite bool_decide_false by congruence. rewrite bool_decide_false by congruence. cbn [orb]. rewrite IH. done.
Qed.
Lemma cutoff_of_eq c a b : cutoff_of (cutoff_lookup c) a b = cutoff_for c a b.
Proof. unfold cutoff_of, cutoff_for. rewrite cutoff_lookup_get. destruct (List.filter _ _); done. Qed.
Lemma cutoff_for_sym c a b : cutoff_for c a b = cutoff_for c b a.
Proof.
  unfold cutoff_for. assert (E : List.filter (pair_eqb a b) (rev c) = List.filter (pair_eqb b a) (rev c)).
  { apply filter_ext. intros e. unfold pair_eqb. apply orb_comm. }
  by rewrite E.
Qed.

Lemma at_nat_ok {A} (l : list A) i x : at_nat l i = Ok x <-> l !! i = Some x.
Proof. unfold at_nat. destruct (l !! i); split; congruence. Qed.

Lemma Forall2_perm_l {A B} (R : A -> B -> Prop) (l l' : list A) : Permutation l l' -> forall k', Forall2 R l' k' -> exists k, Permutation k k' /\ Forall2 R l k.
Proof.
  intros Hp. induction Hp as [|x l l' Hp IH|x y l|l1 l2 l3 Hp1 IH1 Hp2 IH2]; intros k' H.
  - inversion H; subst. exists []. split; [done|constructor].
  - inversion H as [|? b ? k Hb Hk]; subst. destruct (IH _ Hk) as (k2 & Hk2 & HR). exists (b :: k2). split; [by constructor|by constructor].
  - inversion H as [|? b1 ? k Hb1 Hk]; subst. inversion Hk as [|? b2 ? k2 Hb2 Hk2]; subst.
    exists (b2 :: b1 :: k2). split; [constructor|by repeat constructor].
  - destruct (IH2 _ H) as (k2 & H2 & HR2). destruct (IH1 _ HR2) as (k1 & H1 & HR1). exists k1. split; [by etrans|done].
Qed.

Section Search.
  Context {P : Type}.
  Variable get_neighbors : list gsite -> nat -> Q -> list (near P).
  Variable cell : list gsite.
  Variable c : cutoff_dict.

  Lemma radius_eq : max_cutoff c = search_radius c.
  Proof. unfold search_radius. by rewrite fold_left_rev_right. Qed.

  Lemma info_ok p l : get_cutoff_neighbor_info get_neighbors cell p c = Ok l ->
    p < length cell /\ Forall2 (describes cell) l (neighbours get_neighbors cell c p).
  Proof.
    unfold get_cutoff_neighbor_info. rewrite radius_eq. intros H. apply rbind_ok in H as (site & Hsite & H). apply at_nat_ok in Hsite.
    split; [by eapply lookup_lt_Some|].
    apply rbind_ok in H as (all & Hall & [= <-]). unfold neighbours. apply rmapM_ok in Hall.
    induction Hall as [|x [x' s] xs es Hx Hr IH]; [constructor|].
    apply rbind_ok in Hx as (s' & Hs & [= -> ->]). apply at_nat_ok in Hs.
    cbn [List.filter fst snd]. assert (E : negb (Qle_bool (cutoff_of (cutoff_lookup c) (species_string site) (species_string s)) (nr_distance x')) = close cell c p x').
    { unfold close. rewrite Hsite, Hs, cutoff_of_eq. done. }
    rewrite E. destruct (close cell c p x'); [|done]. cbn [map]. constructor; [|done].
    unfold describes. cbn. do 3 (split; [done|]). eauto.
  Qed.
  Lemma info_exists p : p < length cell -> search_in_cell get_neighbors cell -> exists l, get_cutoff_neighbor_info get_neighbors cell p c = Ok l.
  Proof.
    intros Hp Hs. unfold get_cutoff_neighbor_info. rewrite radius_eq. destruct (lookup_lt_is_Some_2 cell p Hp) as [site Hsite].
    rewrite (proj2 (at_nat_ok _ _ _) Hsite). cbn [rbind].
    match goal with |- exists l, (let* all := rmapM ?f ?x in _) = _ => destruct (rmapM f x) eqn:E end; cbn [rbind]; [eauto|].
    apply rmapM_err in E as (x & Hx & E). apply Hs in Hx. destruct (lookup_lt_is_Some_2 cell _ Hx) as [t Ht].
    rewrite (proj2 (at_nat_ok _ _ _) Ht) in E. discriminate.
  Qed.
End Search.

Lemma describes_faithful {P} cell (nb : neighbor P) x : describes cell nb x -> faithful cell nb.
Proof. intros (E & _ & _ & s & Hs & _ & Hl & Hb). exists s. rewrite E. done. Qed.

(* ------------------------------------------------------------------ *)
(** ** Signatures *)

Lemma dset_inj {K K' V} `{EqDecision K, EqDecision K'} (f : K -> K') (Hf : forall a b, f a = f b -> a = b) (d : dict K V) k v :
  map (fun e => (f (fst e), snd e)) (dset d k v) = dset (map (fun e => (f (fst e), snd e)) d) (f k) v.
Proof.
  induction d as [|[k' v'] d IH]; [done|]. cbn [dset map fst snd]. destruct (decide (k = k')) as [->|Hne].
  - rewrite decide_True by done. done.
  - rewrite decide_False; [|by intros ?%Hf]. cbn [map fst snd]. by rewrite IH.
Qed.
Lemma dget_inj {K K' V} `{EqDecision K, EqDecision K'} (f : K -> K') (Hf : forall a b, f a = f b -> a = b) (d : dict K V) k :
  dget (map (fun e => (f (fst e), snd e)) d) (f k) = dget d k.
Proof.
  induction d as [|[k' v'] d IH]; [done|]. cbn [dget map fst snd]. destruct (decide (k = k')) as [->|Hne].
  - rewrite decide_True by done. done.
  - rewrite decide_False; [|by intros ?%Hf]. done.
Qed.

Definition tagl (s : string) : label := (s, ""%string).
Lemma tagl_inj a b : tagl a = tagl b -> a = b.
Proof. by intros [= ?]. Qed.
Lemma species_counts_labels l : map (fun e => (tagl (fst e), snd e)) (species_counts l) = label_counts (map tagl l).
Proof.
  unfold species_counts, label_counts.
  assert (H : forall (l : list string) (d : dict string nat),
    map (fun e => (tagl (fst e), snd e)) (fold_left (fun d x => dset d x (match dget d x with Some n => n | None => 0 end + 1)) l d) =
    fold_left (fun d l => dset d l (match dget d l with Some n => n | None => 0 end + 1)) (map tagl l) (map (fun e => (tagl (fst e), snd e)) d)).
  { clear l. induction l as [|x l IH]; intros d; [done|]. cbn [fold_left map]. rewrite IH. f_equal.
    rewrite (dset_inj tagl tagl_inj). rewrite (dget_inj tagl tagl_inj). done. }
  apply (H l []).
Qed.
Lemma tagl_leb a b : label_leb (tagl a) (tagl b) = String.leb a b.
Proof. unfold label_leb, tagl. cbn [fst snd]. unfold String.leb at 2. destruct (String.compare a b); done. Qed.

Lemma map_inj {A B} (f : A -> B) (Hf : forall a b, f a = f b -> a = b) : forall l l', map f l = map f l' -> l = l'.
Proof. induction l as [|a l IH]; intros [|b l'] H; try done. injection H as H1 H2. f_equal; [by apply Hf|by apply IH]. Qed.
Lemma sorted_ext {A} (leb leb' : A -> A -> bool) (H : forall a b, leb a b = leb' a b) l : sorted leb l = sorted leb' l.
Proof.
  induction l as [|x l IH]; [done|]. simpl. rewrite IH. generalize (sorted leb' l). intros k. induction k as [|y k IHk]; [done|].
  simpl. rewrite H. destruct (leb' x y); [done|]. by rewrite IHk.
Qed.
Lemma signature_perm {P} (l l' : list (neighbor P)) :
  neighbor_species_signature l = neighbor_species_signature l' <-> Permutation (map nb_species l) (map nb_species l').
Proof.
  set (f := fun e : string * nat => (tagl (fst e), snd e)).
  assert (Hf : forall l : list (neighbor P), map f (neighbor_species_signature l) =
            sorted (fun a b => label_leb (fst a) (fst b)) (label_counts (map tagl (map nb_species l)))).
  { intros k. unfold neighbor_species_signature. rewrite <- species_counts_labels. fold f.
    rewrite <- (sorted_map f). f_equal. }
  assert (Hs : forall l : list (neighbor P), map f (neighbor_species_signature l) =
            signature (Cluster [] (map nb_species l) (map (fun _ => ""%string) l) [])).
  { intros k. rewrite Hf. unfold signature. f_equal. unfold cl_labels. cbn [cl_species cl_roles]. f_equal.
    induction k as [|x k IH]; [done|]. cbn [map]. simpl. by rewrite <- IH. }
  assert (Hl : forall l : list (neighbor P), cl_labels (Cluster [] (map nb_species l) (map (fun _ => ""%string) l) []) = map tagl (map nb_species l)).
  { intros k. unfold cl_labels. cbn [cl_species cl_roles]. induction k as [|x k IH]; [done|]. cbn [map]. simpl. by rewrite <- IH. }
  transitivity (map f (neighbor_species_signature l) = map f (neighbor_species_signature l')).
  { split; [by intros ->|]. apply map_inj. intros [a x] [b y]. unfold f. simpl. unfold tagl. by intros [= -> ->]. }
  rewrite !Hs, signature_iff, !Hl. split.
  - intros H. assert (E : forall k, map fst (map tagl k) = k) by (intros k; rewrite map_map; apply map_id).
    rewrite <- (E (map nb_species l)), <- (E (map nb_species l')). by apply Permutation_map.
  - apply Permutation_map.
Qed.

(* ------------------------------------------------------------------ *)
(** ** Arrangements *)

Definition picks_list {A} (l : list A) (p : list nat) (env : list A) : Prop := Forall2 (fun i x => l !! i = Some x) p env.

Lemma perm_picks {A} (env l : list A) : Permutation env l -> exists p, Permutation p (seq 0 (length l)) /\ picks_list l p env.
Proof.
  intros H. destruct l as [|d l].
  { apply Permutation_sym, Permutation_nil in H as ->. exists []. split; [done|constructor]. }
  assert (E : d :: l = map (fun i => nth i (d :: l) d) (seq 0 (length (d :: l)))).
  { apply list_eq. intros i. change (map ?f ?l) with (f <$> l). rewrite list_lookup_fmap.
    destruct (decide (i < length (d :: l))) as [Hi|Hi].
    - rewrite lookup_seq_lt by done. cbn [fmap option_fmap option_map Nat.add].
      destruct (lookup_lt_is_Some_2 (d :: l) i Hi) as [x Hx]. rewrite Hx. f_equal. symmetry. by apply nth_lookup_Some.
    - rewrite lookup_seq_ge by lia. rewrite lookup_ge_None_2 by lia. done. }
  rewrite E in H at 1. apply Permutation_map_inv in H as (p & -> & Hp). exists p. split; [done|].
  assert (Hb : forall i, i ∈ p -> i < length (d :: l)).
  { intros i Hi. rewrite <- Hp in Hi. apply elem_of_seq in Hi. lia. }
  clear -Hb. unfold picks_list. induction p as [|i p IH]; [constructor|]. cbn [map]. constructor.
  - destruct (lookup_lt_is_Some_2 (d :: l) i) as [x Hx]; [apply Hb; by left|]. rewrite Hx. f_equal. symmetry. by apply nth_lookup_Some.
  - apply IH. intros j Hj. apply Hb. by right.
Qed.
Lemma picks_perm {A} (env l : list A) p : Permutation p (seq 0 (length l)) -> picks_list l p env -> Permutation env l.
Proof.
  intros Hp H.
  assert (E : forall q e e', picks_list l q e -> picks_list l q e' -> e = e').
  { clear. induction q as [|i q IH]; intros e e' H H'; inversion H; inversion H'; subst; [done|]. f_equal; [congruence|by apply IH]. }
  assert (Hs : picks_list l (seq 0 (length l)) l).
  { apply Forall2_same_length_lookup_2; [by rewrite seq_length|]. intros i x y Hx Hy. apply lookup_seq in Hx as [-> _]. done. }
  apply Forall2_flip in H. assert (Hp' : Permutation (seq 0 (length l)) p) by done. destruct (Forall2_perm_l (fun i x => l !! i = Some x) _ _ Hp' env) as (k & Hk & Hk2).
  { by apply Forall2_flip in H. }
  rewrite (E _ _ _ Hk2 Hs) in Hk. by symmetry.
Qed.

Section Arrange.
  Context {P : Type}.
  Variable round8 : Q -> Q.
  Variable distance : P -> P -> Q.
  Hypothesis Hd : forall x y, (distance x y == distance y x)%Q.
  Variable rtol atol : Q.
  Notation same_distances := (same_distances distance rtol atol).
  Notation deviation := (deviation distance).
  Notation arranged := (arranged distance rtol atol).
  Notation alike := (alike distance rtol atol).

  Definition clu (l : list (neighbor P)) : cluster :=
    Cluster (map (fun n => Z.of_nat (nb_index n)) l) (map nb_species l) (replicate (length (map nb_species l)) ""%string)
      (build_distance_matrix distance (map nb_coords l)).
  Lemma cluster_of_eq l : cluster_of distance l = Ok (clu l).
  Proof. unfold cluster_of, cluster_new. rewrite !map_length, Nat.eqb_refl. cbn [negb]. rewrite replicate_length, Nat.eqb_refl. cbn [negb]. unfold clu. by rewrite map_length. Qed.
  Lemma clu_proper l : proper (clu l).
  Proof. pose proof (cluster_of_eq l) as H. by apply cluster_new_proper in H. Qed.
  Lemma clu_symmetric l : symmetric (clu l).
  Proof. pose proof (cluster_of_eq l) as H. by apply cluster_new_symmetric in H. Qed.
  Lemma clu_size l : size (clu l) = length l.
  Proof. unfold size, clu. simpl. apply map_length. Qed.
  Lemma clu_labels l i : cl_labels (clu l) !! i = (fun n => (nb_species n, ""%string)) <$> l !! i.
  Proof.
    unfold cl_labels, clu. cbn [cl_species cl_roles]. rewrite map_length.
    assert (E : combine (map nb_species l) (replicate (length l) ""%string) = map (fun n => (nb_species n, ""%string)) l).
    { induction l as [|x l IH]; [done|]. simpl. by rewrite IH. }
    etrans; [apply f_equal; exact E|]. change (map ?f ?l) with (f <$> l). by rewrite list_lookup_fmap.
  Qed.
  Lemma clu_dist l i j a b : l !! i = Some a -> l !! j = Some b -> dist_at (clu l) i j = Some (distance (nb_coords a) (nb_coords b)).
  Proof.
    intros Ha Hb. unfold dist_at, clu, build_distance_matrix. cbn [cl_dist]. rewrite map_map.
    change (map ?f l) with (f <$> l) at 1. rewrite list_lookup_fmap, Ha. cbn [fmap option_fmap option_map]. rewrite map_map.
    change (map ?f l) with (f <$> l). rewrite list_lookup_fmap, Hb. done.
  Qed.
  Lemma clu_labels_perm a b : Permutation (map nb_species a) (map nb_species b) -> Permutation (cl_labels (clu a)) (cl_labels (clu b)).
  Proof.
    assert (E : forall l, cl_labels (clu l) = map tagl (map nb_species l)).
    { intros l. apply list_eq. intros i. rewrite clu_labels. rewrite map_map. change (map ?f l) with (f <$> l). by rewrite list_lookup_fmap. }
    rewrite !E. apply Permutation_map.
  Qed.

  Variable ref l : list (neighbor P).

  Lemma preserving_iff p env : picks_list l p env -> NoDup p -> length l = length ref ->
    label_preserving (clu ref) (clu l) p <-> same_species ref env.
  Proof.
    intros Hpk Hnd Hl. unfold same_species. split.
    - intros (H1 & H2 & _ & H4). rewrite clu_size in H1. apply list_eq. intros i.
      change (map ?f ?l) with (f <$> l). rewrite !list_lookup_fmap.
      destruct (p !! i) as [c|] eqn:Hc.
      + destruct (Forall2_lookup_l _ _ _ _ _ Hpk Hc) as (x & Hx & Hlx). rewrite Hx. destruct (H4 _ _ Hc) as (lb & E1 & E2).
        rewrite clu_labels in E1, E2. rewrite Hlx in E2. apply fmap_Some in E1 as (y & Hy & ->). rewrite Hy. injection E2 as E2. simpl. by rewrite E2.
      + apply lookup_ge_None in Hc. rewrite (lookup_ge_None_2 env) by (rewrite <- (Forall2_length _ _ _ Hpk); lia).
        rewrite (lookup_ge_None_2 ref) by lia. done.
    - intros He. assert (El : length env = length ref).
      { pose proof (f_equal length He) as E. rewrite !map_length in E. done. }
      pose proof (Forall2_length _ _ _ Hpk). unfold label_preserving. rewrite !clu_size. split; [lia|]. split; [done|]. split; [done|].
      intros i c Hc. destruct (Forall2_lookup_l _ _ _ _ _ Hpk Hc) as (x & Hx & Hlx). exists (nb_species x, ""%string).
      rewrite !clu_labels, Hlx. split; [|done]. pose proof (f_equal (fun m => m !! i) He) as E. cbn beta in E.
      change (map ?f ?l) with (f <$> l) in E. rewrite !list_lookup_fmap, Hx in E. symmetry in E. apply fmap_Some in E as (y & Hy & E).
      rewrite Hy. simpl. by rewrite <- E.
  Qed.
  Lemma agree_iff p env : picks_list l p env -> length p = length ref ->
    distances_agree rtol atol (clu ref) (clu l) p <-> same_distances ref env.
  Proof.
    intros Hpk Hl. split.
    - intros H i j a b x y Hij Ha Hb Hx Hy.
      destruct (Forall2_lookup_r _ _ _ _ _ Hpk Hx) as (c & Hc & Hcx). destruct (Forall2_lookup_r _ _ _ _ _ Hpk Hy) as (d & Hdd & Hdy).
      apply (H i j c d); [done|done|done| |]; by apply clu_dist.
    - intros H i j c d a b Hij Hc Hdd Ha Hb.
      destruct (Forall2_lookup_l _ _ _ _ _ Hpk Hc) as (x & Hx & Hcx). destruct (Forall2_lookup_l _ _ _ _ _ Hpk Hdd) as (y & Hy & Hdy).
      destruct (lookup_lt_is_Some_2 ref i) as [u Hu]; [rewrite <- Hl; by eapply lookup_lt_Some|].
      destruct (lookup_lt_is_Some_2 ref j) as [v Hv]; [rewrite <- Hl; by eapply lookup_lt_Some|].
      rewrite (clu_dist _ _ _ _ _ Hu Hv) in Ha. rewrite (clu_dist _ _ _ _ _ Hcx Hdy) in Hb. injection Ha as <-. injection Hb as <-.
      by apply (H i j).
  Qed.
  Lemma error_eq p env : picks_list l p env -> length p = length ref -> total_error (clu ref) (clu l) p (deviation ref env).
  Proof.
    intros Hpk Hl. pose proof (Forall2_length _ _ _ Hpk) as Hle. unfold total_error, GeneratorSpec.deviation. eexists. split; [|split; [reflexivity|]].
    - rewrite zip_with_length, clu_size. lia.
    - intros i e He. apply lookup_zip_with_Some in He as (a & x & -> & Ha & Hx). eexists. split; [|split; [reflexivity|]].
      + rewrite zip_with_length, clu_size. lia.
      + intros j e He. apply lookup_zip_with_Some in He as (b & y & -> & Hb & Hy).
        destruct (Forall2_lookup_r _ _ _ _ _ Hpk Hx) as (c & Hc & Hcx). destruct (Forall2_lookup_r _ _ _ _ _ Hpk Hy) as (d & Hdd & Hdy).
        exists c, d, (distance (nb_coords a) (nb_coords b)), (distance (nb_coords x) (nb_coords y)).
        do 2 (split; [done|]). split; [by apply clu_dist|]. split; [by apply clu_dist|done].
  Qed.

  Hypothesis Hperm : Permutation (map nb_species ref) (map nb_species l).
  Lemma same_length : length l = length ref.
  Proof. apply Permutation_length in Hperm. by rewrite !map_length in Hperm. Qed.

  Lemma fits_alike : (exists p, fits rtol atol (clu ref) (clu l) p) <-> alike ref l.
  Proof.
    split.
    - intros (p & Hp1 & Hp2). assert (Hpp : Permutation p (seq 0 (length l))).
      { rewrite <- clu_size. apply (label_preserving_perm (clu ref)); [apply clu_proper|done]. }
      assert (exists env, picks_list l p env) as [env He].
      { assert (Hb : forall i, i ∈ p -> i < length l) by (intros i Hi; rewrite Hpp in Hi; apply elem_of_seq in Hi; lia).
        clear -Hb. induction p as [|i p IH]; [exists []; constructor|]. destruct IH as [env He]; [intros j Hj; apply Hb; by right|].
        destruct (lookup_lt_is_Some_2 l i) as [x Hx]; [apply Hb; by left|]. exists (x :: env). by constructor. }
      pose proof Hp1 as (Hlen & _ & Hnd & _). rewrite clu_size in Hlen.
      exists env. split; [by eapply picks_perm|]. split; [|by eapply agree_iff].
      eapply preserving_iff; [done|done|apply same_length|done].
    - intros (env & He1 & He2 & He3). destruct (perm_picks _ _ He1) as (p & Hp & Hpk). exists p.
      assert (Hnd : NoDup p) by (rewrite Hp; apply NoDup_seq). split.
      + eapply preserving_iff; [done|done|apply same_length|done].
      + eapply agree_iff; [done| |done]. rewrite <- same_length. apply Permutation_length in Hp. by rewrite seq_length in Hp.
  Qed.

  Lemma match_arranged nearest :
    (exists m env, cluster_match round8 (clu ref) rtol atol (clu l) false nearest = Ok m /\
       rmapM (at_nat l) (reference_to_candidate m) = Ok env /\ Permutation env l /\ arranged nearest ref env) \/
    (cluster_match round8 (clu ref) rtol atol (clu l) false nearest = Err ValueError /\ nearest = false /\ ~ alike ref l).
  Proof.
    pose proof (clu_proper ref) as Pr. pose proof (clu_proper l) as Pl.
    pose proof (clu_symmetric ref) as Sr. pose proof (clu_symmetric l) as Sl.
    pose proof (clu_labels_perm _ _ Hperm) as Hlab.
    assert (Hgo : forall m, cluster_match round8 (clu ref) rtol atol (clu l) false nearest = Ok m ->
      exists env, rmapM (at_nat l) (reference_to_candidate m) = Ok env /\ Permutation env l /\ picks_list l (reference_to_candidate m) env /\
        same_species ref env /\ length (reference_to_candidate m) = length ref).
    { intros m Hm. destruct (match_reports round8 rtol atol (clu ref) (clu l) Pr Pl Sr Sl false nearest m Hm) as (Hlp & _ & _).
      assert (Hpp : Permutation (reference_to_candidate m) (seq 0 (length l))).
      { rewrite <- clu_size. by apply (label_preserving_perm (clu ref)). }
      destruct (rmapM (at_nat l) (reference_to_candidate m)) as [env|e] eqn:E.
      - exists env. split; [done|]. assert (Hpk : picks_list l (reference_to_candidate m) env).
        { apply rmapM_ok in E. eapply Forall2_impl; [exact E|]. intros i x H. by apply at_nat_ok. }
        split; [by eapply picks_perm|]. split; [done|]. pose proof Hlp as (Hlen & _ & Hnd & _). rewrite clu_size in Hlen.
        split; [|done]. eapply preserving_iff; [done|done|apply same_length|done].
      - exfalso. apply rmapM_err in E as (i & Hi & E). rewrite Hpp in Hi. apply elem_of_seq in Hi.
        destruct (lookup_lt_is_Some_2 l i) as [x Hx]; [lia|]. apply at_nat_ok in Hx. congruence. }
    destruct (match_cases round8 rtol atol (clu ref) (clu l) Pr Pl Sr Sl false nearest Hlab) as (perms & N & E & M).
    destruct perms as [|p rest].
    - assert (Hno : forall p, ~ fits rtol atol (clu ref) (clu l) p).
      { intros p Hp. apply E in Hp. by apply elem_of_nil in Hp. }
      assert (Hna : ~ alike ref l) by (rewrite <- fits_alike; intros [p Hp]; by eapply Hno).
      destruct nearest; [|by right].
      left. destruct (nearest_result round8 rtol atol (clu ref) (clu l) Pr Pl Sr Sl Hlab Hno false) as (m & Hm & Hlp & Hte & Hmin & _).
      destruct (Hgo m Hm) as (env & He & Hpe & Hpk & Hsp & Hlen). exists m, env. do 3 (split; [done|]). split; [done|]. right.
      split; [done|]. split.
      + intros env' Hp' Hs' Hd'. apply Hna. exists env'. split; [by rewrite Hp'|done].
      + intros env' Hp' Hs'. rewrite Hpe in Hp'. destruct (perm_picks _ _ Hp') as (q & Hq & Hqk).
        assert (Hlq : length q = length ref). { rewrite <- same_length. apply Permutation_length in Hq. by rewrite seq_length in Hq. }
        pose proof (error_eq _ _ Hpk Hlen) as Hx. rewrite <- (total_error_fun _ _ _ _ _ Hte Hx).
        apply (Hmin q); [|by apply error_eq]. eapply preserving_iff; [done|rewrite Hq; apply NoDup_seq|apply same_length|done].
    - left. cbn [andb] in M. assert (Hp : fits rtol atol (clu ref) (clu l) p) by (apply E; by left).
      destruct (cluster_match round8 (clu ref) rtol atol (clu l) false nearest) as [m|e] eqn:Em.
      2:{ destruct (build_ok (clu l) p (match rest with [] => true | _ => false end) 0%Q Pl) as (m & Hm & _); [by eapply fits_perm|]. congruence. }
      destruct (Hgo m eq_refl) as (env & He & Hpe & Hpk & Hsp & Hlen). exists m, env. do 3 (split; [done|]). split; [done|]. left.
      eapply agree_iff; [done|done|]. eapply found_lemma; eauto.
  Qed.
End Arrange.

Lemma alike_ref {P} (distance : P -> P -> Q) rtol atol (ref ref' l : list (neighbor P)) :
  Permutation ref' ref -> alike distance rtol atol ref l -> alike distance rtol atol ref' l.
Proof.
  intros Hp (env & He & Hs & Hdist). destruct (perm_picks _ _ Hp) as (p & Hpp & Hpk).
  assert (Hlen : length env = length ref) by (pose proof (f_equal length Hs) as E; by rewrite !map_length in E).
  assert (Hb : forall i, i ∈ p -> i < length env) by (intros i Hi; rewrite Hpp in Hi; apply elem_of_seq in Hi; lia).
  assert (exists env', picks_list env p env') as [env' He'].
  { clear -Hb. induction p as [|i p IH]; [exists []; constructor|]. destruct IH as [e He]; [intros j Hj; apply Hb; by right|].
    destruct (lookup_lt_is_Some_2 env i) as [x Hx]; [apply Hb; by left|]. exists (x :: e). by constructor. }
  exists env'. split; [|split].
  - rewrite <- He. apply (picks_perm _ _ p); [by rewrite Hlen|done].
  - unfold same_species. apply list_eq. intros i. change (map ?f ?l) with (f <$> l). rewrite !list_lookup_fmap.
    destruct (p !! i) as [c|] eqn:Hc.
    + destruct (Forall2_lookup_l _ _ _ _ _ Hpk Hc) as (x & Hx & Hrx). destruct (Forall2_lookup_l _ _ _ _ _ He' Hc) as (y & Hy & Hey).
      rewrite Hx, Hy. pose proof (f_equal (fun m => m !! c) Hs) as E. cbn beta in E. change (map ?f ?l) with (f <$> l) in E.
      rewrite !list_lookup_fmap, Hrx, Hey in E. done.
    + apply lookup_ge_None in Hc. rewrite (lookup_ge_None_2 env') by (rewrite <- (Forall2_length _ _ _ He'); lia).
      rewrite (lookup_ge_None_2 ref') by (rewrite <- (Forall2_length _ _ _ Hpk); lia). done.
  - intros i j a b x y Hij Ha Hb' Hx Hy.
    destruct (Forall2_lookup_r _ _ _ _ _ Hpk Ha) as (c & Hc & Hca). destruct (Forall2_lookup_r _ _ _ _ _ Hpk Hb') as (d & Hd & Hdb).
    destruct (Forall2_lookup_r _ _ _ _ _ He' Hx) as (c' & Hc' & Hcx). destruct (Forall2_lookup_r _ _ _ _ _ He' Hy) as (d' & Hd' & Hdy).
    rewrite Hc in Hc'. injection Hc' as <-. rewrite Hd in Hd'. injection Hd' as <-.
    apply (Hdist c d); try done. intros ->. apply Hij. eapply NoDup_lookup; [|done..]. rewrite Hpp. apply NoDup_seq.
Qed.
Lemma alike_cand {P} (distance : P -> P -> Q) rtol atol (ref l l' : list (neighbor P)) :
  Permutation l' l -> alike distance rtol atol ref l -> alike distance rtol atol ref l'.
Proof. intros Hp (env & He & H). exists env. split; [by rewrite Hp|done]. Qed.

Lemma rfold_snoc {A S} (f : S -> A -> result S) s l x : rfold f s (l ++ [x]) = let* t := rfold f s l in f t x.
Proof.
  revert s. induction l as [|y l IH]; intros s; simpl.
  - destruct (f s x); done.
  - destruct (f s y); simpl; [apply IH|done].
Qed.

Section Template.
  Context {P : Type}.
  Variable get_neighbors : list gsite -> nat -> Q -> list (near P).
  Variable order_leb : neighbor P -> neighbor P -> bool.
  Variable distance : P -> P -> Q.
  Variable round8 : Q -> Q.
  Hypothesis Hd : forall x y, (distance x y == distance y x)%Q.
  Variable cell : list gsite.
  Variable c : cutoff_dict.
  Variable rtol atol : Q.
  Variable nearest : bool.
  Notation alike := (alike distance rtol atol).
  Notation arranged := (arranged distance rtol atol).
  Notation sig := (@neighbor_species_signature P).
  Notation step := (template_step get_neighbors order_leb distance round8 cell c rtol atol nearest).

  Definition listed (p : nat) (l : list (neighbor P)) : Prop :=
    exists raw, get_cutoff_neighbor_info get_neighbors cell p c = Ok raw /\ l = sorted order_leb raw.
  Lemma listed_fun p l l' : listed p l -> listed p l' -> l = l'.
  Proof. intros (r & H & ->) (r' & H' & ->). congruence. Qed.
  Definition first_of (ps : list nat) (r : nat) (l : list (neighbor P)) : Prop :=
    r ∈ ps /\ listed r l /\ forall q lq, q ∈ ps -> q < r -> listed q lq -> sig lq <> sig l.

  Definition inv (ps : list nat) (t : dict (list (string * nat)) (cluster * list (neighbor P)) * dict Z (list (neighbor P))) : Prop :=
    (forall p s, p ∈ ps -> cell !! p = Some s -> exists l env r ref, listed p l /\ dget (snd t) (gs_local s) = Some env /\ Permutation env l /\
       dget (fst t) (sig l) = Some (clu distance ref, ref) /\ first_of ps r ref /\ r <= p /\ sig ref = sig l /\ (r = p /\ env = ref \/ r < p /\ arranged nearest ref env)) /\
    (forall k cr ref, dget (fst t) k = Some (cr, ref) -> cr = clu distance ref /\ k = sig ref /\
       exists r, first_of ps r ref /\ forall s, cell !! r = Some s -> dget (snd t) (gs_local s) = Some ref) /\
    (forall k, k ∈ dkeys (snd t) -> exists p s, p ∈ ps /\ cell !! p = Some s /\ gs_local s = k).

  Lemma first_of_snoc ps p r l : (forall q, q ∈ ps -> q < p) -> first_of ps r l -> first_of (ps ++ [p]) r l.
  Proof.
    intros Hlt (H1 & H2 & H3). split; [apply elem_of_app; by left|]. split; [done|]. intros q lq Hq Hqr Hlq.
    apply elem_of_app in Hq as [Hq|Hq]; [by apply (H3 q)|]. apply elem_of_list_singleton in Hq as ->. specialize (Hlt r H1). lia.
  Qed.

  Lemma template_fold ps :
    StronglySorted lt ps -> (forall p, p ∈ ps -> p < length cell) -> NoDup (map gs_local cell) -> search_in_cell get_neighbors cell ->
    (exists t, rfold step ([], []) ps = Ok t /\ inv ps t) \/
    (rfold step ([], []) ps = Err ValueError /\ nearest = false /\
     exists r p lr lp, first_of ps r lr /\ r < p /\ p ∈ ps /\ listed p lp /\ sig lr = sig lp /\ ~ alike lr lp).
  Proof.
    intros Hsort Hb Hloc Hse. induction ps as [|p ps IH] using rev_ind.
    { left. exists ([], []). split; [done|]. split; [by intros p s Hp%elem_of_nil|]. split; [done|]. by intros k Hk%elem_of_nil. }
    assert (Hsort' : StronglySorted lt ps /\ forall q, q ∈ ps -> q < p).
    { clear -Hsort. induction ps as [|x ps IH]; [split; [constructor|by intros q Hq%elem_of_nil]|].
      simpl in Hsort. apply StronglySorted_inv in Hsort as [H1 H2]. destruct (IH H1) as [H3 H4]. rewrite Forall_forall in H2. split.
      - constructor; [done|]. apply Forall_forall. intros y Hy. apply H2, elem_of_app. by left.
      - intros q Hq. apply elem_of_cons in Hq as [->|Hq]; [|by apply H4]. apply H2, elem_of_app. right. by left. }
    destruct Hsort' as [Hs1 Hlt]. rewrite rfold_snoc.
    destruct (IH Hs1) as [(t & Ht & Hinv)|(Herr & Hnn & r & q & lr & lq & H1 & H2 & H3 & H4 & H5 & H6)].
    { intros q Hq. apply Hb, elem_of_app. by left. }
    2:{ right. rewrite Herr. split; [done|]. split; [done|]. exists r, q, lr, lq. split; [by apply first_of_snoc|].
        split; [done|]. split; [apply elem_of_app; by left|done]. }
    rewrite Ht. cbn [rbind]. assert (Hp : p < length cell) by (apply Hb, elem_of_app; right; by left).
    destruct (info_exists get_neighbors cell c p Hp Hse) as [raw Hraw].
    destruct (lookup_lt_is_Some_2 cell p Hp) as [s Hs].
    assert (Hl : listed p (sorted order_leb raw)) by (exists raw; done).
    unfold template_step. rewrite Hraw. cbn [rbind]. rewrite (proj2 (at_nat_ok _ _ _) Hs). cbn [rbind].
    unfold sort_neighbor_info. set (l := sorted order_leb raw) in *. unfold match_or_register. destruct t as [reference info].
    rewrite cluster_of_eq. cbn [rbind]. destruct Hinv as (HA & HB & HC). cbn [fst snd] in HA, HB, HC.
    assert (Hfresh : forall q u, q ∈ ps -> cell !! q = Some u -> gs_local u <> gs_local s).
    { intros q u Hq Hu E. specialize (Hlt q Hq). rewrite NoDup_alt in Hloc. assert (q = p); [|lia].
      apply (Hloc _ _ (gs_local s)); change (map ?f ?l) with (f <$> l); rewrite list_lookup_fmap; [by rewrite Hu, <- E|by rewrite Hs]. }
    assert (Hold : forall q u env, q ∈ ps -> cell !! q = Some u -> dget (dset info (gs_local s) env) (gs_local u) = dget info (gs_local u)).
    { intros q u env Hq Hu. apply dget_dset_ne. apply not_eq_sym. by eapply Hfresh. }
    assert (Hkeys : forall env k, k ∈ dkeys (dset info (gs_local s) env) -> exists q u, q ∈ ps ++ [p] /\ cell !! q = Some u /\ gs_local u = k).
    { intros env k Hk. apply elem_of_dkeys_dset in Hk as [->|Hk].
      - exists p, s. split; [apply elem_of_app; right; by left|done].
      - destruct (HC k Hk) as (q & u & Hq & Hu & E). exists q, u. split; [apply elem_of_app; by left|done]. }
    destruct (dget reference (sig l)) as [[cr ref]|] eqn:Er.
    - destruct (HB _ _ _ Er) as (-> & Esig & r & Hr & Hrinfo).
      destruct (match_arranged round8 distance Hd rtol atol ref l (proj1 (signature_perm _ _) (eq_sym Esig)) nearest) as [(m & env & Hm & He & Hpe & Harr)|(Hm & Hnn & Hna)].
      + left. rewrite Hm. cbn [rbind]. rewrite He. cbn [rbind]. eexists. split; [reflexivity|]. split; [|split]; cbn [fst snd]; [| |apply Hkeys].
        * intros q u Hq Hu. apply elem_of_app in Hq as [Hq|Hq].
          -- destruct (HA q u Hq Hu) as (lq & envq & rq & refq & G1 & G2 & G3 & G4 & G5 & G6 & G7 & G8). exists lq, envq, rq, refq. rewrite (Hold q) by done.
             do 4 (split; [done|]). split; [by apply first_of_snoc|done].
          -- apply elem_of_list_singleton in Hq as ->. rewrite Hs in Hu. injection Hu as <-. exists l, env, r, ref. rewrite dget_dset_eq.
             do 4 (split; [done|]). split; [by apply first_of_snoc|]. destruct Hr as (Hr & _). specialize (Hlt r Hr). split; [lia|]. split; [done|]. right. split; [done|done].
        * intros k cr rf Hk. destruct (HB _ _ _ Hk) as (G1 & G2 & rr & G3 & G4). do 2 (split; [done|]). exists rr. split; [by apply first_of_snoc|].
          intros u Hu. rewrite (Hold rr); [by apply G4|apply G3|done].
      + right. rewrite Hm. cbn [rbind]. split; [done|]. split; [done|]. exists r, p, ref, l. split; [by apply first_of_snoc|].
        destruct Hr as (Hr & _). specialize (Hlt r Hr). split; [lia|]. split; [apply elem_of_app; right; by left|]. done.
    - left. eexists. split; [reflexivity|].
      assert (Hfirst : first_of (ps ++ [p]) p l).
      { split; [apply elem_of_app; right; by left|]. split; [done|]. intros q lq Hq Hqp Hlq E. apply elem_of_app in Hq as [Hq|Hq].
        - destruct (lookup_lt_is_Some_2 cell q) as [u Hu]; [lia|]. destruct (HA q u Hq Hu) as (lq' & _ & rq & refq & G1 & _ & _ & G4 & _).
          rewrite (listed_fun _ _ _ G1 Hlq) in G4. congruence.
        - apply elem_of_list_singleton in Hq. lia. }
      split; [|split]; cbn [fst snd]; [| |apply Hkeys].
      * intros q u Hq Hu. apply elem_of_app in Hq as [Hq|Hq].
        -- destruct (HA q u Hq Hu) as (lq & envq & rq & refq & G1 & G2 & G3 & G4 & G5 & G6 & G7 & G8). exists lq, envq, rq, refq. rewrite (Hold q) by done.
           do 3 (split; [done|]). split; [rewrite dget_dset_ne by congruence; done|]. split; [by apply first_of_snoc|done].
        -- apply elem_of_list_singleton in Hq as ->. rewrite Hs in Hu. injection Hu as <-. exists l, l, p, l. rewrite !dget_dset_eq.
           do 4 (split; [done|]). split; [done|]. split; [lia|]. split; [done|]. by left.
      * intros k cr rf Hk. rewrite dget_dset in Hk. destruct (decide (k = sig l)) as [->|Hne].
        -- injection Hk as <- <-. do 2 (split; [done|]). exists p. split; [done|]. intros u Hu. rewrite Hs in Hu. injection Hu as <-. by rewrite dget_dset_eq.
        -- destruct (HB _ _ _ Hk) as (G1 & G2 & rr & G3 & G4). do 2 (split; [done|]). exists rr. split; [by apply first_of_snoc|].
           intros u Hu. rewrite (Hold rr); [by apply G4|apply G3|done].
  Qed.
End Template.

(* ------------------------------------------------------------------ *)
(** ** Identifiers *)

Lemma str_in_iff x l : str_in x l = true <-> x ∈ l.
Proof. unfold str_in. rewrite existsb_exists. setoid_rewrite String.eqb_eq. setoid_rewrite <- elem_of_list_In. naive_solver. Qed.
Lemma elem_of_identifier i t : t ∈ identifier_list i <-> includes i t.
Proof. destruct i; simpl; [apply elem_of_list_singleton|done]. Qed.
Lemma elem_of_site_names s t : t ∈ site_names s <-> named s t.
Proof.
  unfold site_names, named, species_string. destruct (sp_symbol (gs_species s)), (sp_element (gs_species s)); set_solver.
Qed.
Lemma selects_iff s kind i : is_valid_target_site s kind i = true <-> selects kind i s.
Proof.
  destruct kind; simpl.
  - unfold site_matches_species_identifier. rewrite existsb_exists. split.
    + intros (t & Ht & H). apply str_in_iff, elem_of_identifier in H. apply elem_of_list_In, elem_of_site_names in Ht. eauto.
    + intros (t & Ht & H). exists t. rewrite str_in_iff, elem_of_identifier. split; [|done]. by apply elem_of_list_In, elem_of_site_names.
  - unfold site_matches_label_identifier. rewrite str_in_iff. apply elem_of_identifier.
Qed.

Lemma is_charge_iff s : is_charge s = true <-> charge_text s.
Proof.
  unfold charge_text. induction s as [|c s IH].
  - split; [done|]. intros (ds & sg & _ & _ & H). destruct ds; discriminate.
  - destruct s as [|c' s'].
    + simpl. split.
      * intros H. exists [], c. split; [constructor|]. done.
      * intros (ds & sg & Hds & Hsg & H). destruct ds as [|d ds]; [by injection H as ->|]. destruct ds; discriminate.
    + cbn [is_charge]. rewrite andb_true_iff. rewrite IH. split.
      * intros (Hc & ds & sg & Hds & Hsg & H). exists (c :: ds), sg. split; [by constructor|]. split; [done|]. simpl. by rewrite H.
      * intros (ds & sg & Hds & Hsg & H). destruct ds as [|d ds]; [discriminate|]. injection H as -> H. inversion Hds; subst.
        split; [done|]. exists ds, sg. done.
Qed.
Lemma charge_first s : charge_text s -> exists c r, s = String c r /\ is_lower c = false.
Proof.
  intros (ds & sg & Hds & Hsg & ->). destruct ds as [|d ds]; simpl.
  - exists sg, EmptyString. split; [done|]. unfold is_sign in Hsg. apply orb_true_iff in Hsg as [H|H]; apply Ascii.eqb_eq in H as ->; reflexivity.
  - eexists d, _. split; [reflexivity|]. inversion Hds as [|? ? Hd _]; subst. unfold is_digit, is_lower, in_range in *.
    apply andb_true_iff in Hd as [_ Hd]. apply Nat.leb_le in Hd. apply andb_false_iff. left. apply Nat.leb_gt. lia.
Qed.
Lemma element_of_token_iff t s : element_of_token t = Some s <-> element_symbol s /\ exists ch, charge_text ch /\ t = (s ++ ch)%string.
Proof.
  split.
  - destruct t as [|c r]; [discriminate|]. unfold element_of_token. destruct (is_upper c) eqn:Hc; [|discriminate]. cbn [negb].
    destruct r as [|d r'].
    + intros H. simpl in H. discriminate.
    + destruct (is_lower d) eqn:Hl.
      * destruct (is_charge r') eqn:Hch; [|discriminate]. intros [= <-]. apply is_charge_iff in Hch. split; [exists c; split; [done|]; right; eauto|].
        exists r'. done.
      * destruct (is_charge (String d r')) eqn:Hch; [|discriminate]. intros [= <-]. apply is_charge_iff in Hch. split; [exists c; split; [done|]; by left|].
        eexists. split; [done|]. done.
  - intros ((c & Hc & Hs) & ch & Hch & ->). destruct Hs as [->|(d & Hl & ->)].
    + destruct (charge_first ch Hch) as (x & r & -> & Hx). change (element_of_token (String c (String x r)) = Some (String c EmptyString)).
      unfold element_of_token. rewrite Hc, Hx. cbn [negb]. by rewrite (proj2 (is_charge_iff _) Hch).
    + change (element_of_token (String c (String d ch)) = Some (String c (String d EmptyString))).
      unfold element_of_token. rewrite Hc, Hl. cbn [negb]. by rewrite (proj2 (is_charge_iff _) Hch).
Qed.
Lemma variant_iff t v : v ∈ species_token_variants t <-> variant t v.
Proof.
  unfold species_token_variants, variant. rewrite elem_of_cons. rewrite <- element_of_token_iff. destruct (element_of_token t) as [s|].
  - rewrite elem_of_list_singleton. split; [intros [?|?]; [by left|right; congruence]|intros [?|?]; [by left|right; congruence]].
  - split; [intros [?|H]; [by left|by apply elem_of_nil in H]|intros [?|?]; [by left|done]].
Qed.
Lemma infer_iff ids mobile : infer_site_selection_kind ids mobile = BySpecies <-> names_species ids mobile.
Proof.
  unfold infer_site_selection_kind, names_species.
  set (toks := flatten_identifiers ids).
  assert (Ht : forall t, t ∈ toks <-> exists i, i ∈ ids /\ includes i t).
  { intros t. unfold toks, flatten_identifiers. rewrite elem_of_list_bind. split.
    - intros (i & H & Hi). exists i. by rewrite <- elem_of_identifier.
    - intros (i & Hi & H). exists i. by rewrite elem_of_identifier. }
  assert (E : (negb (Nat.eqb (length toks) 0) && forallb (fun t => existsb (fun v => str_in v (mobile ≫= species_token_variants)) (species_token_variants t)) toks) = true <->
    (exists i t, i ∈ ids /\ includes i t) /\ forall i t, i ∈ ids -> includes i t -> exists m v, m ∈ mobile /\ variant t v /\ variant m v).
  { rewrite andb_true_iff, negb_true_iff, Nat.eqb_neq, forallb_forall. match goal with |- ?a /\ ?b <-> ?c /\ ?d => cut ((a <-> c) /\ (b <-> d)); [tauto|] end. split.
    - split.
      + intros H. destruct toks as [|t r]; [done|]. destruct (proj1 (Ht t)) as (i & Hi & H'); [by left|]. eauto.
      + intros (i & t & Hi & H). assert (Hin : t ∈ toks) by (apply Ht; eauto). destruct toks; [by apply elem_of_nil in Hin|done].
    - split.
      + intros H i t Hi Hc. assert (Hin : t ∈ toks) by (apply Ht; eauto). apply elem_of_list_In, H in Hin.
        apply existsb_exists in Hin as (v & Hv & Hm). apply elem_of_list_In, variant_iff in Hv. apply str_in_iff, elem_of_list_bind in Hm as (m & Hm1 & Hm2).
        apply variant_iff in Hm1. eauto.
      + intros H t Hin. apply elem_of_list_In, Ht in Hin as (i & Hi & Hc). destruct (H i t Hi Hc) as (m & v & H1 & H2 & H3).
        apply existsb_exists. exists v. split; [by apply elem_of_list_In, variant_iff|]. apply str_in_iff, elem_of_list_bind. exists m. by rewrite variant_iff. }
  rewrite <- E. destruct (_ && _); split; congruence.
Qed.

Lemma mobile_ok given m mobile : mobile_names given m mobile <->
  match given with Some l => Ok l | None => mobile_species_from_site_mapping m end = Ok mobile.
Proof.
  destruct given as [l|]; simpl; [split; congruence|]. unfold mobile_species_from_site_mapping.
  assert (E : List.filter (fun kv : spval * allowedval => str_in "X" (map upper (mapping_values (snd kv))) || str_in "VACANCY" (map upper (mapping_values (snd kv)))) m =
              List.filter (fun kv => allows_vacancy (snd kv)) m).
  { apply filter_ext. intros [k v]. cbn [snd]. unfold allows_vacancy, vacancy_text. apply eq_true_iff_eq. rewrite orb_true_iff, !str_in_iff, existsb_exists.
    setoid_rewrite orb_true_iff. setoid_rewrite String.eqb_eq. change (map upper ?l) with (upper <$> l). rewrite !elem_of_list_fmap.
    setoid_rewrite <- elem_of_list_In. naive_solver. }
  cbn zeta. rewrite <- E. clear E. match goal with |- context [List.filter ?f m] => generalize (List.filter f m) end. intros [|kv l].
  - split; [intros [H1 H2]; destruct H1; exact H2|discriminate].
  - split; [intros [_ ->]; done|]. intros [= <-]. split; [done|done].
Qed.

(* ------------------------------------------------------------------ *)
(** ** The active sites of the primitive cell and of the supercell *)

Lemma filter_bind {A B} (f : A -> list B) (p : A -> bool) (q : B -> bool) (l : list A) :
  (forall a b, b ∈ f a -> q b = p a) -> List.filter q (l ≫= f) = List.filter p l ≫= f.
Proof.
  intros H. induction l as [|a l IH]; [done|]. rewrite bind_cons, List.filter_app, IH. cbn [List.filter].
  specialize (H a). destruct (p a).
  - rewrite bind_cons. f_equal. induction (f a) as [|b k IHk]; [done|]. cbn [List.filter]. rewrite (H b) by left. f_equal. apply IHk. intros c Hc. apply H. by right.
  - assert (E : List.filter q (f a) = []); [|by rewrite E]. induction (f a) as [|b k IHk]; [done|]. cbn [List.filter]. rewrite (H b) by left. apply IHk. intros c Hc. apply H. by right.
Qed.
Lemma map_snd_filter_enum {A} (q : A -> bool) (l : list A) : map snd (List.filter (fun e : nat * A => q (snd e)) (enumerate l)) = List.filter q l.
Proof.
  unfold enumerate. generalize 0. induction l as [|x l IH]; intros k; [done|]. cbn [enum_from List.filter snd]. destruct (q x); cbn [map snd]; by rewrite IH.
Qed.
Lemma active_filter allowed : List.filter (fun p => bool_decide (p ∈ primitive_active allowed)) (seq 0 (length allowed)) = primitive_active allowed.
Proof.
  assert (E : map fst (enumerate allowed) = seq 0 (length allowed)).
  { unfold enumerate. generalize 0. induction allowed as [|x l IH]; intros k; [done|]. cbn [enum_from map fst length seq]. by rewrite IH. }
  rewrite <- E. set (Q := fun p => bool_decide (p ∈ primitive_active allowed)).
  assert (G : forall e, e ∈ enumerate allowed -> Q (fst e) = Nat.ltb 1 (length (snd e))).
  { intros [p l] He. unfold Q. apply elem_of_enumerate in He. cbn [fst snd]. apply eq_true_iff_eq. rewrite bool_decide_eq_true, elem_of_primitive_active, Nat.ltb_lt.
    split; [intros (l' & Hl & H); congruence|eauto]. }
  clearbody Q. unfold primitive_active. clear E. revert G. generalize (enumerate allowed). intros es G. induction es as [|e es IH]; [done|]. cbn [map List.filter]. rewrite (G e) by left.
  destruct (Nat.ltb 1 (length (snd e))); cbn [map]; rewrite IH; try done; intros e' He'; apply G; by right.
Qed.

Definition to_ssite (e : nat * cell3) : ssite := SSite (fst e) (snd e).
Lemma active_sites parse fp template mapping shape o :
  built parse fp template mapping shape o ->
  exists n allowed, positive n /\ o_shape o = list_of_image n /\ allowed_species_by_site parse template mapping = Ok allowed /\
    length allowed = length template /\ primitive_active allowed <> [] /\
    o_prim_active o = map Z.of_nat (primitive_active allowed) /\
    active_structure o = Ok (combine (map to_ssite (kmc_supercell (primitive_active allowed) (nats n))) (seq 0 (active_site_count o))) /\
    Z.of_nat (active_site_count o) = (Z.of_nat (length (primitive_active allowed)) * volume n)%Z.
Proof.
  intros H. apply built_inv in H as (a & b & c & allowed & Hpos & Hsh & Hal & Hlen & Hne & H). cbn zeta in H.
  destruct H as (_ & _ & Hpa & Ha2o & _ & _ & _ & _ & Htem & _).
  exists (a, b, c)%Z, allowed. split; [done|]. split; [done|]. do 2 (split; [done|]). split; [done|]. split; [done|].
  set (full := make_kmc_supercell (length template) (Z.to_nat a, Z.to_nat b, Z.to_nat c)) in *.
  set (act := List.filter (fun e : nat * ssite => bool_decide (ss_prim (snd e) ∈ primitive_active allowed)) (enumerate full)) in *.
  assert (Hact : map snd act = map to_ssite (kmc_supercell (primitive_active allowed) (nats (a, b, c)%Z))).
  { unfold act. etrans; [exact (map_snd_filter_enum (fun s => bool_decide (ss_prim s ∈ primitive_active allowed)) full)|].
    unfold full, make_kmc_supercell.
    rewrite (filter_bind _ (fun p => bool_decide (p ∈ primitive_active allowed))).
    2:{ intros p s Hs. apply elem_of_list_bind in Hs as (t & Hs & _). apply elem_of_list_singleton in Hs as ->. done. }
    rewrite <- Hlen, active_filter. unfold kmc_supercell, nats.
    generalize (lattice_points (Z.to_nat a) (Z.to_nat b) (Z.to_nat c)). intros ts.
    generalize (primitive_active allowed). clear. intros pa. induction pa as [|p pa IH]; [done|]. rewrite !bind_cons, map_app, <- IH. f_equal.
    clear. induction ts as [|t ts IH]; [done|]. rewrite !bind_cons. cbn [app map]. by rewrite <- IH. }
  assert (Hcount : active_site_count o = length (map snd act)).
  { unfold active_site_count. rewrite Ha2o, !map_length. done. }
  split.
  - unfold active_structure. rewrite Htem, Hsh. cbn [list_of_image shape3]. fold full.
    assert (E : rmapM (py_get full) (o_a2o o) = Ok (map snd act)).
    { rewrite Ha2o. assert (Hin : forall e, e ∈ act -> full !! fst e = Some (snd e)).
      { intros [i s] He. unfold act in He. apply elem_of_list_In, filter_In in He as [He _]. apply elem_of_list_In, elem_of_enumerate in He. done. }
      clearbody act. clear -Hin. induction act as [|e es IH]; [done|]. cbn [map rmapM]. rewrite (proj2 (py_get_nonneg full (Z.of_nat (fst e)) (snd e) ltac:(lia))) by (rewrite Nat2Z.id; apply Hin; by left).
      cbn [rbind]. rewrite IH; [done|]. intros e' He'. apply Hin. by right. }
    rewrite E. cbn [rbind]. rewrite Hact. done.
  - rewrite Hcount, Hact, map_length. apply supercell_len. done.
Qed.
Lemma shape_given_ok parse fp template mapping l o : from_structure_and_mapping parse fp template mapping (Some l) = Ok o ->
  exists n, positive n /\ l = list_of_image n.
Proof.
  unfold from_structure_and_mapping. intros H. apply rbind_ok in H as (sh & Hsh & _). pose proof Hsh as Hsh'.
  apply shape_normalized in Hsh as (a & b & c & Hp & ->). exists (a, b, c)%Z. split; [done|]. unfold normalize_supercell_shape in Hsh'.
  destruct (negb _); [discriminate|]. destruct (existsb _ _); [discriminate|]. by injection Hsh' as ->.
Qed.
Lemma shape_given_exists parse fp template mapping n o1 : positive n -> from_structure_and_mapping parse fp template mapping None = Ok o1 ->
  exists o2, from_structure_and_mapping parse fp template mapping (Some (list_of_image n)) = Ok o2.
Proof.
  intros Hn H. destruct n as [[a b] c]. destruct Hn as (Ha & Hb & Hc). unfold from_structure_and_mapping in *. cbn [rbind normalize_supercell_shape] in H.
  apply rbind_ok in H as (allowed & Hal & H).
  assert (E : normalize_supercell_shape (Some (list_of_image (a, b, c))) = Ok [a; b; c]).
  { unfold normalize_supercell_shape. simpl. destruct (Z.leb_spec a 0), (Z.leb_spec b 0), (Z.leb_spec c 0); try lia. done. }
  rewrite E. cbn [rbind]. rewrite Hal. cbn [rbind]. destruct (primitive_active allowed) as [|p0 pa]; [discriminate|]. clear H.
  cbn zeta. match goal with |- context [fold_left ?f ?x ?y] => destruct (fold_left f x y) as [[u v] w] end. eauto.
Qed.

Lemma active_primitive_eq parse fp full mapping o :
  from_structure_and_mapping parse fp (map gs_species full) mapping None = Ok o ->
  exists cell, active_primitive full o = Ok cell /\ Forall2 (fun p s => full !! Z.to_nat p = Some s) (o_prim_active o) cell.
Proof.
  intros H. pose proof H as H0. apply active_sites in H as (n & allowed & Hn & Hsh & Hal & Hlen & Hne & Hpa & Hact & Hc).
  assert (n = (1, 1, 1)%Z) as ->.
  { unfold from_structure_and_mapping in H0. cbn [rbind normalize_supercell_shape] in H0. apply rbind_ok in H0 as (al & _ & H0).
    destruct (primitive_active al); [discriminate|]. cbn zeta in H0. destruct (fold_left _ _ _) as [[x y] z]. injection H0 as <-. cbn [o_shape] in Hsh.
    destruct n as [[a b] c]. by injection Hsh as <- <- <-. }
  unfold active_primitive. rewrite Hact. cbn [rbind]. rewrite Hpa.
  assert (E : kmc_supercell (primitive_active allowed) (nats (1, 1, 1)%Z) = map (fun p => (p, (0, 0, 0))) (primitive_active allowed)).
  { unfold kmc_supercell, nats. generalize (primitive_active allowed). intros l. induction l as [|p l IH]; [done|]. rewrite bind_cons, IH. done. }
  rewrite E in *. rewrite map_map.
  assert (Hlen2 : length (primitive_active allowed) = active_site_count o) by (simpl in Hc; lia).
  rewrite <- Hlen2. rewrite map_length in Hlen.
  assert (Hb : forall p, p ∈ primitive_active allowed -> p < length full).
  { intros p Hp. apply elem_of_primitive_active in Hp as (l & Hl & _). apply lookup_lt_Some in Hl. lia. }
  clear -Hb. generalize (0, 0, 0). intros img. generalize 0 as k. induction (primitive_active allowed) as [|p l IH]; intros k.
  - exists []. split; [done|constructor].
  - destruct (lookup_lt_is_Some_2 full p) as [s Hs]; [apply Hb; by left|]. destruct (IH) with (S k) as (cell & Hc & Hf); [intros q Hq; apply Hb; by right|].
    exists (s :: cell). cbn [map length seq combine rmapM fst ss_prim to_ssite]. rewrite (proj2 (at_nat_ok _ _ _) Hs). cbn [rbind]. rewrite Hc. cbn [rbind].
    split; [done|]. constructor; [by rewrite Nat2Z.id|done].
Qed.

(* ------------------------------------------------------------------ *)
(** ** Runs *)

Lemma list_of_image_inj a b : list_of_image a = list_of_image b -> a = b.
Proof. destruct a as [[? ?] ?], b as [[? ?] ?]. simpl. by intros [= -> -> ->]. Qed.
Lemma mobile_names_fun given m a b : mobile_names given m a -> mobile_names given m b -> a = b.
Proof. destruct given; simpl; [congruence|]. by intros [_ ->] [_ ->]. Qed.
Lemma kind_fun (Q : Prop) (a b : selection_kind) : (a = BySpecies <-> Q) -> (b = BySpecies <-> Q) -> a = b.
Proof. destruct a, b; intros H1 H2; try done; exfalso; assert (ByLabel = BySpecies) by tauto; discriminate. Qed.

Section Runs.
  Context {P : Type}.
  Variable parse : string -> result species.
  Variable fp : fp_payload -> string.
  Variable get_neighbors : list gsite -> nat -> Q -> list (near P).
  Variable order_leb : neighbor P -> neighbor P -> bool.
  Variable distance : P -> P -> Q.
  Variable round8 : Q -> Q.
  Notation resolved := (resolved parse fp).
  Notation run := (run parse fp get_neighbors order_leb distance round8).

  Lemma resolved_fun rq cell n kind i t c cell' n' kind' i' t' c' :
    resolved rq cell n kind i t c -> resolved rq cell' n' kind' i' t' c' ->
    cell = cell' /\ n = n' /\ kind = kind' /\ i = i' /\ t = t' /\ c = c'.
  Proof.
    intros ((_ & Hs) & (m & Hm & Hsel) & (o & Ho & Hcell) & Hc) ((_ & Hs') & (m' & Hm' & Hsel') & (o' & Ho' & Hcell') & Hc').
    rewrite (mobile_names_fun _ _ _ _ Hm' Hm) in *. clear Hm'. rewrite Ho in Ho'. injection Ho' as <-.
    assert (cell = cell') as <-.
    { clear -Hcell Hcell'. revert cell' Hcell'. induction Hcell as [|p s ps ss Hp _ IH]; intros cell' H; inversion H; subst; [done|].
      f_equal; [congruence|by apply IH]. }
    assert (n = n') as <-.
    { destruct (rq_shape rq); [|congruence]. apply list_of_image_inj. congruence. }
    split; [done|]. split; [done|].
    assert (kind = kind' /\ i = i' /\ t = t') as (<- & <- & <-).
    { destruct (rq_identifiers rq) as [ids|].
      - destruct Hsel as [-> Hk], Hsel' as [E Hk']. injection E as <- <-. split; [by eapply kind_fun|done].
      - destruct Hsel as (-> & -> & ->), Hsel' as (-> & -> & ->). done. }
    do 3 (split; [done|]). unfold cutoffs_of in *. destruct (rq_cutoffs rq); [congruence|].
    destruct Hc as (m1 & r1 & Hm1 & _ & -> & ->), Hc' as (m2 & r2 & Hm2 & _ & -> & ->). by rewrite (mobile_names_fun _ _ _ _ Hm1 Hm2).
  Qed.

  Definition after (rq : request) (o2 : order) (cell : list gsite) (n : image3) (kind : selection_kind) (i t : identifier) (c : cutoff_dict) : result (@generated P) :=
    let* tm := rfold (template_step get_neighbors order_leb distance round8 cell c (rq_rtol rq) (rq_atol rq) (rq_nearest rq)) ([], []) (find_atom_indices cell kind i) in
    let* events := expand cell (snd tm) (list_of_image n) kind i t in
    match events with
    | [] => Err ValueError
    | _ =>
        let lib := fold_left add_event events empty_lib in
        let (lib, r) := set_index_metadata lib o2 in
        let* _ := r in
        let* lib := generate_event_dependencies lib in
        Ok (Generated lib (fst tm) (snd tm))
    end.

  Lemma uniform_ok cell mobile r c : build_uniform_cutoff_dict cell mobile r = Ok c <->
    (exists s, s ∈ cell /\ selects BySpecies (IdMany mobile) s) /\
    c = (m ← List.filter (fun s => site_matches_species_identifier s (IdMany mobile)) cell; s ← cell; [((species_string m, species_string s), r)]).
  Proof.
    unfold build_uniform_cutoff_dict.
    assert (E : (exists s, s ∈ cell /\ selects BySpecies (IdMany mobile) s) <-> List.filter (fun s => site_matches_species_identifier s (IdMany mobile)) cell <> []).
    { split.
      - intros (s & Hs & Hsel) E. apply selects_iff in Hsel. apply elem_of_list_In in Hs.
        assert (H : In s (List.filter (fun s => site_matches_species_identifier s (IdMany mobile)) cell)) by (apply filter_In; done).
        by rewrite E in H.
      - intros H. destruct (List.filter _ cell) as [|s l] eqn:E; [done|]. exists s.
        assert (Hin : In s (List.filter (fun s => site_matches_species_identifier s (IdMany mobile)) cell)) by (rewrite E; by left).
        apply filter_In in Hin as [H1 H2]. split; [by apply elem_of_list_In|]. by apply (selects_iff s BySpecies). }
    rewrite E. clear E. destruct (List.filter _ cell) as [|s l].
    - split; [discriminate|]. by intros [? _].
    - split; [intros [= <-]; done|]. by intros [_ ->].
  Qed.

  Lemma infer_eq ids mobile kind : (kind = BySpecies <-> names_species ids mobile) -> infer_site_selection_kind ids mobile = kind.
  Proof. intros H. eapply kind_fun; [apply infer_iff|done]. Qed.

  Lemma cell_fun (full cell cell' : list gsite) (ps : list Z) : Forall2 (fun p s => full !! Z.to_nat p = Some s) ps cell ->
    Forall2 (fun p s => full !! Z.to_nat p = Some s) ps cell' -> cell = cell'.
  Proof.
    intros H. revert cell'. induction H as [|p s ps ss Hp _ IH]; intros cell' H; inversion H; subst; [done|]. f_equal; [congruence|by apply IH].
  Qed.

  Lemma run_resolved rq cell n kind i t c : resolved rq cell n kind i t c ->
    exists o2, from_structure_and_mapping parse fp (map gs_species (rq_full rq)) (rq_mapping rq) (Some (list_of_image n)) = Ok o2 /\
      run rq = after rq o2 cell n kind i t c.
  Proof.
    intros ((Hn & Hs) & (m & Hm & Hsel) & (o & Ho & Hcell) & Hc).
    destruct (shape_given_exists parse fp _ _ n o Hn Ho) as [o2 Ho2]. exists o2. split; [done|].
    unfold GeneratorSpec.run, generate_events, normalize_inputs. pose proof (proj1 (mobile_ok _ _ _) Hm) as Hm'.
    rewrite Hm'. cbn [rbind in_ids in_shape in_kind in_mobile in_cutoff].
    assert (Eshape : match rq_shape rq with Some s => s | None => [2; 1; 1]%Z end = list_of_image n).
    { destruct (rq_shape rq); [done|]. by rewrite Hs. }
    rewrite Eshape.
    assert (Ekind : match rq_identifiers rq with None => BySpecies | Some ids => infer_site_selection_kind ids m end = kind /\
                    match rq_identifiers rq with None => [IdMany m; IdMany m] | Some ids => ids end = [i; t]).
    { destruct (rq_identifiers rq) as [ids|].
      - destruct Hsel as [-> Hk]. split; [by apply infer_eq|done].
      - destruct Hsel as (-> & -> & ->). done. }
    destruct Ekind as [-> ->]. rewrite Ho. cbn [rbind]. rewrite Ho2. cbn [rbind].
    destruct (active_primitive_eq _ _ _ _ _ Ho) as (cell' & Ecell & Hcell'). rewrite (cell_fun _ _ _ _ Hcell Hcell'). rewrite Ecell. cbn [rbind].
    rewrite <- (cell_fun _ _ _ _ Hcell Hcell').
    match goal with |- rbind ?x _ = _ => assert (Ecut : x = Ok c) end.
    { unfold cutoffs_of in Hc. destruct (rq_cutoffs rq); [congruence|]. destruct Hc as (m2 & r & Hm2 & Hex & -> & ->).
      rewrite (mobile_names_fun _ _ _ _ Hm2 Hm) in *. apply uniform_ok. split; [done|]. destruct (rq_cutoff rq); done. }
    rewrite Ecut. cbn [rbind]. done.
  Qed.

  Lemma run_needs rq g : run rq = Ok g -> exists cell n kind i t c, resolved rq cell n kind i t c.
  Proof.
    unfold GeneratorSpec.run, generate_events, normalize_inputs. intros H. apply rbind_ok in H as (inp & Hinp & H).
    apply rbind_ok in Hinp as (m & Hm & [= <-]). cbn [in_ids in_shape in_kind in_mobile in_cutoff] in H.
    apply mobile_ok in Hm.
    set (ids := match rq_identifiers rq with None => [IdMany m; IdMany m] | Some ids => ids end) in *.
    set (kind := match rq_identifiers rq with None => BySpecies | Some ids => infer_site_selection_kind ids m end) in *.
    assert (exists i t, ids = [i; t]) as (i & t & Eids).
    { destruct ids as [|i [|t [|]]]; try discriminate. eauto. }
    rewrite Eids in H. apply rbind_ok in H as (o1 & Ho1 & H). apply rbind_ok in H as (o2 & Ho2 & H).
    apply rbind_ok in H as (cell & Hcell & H). apply rbind_ok in H as (c & Hc & _).
    destruct (shape_given_ok _ _ _ _ _ _ Ho2) as (n & Hn & En).
    destruct (active_primitive_eq _ _ _ _ _ Ho1) as (cell' & Ecell & Hcell'). rewrite Hcell in Ecell. injection Ecell as <-.
    exists cell, n, kind, i, t, c. split; [|split; [|split]].
    - split; [done|]. destruct (rq_shape rq); [done|]. apply list_of_image_inj. by rewrite <- En.
    - exists m. split; [done|]. unfold kind, ids in *. destruct (rq_identifiers rq) as [l|].
      + split; [done|]. apply infer_iff.
      + injection Eids as <- <-. done.
    - exists o1. done.
    - unfold cutoffs_of. destruct (rq_cutoffs rq) as [l|]; [by injection Hc as ->|].
      apply uniform_ok in Hc as [Hex Hc]. exists m. eexists. split; [done|]. split; [done|]. split; [reflexivity|]. rewrite Hc. destruct (rq_cutoff rq); done.
  Qed.

  Notation neighbourhood := (neighbourhood get_neighbors).
  Notation first_of_its_kind := (first_of_its_kind get_neighbors).
  Notation neighbourhoods_alike := (neighbourhoods_alike get_neighbors distance).
  Notation some_hop := (some_hop get_neighbors).

  Lemma cell_locals rq cell : active_cell parse fp rq cell -> distinct_local_indices (rq_full rq) -> NoDup (map gs_local cell).
  Proof.
    intros (o & Ho & Hcell) Hd. apply active_sites in Ho as (n & allowed & _ & _ & _ & _ & _ & Hpa & _). rewrite Hpa in Hcell.
    pose proof (StronglySorted_lt_NoDup _ (primitive_active_sorted allowed)) as Hnd. apply NoDup_alt. intros i j z Hi Hj.
    change (map ?f ?l) with (f <$> l) in Hi, Hj. rewrite list_lookup_fmap in Hi, Hj.
    apply fmap_Some in Hi as (s & Hs & ->). apply fmap_Some in Hj as (u & Hu & E).
    destruct (Forall2_lookup_r _ _ _ _ _ Hcell Hs) as (x & Hx & Hxs). destruct (Forall2_lookup_r _ _ _ _ _ Hcell Hu) as (y & Hy & Hyu).
    change (map ?f ?l) with (f <$> l) in Hx, Hy. rewrite list_lookup_fmap in Hx, Hy.
    apply fmap_Some in Hx as (p & Hp & ->). apply fmap_Some in Hy as (q & Hq & ->). rewrite Nat2Z.id in Hxs, Hyu.
    assert (p = q) as ->.
    { unfold distinct_local_indices in Hd. rewrite NoDup_alt in Hd. apply (Hd _ _ (gs_local s)); change (map ?f ?l) with (f <$> l); rewrite list_lookup_fmap; [by rewrite Hxs|].
      rewrite Hyu. simpl. by rewrite E. }
    eapply NoDup_lookup; eauto.
  Qed.
  Lemma locals_pairs (cell : list gsite) : NoDup (map gs_local cell) -> NoDup (map (fun s => (gs_label s, gs_local s)) cell).
  Proof.
    intros H. apply (NoDup_fmap_1 snd). change (snd <$> ?l) with (map snd l). rewrite map_map. exact H.
  Qed.

  Lemma describes_fun cell (a b : neighbor P) x : describes cell a x -> describes cell b x -> a = b.
  Proof.
    intros (A1 & A2 & A3 & s & A4 & A5 & A6 & A7) (B1 & B2 & B3 & t & B4 & B5 & B6 & B7). rewrite A4 in B4. injection B4 as <-.
    destruct a, b. simpl in *. congruence.
  Qed.
  Lemma neighbourhood_perm cell c p l l' : neighbourhood cell c p l -> neighbourhood cell c p l' -> Permutation l l'.
  Proof.
    intros (xs & Hx & Hl) (ys & Hy & Hl'). rewrite <- Hy in Hx. apply Forall2_flip in Hl'.
    destruct (Forall2_perm_l _ _ _ Hx _ Hl') as (k & Hk & Hkx). rewrite <- Hk.
    assert (l = k); [|by subst]. apply Forall2_flip in Hkx. clear -Hl Hkx. revert k Hkx. induction Hl as [|a x l xs Ha _ IH]; intros k Hk; inversion Hk; subst; [done|].
    f_equal; [by eapply describes_fun|by apply IH].
  Qed.
  Lemma neighbourhood_of_perm cell c p l l' : Permutation l' l -> neighbourhood cell c p l -> neighbourhood cell c p l'.
  Proof.
    intros Hp (xs & Hx & Hl). destruct (Forall2_perm_l _ _ _ Hp _ Hl) as (ys & Hy & Hl'). exists ys. split; [by rewrite Hy|done].
  Qed.
  Lemma listed_neighbourhood cell c p l : listed get_neighbors order_leb cell c p l -> neighbourhood cell c p l.
  Proof.
    intros (raw & Hraw & ->). apply info_ok in Hraw as [_ Hraw]. eapply neighbourhood_of_perm; [apply sorted_perm|]. eexists. split; [reflexivity|done].
  Qed.
  Lemma neighbourhood_faithful cell c p l nb : neighbourhood cell c p l -> nb ∈ l -> faithful cell nb.
  Proof.
    intros (xs & _ & Hl) Hnb. apply elem_of_list_lookup in Hnb as [k Hk]. destruct (Forall2_lookup_l _ _ _ _ _ Hl Hk) as (x & _ & Hx). by eapply describes_faithful.
  Qed.

  Hypothesis Hd : forall x y, (distance x y == distance y x)%Q.

  Section Fixed.
    Variable rq : request.
    Variable cell : list gsite.
    Variable n : image3.
    Variable kind : selection_kind.
    Variable initial target : identifier.
    Variable c : cutoff_dict.
    Hypothesis Hres : resolved rq cell n kind initial target c.
    Hypothesis Hloc : distinct_local_indices (rq_full rq).
    Hypothesis Hse : search_in_cell get_neighbors cell.
    Notation ps := (find_atom_indices cell kind initial).
    Notation listed := (listed get_neighbors order_leb cell c).
    Notation first_of := (first_of get_neighbors order_leb cell c).
    Notation inv := (inv get_neighbors order_leb distance cell c (rq_rtol rq) (rq_atol rq) (rq_nearest rq)).
    Notation sig := (@neighbor_species_signature P).

    Lemma ps_sorted : StronglySorted lt ps.
    Proof. apply (filter_enum_sorted _ 0). Qed.
    Lemma elem_of_ps p : p ∈ ps <-> exists s, cell !! p = Some s /\ selects kind initial s.
    Proof. rewrite elem_of_migrating. setoid_rewrite selects_iff. done. Qed.
    Lemma listed_exists p s : cell !! p = Some s -> exists l, listed p l.
    Proof.
      intros H. destruct (info_exists get_neighbors cell c p) as [raw Hraw]; [by eapply lookup_lt_Some|done|]. exists (sorted order_leb raw), raw. done.
    Qed.
    Lemma Hn : positive n.
    Proof. apply Hres. Qed.
    Lemma Hnd : NoDup (map gs_local cell).
    Proof. eapply cell_locals; [apply Hres|done]. Qed.

    Lemma tgt_iff (nb : neighbor P) : tgt cell kind target nb = true <-> exists t, cell !! nb_index nb = Some t /\ selects kind target t.
    Proof.
      unfold tgt. destruct (cell !! nb_index nb) as [t|].
      - rewrite selects_iff. split; [eauto|]. by intros (t' & [= <-] & H).
      - split; [done|]. by intros (t' & ? & _).
    Qed.

    Lemma inv_env t : inv ps t -> forall p s, cell !! p = Some s -> selects kind initial s ->
      exists env, dget (snd t) (gs_local s) = Some env /\ neighbourhood cell c p env.
    Proof.
      intros (HA & _) p s Hp Hs. destruct (HA p s) as (l & env & _ & _ & Hl & He & Hpe & _); [apply elem_of_ps; eauto|done|].
      exists env. split; [done|]. eapply neighbourhood_of_perm; [done|]. by apply listed_neighbourhood.
    Qed.

    Lemma inv_events t : inv ps t -> expand cell (snd t) (list_of_image n) kind initial target =
      Ok (find_atom_indices (map fst (kmc_supercell cell (nats n))) kind initial ≫= site_events cell n kind target (snd t)).
    Proof.
      intros Hi. apply expand_eq; [apply Hn|apply locals_pairs, Hnd|]. intros p s Hp Hs. apply selects_iff in Hs.
      destruct (inv_env t Hi p s Hp Hs) as (env & He & Hnb). exists env. split; [done|]. intros nb H. by eapply neighbourhood_faithful.
    Qed.

    Lemma events_in_range t es : inv ps t -> expand cell (snd t) (list_of_image n) kind initial target = Ok es ->
      indices_in_range es (Z.to_nat (Z.of_nat (length cell) * volume n)).
    Proof.
      intros Hi He. rewrite (inv_events t Hi) in He. injection He as <-. intros e k Hk Htouch.
      apply (elem_of_events cell n Hn) in Hk as (p & s & env & a & nb & Hp & Hs & Ha & He & Hnb & _ & ->). apply selects_iff in Hs.
      destruct (inv_env t Hi p s Hp Hs) as (env' & He' & Hne). rewrite He in He'. injection He' as <-.
      assert (Hf : forall x, x ∈ env -> (0 <= site_number n (nb_index x) (a +v nb_image x) < Z.of_nat (length cell) * volume n)%Z).
      { intros x Hx. destruct (neighbourhood_faithful _ _ _ _ _ Hne Hx) as (u & Hu & _). apply number_bound; [apply Hn|by eapply lookup_lt_Some]. }
      assert (Hpb : (0 <= site_number n p a < Z.of_nat (length cell) * volume n)%Z) by (apply number_bound; [apply Hn|by eapply lookup_lt_Some]).
      rewrite Z2Nat.id by lia. unfold touches, hop in Htouch. cbn [mobile_ion_indices local_env_indices] in Htouch. destruct Htouch as [H|H].
      - apply elem_of_cons in H as [->|H]; [done|]. apply elem_of_list_singleton in H as ->. by apply Hf.
      - apply elem_of_list_fmap in H as (x & -> & Hx). by apply Hf.
    Qed.
    Lemma order_count o2 : from_structure_and_mapping parse fp (map gs_species (rq_full rq)) (rq_mapping rq) (Some (list_of_image n)) = Ok o2 ->
      active_site_count o2 = Z.to_nat (Z.of_nat (length cell) * volume n) /\ o_shape o2 = list_of_image n /\
      exists allowed, active_structure o2 = Ok (combine (map to_ssite (kmc_supercell (primitive_active allowed) (nats n))) (seq 0 (active_site_count o2))) /\
        o_prim_active o2 = map Z.of_nat (primitive_active allowed) /\
        length (primitive_active allowed) = length cell /\
        Forall2 (fun p s => rq_full rq !! p = Some s) (primitive_active allowed) cell.
    Proof.
      intros H2. pose proof H2 as H2'. apply active_sites in H2 as (n2 & al2 & Hn2 & Hsh & Hal & _ & _ & Hpa & Hact & Hc).
      destruct Hres as ((Hpos & _) & _ & (o1 & Ho1 & Hcell) & _).
      apply active_sites in Ho1 as (n1 & al1 & _ & _ & Hal1 & _ & _ & Hpa1 & _ & _). rewrite Hal in Hal1. injection Hal1 as <-.
      assert (n2 = n) as ->.
      { apply list_of_image_inj. rewrite <- Hsh. unfold from_structure_and_mapping in H2'. apply rbind_ok in H2' as (sh & Hs & H2').
        apply rbind_ok in H2' as (al & _ & H2'). destruct (primitive_active al); [discriminate|]. cbn zeta in H2'.
        destruct (fold_left _ _ _) as [[x y] z]. injection H2' as <-. cbn [o_shape]. unfold normalize_supercell_shape in Hs.
        destruct (negb _); [discriminate|]. destruct (existsb _ _); [discriminate|]. by injection Hs as ->. }
      assert (Hf : Forall2 (fun p s => rq_full rq !! p = Some s) (primitive_active al2) cell).
      { rewrite Hpa1 in Hcell. clear -Hcell. revert Hcell. generalize (primitive_active al2). intros l. revert cell. induction l as [|p l IH]; intros cell H; inversion H; subst; constructor.
        - by rewrite Nat2Z.id in *. - by apply IH. }
      pose proof (Forall2_length _ _ _ Hf) as Hlen. split; [rewrite <- Hlen, <- Hc; lia|]. split; [done|]. exists al2. done.
    Qed.

    Definition lib_of (o2 : order) (es : list event) : event_lib := fst (set_index_metadata (fold_left add_event es empty_lib) o2).
    Lemma after_ok o2 g : from_structure_and_mapping parse fp (map gs_species (rq_full rq)) (rq_mapping rq) (Some (list_of_image n)) = Ok o2 ->
      after rq o2 cell n kind initial target c = Ok g <->
      exists t es, inv ps t /\ rfold (template_step get_neighbors order_leb distance round8 cell c (rq_rtol rq) (rq_atol rq) (rq_nearest rq)) ([], []) ps = Ok t /\
        expand cell (snd t) (list_of_image n) kind initial target = Ok es /\ es <> [] /\
        generate_event_dependencies (lib_of o2 es) = Ok (g_lib g) /\ g_refs g = fst t /\ g_info g = snd t.
    Proof.
      intros Ho2.
      assert (Hfold : (exists t, rfold (template_step get_neighbors order_leb distance round8 cell c (rq_rtol rq) (rq_atol rq) (rq_nearest rq)) ([], []) ps = Ok t /\ inv ps t) \/
        exists e, rfold (template_step get_neighbors order_leb distance round8 cell c (rq_rtol rq) (rq_atol rq) (rq_nearest rq)) ([], []) ps = Err e).
      { destruct (template_fold get_neighbors order_leb distance round8 Hd cell c (rq_rtol rq) (rq_atol rq) (rq_nearest rq) ps ps_sorted) as [H|(H & _)]; [|apply Hnd|done|by left|right; eauto].
        intros p Hp. apply elem_of_ps in Hp as (s & Hs & _). by eapply lookup_lt_Some. }
      unfold after. destruct Hfold as [(t & Ht & Hinv)|(e & He)].
      2:{ rewrite He. split; [discriminate|]. by intros (t & es & _ & ? & _). }
      rewrite Ht. cbn [rbind].
      assert (Hes : forall es, expand cell (snd t) (list_of_image n) kind initial target = Ok es ->
        set_index_metadata (fold_left add_event es empty_lib) o2 = (lib_of o2 es, Ok ())).
      { intros es Hes. unfold lib_of. assert (E : snd (set_index_metadata (fold_left add_event es empty_lib) o2) = Ok ()).
        { unfold set_index_metadata. cbn [snd]. apply validate_event_indices_ok. cbn [events]. rewrite add_events_events. cbn [events empty_lib app].
          destruct (order_count o2 Ho2) as [-> _]. by eapply events_in_range. }
        rewrite <- E. by destruct (set_index_metadata _ _). }
      split.
      - intros H. apply rbind_ok in H as (es & He & H). destruct es as [|e es]; [discriminate|]. rewrite (Hes _ He) in H. cbn [rbind] in H.
        apply rbind_ok in H as (lib & Hlib & [= <-]). exists t, (e :: es). simpl. do 6 (split; [done|]). done.
      - intros (t' & es & _ & [= <-] & He & Hne & Hlib & Hr & Hi). rewrite He. cbn [rbind]. destruct es as [|e es]; [done|]. rewrite (Hes _ He). cbn [rbind].
        rewrite Hlib. cbn [rbind]. destruct g. simpl in *. by subst.
    Qed.
    Lemma run_ok g : run rq = Ok g <->
      exists o2 t es, from_structure_and_mapping parse fp (map gs_species (rq_full rq)) (rq_mapping rq) (Some (list_of_image n)) = Ok o2 /\
        inv ps t /\ rfold (template_step get_neighbors order_leb distance round8 cell c (rq_rtol rq) (rq_atol rq) (rq_nearest rq)) ([], []) ps = Ok t /\
        expand cell (snd t) (list_of_image n) kind initial target = Ok es /\ es <> [] /\
        generate_event_dependencies (lib_of o2 es) = Ok (g_lib g) /\ g_refs g = fst t /\ g_info g = snd t.
    Proof.
      destruct (run_resolved _ _ _ _ _ _ _ Hres) as (o2 & Ho2 & E). rewrite E, (after_ok o2 g Ho2). split.
      - intros (t & es & H). exists o2, t, es. done.
      - intros (o2' & t & es & Ho & H). rewrite Ho2 in Ho. injection Ho as <-. exists t, es. done.
    Qed.

    Lemma sig_composition (l l' : list (neighbor P)) : sig l = sig l' <-> same_composition l l'.
    Proof. apply signature_perm. Qed.
    Lemma composition_perm (l l' k k' : list (neighbor P)) : Permutation l l' -> Permutation k k' -> same_composition l k -> same_composition l' k'.
    Proof. unfold same_composition. intros H1 H2 H. by rewrite <- H1, <- H2. Qed.
    Lemma first_iff r l : first_of ps r l <-> listed r l /\ first_of_its_kind cell c kind initial r /\ exists s, cell !! r = Some s /\ selects kind initial s.
    Proof.
      split.
      - intros (H1 & H2 & H3). split; [done|]. split; [|by apply elem_of_ps].
        intros lr q s lq Hlr Hq Hs Hsel Hlq Hc. destruct (listed_exists q s Hs) as [lq' Hq']. apply (H3 q lq'); [apply elem_of_ps; eauto|done|done|].
        apply sig_composition. eapply composition_perm; [| |exact Hc].
        + eapply neighbourhood_perm; [done|by apply listed_neighbourhood].
        + eapply neighbourhood_perm; [done|by apply listed_neighbourhood].
      - intros (H1 & H2 & H3). split; [by apply elem_of_ps|]. split; [done|]. intros q lq Hq Hqr Hlq E. apply elem_of_ps in Hq as (s & Hs & Hsel).
        apply (H2 l q s lq); try done; [by apply listed_neighbourhood|by apply listed_neighbourhood|by apply sig_composition].
    Qed.

    Lemma succeeds_lemma : (exists g, run rq = Ok g) <->
      (rq_nearest rq = true \/ neighbourhoods_alike rq cell c kind initial) /\ some_hop cell c kind initial target.
    Proof.
      destruct (template_fold get_neighbors order_leb distance round8 Hd cell c (rq_rtol rq) (rq_atol rq) (rq_nearest rq) ps ps_sorted) as [(t & Ht & Hinv)|(He & Hnn & r & p & lr & lp & Hr & Hrp & Hp & Hlp & Esig & Hna)]; [|apply Hnd|done| |].
      { intros p Hp. apply elem_of_ps in Hp as (s & Hs & _). by eapply lookup_lt_Some. }
      - assert (Hok : (exists g, run rq = Ok g) <-> some_hop cell c kind initial target).
        { transitivity (exists e, e ∈ (find_atom_indices (map fst (kmc_supercell cell (nats n))) kind initial ≫= site_events cell n kind target (snd t))).
          - split.
            + intros [g Hg]. apply run_ok in Hg as (o2 & t' & es & _ & _ & Ht' & Hes & Hne & _). rewrite Ht in Ht'. injection Ht' as <-.
              rewrite (inv_events t Hinv) in Hes. injection Hes as <-. destruct (_ ≫= _) as [|e es]; [done|]. exists e. by left.
            + intros [e He]. destruct (run_resolved _ _ _ _ _ _ _ Hres) as (o2 & Ho2 & _).
              destruct (generate_total (lib_of o2 (find_atom_indices (map fst (kmc_supercell cell (nats n))) kind initial ≫= site_events cell n kind target (snd t)))) as [lib Hlib].
              exists (Generated lib (fst t) (snd t)). apply run_ok. exists o2, t. eexists. split; [done|]. split; [done|]. split; [done|]. split; [by apply inv_events|].
              split; [|done]. intros E. rewrite E in He. by apply elem_of_nil in He.
          - split.
            + intros [e He]. apply (elem_of_events cell n Hn) in He as (p & s & env & a & nb & Hp & Hs & Ha & He & Hnb & Ht' & _). apply selects_iff in Hs. apply tgt_iff in Ht' as (u & Hu & Hut).
              destruct (inv_env t Hinv p s Hp Hs) as (env' & He' & xs & Hxs & Hf). rewrite He in He'. injection He' as <-.
              apply elem_of_list_lookup in Hnb as [k Hk]. destruct (Forall2_lookup_l _ _ _ _ _ Hf Hk) as (x & Hx & Hdx).
              exists p, s, x, u. split; [done|]. split; [done|]. split; [rewrite <- Hxs; by eapply elem_of_list_lookup_2|]. destruct Hdx as (<- & _). done.
            + intros (p & s & x & u & Hp & Hs & Hx & Hu & Hut). destruct (inv_env t Hinv p s Hp Hs) as (env & He & xs & Hxs & Hf).
              rewrite <- Hxs in Hx. apply elem_of_list_lookup in Hx as [k Hk]. destruct (Forall2_lookup_r _ _ _ _ _ Hf Hk) as (nb & Hnb & Hdx).
              exists (hop n p (0, 0, 0)%Z env nb). apply (elem_of_events cell n Hn). exists p, s, env, (0, 0, 0)%Z, nb. split; [done|]. split; [by apply selects_iff|].
              split. { pose proof Hn as Hpos. destruct n as [[n1 n2] n3]. simpl in *. lia. }
              split; [done|]. split; [by eapply elem_of_list_lookup_2|]. split; [|done]. apply tgt_iff. destruct Hdx as (-> & _). eauto. }
        rewrite Hok. split; [|by intros [_ ?]]. intros Hhop. split; [|done]. destruct (rq_nearest rq) eqn:Enear; [by left|]. right.
        intros r sr lr p sp lp Hrp Hsr Hsp Hselr Hselp Hlr Hlp Hcomp Hfirst. destruct Hinv as (HA & _).
        destruct (HA p sp) as (l & env & r' & ref & Hl & _ & Hpe & _ & Hfr & Hle & Esig & Harr); [apply elem_of_ps; eauto|done|].
        apply first_iff in Hfr as (Hlref & Hfr & sr' & Hsr' & Hselr').
        assert (r' = r) as ->.
        { destruct (listed_exists r sr Hsr) as [lr0 Hlr0].
          assert (Hc : same_composition lr ref).
          { unfold same_composition in *. rewrite Hcomp. apply sig_composition in Esig. unfold same_composition in Esig. rewrite Esig. apply Permutation_map.
            eapply neighbourhood_perm; [done|by apply listed_neighbourhood]. }
          destruct (Nat.lt_trichotomy r r') as [H|[H|H]]; [|done|].
          - exfalso. apply (Hfr ref r sr lr); try done. by apply listed_neighbourhood.
          - exfalso. apply (Hfirst lr r' sr' ref); try done; [by apply listed_neighbourhood|]. unfold same_composition in *. by rewrite Hc. }
        assert (Hal : alike distance (rq_rtol rq) (rq_atol rq) ref l).
        { destruct Harr as [[-> _]|[_ (Hsp' & [Hdist|[? _]])]]; [lia| |done]. exists env. done. }
        eapply alike_ref; [eapply neighbourhood_perm; [exact Hlr|by apply listed_neighbourhood]|].
        eapply alike_cand; [|exact Hal]. eapply neighbourhood_perm; [exact Hlp|by apply listed_neighbourhood].
      - split.
        + intros [g Hg]. apply run_ok in Hg as (o2 & t' & es & _ & _ & Ht' & _). congruence.
        + intros [[?|Halike] _]; [congruence|]. exfalso. apply first_iff in Hr as (Hlr & Hfr & sr & Hsr & Hselr). apply elem_of_ps in Hp as (sp & Hsp & Hselp).
          apply Hna. apply (Halike r sr lr p sp lp); try done; [by apply listed_neighbourhood|by apply listed_neighbourhood|by apply sig_composition].
    Qed.

    Lemma run_inv g : run rq = Ok g -> exists t, inv ps t /\ g_info g = snd t /\
      events (g_lib g) = (find_atom_indices (map fst (kmc_supercell cell (nats n))) kind initial ≫= site_events cell n kind target (snd t)) /\
      exists o2, from_structure_and_mapping parse fp (map gs_species (rq_full rq)) (rq_mapping rq) (Some (list_of_image n)) = Ok o2 /\
        index_metadata (g_lib g) = Some (order_as_dict o2).
    Proof.
      intros Hg. apply run_ok in Hg as (o2 & t & es & Ho2 & Hinv & _ & Hes & _ & Hlib & _ & Hi).
      exists t. split; [done|]. split; [done|]. rewrite (inv_events t Hinv) in Hes. injection Hes as <-.
      pose proof (generate_events_same _ _ Hlib) as (E1 & _ & E2 & _). rewrite E1. unfold lib_of, set_index_metadata. cbn [fst events].
      rewrite add_events_events. split; [done|]. exists o2. split; [done|]. by rewrite E2.
    Qed.

    Lemma dependencies_lemma g : run rq = Ok g ->
      exact_dependencies (events (g_lib g)) (get_dependent_events (g_lib g)) /\
      forall s, get_events_involving_site (g_lib g) s = index_list 0 (events (g_lib g)) s.
    Proof.
      intros Hg. apply run_ok in Hg as (o2 & t & es & Ho2 & Hinv & _ & Hes & _ & Hlib & _ & Hi).
      destruct (dependencies_exact_lemma (lib_of o2 es)) as (lib' & E & E1 & E2 & _). rewrite Hlib in E. injection E as <-.
      rewrite E1. split; [done|]. pose proof (generate_events_same _ _ Hlib) as (_ & E3 & _).
      intros k. unfold get_events_involving_site. rewrite E3. unfold lib_of, set_index_metadata. cbn [fst events site_to_events].
      rewrite add_events_events. apply site_index_exact_lemma.
    Qed.

    Lemma environment_lemma g p s : run rq = Ok g -> cell !! p = Some s -> selects kind initial s ->
      exists env, environment g s env /\ neighbourhood cell c p env.
    Proof.
      intros Hg Hp Hs. apply run_inv in Hg as (t & Hinv & Hi & _). unfold environment. rewrite Hi. by apply inv_env.
    Qed.

    Lemma events_lemma g e : run rq = Ok g -> (e ∈ events (g_lib g) <->
      exists p s env a nb t, cell !! p = Some s /\ selects kind initial s /\ environment g s env /\ inside n a /\ nb ∈ env /\
        cell !! nb_index nb = Some t /\ selects kind target t /\ e = hop n p a env nb).
    Proof.
      intros Hg. apply run_inv in Hg as (t & Hinv & Hi & -> & _). rewrite (elem_of_events cell n Hn). unfold environment. rewrite Hi. split.
      - intros (p & s & env & a & nb & Hp & Hs & Ha & He & Hnb & Ht & ->). apply selects_iff in Hs. apply tgt_iff in Ht as (u & Hu & Hut). exists p, s, env, a, nb, u. done.
      - intros (p & s & env & a & nb & u & Hp & Hs & He & Ha & Hnb & Hu & Hut & ->). exists p, s, env, a, nb. split; [done|]. split; [by apply selects_iff|].
        do 3 (split; [done|]). split; [|done]. apply tgt_iff. eauto.
    Qed.

    Lemma order_lemma g p s env : run rq = Ok g -> cell !! p = Some s -> selects kind initial s -> environment g s env ->
      exists r sr ref, r <= p /\ cell !! r = Some sr /\ selects kind initial sr /\ environment g sr ref /\ same_composition ref env /\
        first_of_its_kind cell c kind initial r /\
        (r = p \/ r < p /\ arranged distance (rq_rtol rq) (rq_atol rq) (rq_nearest rq) ref env).
    Proof.
      intros Hg Hp Hs He. apply run_inv in Hg as (t & Hinv & Hi & _). unfold environment in *. rewrite Hi in *. destruct Hinv as (HA & HB & _).
      destruct (HA p s) as (l & env' & r & ref & Hl & He' & Hpe & Href & Hfr & Hle & Esig & Harr); [apply elem_of_ps; eauto|done|].
      rewrite He in He'. injection He' as <-. pose proof Hfr as Hfr'. apply first_iff in Hfr as (Hlref & Hfr & sr & Hsr & Hselr).
      destruct (HB _ _ _ Href) as (_ & _ & r' & Hr' & Hinfo).
      assert (r' = r) as ->.
      { assert (Hrefl : same_composition ref ref) by (unfold same_composition; reflexivity). apply first_iff in Hr' as (Hlr' & Hfirst' & sr' & Hsr' & Hselr'). destruct (Nat.lt_trichotomy r r') as [H|[H|H]]; [|done|].
        - exfalso. apply (Hfirst' ref r sr ref); try done; by apply listed_neighbourhood.
        - exfalso. apply (Hfr ref r' sr' ref); try done; by apply listed_neighbourhood. }
      exists r, sr, ref. split; [done|]. split; [done|]. split; [done|]. split; [by apply Hinfo|]. split; [|split; [done|]].
      - apply sig_composition in Esig. unfold same_composition in *. rewrite Esig. apply Permutation_map. by symmetry.
      - destruct Harr as [[-> _]|H]; [by left|by right].
    Qed.

    Lemma index_lemma g : run rq = Ok g -> exists o,
      from_structure_and_mapping parse fp (map gs_species (rq_full rq)) (rq_mapping rq) (Some (list_of_image n)) = Ok o /\
      index_metadata (g_lib g) = Some (order_as_dict o) /\ indices_in_range (events (g_lib g)) (active_site_count o) /\
      exists sites, active_structure o = Ok sites /\
        forall k q x y z, sites !! k = Some (SSite q (x, y, z), k) <->
          exists p, o_prim_active o !! p = Some (Z.of_nat q) /\ inside n (Z.of_nat x, Z.of_nat y, Z.of_nat z) /\
            Z.of_nat k = site_number n p (Z.of_nat x, Z.of_nat y, Z.of_nat z).
    Proof.
      intros Hg. pose proof Hg as Hg'. apply run_inv in Hg as (t & Hinv & Hi & Hev & o2 & Ho2 & Hmeta). exists o2. split; [done|]. split; [done|].
      destruct (order_count o2 Ho2) as (Hc & Hsh & allowed & Hact & Hpa & Hlen & Hf). split.
      - rewrite Hc. eapply events_in_range; [done|]. rewrite Hev. by apply inv_events.
      - eexists. split; [exact Hact|]. intros k q x y z.
        assert (Hlen2 : length (kmc_supercell (primitive_active allowed) (nats n)) = active_site_count o2).
        { pose proof (supercell_len (primitive_active allowed) n Hn) as E. rewrite Hc, <- Hlen. lia. }
        assert (E : combine (map to_ssite (kmc_supercell (primitive_active allowed) (nats n))) (seq 0 (active_site_count o2)) !! k = Some (SSite q (x, y, z), k) <->
                    kmc_supercell (primitive_active allowed) (nats n) !! k = Some (q, (x, y, z))).
        { rewrite <- Hlen2. generalize (kmc_supercell (primitive_active allowed) (nats n)). clear. intros l.
          transitivity ((zip_with pair (map to_ssite l) (seq 0 (length l))) !! k = Some (SSite q (x, y, z), k)); [done|].
          rewrite lookup_zip_with_Some. split.
          - intros (u & v & [= <- <-] & Hu & Hv). change (map to_ssite l) with (to_ssite <$> l) in Hu. rewrite list_lookup_fmap in Hu.
            apply fmap_Some in Hu as ([q' i'] & Hl & [= -> <-]). done.
          - intros Hl. exists (SSite q (x, y, z)), k. split; [done|]. split.
            + change (map to_ssite l) with (to_ssite <$> l). rewrite list_lookup_fmap, Hl. done.
            + apply lookup_seq. split; [done|]. by eapply lookup_lt_Some. }
        rewrite E, supercell_at by apply Hn. rewrite Hpa. split; intros (p & Hp & H); exists p; (split; [|done]).
        + change (map ?f ?l) with (f <$> l). rewrite list_lookup_fmap, Hp. done.
        + change (map ?f ?l) with (f <$> l) in Hp. rewrite list_lookup_fmap in Hp. apply fmap_Some in Hp as (p' & Hp & E'). apply Nat2Z.inj in E' as ->. done.
    Qed.

    Lemma add3_assoc a b d : a +v b +v d = a +v d +v b.
    Proof. destruct a as [[? ?] ?], b as [[? ?] ?], d as [[? ?] ?]. simpl. f_equal; [f_equal|]; lia. Qed.
    Lemma norm3_add a b : norm3 n (norm3 n a +v b) = norm3 n (a +v b).
    Proof.
      pose proof Hn as Hpos. destruct n as [[n1 n2] n3], a as [[x y] z], b as [[u v] w]. simpl in *. destruct Hpos as (?&?&?).
      rewrite !Zplus_mod_idemp_l. done.
    Qed.
    Lemma number_add p a b : site_number n p (norm3 n a +v b) = site_number n p (a +v b).
    Proof. rewrite <- number_norm, norm3_add, number_norm by apply Hn. done. Qed.

    Lemma moved_number p a t : moved n t (site_number n p a) (site_number n p (a +v t)).
    Proof.
      exists p, (norm3 n a). split; [apply norm3_inside, Hn|]. split; [by rewrite number_norm by apply Hn|]. by rewrite number_add.
    Qed.
    Lemma translate_lemma g e t : run rq = Ok g -> e ∈ events (g_lib g) -> exists e', e' ∈ events (g_lib g) /\ event_moved n t e e'.
    Proof.
      intros Hg He. apply (events_lemma g _ Hg) in He as (p & s & env & a & nb & u & Hp & Hs & Henv & Ha & Hnb & Hu & Hut & ->).
      exists (hop n p (norm3 n (a +v t)) env nb). split.
      - apply (events_lemma g _ Hg). exists p, s, env, (norm3 n (a +v t)), nb, u. do 3 (split; [done|]). split; [apply norm3_inside, Hn|done].
      - assert (Hmv : forall q b, moved n t (site_number n q (a +v b)) (site_number n q (norm3 n (a +v t) +v b))).
        { intros q b. rewrite number_add, add3_assoc. apply moved_number. }
        unfold event_moved, hop. cbn [mobile_ion_indices local_env_indices]. split.
        + constructor; [|constructor; [apply Hmv|constructor]]. rewrite number_norm by apply Hn. apply moved_number.
        + induction env as [|x env' IH] in |- *; [constructor|]. cbn [map]. constructor; [apply Hmv|apply IH].
    Qed.

    Lemma reverse_lemma g e x y : run rq = Ok g -> search_symmetric get_neighbors cell ->
      (forall s, s ∈ cell -> selects kind initial s <-> selects kind target s) ->
      e ∈ events (g_lib g) -> mobile_ion_indices e = [x; y] -> exists e', e' ∈ events (g_lib g) /\ mobile_ion_indices e' = [y; x].
    Proof.
      intros Hg Hsym Hsel He Hm. apply (events_lemma g _ Hg) in He as (p & s & env & a & nb & u & Hp & Hs & Henv & Ha & Hnb & Hu & Hut & ->).
      unfold hop in Hm. cbn [mobile_ion_indices] in Hm. injection Hm as <- <-.
      destruct (environment_lemma g p s Hg Hp Hs) as (env' & He' & xs & Hxs & Hf). unfold environment in *. rewrite Henv in He'. injection He' as <-.
      apply elem_of_list_lookup in Hnb as [k Hk]. destruct (Forall2_lookup_l _ _ _ _ _ Hf Hk) as (nr & Hnr & Hdx).
      assert (Hin : nr ∈ neighbours get_neighbors cell c p) by (rewrite <- Hxs; by eapply elem_of_list_lookup_2).
      unfold neighbours in Hin. apply elem_of_list_In, filter_In in Hin as [Hin Hclose]. apply elem_of_list_In in Hin.
      destruct (Hsym p (search_radius c) nr) as (_ & yr & Hyr & Hys & Hyi & Hyd); [by eapply lookup_lt_Some|done|].
      destruct Hdx as (Hix & Him & _). rewrite Hix in *.
      assert (Hus : selects kind initial u) by (apply Hsel; [by eapply elem_of_list_lookup_2|done]).
      destruct (environment_lemma g _ u Hg Hu Hus) as (envu & Heu & ys & Hysp & Hfu).
      assert (Hyin : yr ∈ neighbours get_neighbors cell c (nr_site nr)).
      { unfold neighbours. apply elem_of_list_In, filter_In. split; [by apply elem_of_list_In|]. unfold close in *. rewrite Hu, Hp in Hclose. rewrite Hu, Hys, Hp.
        rewrite cutoff_for_sym. apply negb_true_iff in Hclose. apply negb_true_iff. apply not_true_iff_false in Hclose. apply not_true_iff_false. intros H. apply Hclose.
        apply Qle_bool_iff. apply Qle_bool_iff in H. by rewrite <- Hyd. }
      rewrite <- Hysp in Hyin. apply elem_of_list_lookup in Hyin as [j Hj]. destruct (Forall2_lookup_r _ _ _ _ _ Hfu Hj) as (nb2 & Hnb2 & Hd2).
      destruct Hd2 as (Hi2 & Him2 & _).
      exists (hop n (nr_site nr) (norm3 n (a +v nb_image nb)) envu nb2). split.
      - apply (events_lemma g _ Hg). exists (nr_site nr), u, envu, (norm3 n (a +v nb_image nb)), nb2, s. split; [done|]. split; [done|]. split; [done|].
        split; [apply norm3_inside, Hn|]. split; [by eapply elem_of_list_lookup_2|]. split; [by rewrite Hi2, Hys|]. split; [|done].
        apply Hsel; [by eapply elem_of_list_lookup_2|done].
      - unfold hop. cbn [mobile_ion_indices]. rewrite number_norm by apply Hn. rewrite number_add, Hi2, Hys, Him2, Hyi, Him.
        assert (E : a +v nr_image nr +v negate (nr_image nr) = a); [|by rewrite E]. clear. destruct a as [[? ?] ?], (nr_image nr) as [[? ?] ?]. simpl. f_equal; [f_equal|]; lia.
    Qed.

    Lemma distinct_lemma g : run rq = Ok g -> (NoDup (events (g_lib g)) <->
      forall p s env j k x y, cell !! p = Some s -> selects kind initial s -> environment g s env -> j <> k ->
        env !! j = Some x -> env !! k = Some y -> (forall t, cell !! nb_index x = Some t -> selects kind target t) ->
        nb_index x = nb_index y -> ~ congruent n (nb_image x) (nb_image y)).
    Proof.
      intros Hg. pose proof Hg as Hg'. apply run_inv in Hg as (t & Hinv & Hi & -> & _). rewrite (events_NoDup cell n Hn). unfold environment. rewrite Hi. split.
      - intros H p s env j k x y Hp Hs He Hjk Hj Hk Hx Hxy. destruct (inv_env t Hinv p s Hp Hs) as (env' & He' & Hne). rewrite He in He'. injection He' as <-.
        destruct (neighbourhood_faithful _ _ _ _ x Hne) as (u & Hu & _); [by eapply elem_of_list_lookup_2|].
        apply (H p s env j k x y); try done; [by apply selects_iff|apply tgt_iff; eauto|]. apply tgt_iff. rewrite <- Hxy. eauto.
      - intros H p s env j k x y Hp Hs He Hjk Hj Hk Hx Hy Hxy. apply (H p s env j k x y); try done; [by apply selects_iff|]. intros u Hu.
        apply tgt_iff in Hx as (u' & Hu' & Hs'). rewrite Hu in Hu'. by injection Hu' as <-.
    Qed.

    Lemma self_lemma g k : run rq = Ok g ->
      ((exists e, e ∈ events (g_lib g) /\ mobile_ion_indices e = [k; k]) <->
       exists p s env a nb, cell !! p = Some s /\ selects kind initial s /\ selects kind target s /\ environment g s env /\ nb ∈ env /\ nb_index nb = p /\
         congruent n (0, 0, 0)%Z (nb_image nb) /\ k = site_number n p a).
    Proof.
      intros Hg.
      assert (Hz : forall a b, congruent n a (a +v b) <-> congruent n (0, 0, 0)%Z b).
      { clear. intros [[x y] z] [[u v] w]. destruct n as [[n1 n2] n3]. simpl. split; intros (i & j & k & ?); exists i, j, k; lia. }
      split.
      - intros (e & He & Hm). apply (events_lemma g _ Hg) in He as (p & s & env & a & nb & u & Hp & Hs & Henv & Ha & Hnb & Hu & Hut & ->).
        unfold hop in Hm. cbn [mobile_ion_indices] in Hm. injection Hm as <- E. symmetry in E. apply number_eq_iff in E as [E1 E2]; [|apply Hn].
        rewrite <- E1, Hp in Hu. injection Hu as <-. exists p, s, env, a, nb. apply Hz in E2. done.
      - intros (p & s & env & a & nb & Hp & Hs & Hst & Henv & Hnb & Hi & Hc & ->).
        exists (hop n p (norm3 n a) env nb). split.
        + apply (events_lemma g _ Hg). exists p, s, env, (norm3 n a), nb, s. do 3 (split; [done|]). split; [apply norm3_inside, Hn|]. split; [done|]. by rewrite Hi.
        + unfold hop. cbn [mobile_ion_indices]. rewrite number_norm, number_add by apply Hn. rewrite Hi.
          assert (E : site_number n p a = site_number n p (a +v nb_image nb)); [|by rewrite <- E]. apply number_eq_iff; [apply Hn|]. split; [done|]. by apply Hz.
    Qed.
  End Fixed.
End Runs.

(* ------------------------------------------------------------------ *)
(** ** Supercell tuples and the site index *)

Lemma tuple_norm n a t extra : positive n ->
  normalize_supercell_tuple (list_of_image a) (list_of_image t) (list_of_image n) extra =
    Ok (list_of_image (norm3 n (a +v t)) ++ match extra with Some x => [x] | None => [] end).
Proof.
  destruct n as [[n1 n2] n3], a as [[x y] z], t as [[u v] w]. intros (?&?&?). unfold normalize_supercell_tuple. simpl.
  rewrite !np_mod_pos by done. done.
Qed.
Lemma tuple_lemma n a t extra : positive n ->
  exists u, normalize_supercell_tuple (list_of_image a) (list_of_image t) (list_of_image n) extra =
              Ok (list_of_image u ++ match extra with Some x => [x] | None => [] end) /\ inside n u /\ congruent n (a +v t) u.
Proof.
  intros Hn. exists (norm3 n (a +v t)). split; [by apply tuple_norm|]. split; [by apply norm3_inside|].
  apply norm3_congruent; [done|]. symmetry. apply norm3_id, norm3_inside, Hn.
Qed.
Lemma tuple_identifies_lemma n a t b u : positive n ->
  (normalize_supercell_tuple (list_of_image a) (list_of_image t) (list_of_image n) None =
   normalize_supercell_tuple (list_of_image b) (list_of_image u) (list_of_image n) None <-> congruent n (a +v t) (b +v u)).
Proof.
  intros Hn. rewrite !tuple_norm by done. rewrite <- norm3_congruent by done. split.
  - intros [= E]. rewrite !app_nil_r in E. by apply list_of_image_inj.
  - by intros ->.
Qed.
Lemma index_exact_lemma cell n : positive n ->
  ((exists index, build_site_index (kmc_supercell cell (shape3 (list_of_image n))) false = Ok index) <->
   NoDup (map (fun s => (gs_label s, gs_local s)) cell)) /\
  forall index, build_site_index (kmc_supercell cell (shape3 (list_of_image n))) false = Ok index ->
    forall x y z label local k, dget index (x, y, z, label, local) = Some k <->
      exists p s, cell !! p = Some s /\ gs_label s = label /\ gs_local s = local /\
        inside n (x, y, z) /\ Z.of_nat k = site_number n p (x, y, z).
Proof.
  intros Hn. rewrite shape3_list. split; [by apply index_ok_iff|]. intros index Hi x y z lb lo k.
  rewrite (index_get _ _ _ _ Hi). split.
  - intros ([s c] & Hs & E). apply supercell_at in Hs as (p & Hp & Hin & Hk); [|done]. exists p, s.
    unfold key_of in E. destruct c as [[u v] w]. simpl in E. injection E as <- <- <- <- <-. done.
  - intros (p & s & Hp & <- & <- & Hin & Hk). exists (s, nats (x, y, z)). pose proof (inside_nat n _ Hin) as E. split.
    + apply supercell_at; [done|]. exists p. rewrite E. done.
    + unfold key_of. cbn [snd fst]. rewrite E. done.
Qed.

Lemma resolves_lemma {P} parse fp (get_neighbors : list gsite -> nat -> Q -> list (near P)) order_leb
    (distance : P -> P -> Q) round8 rq :
  (forall g, run parse fp get_neighbors order_leb distance round8 rq = Ok g ->
     exists cell n kind initial target c, resolved parse fp rq cell n kind initial target c) /\
  forall cell n kind i t c cell' n' kind' i' t' c',
    resolved parse fp rq cell n kind i t c -> resolved parse fp rq cell' n' kind' i' t' c' ->
    cell = cell' /\ n = n' /\ kind = kind' /\ i = i' /\ t = t' /\ c = c'.
Proof. split; [intros g Hg; by eapply run_needs|apply resolved_fun]. Qed.

Lemma radius_list (l : cutoff_dict) : let r := fold_right (fun e m => Qminmax.Qmax (snd e) m) 0%Q l in
  (0 <= r)%Q /\ (forall e, e ∈ l -> (snd e <= r)%Q) /\ (r = 0%Q \/ exists e, e ∈ l /\ snd e = r).
Proof.
  induction l as [|e l (H1 & H2 & H3)]; simpl.
  - split; [apply Qle_refl|]. split; [|by left]. intros e He. by apply elem_of_nil in He.
  - split; [eapply Qle_trans; [exact H1|apply Qminmax.Q.le_max_r]|]. split.
    + intros e' He. apply elem_of_cons in He as [->|He]; [apply Qminmax.Q.le_max_l|].
      eapply Qle_trans; [by apply H2|apply Qminmax.Q.le_max_r].
    + assert (E : forall x y, Qminmax.Qmax x y = x \/ Qminmax.Qmax x y = y).
      { intros x y. unfold Qminmax.Qmax, GenericMinMax.gmax. destruct (x ?= y)%Q; auto. }
      match goal with |- context [Qminmax.Qmax ?x ?y] => destruct (E x y) as [->| ->] end.
      * right. exists e. split; [left|done].
      * destruct H3 as [H3|(e' & He' & H3)]; [by left|right; exists e'; split; [by right|done]].
Qed.
Lemma radius_lemma c : (0 <= search_radius c)%Q /\ (forall e, e ∈ c -> (snd e <= search_radius c)%Q) /\
  (search_radius c = 0%Q \/ exists e, e ∈ c /\ snd e = search_radius c).
Proof.
  destruct (radius_list (rev c)) as (H1 & H2 & H3). fold (search_radius c) in *.
  assert (E : forall e, e ∈ rev c <-> e ∈ c) by (intros e; rewrite !elem_of_list_In; symmetry; apply in_rev).
  setoid_rewrite E in H2. setoid_rewrite E in H3. done.
Qed.
