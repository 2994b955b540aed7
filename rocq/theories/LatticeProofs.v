(** Proofs about lattice structures. *)
From Coq Require Import QArith Qround Lqa.
From stdpp Require Import sorting.
From Verif Require Import Py PyLemmas Json ActiveSiteModel ActiveSiteSpec ActiveSiteProofs BasisModel
  SiteEnergyProofs LatticeModel LatticeSpec.
Local Open Scope nat_scope.
Local Arguments lattice_points : simpl never.
Local Arguments missing_occupation_value : simpl never.

(* ---------------- minimum image ---------------- *)
Lemma wrap_shift x : exists k : Z, (wrap x == x + inject_Z k)%Q.
Proof.
  exists (- Qfloor (x + (1 # 2)))%Z. unfold wrap. rewrite inject_Z_opp. ring.
Qed.
Lemma wrap_bound x : (- (1 # 2) <= wrap x < 1 # 2)%Q.
Proof.
  unfold wrap. pose proof (Qfloor_le (x + (1 # 2))) as H1. pose proof (Qlt_floor (x + (1 # 2))) as H2.
  rewrite inject_Z_plus in H2. change (inject_Z 1) with 1%Q in H2. split; lra.
Qed.
Lemma sq_nonneg x : (0 <= sq x)%Q.
Proof. unfold sq. nra. Qed.
Lemma small_integer k : (- (1) < inject_Z k < 1)%Q -> k = 0%Z.
Proof. unfold Qlt. simpl. lia. Qed.
Lemma sq_wrap_min x k : (sq (wrap x) <= sq (x + inject_Z k))%Q.
Proof.
  destruct (wrap_shift x) as [m Hm]. pose proof (wrap_bound x) as Hb.
  assert (Hx : (x + inject_Z k == wrap x + inject_Z (k - m))%Q).
  { rewrite Hm. unfold Z.sub. rewrite inject_Z_plus, inject_Z_opp. ring. }
  destruct (Z.lt_trichotomy (k - m) 0) as [H|[H|H]].
  - assert (inject_Z (k - m) <= - (1))%Q by (unfold Qle; simpl; lia).
    unfold sq. rewrite Hx. nra.
  - rewrite H in Hx. change (inject_Z 0) with 0%Q in Hx. unfold sq. rewrite Hx. nra.
  - assert (1 <= inject_Z (k - m))%Q by (unfold Qle; simpl; lia).
    unfold sq. rewrite Hx. nra.
Qed.
Lemma sq_zero x : (sq x == 0)%Q -> (x == 0)%Q.
Proof. unfold sq. intros H. apply Qmult_integral in H. tauto. Qed.
Lemma wrap_zero x y : (sq (wrap (x - y)) == 0)%Q <-> congruent1 x y.
Proof.
  split.
  - intros H%sq_zero. destruct (wrap_shift (x - y)) as [k Hk]. exists (- k)%Z.
    rewrite inject_Z_opp. rewrite Hk in H. lra.
  - intros [k Hk]. pose proof (sq_wrap_min (x - y) (- k)) as Hm. pose proof (sq_nonneg (wrap (x - y))).
    assert (sq (x - y + inject_Z (- k)) == 0)%Q.
    { unfold sq. rewrite inject_Z_opp, Hk. ring. }
    lra.
Qed.
Lemma dist2_nonneg p q : (0 <= dist2 p q)%Q.
Proof.
  destruct p as [[x y] z], q as [[x' y'] z']. unfold dist2.
  pose proof (sq_nonneg (wrap (x - x'))). pose proof (sq_nonneg (wrap (y - y'))).
  pose proof (sq_nonneg (wrap (z - z'))). lra.
Qed.
Lemma dist2_zero p q : (dist2 p q == 0)%Q <-> congruent p q.
Proof.
  destruct p as [[x y] z], q as [[x' y'] z']. unfold dist2, congruent. rewrite <- !wrap_zero.
  pose proof (sq_nonneg (wrap (x - x'))). pose proof (sq_nonneg (wrap (y - y'))).
  pose proof (sq_nonneg (wrap (z - z'))). split; [intros; repeat split; lra|]. intros (?&?&?); lra.
Qed.
Lemma congruent_refl p : congruent p p.
Proof.
  destruct p as [[x y] z]. assert (forall x, congruent1 x x); [|unfold congruent; auto].
  intros w. exists 0%Z. change (inject_Z 0) with 0%Q. ring.
Qed.

(* ---------------- supercells ---------------- *)
Lemma points_length shape : length (points_of shape) = images shape.
Proof. destruct shape as [[a b] c]. apply lattice_points_length. Qed.
Lemma points_lookup shape r t : positive_shape shape ->
  points_of shape !! r = Some t <-> r < images shape /\ t = image_number shape r.
Proof.
  destruct shape as [[n1 n2] n3]. intros (H1 & H2 & H3). destruct t as [[a b] c]. unfold points_of, images, image_number.
  rewrite lattice_points_lookup. unfold images. split.
  - intros (Ha & Hb & Hc & ->).
    assert (a * n2 + b < n1 * n2) by nia.
    assert (Hlt : (a * n2 + b) * n3 + c < n1 * n2 * n3) by nia. split; [done|].
    rewrite Nat.mod_small by done.
    rewrite (Nat.add_comm ((a * n2 + b) * n3)), Nat.mod_add, Nat.div_add, (Nat.mod_small c), (Nat.div_small c) by lia.
    rewrite Nat.add_0_l, (Nat.add_comm (a * n2)), Nat.mod_add, (Nat.mod_small b) by lia.
    f_equal. f_equal. apply Nat.div_unique with (r := b * n3 + c); nia.
  - intros [Hr Ht]. rewrite Nat.mod_small in Ht by done. injection Ht as -> -> ->.
    pose proof (Nat.div_mod_eq r n3) as E1. pose proof (Nat.div_mod_eq (r / n3) n2) as E2.
    pose proof (Nat.mod_upper_bound r n3 ltac:(lia)). pose proof (Nat.mod_upper_bound (r / n3) n2 ltac:(lia)).
    assert (Ed : r / (n2 * n3) = r / n3 / n2) by (rewrite (Nat.mul_comm n2), Nat.div_div by lia; done).
    rewrite Ed. split; [|split; [done|split; [done|lia]]].
    apply Nat.div_lt_upper_bound; [lia|]. apply Nat.div_lt_upper_bound; [lia|]. nia.
Qed.
Lemma images_pos shape : positive_shape shape -> 0 < images shape.
Proof. destruct shape as [[a b] c]. simpl. nia. Qed.

Lemma supercell_lookup shape template k : positive_shape shape ->
  supercell_sites shape template !! k = cell_site template shape k.
Proof.
  intros Hp. pose proof (images_pos _ Hp) as Hi. unfold supercell_sites, cell_site.
  rewrite (bind_lookup_uniform _ _ (images shape)); [|intros s|done].
  2:{ rewrite (bind_length_uniform _ _ 1), points_length; [lia|done]. }
  destruct (template !! (k / images shape)) as [s|]; [|done]. simpl.
  rewrite (bind_lookup_uniform _ (points_of shape) 1); [|done|lia]. rewrite Nat.div_1_r, Nat.mod_1_r.
  assert (Hm : k mod images shape < images shape) by (apply Nat.mod_upper_bound; lia).
  destruct (points_of shape !! (k mod images shape)) as [t|] eqn:E.
  - apply points_lookup in E as [_ ->]; [|done]. simpl. do 2 f_equal.
    destruct shape as [[a b] c]. unfold image_number.
    rewrite (Nat.mod_small (k mod _)) by done. done.
  - apply lookup_ge_None in E. rewrite points_length in E. lia.
Qed.
Lemma supercell_sites_length shape template : length (supercell_sites shape template) = length template * images shape.
Proof.
  unfold supercell_sites. rewrite (bind_length_uniform _ _ (images shape)); [done|].
  intros s. rewrite (bind_length_uniform _ _ 1), points_length; [lia|done].
Qed.
Lemma indices_lookup shape n k : positive_shape shape ->
  supercell_indices shape n !! k = if decide (k < n * images shape) then Some (k / images shape) else None.
Proof.
  intros Hp. pose proof (images_pos _ Hp) as Hi. unfold supercell_indices.
  rewrite (bind_lookup_uniform _ _ (images shape)); [|intros s|done].
  2:{ rewrite (bind_length_uniform _ _ 1), points_length; [lia|done]. }
  destruct (decide _) as [Hlt|Hge].
  - rewrite lookup_seq_lt; [|apply Nat.div_lt_upper_bound; lia]. simpl.
    rewrite (bind_lookup_uniform _ (points_of shape) 1); [|done|lia]. rewrite Nat.div_1_r, Nat.mod_1_r.
    assert (Hm : k mod images shape < images shape) by (apply Nat.mod_upper_bound; lia).
    destruct (points_of shape !! (k mod images shape)) as [t|] eqn:E; [done|].
    apply lookup_ge_None in E. rewrite points_length in E. lia.
  - rewrite lookup_seq_ge; [done|]. apply Nat.div_le_lower_bound; lia.
Qed.

Lemma cell_site_lt template shape k s : positive_shape shape -> cell_site template shape k = Some s ->
  k < length template * images shape.
Proof.
  intros Hp H. rewrite <- supercell_sites_length. apply lookup_lt_Some with s. by rewrite supercell_lookup.
Qed.

Lemma place_congruent1 x y a b n : 0 < n ->
  congruent1 ((x + inject_Z (Z.of_nat a)) / inject_Z (Z.of_nat n))
             ((y + inject_Z (Z.of_nat b)) / inject_Z (Z.of_nat n)) ->
  exists m, (x == y + inject_Z (Z.of_nat b - Z.of_nat a + m * Z.of_nat n))%Q.
Proof.
  intros Hn [m Hm]. exists m. rewrite inject_Z_plus, inject_Z_mult. unfold Z.sub.
  rewrite inject_Z_plus, inject_Z_opp.
  assert (Hnz : ~ inject_Z (Z.of_nat n) == 0).
  { unfold Qeq. simpl. lia. }
  set (N := inject_Z (Z.of_nat n)) in *. set (A := inject_Z (Z.of_nat a)) in *. set (B := inject_Z (Z.of_nat b)) in *.
  assert (Hx : ((x + A) / N * N == ((y + B) / N + inject_Z m) * N)%Q) by (rewrite Hm; ring).
  assert (H1 : ((x + A) / N * N == x + A)%Q) by (field; done).
  assert (H2 : (((y + B) / N + inject_Z m) * N == y + B + inject_Z m * N)%Q) by (field; done).
  rewrite H1, H2 in Hx. lra.
Qed.
Lemma same_image x a b n m : a < n -> b < n ->
  (x == x + inject_Z (Z.of_nat b - Z.of_nat a + m * Z.of_nat n))%Q -> a = b.
Proof.
  intros Ha Hb H. assert (H0 : (inject_Z (Z.of_nat b - Z.of_nat a + m * Z.of_nat n) == 0)%Q) by lra.
  unfold Qeq in H0. simpl in H0. assert (m = 0 \/ m <= -1 \/ 1 <= m)%Z as [->|[|]] by lia; nia.
Qed.

Lemma image_number_inj shape j k : positive_shape shape ->
  j / images shape = k / images shape -> image_number shape j = image_number shape k -> j = k.
Proof.
  intros Hp Hd Hn. pose proof (images_pos _ Hp) as Hi.
  assert (E : forall r, r < images shape -> points_of shape !! r = Some (image_number shape r)).
  { intros r Hr. apply points_lookup; [done|]. done. }
  assert (G : forall r r', r < images shape -> r' < images shape -> image_number shape r = image_number shape r' -> r = r').
  { intros r r' H1 H2 He. pose proof (E _ H1) as F1. pose proof (E _ H2) as F2. rewrite <- He in F2.
    destruct shape as [[n1 n2] n3]. destruct (image_number (n1, n2, n3) r) as [[a b] c] eqn:Ei.
    apply lattice_points_lookup in F1 as (_ & _ & _ & ->). apply lattice_points_lookup in F2 as (_ & _ & _ & ->). done. }
  rewrite (Nat.div_mod_eq j (images shape)), (Nat.div_mod_eq k (images shape)), Hd. f_equal.
  apply G; [apply Nat.mod_upper_bound; lia..|].
  destruct shape as [[n1 n2] n3]. unfold image_number in *. rewrite !Nat.mod_mod by lia. done.
Qed.
Lemma image_number_bound shape k a b c : positive_shape shape -> image_number shape k = (a, b, c) ->
  let '(n1, n2, n3) := shape in a < n1 /\ b < n2 /\ c < n3.
Proof.
  intros Hp He. pose proof (images_pos _ Hp) as Hi.
  assert (points_of shape !! (k mod images shape) = Some (a, b, c)) as H.
  { apply points_lookup; [done|]. split; [apply Nat.mod_upper_bound; lia|]. rewrite <- He.
    destruct shape as [[n1 n2] n3]. unfold image_number. rewrite Nat.mod_mod by lia. done. }
  destruct shape as [[n1 n2] n3]. apply lattice_points_lookup in H as (?&?&?&_). done.
Qed.

Lemma supercell_distinct template shape j k s t :
  positive_shape shape -> distinct_sites template ->
  cell_site template shape j = Some s -> cell_site template shape k = Some t ->
  congruent (snd s) (snd t) -> j = k.
Proof.
  intros Hp Hd Hj Hk Hc. unfold cell_site in *.
  destruct (template !! (j / images shape)) as [[sj pj]|] eqn:Ej; [|done].
  destruct (template !! (k / images shape)) as [[sk pk]|] eqn:Ek; [|done].
  simpl in Hj, Hk. injection Hj as <-. injection Hk as <-. simpl in Hc.
  destruct (image_number shape j) as [[a b] c] eqn:Ij. destruct (image_number shape k) as [[a' b'] c'] eqn:Ik.
  pose proof (image_number_bound _ _ _ _ _ Hp Ij) as Bj. pose proof (image_number_bound _ _ _ _ _ Hp Ik) as Bk.
  destruct shape as [[n1 n2] n3]. destruct pj as [[x y] z], pk as [[x' y'] z'].
  unfold place, congruent in Hc. destruct Hc as (Hx & Hy & Hz).
  destruct Bj as (?&?&?), Bk as (?&?&?).
  apply place_congruent1 in Hx as [mx Hx]; [|lia]. apply place_congruent1 in Hy as [my Hy]; [|lia].
  apply place_congruent1 in Hz as [mz Hz]; [|lia].
  assert (Hjk : j / images (n1, n2, n3) = k / images (n1, n2, n3)).
  { eapply Hd; [exact Ej|exact Ek|]. unfold congruent. simpl. split; [|split]; eexists; eassumption. }
  rewrite Hjk in Ej. rewrite Ej in Ek. injection Ek as -> -> -> ->.
  apply same_image in Hx; [|done..]. apply same_image in Hy; [|done..]. apply same_image in Hz; [|done..].
  apply (image_number_inj (n1, n2, n3)); [done|done|]. congruence.
Qed.

(* ---------------- construction and copies ---------------- *)
Definition normal (s : species) : Prop := is_vacancy s -> s = vacancy_species.
Definition normal_mapping (m : dict species (list species)) : Prop :=
  forall k l, (k, l) ∈ m -> normal k /\ forall s, s ∈ l -> normal s.

Section S.
  Variable parse : string -> result species.
  Variable fp : fp_payload -> string.
  Hypothesis Hparse : one_vacancy parse.

  Lemma normalize_normal v s : normalize_species parse v = Ok s -> normal s.
  Proof.
    unfold normalize_species. destruct (is_vacancy_species v) eqn:E; [intros [= <-]; done|].
    destruct v as [str|sp].
    - intros H. exact (Hparse _ _ H).
    - intros [= <-] Hv. unfold is_vacancy in Hv. congruence.
  Qed.
  Lemma normal_normalize s : normal s -> normalize_species parse (SObj s) = Ok s.
  Proof.
    intros H. unfold normalize_species. destruct (is_vacancy_species (SObj s)) eqn:E; [|done].
    f_equal. symmetry. by apply H.
  Qed.

  Lemma dof_pairs_normal entries : normal_mapping entries -> normal_mapping (dof_pairs entries).
  Proof.
    unfold dof_pairs. assert (G : forall d, normal_mapping d -> normal_mapping entries ->
      normal_mapping (fold_left (fun d kv => dset d (fst kv) (snd kv)) entries d)).
    { induction entries as [|[k l] es IH]; intros d Hd He; simpl; [done|]. apply IH.
      - assert (Hk : normal k /\ forall s, s ∈ l -> normal s) by (apply He; by left). clear IH He.
        induction d as [|[k' l'] d IHd]; simpl.
        + intros k2 l2 [= -> ->]%elem_of_list_singleton. done.
        + destruct (decide (k = k')) as [->|Hne].
          * intros k2 l2 [[= -> ->]|Hin]%elem_of_cons; [split; [|by apply Hk]|].
            -- exact (proj1 Hk).
            -- apply (Hd k2 l2). by right.
          * intros k2 l2 [[= -> ->]|Hin]%elem_of_cons.
            -- apply (Hd k' l'). by left.
            -- apply IHd; [|done]. intros k3 l3 H3. apply (Hd k3 l3). by right.
      - intros k2 l2 H2. apply (He k2 l2). by right. }
    intros H. apply G; [|done]. by intros k l ?%elem_of_nil.
  Qed.

  Lemma entries_normal mapping entries : rmapM (mapping_entry parse) mapping = Ok entries -> normal_mapping entries.
  Proof.
    intros H k l Hin. apply elem_of_list_lookup in Hin as (i & Hi).
    destruct (rmapM_lookup _ _ _ _ _ H Hi) as ([a b] & _ & Hab). unfold mapping_entry in Hab.
    apply rbind_ok in Hab as (k' & Hk & Hab). apply rbind_ok in Hab as (l' & Hl & [= -> ->]). simpl in *.
    split; [by eapply normalize_normal|]. intros s Hs. destruct b as [lb|v]; simpl in Hl.
    - apply elem_of_list_lookup in Hs as (j & Hj).
      destruct (rmapM_lookup _ _ _ _ _ Hl Hj) as (v & _ & Hv). by eapply normalize_normal.
    - unfold rmap in Hl. destruct (normalize_species parse v) as [s'|] eqn:Ev; [|done]. injection Hl as <-.
      apply elem_of_list_singleton in Hs as ->. by eapply normalize_normal.
  Qed.

  Lemma raw_entries m : normal_mapping m -> rmapM (mapping_entry parse) (raw_mapping m) = Ok m.
  Proof.
    intros Hm. unfold raw_mapping. rewrite rmapM_map.
    rewrite (rmapM_id _ (fun e => e)); [by rewrite map_id|]. intros [k l] Hin.
    destruct (Hm k l) as [Hk Hl]; [done|].
    unfold mapping_entry. simpl. rewrite normal_normalize by done. simpl. unfold rbind at 1.
    rewrite rmapM_map, (rmapM_id _ (fun e => e)); [by rewrite map_id|].
    intros s Hs. apply normal_normalize, Hl. done.
  Qed.

  Lemma dof_pairs_self {V} (m : dict species V) : NoDup (dkeys m) -> dof_pairs m = m.
  Proof. apply dof_pairs_NoDup. Qed.

  Record wf (la : lattice) : Prop := Wf {
    wf_normal : normal_mapping (la_mapping la);
    wf_nodup : NoDup (dkeys (la_mapping la));
    wf_allowed : la_allowed la = map (fun s => allowed_for (la_mapping la) (fst s)) (la_template la);
    wf_nonempty : List.filter is_nonempty (la_allowed la) <> [];
    wf_basis :
      (if String.eqb (la_basis_type la) "chebyshev"
       then get_basis (la_basis_type la) [("max_states"%string, JInt
          (Z.max 2 (Z.of_nat (fold_right Nat.max 0 (map allowed_length (List.filter is_nonempty (la_allowed la)))))))]
       else get_basis (la_basis_type la) []) = Ok (la_basis la);
  }.

  Lemma new_wf template mapping bt la : lattice_new parse template mapping bt = Ok la ->
    wf la /\ la_template la = template /\ la_basis_type la = bt /\
    exists entries, rmapM (mapping_entry parse) mapping = Ok entries /\ la_mapping la = dof_pairs entries.
  Proof.
    unfold lattice_new. intros H. apply rbind_ok in H as (entries & He & H).
    destruct (List.filter is_nonempty _) as [|x l] eqn:E; [done|]. rewrite <- E in H.
    apply rbind_ok in H as (b & Hb & [= <-]). split; [|split; [done|split; [done|by exists entries]]].
    constructor; simpl; try done.
    - apply dof_pairs_normal. by eapply entries_normal.
    - apply NoDup_dof_pairs.
    - rewrite E. done.
  Qed.
  Lemma wf_new la template : normal_mapping (la_mapping la) -> NoDup (dkeys (la_mapping la)) ->
    let allowed := map (fun s => allowed_for (la_mapping la) (fst s)) template in
    List.filter is_nonempty allowed <> [] ->
    forall b,
      (if String.eqb (la_basis_type la) "chebyshev"
       then get_basis (la_basis_type la) [("max_states"%string, JInt
          (Z.max 2 (Z.of_nat (fold_right Nat.max 0 (map allowed_length (List.filter is_nonempty allowed))))))]
       else get_basis (la_basis_type la) []) = Ok b ->
    lattice_new parse template (raw_mapping (la_mapping la)) (la_basis_type la) =
    Ok (Lattice template (la_mapping la) (la_basis_type la) allowed b).
  Proof.
    intros Hn Hd allowed Hne b Hb. unfold lattice_new. rewrite raw_entries by done.
    unfold rbind at 1. rewrite dof_pairs_self by done. fold allowed.
    destruct (List.filter is_nonempty allowed) as [|x l] eqn:E; [done|]. rewrite Hb. done.
  Qed.
  Lemma copy_self la : wf la -> lattice_copy parse la = Ok la.
  Proof.
    intros [H1 H2 H3 H4 H5]. unfold lattice_copy. destruct la as [t m bt al b]. simpl in *. subst al.
    exact (wf_new (Lattice t m bt [] b) t H1 H2 H4 b H5).
  Qed.

  (** The largest number of allowed species is the same for any list of sites with the
      same members. *)
  Lemma max_bound (l : list nat) n : fold_right Nat.max 0 l <= n <-> forall x, x ∈ l -> x <= n.
  Proof.
    induction l as [|a l IH]; simpl.
    - split; [by intros _ x ?%elem_of_nil|lia].
    - split.
      + intros H x [->|Hx]%elem_of_cons; [lia|]. apply IH; [lia|done].
      + intros H. apply Nat.max_lub; [apply H; by left|]. apply IH. intros x Hx. apply H. by right.
  Qed.
  Lemma max_same (l l' : list nat) : (forall x, x ∈ l <-> x ∈ l') -> fold_right Nat.max 0 l = fold_right Nat.max 0 l'.
  Proof.
    intros H. apply Nat.le_antisymm.
    - apply max_bound. intros x Hx. apply H in Hx. revert x Hx. apply max_bound. done.
    - apply max_bound. intros x Hx. apply H in Hx. revert x Hx. apply max_bound. done.
  Qed.

  Lemma supercell_members shape (template : list site) s : positive_shape shape ->
    (exists p, (s, p) ∈ supercell_sites shape template) <-> exists p, (s, p) ∈ template.
  Proof.
    intros Hp. pose proof (images_pos _ Hp). split.
    - intros [p Hin]. apply elem_of_list_lookup in Hin as (k & Hk). rewrite supercell_lookup in Hk by done.
      unfold cell_site in Hk. destruct (template !! _) as [[s' p']|] eqn:E; [|done]. simpl in Hk. injection Hk as <- <-.
      exists p'. by eapply elem_of_list_lookup_2.
    - intros [p Hin]. apply elem_of_list_lookup in Hin as (k & Hk).
      exists (place shape p (image_number shape (k * images shape))).
      apply elem_of_list_lookup. exists (k * images shape). rewrite supercell_lookup by done. unfold cell_site.
      rewrite Nat.div_mul by lia. by rewrite Hk.
  Qed.

  Definition big (la : lattice) (shape : nat * nat * nat) : lattice :=
    Lattice (supercell_sites shape (la_template la)) (la_mapping la) (la_basis_type la)
      (map (fun s => allowed_for (la_mapping la) (fst s)) (supercell_sites shape (la_template la))) (la_basis la).

  Lemma copy_big la shape : wf la -> positive_shape shape ->
    lattice_copy parse (snd (make_supercell la shape)) = Ok (big la shape).
  Proof.
    intros [H1 H2 H3 H4 H5] Hp. unfold lattice_copy. simpl.
    set (f := fun s : site => allowed_for (la_mapping la) (fst s)) in *.
    assert (Hsame : forall x, x ∈ List.filter is_nonempty (map f (supercell_sites shape (la_template la))) <->
                              x ∈ List.filter is_nonempty (la_allowed la)).
    { intros x. rewrite !elem_of_list_In, !filter_In, <- !elem_of_list_In. rewrite H3.
      enough (x ∈ map f (supercell_sites shape (la_template la)) <-> x ∈ map f (la_template la)) by tauto.
      split; intros Hin.
      - apply elem_of_list_fmap in Hin as ([s p] & -> & Hin).
        destruct (proj1 (supercell_members shape (la_template la) s Hp)) as [p' Hp']; [by eexists|].
        apply elem_of_list_fmap. by exists (s, p').
      - apply elem_of_list_fmap in Hin as ([s p] & -> & Hin).
        destruct (proj2 (supercell_members shape (la_template la) s Hp)) as [p' Hp']; [by eexists|].
        apply elem_of_list_fmap. by exists (s, p'). }
    apply (wf_new la); [done|done| |].
    - fold f. intros E. destruct (List.filter is_nonempty (la_allowed la)) as [|x l] eqn:El; [done|].
      assert (x ∈ []) as Hx; [|by apply elem_of_nil in Hx]. rewrite <- E. apply Hsame. by left.
    - fold f. rewrite (max_same _ (map allowed_length (List.filter is_nonempty (la_allowed la)))); [exact H5|].
      intros x. rewrite !elem_of_list_fmap. split; intros (y & -> & Hy); exists y; (split; [done|]); by apply Hsame.
  Qed.

  Lemma tile_length {A} shape (l : list A) : length (tile shape l) = images shape * length l.
  Proof.
    unfold tile. rewrite (bind_length_uniform _ _ (length l)) by done. by rewrite points_length.
  Qed.
  Lemma make_supercell_ok la shape : wf la -> fst (make_supercell la shape) = Ok tt.
  Proof.
    intros [_ _ H3 _ _]. unfold make_supercell. simpl. rewrite tile_length, supercell_sites_length, H3, map_length.
    rewrite (proj2 (Nat.eqb_eq _ _)); [done|lia].
  Qed.

  (** allowed species of supercell site k *)
  Definition al (la : lattice) (shape : nat * nat * nat) (k : nat) : option (list species) :=
    cell_site (la_template la) shape k ≫= fun s => allowed_for (la_mapping la) (fst s).

  Lemma al_allowed_at la shape k : wf la -> al la shape k = allowed_at la shape k.
  Proof.
    intros [_ _ H3 _ _]. unfold al, allowed_at, cell_site. rewrite H3.
    change (map ?f ?l) with (f <$> l). rewrite list_lookup_fmap.
    destruct (la_template la !! _) as [s|]; [|done]. simpl. by destruct (allowed_for _ _).
  Qed.
  Lemma big_allowed la shape k s : positive_shape shape -> cell_site (la_template la) shape k = Some s ->
    la_allowed (big la shape) !! k = Some (al la shape k).
  Proof.
    intros Hp Hs. simpl. change (map ?f ?l) with (f <$> l). rewrite list_lookup_fmap, supercell_lookup, Hs by done.
    simpl. unfold al. by rewrite Hs.
  Qed.
  Lemma occ_allowed la shape : wf la -> positive_shape shape ->
    rmapM (fun k => py_get (la_allowed la) (Z.of_nat k)) (supercell_indices shape (length (la_template la)))
    = Ok (map (fun s => allowed_for (la_mapping la) (fst s)) (supercell_sites shape (la_template la))).
  Proof.
    intros [_ _ H3 _ _] Hp. set (f := fun s : site => allowed_for (la_mapping la) (fst s)) in *.
    assert (E : exists l, rmapM (fun k => py_get (la_allowed la) (Z.of_nat k)) (supercell_indices shape (length (la_template la))) = Ok l).
    { apply rmapM_ok_exists. intros k Hk. apply elem_of_list_lookup in Hk as (i & Hi).
      rewrite indices_lookup in Hi by done. destruct (decide _) as [Hlt|]; [|done]. injection Hi as <-.
      assert (i / images shape < length (la_template la)).
      { pose proof (images_pos _ Hp). apply Nat.div_lt_upper_bound; lia. }
      destruct (py_get_ok (la_allowed la) (Z.of_nat (i / images shape))) as (x & Hx & _); [rewrite H3, map_length; lia|].
      by exists x. }
    destruct E as [l El]. rewrite El. f_equal. apply list_eq. intros i.
    change (map ?f ?l) with (f <$> l). rewrite list_lookup_fmap, supercell_lookup by done.
    pose proof (rmapM_length _ _ _ El) as Hlen.
    assert (Hil : length (supercell_indices shape (length (la_template la))) = length (la_template la) * images shape).
    { unfold supercell_indices. rewrite (bind_length_uniform _ _ (images shape)); [by rewrite seq_length|].
      intros s. rewrite (bind_length_uniform _ _ 1), points_length; [lia|done]. }
    destruct (decide (i < length (la_template la) * images shape)) as [Hlt|Hge].
    - destruct (lookup_lt_is_Some_2 l i) as [x Hx]; [lia|]. rewrite Hx.
      destruct (rmapM_lookup _ _ _ _ _ El Hx) as (k & Hk & Hg). rewrite indices_lookup in Hk by done.
      rewrite decide_True in Hk by done. injection Hk as <-. apply py_get_nonneg in Hg; [|lia].
      rewrite Nat2Z.id, H3 in Hg. change (map ?f ?l) with (f <$> l) in Hg. rewrite list_lookup_fmap in Hg.
      unfold cell_site. destruct (la_template la !! _) as [s|]; [|done]. unfold f in *. simpl in *. congruence.
    - rewrite (lookup_ge_None_2 l) by lia. unfold cell_site.
      rewrite (lookup_ge_None_2 (la_template la)); [done|]. pose proof (images_pos _ Hp).
      apply Nat.div_le_lower_bound; lia.
  Qed.

  (* ---------------- single sites ---------------- *)
  Lemma filter_enum_head {A} (P : A -> bool) (l : list A) : forall n k x r,
    List.filter (fun e : nat * A => P (snd e)) (enum_from n l) = (k, x) :: r ->
    n <= k /\ l !! (k - n) = Some x /\ P x = true /\ forall j y, l !! j = Some y -> P y = true -> k <= n + j.
  Proof.
    induction l as [|a l IH]; intros n k x r H; simpl in H; [done|]. destruct (P a) eqn:Ea; simpl in H.
    - injection H as -> -> _. rewrite Nat.sub_diag. split; [lia|]. split; [done|]. split; [done|]. intros; lia.
    - apply IH in H as (H1 & H2 & H3 & H4). split; [lia|]. split.
      + replace (k - n) with (S (k - S n)) by lia. done.
      + split; [done|]. intros [|j] y Hj Hy; simpl in Hj; [congruence|]. specialize (H4 j y Hj Hy). lia.
  Qed.
  Lemma filter_enum_nil {A} (P : A -> bool) (l : list A) : forall n,
    List.filter (fun e : nat * A => P (snd e)) (enum_from n l) = [] -> forall x, x ∈ l -> P x = false.
  Proof.
    induction l as [|a l IH]; intros n H x Hx; [by apply elem_of_nil in Hx|]. simpl in H.
    destruct (P a) eqn:Ea; simpl in H; [done|]. apply elem_of_cons in Hx as [->|Hx]; [done|]. by eapply IH.
  Qed.

  Lemma state_value_code b k : state_value b (Z.of_nat k) = code b k.
  Proof. destruct b; simpl; [|done]. destruct k; simpl; [done|]. destruct (Z.eqb_spec (Z.pos (Pos.of_succ_nat k)) 0); [lia|done]. Qed.

  Lemma value_for_species_inv b allowed sp v : value_for_species b allowed sp = Ok v ->
    exists l k, allowed = Some l /\ first_named l sp k /\ v = code b k.
  Proof.
    unfold value_for_species. destruct allowed as [[|a l]|]; try done.
    destruct (List.filter _ _) as [|[k x] r] eqn:E; [done|]. intros [= <-].
    apply (filter_enum_head (fun t => species_equivalent (SObj sp) (SObj t))) in E as (_ & H2 & H3 & H4).
    exists (a :: l), k. split; [done|]. split; [|apply state_value_code]. rewrite Nat.sub_0_r in H2.
    split; [by exists x|]. intros j t Hj Ht. by apply (H4 j t).
  Qed.
  Lemma value_for_species_ok b l sp k : first_named l sp k -> value_for_species b (Some l) sp = Ok (code b k).
  Proof.
    intros [(t & Ht & He) Hmin]. unfold value_for_species. destruct l as [|a l]; [done|].
    destruct (List.filter _ _) as [|[k' x] r] eqn:E.
    - apply (filter_enum_nil (fun t => species_equivalent (SObj sp) (SObj t))) with (x := t) in E; [congruence|].
      by eapply elem_of_list_lookup_2.
    - apply (filter_enum_head (fun t => species_equivalent (SObj sp) (SObj t))) in E as (_ & H2 & H3 & H4).
      rewrite Nat.sub_0_r in H2. f_equal. rewrite state_value_code. f_equal.
      apply Nat.le_antisymm; [by apply (H4 k t)|]. by apply (Hmin k' x).
  Qed.
  Lemma missing_lemma b l : l <> [] -> exists k, empty_state l k /\ k < length l /\ missing_occupation_value b (Some l) = code b k.
  Proof.
    intros Hne. unfold missing_occupation_value. destruct l as [|a l]; [done|].
    destruct (List.filter _ _) as [|[k x] r] eqn:E.
    - pose proof (filter_enum_nil (fun t => is_vacancy_species (SObj t)) _ _ E) as Hn.
      exists (Nat.min 1 (length (a :: l) - 1)). split; [|split].
      + right. split; [|done]. intros t Ht Hv. unfold is_vacancy in Hv. rewrite Hn in Hv; done.
      + cbn [length]. lia.
      + rewrite <- state_value_code. destruct l; done.
    - apply (filter_enum_head (fun t => is_vacancy_species (SObj t))) in E as (_ & H2 & H3 & H4).
      rewrite Nat.sub_0_r in H2. exists k. split; [|split].
      + left. split; [by exists x|]. intros j t Hj Ht. by apply (H4 j t).
      + by eapply lookup_lt_Some.
      + apply state_value_code.
  Qed.
  Lemma empty_state_unique l k k' : empty_state l k -> empty_state l k' -> k = k'.
  Proof.
    intros [[(t & Ht & Hv) Hm]|[Hn ->]] [[(t' & Ht' & Hv') Hm']|[Hn' ->]]; [| | |done].
    - apply Nat.le_antisymm; eauto.
    - destruct (Hn' t); [|done]. by eapply elem_of_list_lookup_2.
    - destruct (Hn t'); [|done]. by eapply elem_of_list_lookup_2.
  Qed.
  Lemma species_for_value_inv b allowed v sp : species_for_value b allowed v = Ok sp ->
    exists l k, allowed = Some l /\ l !! k = Some sp /\ v = code b k /\
      forall j, j < length l -> v = code b j -> k <= j.
  Proof.
    unfold species_for_value. destruct allowed as [[|a l]|]; try done. set (L := a :: l).
    assert (G : forall n, match List.filter (fun e : nat * species => (v =? state_value b (Z.of_nat (fst e)))%Z) (enum_from n L) with
      | (k, x) :: _ => n <= k /\ L !! (k - n) = Some x /\ v = code b k /\ forall j, j < length L -> v = code b (n + j) -> k <= n + j
      | [] => True end).
    { clear sp. induction L as [|c L IH]; intros n; simpl; [done|]. destruct (Z.eqb_spec v (state_value b (Z.of_nat n))) as [->|Hne].
      - rewrite Nat.sub_diag. split; [lia|]. split; [done|]. split; [by rewrite state_value_code|]. intros; lia.
      - specialize (IH (S n)). destruct (List.filter _ (enum_from (S n) L)) as [|[k x] r]; [done|].
        destruct IH as (H1 & H2 & H3 & H4). split; [lia|]. split; [replace (k - n) with (S (k - S n)) by lia; done|].
        split; [done|]. intros [|j] Hj Hv.
        + rewrite Nat.add_0_r in Hv. by rewrite state_value_code in Hne.
        + rewrite <- Nat.add_succ_comm in *. apply H4; [lia|done]. }
    specialize (G 0). fold (enumerate L) in G. destruct (List.filter _ (enumerate L)) as [|[k x] r]; [done|].
    intros [= ->]. destruct G as (_ & H2 & H3 & H4). rewrite Nat.sub_0_r in H2. exists L, k. done.
  Qed.
  Lemma species_for_value_ok b l k sp : l !! k = Some sp ->
    exists sp', species_for_value b (Some l) (code b k) = Ok sp'.
  Proof.
    intros Hk. unfold species_for_value. destruct l as [|a l]; [done|].
    destruct (List.filter _ _) as [|[k' x] r] eqn:E; [|by eexists]. exfalso.
    assert (In (k, sp) []) as []. rewrite <- E. apply filter_In. split.
    - apply elem_of_list_In. by apply elem_of_enumerate.
    - simpl. by rewrite state_value_code, Z.eqb_refl.
  Qed.
  Lemma code_inj b l j k : distinguishable b l -> j < length l -> k < length l -> code b j = code b k -> j = k.
  Proof.
    intros (Hne & Hlen & _) Hj Hk. destruct b; simpl; [|lia]. specialize (Hlen eq_refl).
    destruct (Nat.eqb_spec j 0), (Nat.eqb_spec k 0); lia.
  Qed.
  Lemma equivalent_refl s : species_equivalent (SObj s) (SObj s) = true.
  Proof.
    unfold species_equivalent. apply existsb_exists.
    assert (H : exists t, In t (species_tokens (SObj s))).
    { unfold species_tokens. destruct (is_vacancy_species _); eexists; by left. }
    destruct H as [t Ht]. exists t. split; [done|]. unfold str_in. apply existsb_exists. exists t.
    split; [done|]. apply String.eqb_refl.
  Qed.
  Lemma vacancies_equivalent s t : is_vacancy s -> is_vacancy t -> species_equivalent (SObj s) (SObj t) = true.
  Proof. unfold is_vacancy. intros Hs Ht. unfold species_equivalent, species_tokens. by rewrite Hs, Ht. Qed.

  (* ---------------- nearest sites ---------------- *)
  Lemma first_minimum_unique (l : list Q) i j x y : first_minimum l i x -> first_minimum l j y -> i = j.
  Proof.
    intros (H1 & H2 & H3) (G1 & G2 & G3). destruct (Nat.lt_trichotomy i j) as [H|[H|H]]; [|done|].
    - specialize (G3 i x H H1). specialize (H2 j y G1). lra.
    - specialize (H3 j y H G1). specialize (G2 i x H1). lra.
  Qed.
  Lemma argmin_total l : l <> [] -> exists i x, argmin l = Ok (i, x).
  Proof. destruct l as [|a l]; [done|]. intros _. simpl. destruct (argmin_from 0 a 1 l) as [i x]. eauto. Qed.

  Lemma belongs_minimum template shape tol p k : positive_shape shape ->
    belongs template shape tol p k <->
    exists x, first_minimum (map (fun t => dist2 t p) (map snd (supercell_sites shape template))) k x /\
      (0 <= tol)%Q /\ (x <= sq tol)%Q.
  Proof.
    intros Hp. rewrite map_map.
    assert (L : forall j, map (fun s : site => dist2 (snd s) p) (supercell_sites shape template) !! j =
                          (fun s : site => dist2 (snd s) p) <$> cell_site template shape j).
    { intros j. change (map ?f ?l) with (f <$> l). by rewrite list_lookup_fmap, supercell_lookup. }
    split.
    - intros (s & Hs & Ht & Hd & Hm). exists (dist2 (snd s) p). split; [|done]. split; [by rewrite L, Hs|].
      split.
      + intros j y Hj. rewrite L in Hj. destruct (cell_site template shape j) as [t|] eqn:E; [|done].
        injection Hj as <-. by apply (Hm j t).
      + intros j y Hlt Hj. rewrite L in Hj. destruct (cell_site template shape j) as [t|] eqn:E; [|done].
        injection Hj as <-. by apply (Hm j t).
    - intros (x & (H1 & H2 & H3) & Ht & Hx). rewrite L in H1.
      destruct (cell_site template shape k) as [s|] eqn:E; [|done]. injection H1 as <-.
      exists s. split; [done|]. do 2 (split; [done|]). intros j t Hj. split.
      + apply (H2 j). by rewrite L, Hj.
      + intros Hlt. apply (H3 j); [done|]. by rewrite L, Hj.
  Qed.
  Lemma belongs_unique template shape tol p j k : positive_shape shape ->
    belongs template shape tol p j -> belongs template shape tol p k -> j = k.
  Proof.
    intros Hp (x & Hx & _)%belongs_minimum (y & Hy & _)%belongs_minimum; [|done..].
    by eapply first_minimum_unique.
  Qed.
  Lemma nearest_spec template shape tol p z : positive_shape shape ->
    nearest (map snd (supercell_sites shape template)) tol p = Ok z <->
    exists k, z = Z.of_nat k /\ belongs template shape tol p k.
  Proof.
    intros Hp. unfold nearest. split.
    - intros H. apply rbind_ok in H as ([i x] & Ha & H). simpl in H.
      destruct (Qle_bool 0 tol && Qle_bool x (sq tol)) eqn:E; [|done]. injection H as <-.
      apply andb_true_iff in E as [E1 E2]. apply Qle_bool_iff in E1, E2.
      exists i. split; [done|]. apply belongs_minimum; [done|]. exists x. split; [|done]. by apply argmin_spec.
    - intros (k & -> & Hb). apply belongs_minimum in Hb as (x & Hx & Ht & Hle); [|done].
      destruct (argmin_total (map (fun t => dist2 t p) (map snd (supercell_sites shape template)))) as (i & y & Ha).
      { intros E. rewrite E in Hx. by destruct Hx. }
      rewrite Ha. simpl. pose proof (argmin_spec _ _ _ Ha) as Hy.
      pose proof (first_minimum_unique _ _ _ _ _ Hx Hy) as ->.
      assert (y = x) as -> by (destruct Hx as [Hx _], Hy as [Hy _]; congruence).
      rewrite (proj2 (Qle_bool_iff _ _) Ht), (proj2 (Qle_bool_iff _ _) Hle). done.
  Qed.
  Lemma nearest_err ts tol p e : nearest ts tol p = Err e -> e = ValueError.
  Proof.
    unfold nearest. destruct ts as [|t ts]; simpl; [by intros [= <-]|].
    destruct (argmin_from _ _ _ _) as [i x]. simpl. destruct (_ && _); congruence.
  Qed.

  (* ---------------- placing atoms ---------------- *)
  Section Place.
    Variable b : basis.
    Variable A : list (option (list species)).
    Implicit Types es : list (Z * species).
    Lemma place_atom_inv occ z s occ' : (0 <= z)%Z -> length A = length occ ->
      place_atom b A occ (z, s) = Ok occ' ->
      exists a v, A !! Z.to_nat z = Some a /\ value_for_species b a s = Ok v /\ Z.to_nat z < length occ /\
        occ' = <[Z.to_nat z := v]> occ.
    Proof.
      intros Hz Hl H. unfold place_atom in H. simpl in H. apply rbind_ok in H as (a & Ha & H).
      apply rbind_ok in H as (v & Hv & H). apply py_get_nonneg in Ha; [|done].
      pose proof (lookup_lt_Some _ _ _ Ha) as Hlt. rewrite Hl in Hlt.
      unfold py_set in H. rewrite py_norm_nonneg in H by lia. injection H as <-. eauto 10.
    Qed.
    Lemma place_fold es : forall occ occ', length A = length occ ->
      (forall z s, (z, s) ∈ es -> (0 <= z)%Z) -> NoDup (map fst es) ->
      rfold (place_atom b A) occ es = Ok occ' ->
      length occ' = length occ /\
      (forall z s, (z, s) ∈ es -> exists a v, A !! Z.to_nat z = Some a /\ value_for_species b a s = Ok v /\
         occ' !! Z.to_nat z = Some v) /\
      (forall k, Z.of_nat k ∉ map fst es -> occ' !! k = occ !! k).
    Proof.
      induction es as [|[z s] es IH]; intros occ occ' Hl Hz Hnd H; simpl in H.
      - injection H as <-. split; [done|]. split; [by intros z s ?%elem_of_nil|done].
      - apply rbind_ok in H as (o1 & H1 & H). simpl in Hnd. apply NoDup_cons in Hnd as [Hnin Hnd].
        assert (Hz0 : (0 <= z)%Z) by (apply (Hz z s); by left).
        apply place_atom_inv in H1 as (a & v & Ha & Hv & Hlt & ->); [|done|done].
        apply IH in H as (G1 & G2 & G3); [|by rewrite insert_length|intros; apply (Hz z0 s0); by right|done].
        rewrite insert_length in G1. split; [done|]. split.
        + intros z' s' [[= -> ->]|Hin]%elem_of_cons; [|by apply G2].
          exists a, v. do 2 (split; [done|]). rewrite G3; [by apply list_lookup_insert|].
          by rewrite Z2Nat.id.
        + intros k Hk. simpl in Hk. apply not_elem_of_cons in Hk as [Hk1 Hk2]. rewrite G3 by done.
          apply list_lookup_insert_ne. intros <-. apply Hk1. by rewrite Z2Nat.id.
    Qed.
    Lemma place_fold_ok es : forall occ, length A = length occ ->
      (forall z s, (z, s) ∈ es -> (0 <= z)%Z /\ exists a v, A !! Z.to_nat z = Some a /\ value_for_species b a s = Ok v) ->
      exists occ', rfold (place_atom b A) occ es = Ok occ'.
    Proof.
      induction es as [|[z s] es IH]; intros occ Hl H; simpl; [by eexists|].
      destruct (H z s) as (Hz & a & v & Ha & Hv); [by left|].
      unfold place_atom at 1. simpl. rewrite (proj2 (py_get_nonneg A z a Hz) Ha). simpl. rewrite Hv. simpl.
      pose proof (lookup_lt_Some _ _ _ Ha). unfold py_set. rewrite py_norm_nonneg by lia. simpl.
      apply IH; [by rewrite insert_length|]. intros z' s' Hin. apply H. by right.
    Qed.
    Lemma place_fold_err es : forall occ e, length A = length occ ->
      (forall z s, (z, s) ∈ es -> (0 <= z < Z.of_nat (length A))%Z) ->
      rfold (place_atom b A) occ es = Err e -> e = ValueError.
    Proof.
      induction es as [|[z s] es IH]; intros occ e Hl Hz H; simpl in H; [done|].
      pose proof (Hz z s (elem_of_list_here _ _)) as Hb.
      destruct (py_get_ok A z Hb) as (a & Ha & _). unfold place_atom at 1 in H. simpl in H. rewrite Ha in H. simpl in H.
      destruct (value_for_species b a s) as [v|e'] eqn:Ev; simpl in H.
      - unfold py_set in H. rewrite py_norm_nonneg in H by lia. simpl in H.
        eapply IH; [|by intros; apply (Hz z0 s0); right|exact H]. by rewrite insert_length.
      - injection H as <-. unfold value_for_species in Ev. destruct a as [[|a l]|]; try congruence.
        destruct (List.filter _ _) as [|[? ?] ?]; congruence.
    Qed.
  End Place.

  (** The whole call, for any assignment of atoms to template sites. *)
  Definition A_of (la : lattice) (shape : nat * nat * nat) : list (option (list species)) :=
    map (fun s : site => allowed_for (la_mapping la) (fst s)) (supercell_sites shape (la_template la)).
  Definition finish (la : lattice) shape (structure : list site) (zs : list Z) : result occupation :=
    if negb (bool_decide (NoDup zs)) then Err ValueError else
    let* occ' := rfold (place_atom (la_basis la) (A_of la shape))
                   (map (missing_occupation_value (la_basis la)) (A_of la shape)) (combine zs (map fst structure)) in
    Ok (Occupation (la_basis la) occ').

  Lemma get_occ_unfold la S tol shape : wf la -> positive_shape shape ->
    get_occ_from_structure la S tol shape None =
    let* zs := rmapM (fun s => nearest (map snd (supercell_sites shape (la_template la))) tol (snd s)) S in
    finish la shape S zs.
  Proof.
    intros Hw Hp. unfold get_occ_from_structure. rewrite occ_allowed by done. unfold rbind at 1.
    destruct S as [|s S]; [|done]. simpl. unfold finish. rewrite bool_decide_eq_true_2 by constructor. done.
  Qed.
  Lemma get_occ_unfold_explicit la S tol shape m : wf la -> positive_shape shape -> S <> [] ->
    get_occ_from_structure la S tol shape (Some m) =
    let* zs := explicit_mapping (length (supercell_sites shape (la_template la))) (length S) m in
    finish la shape S zs.
  Proof.
    intros Hw Hp Hne. unfold get_occ_from_structure. rewrite occ_allowed by done. unfold rbind at 1.
    by destruct S as [|s S].
  Qed.

  Lemma A_length la shape : length (A_of la shape) = length (la_template la) * images shape.
  Proof. unfold A_of. by rewrite map_length, supercell_sites_length. Qed.
  Lemma A_lookup la shape k s : positive_shape shape -> cell_site (la_template la) shape k = Some s ->
    A_of la shape !! k = Some (al la shape k).
  Proof. intros Hp Hs. exact (big_allowed la shape k s Hp Hs). Qed.
  Lemma cell_site_total template shape k : positive_shape shape -> k < length template * images shape ->
    exists s, cell_site template shape k = Some s.
  Proof.
    intros Hp Hk. destruct (lookup_lt_is_Some_2 (supercell_sites shape template) k) as [s Hs].
    { by rewrite supercell_sites_length. }
    exists s. by rewrite <- supercell_lookup.
  Qed.

  Lemma combine_in {X Y} (l : list X) (m : list Y) x y :
    (x, y) ∈ combine l m -> exists j, l !! j = Some x /\ m !! j = Some y.
  Proof.
    revert m. induction l as [|a l IH]; intros [|c m] H; simpl in H; try by apply elem_of_nil in H.
    apply elem_of_cons in H as [[= -> ->]|H]; [by exists 0|]. destruct (IH m H) as (j & ? & ?). by exists (S j).
  Qed.
  Lemma combine_in_2 {X Y} (l : list X) (m : list Y) x y j :
    l !! j = Some x -> m !! j = Some y -> (x, y) ∈ combine l m.
  Proof.
    revert m j. induction l as [|a l IH]; intros [|c m] [|j] H1 H2; simpl in *; try done.
    - injection H1 as ->. injection H2 as ->. by left.
    - right. by eapply IH.
  Qed.
  Lemma combine_fst {X Y} (l : list X) (m : list Y) : length l = length m -> map fst (combine l m) = l.
  Proof. revert m. induction l as [|a l IH]; intros [|c m] H; try discriminate; [done|]. simpl. f_equal. apply IH. simpl in H; lia. Qed.

  Lemma finish_inv la shape S zs o : wf la -> positive_shape shape -> length zs = length S ->
    (forall z, z ∈ zs -> (0 <= z < Z.of_nat (length (la_template la) * images shape))%Z) ->
    finish la shape S zs = Ok o ->
    NoDup zs /\ oc_basis o = la_basis la /\ length (oc_data o) = length (la_template la) * images shape /\
    (forall j k s p, zs !! j = Some (Z.of_nat k) -> S !! j = Some (s, p) ->
       exists l i, al la shape k = Some l /\ first_named l s i /\ oc_data o !! k = Some (code (la_basis la) i)) /\
    (forall k, k < length (la_template la) * images shape -> Z.of_nat k ∉ zs ->
       oc_data o !! k = Some (missing_occupation_value (la_basis la) (al la shape k))).
  Proof.
    intros Hw Hp Hlen Hz. unfold finish. destruct (bool_decide (NoDup zs)) eqn:E; [|done]. simpl.
    apply bool_decide_eq_true in E. intros H. apply rbind_ok in H as (d & Hd & [= <-]). simpl.
    apply place_fold in Hd as (H1 & H2 & H3).
    - rewrite map_length, A_length in H1. do 2 (split; [done|]). split; [done|]. split.
      + intros j k s p Hj Hs. destruct (H2 (Z.of_nat k) s) as (a & v & Ha & Hv & Hdk).
        { apply (combine_in_2 zs (map fst S) _ _ j); [done|]. change (map ?f ?l) with (f <$> l).
          rewrite list_lookup_fmap, Hs. done. }
        rewrite Nat2Z.id in *. pose proof (lookup_lt_Some _ _ _ Ha) as Hlt. rewrite A_length in Hlt.
        destruct (cell_site_total _ _ _ Hp Hlt) as [s' Hs']. rewrite (A_lookup _ _ _ _ Hp Hs') in Ha. injection Ha as <-.
        apply value_for_species_inv in Hv as (l & i & Hl & Hf & ->). eauto.
      + intros k Hk Hnin. rewrite H3.
        * destruct (cell_site_total _ _ _ Hp Hk) as [s' Hs']. change (map ?f ?l) with (f <$> l).
          rewrite list_lookup_fmap, (A_lookup _ _ _ _ Hp Hs'). done.
        * by rewrite combine_fst by (by rewrite map_length).
    - by rewrite map_length.
    - intros z s Hin. apply combine_in in Hin as (j & Hj & _). apply Hz. by eapply elem_of_list_lookup_2.
    - by rewrite combine_fst by (by rewrite map_length).
  Qed.
  Lemma finish_ok la shape S zs : wf la -> positive_shape shape -> NoDup zs ->
    (forall j z s p, zs !! j = Some z -> S !! j = Some (s, p) ->
       exists k l i, z = Z.of_nat k /\ k < length (la_template la) * images shape /\ al la shape k = Some l /\ first_named l s i) ->
    exists o, finish la shape S zs = Ok o.
  Proof.
    intros Hw Hp Hnd H. unfold finish. rewrite bool_decide_eq_true_2 by done. simpl.
    destruct (place_fold_ok (la_basis la) (A_of la shape) (combine zs (map fst S))
      (map (missing_occupation_value (la_basis la)) (A_of la shape))) as [d Hd].
    - by rewrite map_length.
    - intros z s Hin. apply combine_in in Hin as (j & Hj & Hs). change (map ?f ?l) with (f <$> l) in Hs.
      rewrite list_lookup_fmap in Hs. destruct (S !! j) as [[s' p]|] eqn:E; [|done]. injection Hs as <-.
      destruct (H j z s' p Hj E) as (k & l & i & -> & Hk & Hl & Hf). split; [lia|]. rewrite Nat2Z.id.
      destruct (cell_site_total _ _ _ Hp Hk) as [t Ht].
      exists (Some l), (code (la_basis la) i). rewrite (A_lookup _ _ _ _ Hp Ht), Hl. split; [done|].
      by apply value_for_species_ok.
    - rewrite Hd. simpl. by eexists.
  Qed.
  Lemma finish_err la shape S zs e :
    (forall z, z ∈ zs -> (0 <= z < Z.of_nat (length (la_template la) * images shape))%Z) ->
    finish la shape S zs = Err e -> e = ValueError.
  Proof.
    intros Hz. unfold finish. destruct (negb _); [congruence|]. intros H.
    destruct (rfold _ _ _) as [d|e'] eqn:E; simpl in H; [done|]. injection H as <-.
    eapply place_fold_err; [|  |exact E]; [by rewrite map_length|].
    intros z s Hin. apply combine_in in Hin as (j & Hj & _). rewrite A_length. apply Hz. by eapply elem_of_list_lookup_2.
  Qed.

  Lemma nearest_list la S tol shape zs : positive_shape shape ->
    rmapM (fun s : site => nearest (map snd (supercell_sites shape (la_template la))) tol (snd s)) S = Ok zs ->
    length zs = length S /\
    (forall z, z ∈ zs -> (0 <= z < Z.of_nat (length (la_template la) * images shape))%Z) /\
    (forall j s p, S !! j = Some (s, p) -> exists k, zs !! j = Some (Z.of_nat k) /\ belongs (la_template la) shape tol p k) /\
    (forall k, Z.of_nat k ∈ zs -> exists j s p, S !! j = Some (s, p) /\ zs !! j = Some (Z.of_nat k) /\ belongs (la_template la) shape tol p k).
  Proof.
    intros Hp H. pose proof (rmapM_length _ _ _ H) as Hlen. split; [done|].
    assert (G : forall z, z ∈ zs -> exists j s p k, S !! j = Some (s, p) /\ zs !! j = Some z /\ z = Z.of_nat k /\ belongs (la_template la) shape tol p k).
    { intros z Hz. apply elem_of_list_lookup in Hz as (j & Hj).
      destruct (rmapM_lookup _ _ _ _ _ H Hj) as ([s p] & Hs & Hn). apply nearest_spec in Hn as (k & -> & Hb); [|done].
      exists j, s, p, k. done. }
    split; [|split].
    - intros z Hz. destruct (G z Hz) as (j & s & p & k & _ & _ & -> & (t & Ht & _)).
      apply cell_site_lt in Ht; [|done]. lia.
    - intros j s p Hj. destruct (rmapM_lookup_l _ _ _ _ _ H Hj) as (z & Hz & Hn).
      apply nearest_spec in Hn as (k & -> & Hb); [|done]. by exists k.
    - intros k Hk. destruct (G _ Hk) as (j & s & p & k' & H1 & H2 & H3 & H4). assert (k' = k) as -> by lia. eauto 10.
  Qed.

  Lemma reads_full la S tol shape o : wf la -> positive_shape shape ->
    get_occ_from_structure la S tol shape None = Ok o ->
    readable la S tol shape /\
    oc_basis o = la_basis la /\ length (oc_data o) = length (la_template la) * images shape /\
    (forall j s p k, S !! j = Some (s, p) -> belongs (la_template la) shape tol p k ->
       exists l i, allowed_at la shape k = Some l /\ first_named l s i /\ oc_data o !! k = Some (code (la_basis la) i)) /\
    (forall k, k < length (la_template la) * images shape ->
       (forall s p, (s, p) ∈ S -> ~ belongs (la_template la) shape tol p k) ->
       oc_data o !! k = Some (missing_occupation_value (la_basis la) (allowed_at la shape k))).
  Proof.
    intros Hw Hp H. rewrite get_occ_unfold in H by done. apply rbind_ok in H as (zs & Hzs & H).
    apply nearest_list in Hzs as (Hlen & Hr & Hat & Hfrom); [|done].
    apply finish_inv in H as (Hnd & Hb & Hl & Hin & Hout); [|done..].
    assert (Hread : forall j s p k, S !! j = Some (s, p) -> belongs (la_template la) shape tol p k ->
       exists l i, allowed_at la shape k = Some l /\ first_named l s i /\ oc_data o !! k = Some (code (la_basis la) i)).
    { intros j s p k Hj Hk. destruct (Hat j s p Hj) as (k' & Hz & Hk').
      pose proof (belongs_unique _ _ _ _ _ _ Hp Hk Hk') as <-.
      destruct (Hin j k s p Hz Hj) as (l & i & Ha & Hf & Hd). rewrite al_allowed_at in Ha by done. eauto. }
    split; [split|].
    - intros j s p Hj. destruct (Hat j s p Hj) as (k & _ & Hk). destruct (Hread j s p k Hj Hk) as (l & i & ? & ? & _).
      by exists k, l, i.
    - intros i j s t p q k Hi Hj Hbi Hbj. destruct (Hat i s p Hi) as (k1 & Hz1 & Hb1). destruct (Hat j t q Hj) as (k2 & Hz2 & Hb2).
      pose proof (belongs_unique _ _ _ _ _ _ Hp Hbi Hb1) as <-. pose proof (belongs_unique _ _ _ _ _ _ Hp Hbj Hb2) as <-.
      exact (NoDup_lookup _ _ _ _ Hnd Hz1 Hz2).
    - do 3 (split; [done|]). intros k Hk Hnone. rewrite <- al_allowed_at by done. apply Hout; [done|].
      intros Hz. destruct (Hfrom k Hz) as (j & s & p & Hj & _ & Hbk). eapply Hnone; [|exact Hbk]. by eapply elem_of_list_lookup_2.
  Qed.

  Lemma readable_ok la S tol shape : wf la -> positive_shape shape -> readable la S tol shape ->
    exists o, get_occ_from_structure la S tol shape None = Ok o.
  Proof.
    intros Hw Hp [H1 H2]. rewrite get_occ_unfold by done.
    assert (E : exists zs, rmapM (fun s : site => nearest (map snd (supercell_sites shape (la_template la))) tol (snd s)) S = Ok zs).
    { apply rmapM_ok_exists. intros [s p] Hin. apply elem_of_list_lookup in Hin as (j & Hj).
      destruct (H1 j s p Hj) as (k & l & i & Hb & _). exists (Z.of_nat k). apply nearest_spec; [done|]. by exists k. }
    destruct E as [zs Ezs]. rewrite Ezs. simpl.
    pose proof (nearest_list _ _ _ _ _ Hp Ezs) as (Hlen & Hr & Hat & Hfrom).
    apply finish_ok; [done|done| |].
    - apply NoDup_alt. intros i j z Hi Hj.
      destruct (lookup_lt_is_Some_2 S i) as [[s p] Es]; [rewrite <- Hlen; by eapply lookup_lt_Some|].
      destruct (lookup_lt_is_Some_2 S j) as [[t q] Et]; [rewrite <- Hlen; by eapply lookup_lt_Some|].
      destruct (Hat i s p Es) as (k1 & Hz1 & Hb1). destruct (Hat j t q Et) as (k2 & Hz2 & Hb2).
      rewrite Hi in Hz1. rewrite Hj in Hz2. assert (k1 = k2) as -> by (simplify_eq; lia).
      eapply (H2 i j); eauto.
    - intros j z s p Hz Hs. destruct (Hat j s p Hs) as (k & Hzk & Hbk). rewrite Hz in Hzk. injection Hzk as ->.
      destruct (H1 j s p Hs) as (k' & l & i & Hb' & Ha & Hf). pose proof (belongs_unique _ _ _ _ _ _ Hp Hbk Hb') as <-.
      exists k, l, i. rewrite al_allowed_at by done. split; [done|]. split; [|done].
      destruct Hbk as (t & Ht & _). by apply cell_site_lt in Ht.
  Qed.

  Lemma first_named_unique l s i j : first_named l s i -> first_named l s j -> i = j.
  Proof. intros [(t & ? & ?) G] [(t' & ? & ?) G']. apply Nat.le_antisymm; eauto. Qed.


  Lemma belongs_decided la (S : list site) tol shape k : positive_shape shape ->
    (forall s p, (s, p) ∈ S -> exists k', belongs (la_template la) shape tol p k') ->
    (exists s p, (s, p) ∈ S /\ belongs (la_template la) shape tol p k) \/
    (forall s p, (s, p) ∈ S -> ~ belongs (la_template la) shape tol p k).
  Proof.
    intros Hp. induction S as [|[s p] S IH]; intros H.
    - right. by intros s p ?%elem_of_nil.
    - destruct (H s p) as [k' Hk']; [by left|]. destruct (decide (k' = k)) as [->|Hne].
      + left. exists s, p. split; [by left|done].
      + destruct IH as [(s' & p' & Hin & Hb)|Hn].
        * intros s' p' Hin. apply (H s' p'). by right.
        * left. exists s', p'. split; [by right|done].
        * right. intros s' p' [[= -> ->]|Hin]%elem_of_cons; [|by eapply Hn].
          intros Hb. apply Hne. by eapply belongs_unique.
  Qed.
  Lemma readable_belongs la S tol shape s p : readable la S tol shape -> (s, p) ∈ S ->
    exists k, belongs (la_template la) shape tol p k.
  Proof.
    intros [H _] Hin. apply elem_of_list_lookup in Hin as (j & Hj). destruct (H j s p Hj) as (k & _ & _ & Hb & _). eauto.
  Qed.

  (** What was read is determined by which atoms belong where. *)
  Lemma reads_determined la (S S' : list site) tol shape o o' : wf la -> positive_shape shape ->
    (forall s k, (exists p, (s, p) ∈ S /\ belongs (la_template la) shape tol p k) <->
                 (exists p, (s, p) ∈ S' /\ belongs (la_template la) shape tol p k)) ->
    get_occ_from_structure la S tol shape None = Ok o ->
    get_occ_from_structure la S' tol shape None = Ok o' -> o = o'.
  Proof.
    intros Hw Hp Hsame Ho Ho'.
    destruct (reads_full _ _ _ _ _ Hw Hp Ho) as (Hr & Hb & Hl & Hin & Hout).
    destruct (reads_full _ _ _ _ _ Hw Hp Ho') as (_ & Hb' & Hl' & Hin' & Hout').
    destruct o as [b d], o' as [b' d']. simpl in *. subst b b'. f_equal. apply list_eq. intros k.
    destruct (decide (k < length (la_template la) * images shape)) as [Hk|Hk].
    2:{ rewrite !lookup_ge_None_2 by lia. done. }
    destruct (belongs_decided la S tol shape k Hp) as [(s & p & Hs & Hbk)|Hn].
    { intros s p Hs. by eapply readable_belongs. }
    - destruct (proj1 (Hsame s k)) as (p' & Hs' & Hbk'); [by exists p|].
      apply elem_of_list_lookup in Hs as (j & Hj). apply elem_of_list_lookup in Hs' as (j' & Hj').
      destruct (Hin j s p k Hj Hbk) as (l & i & Ha & Hf & ->).
      destruct (Hin' j' s p' k Hj' Hbk') as (l' & i' & Ha' & Hf' & ->).
      assert (l' = l) as -> by congruence. by rewrite (first_named_unique _ _ _ _ Hf Hf').
    - rewrite Hout by done. rewrite Hout'; [done|done|]. intros s p Hs Hbk.
      destruct (proj2 (Hsame s k)) as (p' & Hs' & Hbk'); [by exists p|]. by eapply Hn.
  Qed.

  Lemma wrap_congruent x y : congruent1 x y -> (sq (wrap x) == sq (wrap y))%Q.
  Proof.
    intros [k Hk]. destruct (wrap_shift x) as [m Hm]. destruct (wrap_shift y) as [n Hn].
    apply Qle_antisym.
    - assert (E : (wrap y == x + inject_Z (n - k))%Q).
      { rewrite Hn, Hk. unfold Z.sub. rewrite inject_Z_plus, inject_Z_opp. ring. }
      pose proof (sq_wrap_min x (n - k)) as H. unfold sq in *. rewrite E. exact H.
    - assert (E : (wrap x == y + inject_Z (m + k))%Q).
      { rewrite Hm, Hk. rewrite inject_Z_plus. ring. }
      pose proof (sq_wrap_min y (m + k)) as H. unfold sq in *. rewrite E. exact H.
  Qed.
  Lemma dist2_congruent t p q : congruent p q -> (dist2 t p == dist2 t q)%Q.
  Proof.
    destruct t as [[a b] c], p as [[x y] z], q as [[x' y'] z']. intros (H1 & H2 & H3). unfold dist2.
    assert (G : forall a x x', congruent1 x x' -> (sq (wrap (a - x)) == sq (wrap (a - x')))%Q).
    { intros a0 u v [k Hk]. apply wrap_congruent. exists (- k)%Z. rewrite Hk, inject_Z_opp. ring. }
    rewrite (G a x x' H1), (G b y y' H2), (G c z z' H3). reflexivity.
  Qed.
  Lemma congruent1_sym x y : congruent1 x y -> congruent1 y x.
  Proof. intros [k Hk]. exists (- k)%Z. rewrite Hk, inject_Z_opp. ring. Qed.
  Lemma congruent_sym p q : congruent p q -> congruent q p.
  Proof.
    destruct p as [[x y] z], q as [[x' y'] z']. intros (H1 & H2 & H3). split; [|split]; by apply congruent1_sym.
  Qed.
  Lemma belongs_congruent template shape tol p q k : congruent p q ->
    belongs template shape tol p k -> belongs template shape tol q k.
  Proof.
    intros Hc (s & Hs & Ht & Hd & Hm). pose proof (fun t => dist2_congruent t p q Hc) as E.
    exists s. split; [done|]. split; [done|]. split; [by rewrite <- E|]. intros j t Hj.
    rewrite <- !E. by apply Hm.
  Qed.

  Lemma same_crystal_readable la S S' tol shape : same_crystal S S' ->
    readable la S tol shape -> readable la S' tol shape.
  Proof.
    intros (U & Hperm & HF) [H1 H2].
    assert (R : readable la U tol shape).
    { apply Permutation_sym in Hperm. apply Permutation_inj in Hperm as (Hlen & f & Hf & Hl). split.
      - intros j s p Hj. rewrite Hl in Hj. by apply (H1 (f j)).
      - intros i j s t p q k Hi Hj Hb Hb'. rewrite Hl in Hi, Hj. apply Hf. by eapply H2. }
    destruct R as [R1 R2]. split.
    - intros j s p Hj. destruct (Forall2_lookup_r _ _ _ _ _ HF Hj) as ([s' p'] & Hj' & [E Hc]). simpl in E, Hc. subst s'.
      destruct (R1 j s p' Hj') as (k & l & i & Hb & ? & ?). exists k, l, i. split; [|done]. by eapply belongs_congruent.
    - intros i j s t p q k Hi Hj Hb Hb'.
      destruct (Forall2_lookup_r _ _ _ _ _ HF Hi) as ([s' p'] & Hi' & [E Hc]).
      destruct (Forall2_lookup_r _ _ _ _ _ HF Hj) as ([t' q'] & Hj' & [E' Hc']). simpl in *.
      eapply (R2 i j s' t' p' q' k); [done|done| |]; (eapply belongs_congruent; [apply congruent_sym; eassumption|done]).
  Qed.
  Lemma same_crystal_lemma la S S' tol shape o : wf la -> positive_shape shape -> same_crystal S S' ->
    get_occ_from_structure la S tol shape None = Ok o ->
    get_occ_from_structure la S' tol shape None = Ok o.
  Proof.
    intros Hw Hp Hc Ho. destruct (reads_full _ _ _ _ _ Hw Hp Ho) as (Hr & _).
    destruct (readable_ok la S' tol shape Hw Hp) as [o' Ho']; [by eapply same_crystal_readable|].
    rewrite Ho'. f_equal. symmetry. eapply reads_determined; [done|done| |exact Ho|exact Ho'].
    destruct Hc as (U & Hperm & HF). intros s k. split.
    - intros (p & Hin & Hb). rewrite Hperm in Hin. apply elem_of_list_lookup in Hin as (j & Hj).
      destruct (Forall2_lookup_l _ _ _ _ _ HF Hj) as ([s' p'] & Hj' & [E Hcc]). simpl in *. subst s'.
      exists p'. split; [by eapply elem_of_list_lookup_2|]. by eapply belongs_congruent.
    - intros (p & Hin & Hb). apply elem_of_list_lookup in Hin as (j & Hj).
      destruct (Forall2_lookup_r _ _ _ _ _ HF Hj) as ([s' p'] & Hj' & [E Hcc]). simpl in *. subst s'.
      exists p'. split; [rewrite Hperm; by eapply elem_of_list_lookup_2|].
      eapply belongs_congruent; [apply congruent_sym; exact Hcc|done].
  Qed.

  Lemma get_occ_err la S tol shape e : wf la -> positive_shape shape ->
    get_occ_from_structure la S tol shape None = Err e -> e = ValueError.
  Proof.
    intros Hw Hp H. rewrite get_occ_unfold in H by done.
    destruct (rmapM _ S) as [zs|e'] eqn:E; simpl in H.
    - apply nearest_list in E as (_ & Hr & _); [|done]. by eapply finish_err.
    - injection H as <-. apply rmapM_err in E. destruct E as (x & _ & E). by eapply nearest_err.
  Qed.

  (* ---------------- structures from occupations ---------------- *)
  Definition speciesE (la : lattice) shape (occ : list Z) : result (list species) :=
    rmapM (fun e : nat * site => let* v := py_get occ (Z.of_nat (fst e)) in
             species_for_value (la_basis la) (al la shape (fst e)) v)
      (enumerate (supercell_sites shape (la_template la))).

  Lemma get_structure_unfold la occ shape : wf la -> positive_shape shape ->
    get_structure_from_occ parse la occ shape =
    if negb (Nat.eqb (length occ) (length (la_template la) * images shape)) then Err ValueError else
    let* sps := speciesE la shape occ in
    Ok (List.filter (fun s : site => negb (is_vacancy_species (SObj (fst s))))
          (combine sps (map snd (supercell_sites shape (la_template la))))).
  Proof.
    intros Hw Hp. unfold get_structure_from_occ. rewrite copy_self by done. unfold rbind at 1.
    pose proof (make_supercell_ok la shape Hw) as Hm. pose proof (copy_big la shape Hw Hp) as Hc.
    assert (Ht : la_template (snd (make_supercell la shape)) = supercell_sites shape (la_template la)) by reflexivity.
    destruct (make_supercell la shape) as [r bg]. simpl in Hm, Hc, Ht. subst r. unfold rbind at 1. rewrite Ht, supercell_sites_length.
    destruct (negb _); [done|]. rewrite Hc. unfold rbind at 1.
    unfold speciesE. simpl la_template. f_equal. apply rmapM_ext. intros [k s] Hin.
    apply elem_of_enumerate in Hin. simpl. destruct (py_get occ (Z.of_nat k)) as [v|]; [|done]. simpl.
    unfold species_for_occupation_value.
    assert (Hs : cell_site (la_template la) shape k = Some s) by (by rewrite <- supercell_lookup).
    rewrite (proj2 (py_get_nonneg (la_allowed (big la shape)) (Z.of_nat k) (al la shape k) ltac:(lia))); [done|].
    rewrite Nat2Z.id. by eapply big_allowed.
  Qed.

  Lemma structure_inv la occ shape S : wf la -> positive_shape shape ->
    get_structure_from_occ parse la occ shape = Ok S ->
    length occ = length (la_template la) * images shape /\
    exists sps, length sps = length occ /\
      S = List.filter (fun s : site => negb (is_vacancy_species (SObj (fst s))))
            (combine sps (map snd (supercell_sites shape (la_template la)))) /\
      forall k sp, sps !! k = Some sp ->
        exists l i, allowed_at la shape k = Some l /\ l !! i = Some sp /\
          occ !! k = Some (code (la_basis la) i) /\
          forall j, j < length l -> code (la_basis la) i = code (la_basis la) j -> i <= j.
  Proof.
    intros Hw Hp H. rewrite get_structure_unfold in H by done.
    destruct (Nat.eqb_spec (length occ) (length (la_template la) * images shape)) as [Hl|]; [|done]. simpl in H.
    apply rbind_ok in H as (sps & Hs & [= <-]). split; [done|]. exists sps.
    pose proof (rmapM_length _ _ _ Hs) as Hlen. unfold enumerate in Hlen. rewrite enum_from_length, supercell_sites_length in Hlen.
    split; [congruence|]. split; [done|]. intros k sp Hk.
    destruct (rmapM_lookup _ _ _ _ _ Hs Hk) as ([k' s] & Hk' & Hv).
    rewrite enumerate_lookup in Hk'. destruct (supercell_sites _ _ !! k) as [s'|] eqn:E; [|done].
    simpl in Hk'. injection Hk' as <- <-. simpl in Hv. apply rbind_ok in Hv as (v & Hv & Hsp).
    apply py_get_nonneg in Hv; [|lia]. rewrite Nat2Z.id in Hv.
    apply species_for_value_inv in Hsp as (l & i & Ha & Hi & -> & Hmin). rewrite al_allowed_at in Ha by done.
    exists l, i. done.
  Qed.
  Lemma structure_ok la occ shape : wf la -> positive_shape shape ->
    length occ = length (la_template la) * images shape ->
    (forall k v, occ !! k = Some v -> exists l i, allowed_at la shape k = Some l /\ i < length l /\ v = code (la_basis la) i) ->
    exists S, get_structure_from_occ parse la occ shape = Ok S.
  Proof.
    intros Hw Hp Hl H. rewrite get_structure_unfold by done. rewrite (proj2 (Nat.eqb_eq _ _) Hl). simpl.
    assert (E : exists sps, speciesE la shape occ = Ok sps).
    { apply rmapM_ok_exists. intros [k s] Hin. apply elem_of_enumerate in Hin. simpl.
      destruct (lookup_lt_is_Some_2 occ k) as [v Hv].
      { rewrite Hl, <- supercell_sites_length. by eapply lookup_lt_Some. }
      destruct (H k v Hv) as (l & i & Ha & Hi & ->).
      rewrite (proj2 (py_get_nonneg occ (Z.of_nat k) (code (la_basis la) i) ltac:(lia))) by (by rewrite Nat2Z.id).
      simpl. rewrite al_allowed_at, Ha by done. destruct (lookup_lt_is_Some_2 l i Hi) as [sp Hsp].
      by eapply species_for_value_ok. }
    destruct E as [sps E]. rewrite E. simpl. by eexists.
  Qed.
  Lemma structure_iff_lemma la occ shape : wf la -> positive_shape shape ->
    (exists S, get_structure_from_occ parse la occ shape = Ok S) <->
    length occ = length (la_template la) * images shape /\
    (forall k v, occ !! k = Some v -> exists l i, allowed_at la shape k = Some l /\ i < length l /\ v = code (la_basis la) i).
  Proof.
    intros Hw Hp. split; [|intros [? ?]; by apply structure_ok]. intros [S H].
    apply structure_inv in H as (Hl & sps & Hlen & _ & Hk); [|done..]. split; [done|]. intros k v Hv.
    destruct (lookup_lt_is_Some_2 sps k) as [sp Hsp]; [rewrite Hlen; by eapply lookup_lt_Some|].
    destruct (Hk k sp Hsp) as (l & i & Ha & Hi & Ho & _). exists l, i. split; [done|].
    split; [by eapply lookup_lt_Some|]. congruence.
  Qed.

  Lemma combine_lookup {X Y} (l : list X) (m : list Y) j x y :
    combine l m !! j = Some (x, y) <-> l !! j = Some x /\ m !! j = Some y.
  Proof.
    revert m j. induction l as [|a l IH]; intros [|c m] [|j]; simpl; try (split; [done|by intros [? ?]]).
    - split; [by intros [= -> ->]|by intros [[= ->] [= ->]]].
    - apply IH.
  Qed.
  Lemma in_structure la shape sps s p : positive_shape shape ->
    (s, p) ∈ List.filter (fun s : site => negb (is_vacancy_species (SObj (fst s))))
            (combine sps (map snd (supercell_sites shape (la_template la)))) <->
    ~ is_vacancy s /\ exists k t, sps !! k = Some s /\ cell_site (la_template la) shape k = Some t /\ p = snd t.
  Proof.
    intros Hp. rewrite elem_of_list_In, filter_In, <- elem_of_list_In. cbn [fst]. rewrite negb_true_iff.
    assert (E : (s, p) ∈ combine sps (map snd (supercell_sites shape (la_template la))) <->
       exists k t, sps !! k = Some s /\ cell_site (la_template la) shape k = Some t /\ p = snd t).
    { rewrite elem_of_list_lookup. split.
      - intros (k & Hk). apply combine_lookup in Hk as [H1 H2]. change (map ?f ?l) with (f <$> l) in H2.
        rewrite list_lookup_fmap, supercell_lookup in H2 by done.
        destruct (cell_site (la_template la) shape k) as [t|] eqn:Et; [|done]. injection H2 as <-. eauto 10.
      - intros (k & t & H1 & H2 & ->). exists k. apply combine_lookup. split; [done|].
        change (map ?f ?l) with (f <$> l). by rewrite list_lookup_fmap, supercell_lookup, H2. }
    rewrite E. unfold is_vacancy. destruct (is_vacancy_species (SObj s)); intuition congruence.
  Qed.

  Lemma at_site_belongs template shape tol k t : positive_shape shape -> distinct_sites template -> (0 <= tol)%Q ->
    cell_site template shape k = Some t -> belongs template shape tol (snd t) k.
  Proof.
    intros Hp Hd Ht Hk. exists t. split; [done|]. split; [done|].
    assert (Hz : (dist2 (snd t) (snd t) == 0)%Q) by (apply dist2_zero, congruent_refl).
    split; [rewrite Hz; apply sq_nonneg|]. intros j u Hj. rewrite Hz. split; [apply dist2_nonneg|].
    intros Hlt. pose proof (dist2_nonneg (snd u) (snd t)) as Hn.
    destruct (Qlt_le_dec 0 (dist2 (snd u) (snd t))) as [|Hle]; [done|].
    assert (Heq : (dist2 (snd u) (snd t) == 0)%Q) by lra. apply dist2_zero in Heq.
    pose proof (supercell_distinct _ _ _ _ _ _ Hp Hd Hj Hk Heq). lia.
  Qed.

  Lemma allowed_at_in la shape k l : allowed_at la shape k = Some l -> Some l ∈ la_allowed la.
  Proof.
    unfold allowed_at. destruct (la_allowed la !! _) as [[l'|]|] eqn:E; try done. intros [= <-].
    by eapply elem_of_list_lookup_2.
  Qed.

  Lemma occ_round_trip la occ shape tol S : wf la -> positive_shape shape ->
    distinct_sites (la_template la) -> tells_apart la -> (0 <= tol)%Q ->
    get_structure_from_occ parse la occ shape = Ok S ->
    get_occ_from_structure la S tol shape None = Ok (Occupation (la_basis la) occ).
  Proof.
    intros Hw Hp Hd Hdist Ht H.
    apply structure_inv in H as (Hl & sps & Hlen & HS & Hk); [|done..].
    assert (Hfn : forall l i sp, distinguishable (la_basis la) l -> l !! i = Some sp -> first_named l sp i).
    { intros l i sp (_ & _ & Hu) Hi. split.
      - exists sp. split; [done|apply equivalent_refl].
      - intros j t Hj He. rewrite (Hu i j sp t Hi Hj He). done. }
    assert (Hin : forall s p, (s, p) ∈ S <-> ~ is_vacancy s /\ exists k t, sps !! k = Some s /\ cell_site (la_template la) shape k = Some t /\ p = snd t).
    { intros s p. rewrite HS. by apply in_structure. }
    assert (Hr : readable la S tol shape).
    { split.
      - intros j s p Hj. apply elem_of_list_lookup_2, Hin in Hj as (_ & k & t & Hs & Hc & ->).
        destruct (Hk k s Hs) as (l & i & Ha & Hi & _). exists k, l, i. split; [by apply at_site_belongs|].
        split; [done|]. apply Hfn; [|done]. by apply Hdist, (allowed_at_in la shape k).
      - assert (Hnd : NoDup (map snd S)).
        { rewrite HS. assert (Hc : NoDup (map snd (combine sps (map snd (supercell_sites shape (la_template la)))))).
          { apply NoDup_alt. intros i j p Hi Hj. change (map ?f ?l) with (f <$> l) in Hi, Hj.
            rewrite list_lookup_fmap in Hi, Hj.
            destruct (combine sps _ !! i) as [[s1 p1]|] eqn:E1; [|done]. destruct (combine sps _ !! j) as [[s2 p2]|] eqn:E2; [|done].
            simpl in Hi, Hj. injection Hi as ->. injection Hj as ->.
            apply combine_lookup in E1 as [_ E1]. apply combine_lookup in E2 as [_ E2].
            change (map ?f ?l) with (f <$> l) in E1, E2. rewrite list_lookup_fmap, supercell_lookup in E1, E2 by done.
            destruct (cell_site (la_template la) shape i) as [t1|] eqn:F1; [|done].
            destruct (cell_site (la_template la) shape j) as [t2|] eqn:F2; [|done].
            simpl in E1, E2. injection E1 as E1. injection E2 as E2.
            eapply supercell_distinct; [exact Hp|exact Hd|exact F1|exact F2|]. rewrite E1, E2. apply congruent_refl. }
          revert Hc. generalize (combine sps (map snd (supercell_sites shape (la_template la)))). intros c.
          induction c as [|x c IHc]; simpl; [done|]. rewrite NoDup_cons. intros [Hx Hc]. destruct (negb _); simpl; [|by apply IHc].
          rewrite NoDup_cons. split; [|by apply IHc]. intros Hx'. apply Hx.
          apply elem_of_list_fmap in Hx' as (y & E & Hy). apply elem_of_list_In, filter_In in Hy as [Hy _].
          apply elem_of_list_fmap. exists y. split; [done|]. by apply elem_of_list_In. }
        intros i j s t p q k Hi Hj Hb Hb'.
        pose proof (elem_of_list_lookup_2 _ _ _ Hi) as Ei. pose proof (elem_of_list_lookup_2 _ _ _ Hj) as Ej.
        apply Hin in Ei as (_ & k1 & t1 & _ & Hc1 & ->). apply Hin in Ej as (_ & k2 & t2 & _ & Hc2 & ->).
        pose proof (belongs_unique _ _ _ _ _ _ Hp Hb (at_site_belongs _ _ tol _ _ Hp Hd Ht Hc1)) as <-.
        pose proof (belongs_unique _ _ _ _ _ _ Hp Hb' (at_site_belongs _ _ tol _ _ Hp Hd Ht Hc2)) as <-.
        assert (t2 = t1) as -> by congruence.
        eapply (NoDup_lookup (map snd S)); [done| |]; change (map ?f ?l) with (f <$> l); rewrite list_lookup_fmap.
        + rewrite Hi. reflexivity.
        + by rewrite Hj. }
    destruct (readable_ok la S tol shape Hw Hp Hr) as [o Ho]. rewrite Ho. f_equal.
    destruct (reads_full _ _ _ _ _ Hw Hp Ho) as (_ & Hb & Hol & Hread & Hmiss). destruct o as [b d]. simpl in *. subst b. f_equal.
    apply list_eq. intros k. destruct (decide (k < length occ)) as [Hlt|Hge].
    2:{ rewrite !lookup_ge_None_2 by lia. done. }
    destruct (lookup_lt_is_Some_2 sps k) as [sp Hsp]; [lia|].
    destruct (cell_site_total (la_template la) shape k Hp) as [t Hc]; [lia|].
    destruct (Hk k sp Hsp) as (l & i & Ha & Hi & Hocc & _). rewrite Hocc.
    pose proof (Hdist l (allowed_at_in _ _ _ _ Ha)) as Hdl.
    destruct (is_vacancy_species (SObj sp)) eqn:Ev.
    - rewrite Hmiss; [|lia|].
      + rewrite Ha. destruct (missing_lemma (la_basis la) l) as (i' & He & Hi' & ->); [by destruct Hdl|].
        do 2 f_equal. destruct He as [[(v & Hv & Hvac) _]|[Hn _]].
        * destruct Hdl as (_ & _ & Hu). eapply Hu; [exact Hv|exact Hi|]. by apply vacancies_equivalent.
        * destruct (Hn sp); [by eapply elem_of_list_lookup_2|done].
      + intros s p Hs Hbk. apply Hin in Hs as (Hnv & k' & t' & Hs' & Hc' & ->).
        pose proof (belongs_unique _ _ _ _ _ _ Hp Hbk (at_site_belongs _ _ tol _ _ Hp Hd Ht Hc')) as <-.
        assert (s = sp) as -> by congruence. done.
    - assert (HinS : (sp, snd t) ∈ S).
      { apply Hin. split; [unfold is_vacancy; congruence|]. by exists k, t. }
      apply elem_of_list_lookup in HinS as (j & Hj).
      destruct (Hread j sp (snd t) k Hj (at_site_belongs _ _ tol _ _ Hp Hd Ht Hc)) as (l' & i' & Ha' & Hf & ->).
      assert (l' = l) as -> by congruence. do 2 f_equal. eapply first_named_unique; [exact Hf|]. by apply Hfn.
  Qed.

  Lemma structure_round_trip la (S : list site) tol shape o : wf la -> positive_shape shape ->
    (forall a, a ∈ la_allowed la -> a <> None) -> tells_apart la ->
    (forall k l, allowed_at la shape k = Some l ->
       (forall s p, (s, p) ∈ S -> ~ belongs (la_template la) shape tol p k) -> exists v, v ∈ l /\ is_vacancy v) ->
    get_occ_from_structure la S tol shape None = Ok o ->
    exists S', get_structure_from_occ parse la (oc_data o) shape = Ok S' /\
      forall s q, (s, q) ∈ S' <->
        ~ is_vacancy s /\
        exists s0 p k t l i, (s0, p) ∈ S /\ belongs (la_template la) shape tol p k /\
          cell_site (la_template la) shape k = Some t /\ q = snd t /\
          allowed_at la shape k = Some l /\ first_named l s0 i /\ l !! i = Some s.
  Proof.
    intros Hw Hp Hsome Hdist Hempty Ho.
    destruct (reads_full _ _ _ _ _ Hw Hp Ho) as (Hr & Hb & Hol & Hread & Hmiss).
    assert (Hall : forall k, k < length (la_template la) * images shape -> exists l, allowed_at la shape k = Some l).
    { intros k Hk. unfold allowed_at.
      assert (Hlt : k / images shape < length (la_allowed la)).
      { rewrite (wf_allowed _ Hw), map_length. pose proof (images_pos _ Hp). apply Nat.div_lt_upper_bound; lia. }
      destruct (lookup_lt_is_Some_2 _ _ Hlt) as [a Ha]. rewrite Ha. destruct a as [l|]; [by exists l|].
      destruct (Hsome None); [by eapply elem_of_list_lookup_2|done]. }
    assert (Hval : forall k v, oc_data o !! k = Some v -> exists l i, allowed_at la shape k = Some l /\ i < length l /\ v = code (la_basis la) i).
    { intros k v Hv. assert (Hk : k < length (la_template la) * images shape) by (rewrite <- Hol; by eapply lookup_lt_Some).
      destruct (belongs_decided la S tol shape k Hp) as [(s & p & Hs & Hbk)|Hn].
      { intros s p Hs. by eapply readable_belongs. }
      - apply elem_of_list_lookup in Hs as (j & Hj). destruct (Hread j s p k Hj Hbk) as (l & i & Ha & [(t & Hi & _) _] & Hd).
        exists l, i. split; [done|]. split; [by eapply lookup_lt_Some|congruence].
      - destruct (Hall k Hk) as [l Ha]. rewrite Hmiss, Ha in Hv by done. injection Hv as <-.
        destruct (missing_lemma (la_basis la) l) as (i & _ & Hi & ->); [|by exists l, i].
        by destruct (Hdist l (allowed_at_in _ _ _ _ Ha)). }
    destruct (structure_ok la (oc_data o) shape Hw Hp Hol Hval) as [S' HS']. exists S'. split; [done|].
    pose proof HS' as HS0. apply structure_inv in HS0 as (_ & sps & Hlen & -> & Hk); [|done..].
    intros s q. rewrite in_structure by done. split; intros [Hnv H]; (split; [done|]).
    - destruct H as (k & t & Hs & Hc & ->).
      destruct (Hk k s Hs) as (l & i & Ha & Hi & Hd & _).
      pose proof (Hdist l (allowed_at_in _ _ _ _ Ha)) as Hdl.
      destruct (belongs_decided la S tol shape k Hp) as [(s0 & p & Hs0 & Hbk)|Hn].
      { intros s0 p Hs0. by eapply readable_belongs. }
      + pose proof Hs0 as Hs0'. apply elem_of_list_lookup in Hs0' as (j & Hj).
        destruct (Hread j s0 p k Hj Hbk) as (l' & i' & Ha' & Hf & Hd'). assert (l' = l) as -> by congruence.
        assert (i' = i) as ->.
        { eapply code_inj; [exact Hdl| | |congruence]; [|by eapply lookup_lt_Some].
          destruct Hf as [(t' & Hi' & _) _]. by eapply lookup_lt_Some. }
        exists s0, p, k, t, l, i. done.
      + exfalso. destruct (Hempty k l Ha Hn) as (v & Hv & Hvac).
        assert (Hklt : k < length (la_template la) * images shape) by (by eapply cell_site_lt).
        rewrite Hmiss, Ha in Hd by done.
        destruct (missing_lemma (la_basis la) l) as (i' & He & Hi' & E); [by destruct Hdl|]. rewrite E in Hd. injection Hd as Hd.
        assert (i' = i) as ->.
        { eapply code_inj; [exact Hdl|done| |exact Hd]. by eapply lookup_lt_Some. }
        destruct He as [[(w & Hw' & Hwv) _]|[Hno _]].
        * assert (w = s) as -> by congruence. done.
        * by apply (Hno v).
    - destruct H as (s0 & p & k & t & l & i & Hs0 & Hbk & Hc & -> & Ha & Hf & Hi).
      apply elem_of_list_lookup in Hs0 as (j & Hj). destruct (Hread j s0 p k Hj Hbk) as (l' & i' & Ha' & Hf' & Hd).
      assert (l' = l) as -> by congruence. rewrite <- (first_named_unique _ _ _ _ Hf Hf') in Hd.
      assert (Hklt : k < length sps) by (rewrite Hlen; by eapply lookup_lt_Some).
      destruct (lookup_lt_is_Some_2 sps k Hklt) as [s' Hs'].
      destruct (Hk k s' Hs') as (l2 & i2 & Ha2 & Hi2 & Hd2 & _). assert (l2 = l) as -> by congruence.
      assert (i2 = i) as ->.
      { eapply code_inj; [exact (Hdist l (allowed_at_in _ _ _ _ Ha))| | |congruence]; by eapply lookup_lt_Some. }
      exists k, t. split; [congruence|done].
  Qed.

  (* ---------------- the active lattice ---------------- *)
  Lemma site_allowed_for m sp l : site_allowed m sp = Ok l -> allowed_for m sp = Some l.
  Proof.
    unfold site_allowed, allowed_for.
    destruct (List.filter _ m) as [|[? l'] ?]; intros Hs; [discriminate|]. simpl. congruence.
  Qed.

  Lemma order_allowed_eq la shape o : wf la -> get_active_site_order parse fp la shape = Ok o ->
    exists a b c allowed, (0 < a /\ 0 < b /\ 0 < c)%Z /\ o_shape o = [a; b; c] /\
      la_allowed la = map Some allowed /\ length allowed = length (la_template la) /\
      o_template o = Some (map fst (la_template la)) /\
      (forall z, z ∈ o_a2o o -> exists k s l, z = Z.of_nat k /\
         make_kmc_supercell (length (la_template la)) (shape3 (o_shape o)) !! k = Some s /\
         allowed !! ss_prim s = Some l /\ 1 < length l) /\
      (forall k s l, make_kmc_supercell (length (la_template la)) (shape3 (o_shape o)) !! k = Some s ->
         allowed !! ss_prim s = Some l -> 1 < length l -> Z.of_nat k ∈ o_a2o o).
  Proof.
    intros [Hn Hd Ha _ _] H. apply built_inv in H as (a & b & c & allowed & Hpos & Hsh & Hal & Hlen & _ & H).
    cbn zeta in H. destruct H as (_ & _ & _ & Ha2o & _ & _ & _ & _ & Ht & _). rewrite map_length in *.
    exists a, b, c, allowed. do 2 (split; [done|]). split.
    { unfold allowed_species_by_site in Hal. rewrite raw_entries in Hal by done. simpl in Hal. rewrite Ha.
      apply list_eq. intros i. change (map ?f ?l) with (f <$> l). rewrite !list_lookup_fmap.
      destruct (la_template la !! i) as [s|] eqn:E; simpl.
      - destruct (rmapM_lookup_l _ _ _ i (fst s) Hal) as (l & Hl & Hs).
        { change (map ?f ?l) with (f <$> l). by rewrite list_lookup_fmap, E. }
        rewrite Hl. simpl. f_equal. by apply site_allowed_for.
      - apply lookup_ge_None in E. rewrite (lookup_ge_None_2 allowed) by (rewrite Hlen; exact E). done. }
    do 2 (split; [done|]). rewrite Hsh. simpl shape3. rewrite Ha2o. split.
    - intros z Hz. apply elem_of_map_of_nat in Hz as (k & -> & Hk). apply elem_of_filter_enum in Hk as (s & Hs & Hp).
      simpl in Hp. apply bool_decide_eq_true, elem_of_primitive_active in Hp as (l & Hl & Hl1). eauto 10.
    - intros k s l Hs Hl Hl1. apply elem_of_map_of_nat. exists k. split; [done|]. apply elem_of_filter_enum.
      exists s. split; [done|]. simpl. apply bool_decide_eq_true, elem_of_primitive_active. eauto.
  Qed.

  Lemma supercell_cell_site (template : list site) shape k s : positive_shape shape ->
    make_kmc_supercell (length template) shape !! k = Some s ->
    exists t, template !! ss_prim s = Some t /\ ss_prim s = k / images shape /\
      cell_site template shape k = Some (fst t, place shape (snd t) (ss_image s)).
  Proof.
    intros Hp Hk. destruct shape as [[n1 n2] n3]. pose proof (supercell_prim _ _ _ _ _ _ Hk) as Hprim.
    destruct s as [p [[a b] c]]. cbn [ss_prim ss_image] in *. apply supercell_lookup_lemma in Hk as (Hlt & Ha & Hb & Hc & E).
    destruct (lookup_lt_is_Some_2 template p Hlt) as [t Ht]. exists t. do 2 (split; [done|]).
    unfold cell_site. change (images (n1, n2, n3)) with (n1 * n2 * n3). rewrite <- Hprim, Ht.
    assert (points_of (n1, n2, n3) !! (k mod (n1 * n2 * n3)) = Some (a, b, c)) as Hpt.
    { apply lattice_points_lookup. do 3 (split; [done|]). symmetry. apply (Nat.mod_unique _ _ p).
      - assert (a * n2 + b < n1 * n2) by nia. nia.
      - subst k. nia. }
    apply points_lookup in Hpt as [_ Hpt]; [|done].
    assert (En : n1 * n2 * n3 <> 0) by (simpl in Hp; nia).
    assert (image_number (n1, n2, n3) k = (a, b, c)) as ->; [|done].
    rewrite Hpt. unfold image_number. change (images (n1, n2, n3)) with (n1 * n2 * n3). by rewrite Nat.mod_mod.
  Qed.

  Lemma fold_max_ge (l : list nat) x : x ∈ l -> x <= fold_right Nat.max 0 l.
  Proof. intros H. by apply (max_bound l (fold_right Nat.max 0 l)). Qed.

  Lemma active_lattice_lemma la shape o : wf la -> get_active_site_order parse fp la shape = Ok o ->
    exists la', get_active_lattice_structure parse fp la shape = Ok la' /\
      la_basis la' = la_basis la /\ length (la_template la') = active_site_count o /\
      forall a z, o_a2o o !! a = Some z ->
        la_template la' !! a = cell_site (la_template la) (shape3 (o_shape o)) (Z.to_nat z) /\
        exists l, la_allowed la' !! a = Some (Some l) /\
          allowed_at la (shape3 (o_shape o)) (Z.to_nat z) = Some l.
  Proof.
    intros Hw Ho. pose proof Ho as Hbuilt. pose proof (order_lengths_lemma _ _ _ _ _ _ Hbuilt) as (_ & _ & _ & Hpos0).
    pose proof Ho as Ho'. apply order_allowed_eq in Ho' as (a1 & b1 & c1 & allowed & Hpos & Hsh & Hall & Hlen & Htm & Hact & Hact'); [|done].
    assert (Hp : positive_shape (shape3 (o_shape o))) by (rewrite Hsh; simpl; lia).
    set (sh := shape3 (o_shape o)) in *.
    assert (Et : exists t, active_template la o = Ok t /\ length t = active_site_count o /\
       forall a z, o_a2o o !! a = Some z -> t !! a = cell_site (la_template la) sh (Z.to_nat z)).
    { unfold active_template, active_structure. rewrite Htm, map_length. fold sh.
      assert (Es : exists sites, rmapM (py_get (make_kmc_supercell (length (la_template la)) sh)) (o_a2o o) = Ok sites).
      { apply rmapM_ok_exists. intros z Hz. destruct (Hact z Hz) as (k & s & l & -> & Hs & _).
        exists s. apply py_get_nonneg; [lia|]. by rewrite Nat2Z.id. }
      destruct Es as [sites Es]. rewrite Es. simpl.
      assert (El : length sites = active_site_count o) by (by apply rmapM_length in Es).
      assert (Hsite : forall a z, o_a2o o !! a = Some z -> exists s, sites !! a = Some s /\ make_kmc_supercell (length (la_template la)) sh !! Z.to_nat z = Some s).
      { intros a z Hz. destruct (rmapM_lookup_l _ _ _ _ _ Es Hz) as (s & Hs & Hg). exists s. split; [done|].
        assert (0 <= z)%Z. { destruct (Hact z) as (k & _ & _ & -> & _); [by eapply elem_of_list_lookup_2|lia]. }
        by apply py_get_nonneg in Hg. }
      set (g := fun e : ssite * nat => match la_template la !! ss_prim (fst e) with
                | Some s => Ok (fst s, place sh (snd s) (ss_image (fst e))) | None => Err IndexError end).
      assert (Hcomb : forall a s i, combine sites (seq 0 (active_site_count o)) !! a = Some (s, i) ->
                exists z t, o_a2o o !! a = Some z /\ g (s, i) = Ok t /\ cell_site (la_template la) sh (Z.to_nat z) = Some t).
      { intros a s i Ha. apply combine_lookup in Ha as [Ha _].
        destruct (lookup_lt_is_Some_2 (o_a2o o) a) as [z Hz].
        { fold (active_site_count o). rewrite <- El. by eapply lookup_lt_Some. }
        destruct (Hsite a z Hz) as (s' & Hs' & Hk). assert (s' = s) as -> by congruence.
        destruct (supercell_cell_site _ _ _ _ Hp Hk) as (t & Ht & _ & Hc). exists z. eexists.
        split; [done|]. unfold g. simpl. rewrite Ht. split; [done|exact Hc]. }
      assert (Er : exists t, rmapM g (combine sites (seq 0 (active_site_count o))) = Ok t).
      { apply rmapM_ok_exists. intros [s i] Hin. apply elem_of_list_lookup in Hin as (a & Ha).
        destruct (Hcomb a s i Ha) as (z & t & _ & Hg & _). by exists t. }
      destruct Er as [t Er]. exists t. split; [exact Er|]. pose proof (rmapM_length _ _ _ Er) as Htl.
      rewrite combine_length, seq_length, El, Nat.min_id in Htl. split; [done|].
      intros a z Hz. assert (Halt : a < length t) by (rewrite Htl; by eapply lookup_lt_Some).
      destruct (lookup_lt_is_Some_2 t a Halt) as [x Hx]. destruct (rmapM_lookup _ _ _ _ _ Er Hx) as ([s i] & Hsi & Hg).
      destruct (Hcomb a s i Hsi) as (z' & t' & Hz' & Hg' & Hc). assert (z' = z) as -> by congruence.
      rewrite Hx, Hc. congruence. }
    destruct Et as (t & Et & Etl & Etk).
    assert (Hcell : forall a z, o_a2o o !! a = Some z -> exists s l, t !! a = Some s /\
        allowed_for (la_mapping la) (fst s) = Some l /\ 1 < length l /\ allowed_at la sh (Z.to_nat z) = Some l).
    { intros a z Hz. rewrite (Etk a z Hz). destruct (Hact z) as (k & s & l & -> & Hs & Hl & Hl1); [by eapply elem_of_list_lookup_2|].
      rewrite Nat2Z.id in *. destruct (supercell_cell_site _ _ _ _ Hp Hs) as (t0 & Ht0 & Hprim & Hc).
      assert (Haf : allowed_for (la_mapping la) (fst t0) = Some l).
      { assert (E : la_allowed la !! ss_prim s = Some (Some l)).
        { rewrite Hall. change (map ?f ?l) with (f <$> l). by rewrite list_lookup_fmap, Hl. }
        rewrite (wf_allowed _ Hw) in E. change (map ?f ?l) with (f <$> l) in E. rewrite list_lookup_fmap, Ht0 in E.
        simpl in E. congruence. }
      exists (fst t0, place sh (snd t0) (ss_image s)), l. split; [done|]. split; [done|]. split; [done|].
      unfold allowed_at. rewrite <- Hprim, Hall. change (map ?f ?l) with (f <$> l). by rewrite list_lookup_fmap, Hl. }
    set (al' := map (fun s : site => allowed_for (la_mapping la) (fst s)) t).
    assert (Hmem : forall l, 1 < length l -> (Some l ∈ la_allowed la <-> Some l ∈ al')).
    { intros l Hl1. split.
      - intros Hin. apply elem_of_list_lookup in Hin as (p & Hpl).
        assert (Hpl' : allowed !! p = Some l).
        { rewrite Hall in Hpl. change (map ?f ?l) with (f <$> l) in Hpl. rewrite list_lookup_fmap in Hpl.
          destruct (allowed !! p); simpl in Hpl; congruence. }
        assert (Hplt : p < length (la_template la)) by (rewrite <- Hlen; by eapply lookup_lt_Some).
        (* the first image of p *)
        assert (Hs : make_kmc_supercell (length (la_template la)) sh !! (p * images sh) = Some (SSite p (0, 0, 0))).
        { destruct sh as [[n1 n2] n3]. simpl in Hp. apply supercell_lookup_lemma. simpl. nia. }
        pose proof (Hact' _ _ _ Hs Hpl' Hl1) as Hin. apply elem_of_list_lookup in Hin as (a & Ha).
        destruct (Hcell a _ Ha) as (s & l' & Hts & Haf & _ & Hat). rewrite Nat2Z.id in Hat.
        assert (l' = l) as ->.
        { unfold allowed_at in Hat. rewrite Nat.div_mul in Hat by (pose proof (images_pos _ Hp); lia). rewrite Hpl in Hat. congruence. }
        apply elem_of_list_fmap. exists s. split; [done|]. by eapply elem_of_list_lookup_2.
      - intros Hin. apply elem_of_list_fmap in Hin as (s & E & Hin). apply elem_of_list_lookup in Hin as (a & Ha).
        destruct (lookup_lt_is_Some_2 (o_a2o o) a) as [z Hz].
        { fold (active_site_count o). rewrite <- Etl. by eapply lookup_lt_Some. }
        destruct (Hcell a z Hz) as (s' & l' & Hts & Haf & _ & Hat). assert (s' = s) as -> by congruence.
        assert (l' = l) as -> by congruence. by eapply allowed_at_in. }
    assert (Hbig : forall l, Some l ∈ al' -> 1 < length l).
    { intros l Hin. apply elem_of_list_fmap in Hin as (s & E & Hin). apply elem_of_list_lookup in Hin as (a & Ha).
      destruct (lookup_lt_is_Some_2 (o_a2o o) a) as [z Hz].
      { fold (active_site_count o). rewrite <- Etl. by eapply lookup_lt_Some. }
      destruct (Hcell a z Hz) as (s' & l' & Hts & Haf & Hl1 & _). assert (s' = s) as -> by congruence. congruence. }
    assert (Hmax : Z.max 2 (Z.of_nat (fold_right Nat.max 0 (map allowed_length (List.filter is_nonempty (la_allowed la))))) =
                   Z.max 2 (Z.of_nat (fold_right Nat.max 0 (map allowed_length (List.filter is_nonempty al'))))).
    { assert (G : forall X Y, (forall l, 1 < length l -> Some l ∈ X -> Some l ∈ Y) ->
         fold_right Nat.max 0 (map allowed_length (List.filter is_nonempty X)) <=
         Nat.max 2 (fold_right Nat.max 0 (map allowed_length (List.filter is_nonempty (Y : list (option (list species))))))).
      { intros X Y HXY. apply max_bound. intros x Hx. apply elem_of_list_fmap in Hx as (y & -> & Hy).
        apply elem_of_list_In, filter_In in Hy as [Hy Hne]. apply elem_of_list_In in Hy. destruct y as [l|]; [|simpl; lia].
        simpl. destruct (decide (1 < length l)) as [Hl1|]; [|lia]. etrans; [|apply Nat.le_max_r].
        apply fold_max_ge. apply elem_of_list_fmap. exists (Some l). split; [done|].
        apply elem_of_list_In, filter_In. split; [|done]. apply elem_of_list_In. by apply HXY. }
      pose proof (G (la_allowed la) al' ltac:(intros l Hl; by apply Hmem)).
      pose proof (G al' (la_allowed la) ltac:(intros l Hl; by apply Hmem)). lia. }
    exists (Lattice t (la_mapping la) (la_basis_type la) al' (la_basis la)).
    split.
    { unfold get_active_lattice_structure. rewrite Ho. unfold rbind at 1. rewrite Et. unfold rbind at 1.
      apply (wf_new la); [apply Hw|apply Hw| |].
      - fold al'. destruct (lookup_lt_is_Some_2 (o_a2o o) 0) as [z Hz]; [exact Hpos0|].
        destruct (Hcell 0 z Hz) as (s & l & Hts & Haf & Hl1 & _). intros E.
        assert (In (Some l) []) as []. rewrite <- E. apply filter_In. split; [|by destruct l; simpl in *; [lia|]].
        apply elem_of_list_In. unfold al'. apply elem_of_list_fmap. exists s. split; [done|]. by eapply elem_of_list_lookup_2.
      - fold al'. rewrite <- Hmax. apply (wf_basis _ Hw). }
    split; [done|]. split; [exact Etl|]. intros a z Hz. simpl la_template. split; [by apply Etk|].
    destruct (Hcell a z Hz) as (s & l & Hts & Haf & _ & Hat). exists l. split; [|done].
    simpl la_allowed. unfold al'. change (map ?f ?l) with (f <$> l). rewrite list_lookup_fmap, Hts. simpl. by rewrite Haf.
  Qed.
End S.

Lemma minimum_image_lemma x y z x' y' z' :
  (forall i j k : Z, (dist2 (x, y, z) (x', y', z') <=
      sq (x - x' + inject_Z i) + sq (y - y' + inject_Z j) + sq (z - z' + inject_Z k))%Q) /\
  (exists i j k : Z, (dist2 (x, y, z) (x', y', z') ==
      sq (x - x' + inject_Z i) + sq (y - y' + inject_Z j) + sq (z - z' + inject_Z k))%Q) /\
  ((dist2 (x, y, z) (x', y', z') == 0)%Q <-> congruent (x, y, z) (x', y', z')).
Proof.
  split; [|split; [|apply dist2_zero]].
  - intros i j k. unfold dist2. pose proof (sq_wrap_min (x - x') i). pose proof (sq_wrap_min (y - y') j).
    pose proof (sq_wrap_min (z - z') k). lra.
  - destruct (wrap_shift (x - x')) as [i Hi], (wrap_shift (y - y')) as [j Hj], (wrap_shift (z - z')) as [k Hk].
    exists i, j, k. unfold dist2, sq. by rewrite Hi, Hj, Hk.
Qed.

Lemma supercell_order_lemma template shape k : positive_shape shape ->
  supercell_sites shape template !! k = cell_site template shape k.
Proof. intros. by apply supercell_lookup. Qed.

Section Made.
  Variable parse : string -> result species.
  Variable fp : fp_payload -> string.
  Variables (template : list site) (mapping : list (spval * allowedval)) (bt : string) (la : lattice).
  Hypothesis M : made parse template mapping bt la.

  Lemma made_wf : wf la /\ la_template la = template.
  Proof. destruct M as [Hp H]. destruct (new_wf parse Hp _ _ _ _ H) as (Hw & Ht & _). done. Qed.

  Lemma reads_iff_lemma structure tol shape : positive_shape shape ->
    ((exists o, get_occ_from_structure la structure tol shape None = Ok o) <->
     readable la structure tol shape) /\
    (forall e, get_occ_from_structure la structure tol shape None = Err e -> e = ValueError).
  Proof.
    intros Hp. destruct made_wf as [Hw _]. split; [split|].
    - intros [o Ho]. by apply reads_full in Ho as [? _].
    - by apply readable_ok.
    - intros e. by apply get_occ_err.
  Qed.

  Lemma site_by_site_lemma structure tol shape o : positive_shape shape ->
    get_occ_from_structure la structure tol shape None = Ok o ->
    oc_basis o = la_basis la /\
    length (oc_data o) = length template * images shape /\
    (forall j s p k, structure !! j = Some (s, p) -> belongs template shape tol p k ->
       exists l i, allowed_at la shape k = Some l /\ first_named l s i /\
         oc_data o !! k = Some (code (la_basis la) i)) /\
    (forall k l, allowed_at la shape k = Some l -> l <> [] ->
       (forall s p, (s, p) ∈ structure -> ~ belongs template shape tol p k) ->
       exists i, empty_state l i /\ oc_data o !! k = Some (code (la_basis la) i)).
  Proof.
    intros Hp Ho. destruct made_wf as [Hw Ht]. apply reads_full in Ho as (_ & Hb & Hl & Ha & Hm); [|done|done].
    rewrite Ht in *. do 3 (split; [done|]). intros k l Hal Hne Hno.
    destruct (missing_lemma (la_basis la) l Hne) as (i & Hi & _ & E). exists i. split; [done|].
    rewrite <- E, <- Hal. apply Hm; [|done].
    unfold allowed_at in Hal. rewrite (wf_allowed _ Hw), Ht in Hal.
    destruct (map _ template !! (k / images shape)) eqn:E1; [|done]. apply lookup_lt_Some in E1. rewrite map_length in E1.
    pose proof (images_pos _ Hp). destruct (decide (k < length template * images shape)); [done|].
    assert (length template <= k / images shape); [|lia]. apply Nat.div_le_lower_bound; lia.
  Qed.

  Lemma ignores_order_lemma s s' tol shape o : positive_shape shape -> same_crystal s s' ->
    get_occ_from_structure la s tol shape None = Ok o ->
    get_occ_from_structure la s' tol shape None = Ok o.
  Proof. destruct made_wf as [Hw _]. by apply same_crystal_lemma. Qed.

  Lemma from_occ_iff_lemma occ shape : positive_shape shape ->
    (exists s, get_structure_from_occ parse la occ shape = Ok s) <->
    length occ = length template * images shape /\
    (forall k v, occ !! k = Some v ->
       exists l i, allowed_at la shape k = Some l /\ i < length l /\ v = code (la_basis la) i).
  Proof. destruct made_wf as [Hw Ht]. rewrite <- Ht. by apply structure_iff_lemma. Qed.

  Lemma occ_round_trip_lemma occ shape tol structure : positive_shape shape ->
    distinct_sites template -> tells_apart la -> (0 <= tol)%Q ->
    get_structure_from_occ parse la occ shape = Ok structure ->
    get_occ_from_structure la structure tol shape None = Ok (Occupation (la_basis la) occ).
  Proof. destruct made_wf as [Hw Ht]. rewrite <- Ht. by apply occ_round_trip. Qed.

  Lemma structure_round_trip_lemma (structure : list site) tol shape o : positive_shape shape ->
    (forall a, a ∈ la_allowed la -> a <> None) -> tells_apart la ->
    (forall k l, allowed_at la shape k = Some l ->
       (forall s p, (s, p) ∈ structure -> ~ belongs template shape tol p k) ->
       exists v, v ∈ l /\ is_vacancy v) ->
    get_occ_from_structure la structure tol shape None = Ok o ->
    exists s', get_structure_from_occ parse la (oc_data o) shape = Ok s' /\
      forall s q, (s, q) ∈ s' <->
        ~ is_vacancy s /\
        exists s0 p k t l i, (s0, p) ∈ structure /\ belongs template shape tol p k /\
          cell_site template shape k = Some t /\ q = snd t /\
          allowed_at la shape k = Some l /\ first_named l s0 i /\ l !! i = Some s.
  Proof. destruct made_wf as [Hw Ht]. rewrite <- Ht. by apply structure_round_trip. Qed.

  Lemma active_agrees_lemma shape o :
    get_active_site_order parse fp la shape = Ok o ->
    exists la', get_active_lattice_structure parse fp la shape = Ok la' /\
      la_basis la' = la_basis la /\ length (la_template la') = active_site_count o /\
      forall a z, o_a2o o !! a = Some z ->
        la_template la' !! a = cell_site template (shape3 (o_shape o)) (Z.to_nat z) /\
        exists l, la_allowed la' !! a = Some (Some l) /\
          allowed_at la (shape3 (o_shape o)) (Z.to_nat z) = Some l.
  Proof. destruct made_wf as [Hw Ht]. rewrite <- Ht. by apply active_lattice_lemma. Qed.
End Made.
