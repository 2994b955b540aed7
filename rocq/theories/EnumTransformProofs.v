(** Lemmas about enumeration by a transformation. *)
From Coq Require Import QArith Lqa Lia.
From Verif Require Import Py PyLemmas Json ActiveSiteModel ActiveSiteSpec ActiveSiteProofs
  BasisModel BasisSpec BasisProofs LatticeModel LatticeSpec LatticeProofs MatcherModel MatcherProofs
  SiteEnergyProofs EnumModel EnumSpec EnumProofs EnumTransformModel EnumTransformSpec.
Local Open Scope nat_scope.

Lemma collect_taken {A B} (f : A -> result (option B)) (skip : A -> Prop) (keep : A -> B -> Prop) l : forall max bs,
  (forall x, x ∈ l -> f x = Ok None -> skip x) -> (forall x y, x ∈ l -> f x = Ok (Some y) -> keep x y) ->
  1 <= max -> collect f max l = Ok bs -> taken skip keep max l bs.
Proof.
  induction l as [|x l IH]; intros max bs Hs Hk Hm H; simpl in H; [injection H as <-; constructor|].
  assert (Hs' : forall x, x ∈ l -> f x = Ok None -> skip x) by (intros; apply Hs; [by right|done]).
  assert (Hk' : forall x y, x ∈ l -> f x = Ok (Some y) -> keep x y) by (intros; apply Hk; [by right|done]).
  destruct max as [|max]; [lia|].
  apply rbind_ok in H as ([b|] & Hx & H).
  - destruct (Nat.leb_spec (S max) 1) as [Hle|Hgt].
    + injection H as <-. assert (max = 0) as -> by lia. constructor; [apply Hk; [by left|done]|constructor].
    + apply rbind_ok in H as (bs' & H & [= <-]). constructor; [apply Hk; [by left|done]|].
      replace max with (S max - 1) by lia. apply IH; [done|done|lia|done].
  - constructor; [apply Hs; [by left|done]|]. by apply IH.
Qed.
Lemma collect_success {A B} (f : A -> result (option B)) l : forall max,
  (forall x, x ∈ l -> exists y, f x = Ok y) -> exists bs, collect f max l = Ok bs.
Proof.
  induction l as [|x l IH]; intros max H; simpl; [by eexists|]. destruct (H x) as [y Hy]; [by left|]. rewrite Hy. cbn [rbind].
  destruct y as [b|].
  - destruct (Nat.leb max 1); [by eexists|]. destruct (IH (max - 1)) as [bs ->]; [intros; apply H; by right|]. cbn [rbind]. by eexists.
  - apply IH. intros. apply H. by right.
Qed.
Lemma taken_forall {A B} (skip : A -> Prop) (keep : A -> B -> Prop) max l rs : taken skip keep max l rs ->
  forall r, r ∈ rs -> exists x, x ∈ l /\ keep x r.
Proof.
  induction 1 as [| |max x l rs Hx _ IH|max x l r' rs Hx _ IH]; intros r Hr.
  - by apply elem_of_nil in Hr.
  - by apply elem_of_nil in Hr.
  - destruct (IH r Hr) as (y & ? & ?). exists y. split; [by right|done].
  - apply elem_of_cons in Hr as [->|Hr]; [exists x; split; [by left|done]|].
    destruct (IH r Hr) as (y & ? & ?). exists y. split; [by right|done].
Qed.
Lemma taken_length {A B} (skip : A -> Prop) (keep : A -> B -> Prop) max l rs : taken skip keep max l rs -> length rs <= max.
Proof. induction 1; simpl; lia. Qed.

(** Entries. *)
Lemma entry_structure_inv e c m : entry_structure e = Ok (c, m) ->
  structure_of e c /\ m = match e with EDict d => List.filter (fun kv => negb (String.eqb (fst kv) "structure")) d | _ => [] end.
Proof.
  destruct e as [c'|d|]; cbn [entry_structure]; [intros [= -> <-]; split; [constructor|done]| |done].
  destruct (dget d "structure") as [[c'|j]|] eqn:E; try done. intros [= -> <-]. split; [by constructor|done].
Qed.
Lemma structure_of_ok e c : structure_of e c -> exists m, entry_structure e = Ok (c, m).
Proof. intros []; cbn [entry_structure]; [by eexists|]. rewrite H. by eexists. Qed.
Lemma entries_inv t es : entries t = Ok es <-> entries_of t es.
Proof.
  split.
  - destruct t; cbn [entries]; [intros [= <-]; constructor|intros [= ->]; constructor|done].
  - by intros [].
Qed.
Lemma filter_keys (d : dict string tval) :
  NoDup (map fst d) -> NoDup (map fst (List.filter (fun kv : string * tval => negb (String.eqb (fst kv) "structure")) d)).
Proof.
  induction d as [|[k v] d IH]; [done|]. cbn [map List.filter fst]. intros [Hk H]%NoDup_cons. destruct (negb _); [|by apply IH].
  cbn [map fst]. apply NoDup_cons. split; [|by apply IH]. intros Hi. apply Hk. apply elem_of_list_fmap in Hi as (x & -> & Hx).
  apply elem_of_list_In, filter_In in Hx as [Hx _]. apply elem_of_list_fmap. exists x. split; [done|by apply elem_of_list_In].
Qed.
Lemma dget_filtered (d : dict string tval) k :
  dget (List.filter (fun kv : string * tval => negb (String.eqb (fst kv) "structure")) d) k
  = if decide (k = "structure"%string) then None else dget d k.
Proof.
  induction d as [|[k' v] d IH]; cbn [List.filter dget fst]; [by case_decide|].
  destruct (String.eqb_spec k' "structure") as [->|Hne]; cbn [negb].
  - rewrite IH. repeat case_decide; congruence.
  - cbn [dget]. rewrite IH. repeat case_decide; congruence.
Qed.
Lemma dset_from_fold (l : dict string tval) : forall d, NoDup (map fst l) ->
  forall k, dget (fold_left (fun d kv => dset d (fst kv) (snd kv)) l d) k = match dget l k with Some v => Some v | None => dget d k end.
Proof.
  induction l as [|[k' v] l IH]; intros d Hnd k; [done|]. cbn [map fst] in Hnd. apply NoDup_cons in Hnd as [Hk Hnd].
  cbn [fold_left fst snd dget]. rewrite IH by done. rewrite dget_dset. destruct (decide (k = k')) as [->|]; [|done].
  destruct (dget l k') eqn:E; [|done]. destruct Hk. apply dget_in_keys. by eexists.
Qed.
Lemma metadata_lemma e c m : entry_structure e = Ok (c, m) -> proper_entry e ->
  metadata_of e (dof_pairs (("source"%string, TOther (JStr "transformation")) :: m)).
Proof.
  intros H Hp k. apply entry_structure_inv in H as [Hs ->]. unfold dof_pairs. cbn [fold_left fst snd].
  destruct Hs as [c|d c Hd].
  - cbn [fold_left dset dget]. by case_decide.
  - cbn [proper_entry] in Hp. rewrite dset_from_fold by (by apply filter_keys). rewrite dget_filtered. cbn [dset dget].
    destruct (decide (k = "structure"%string)) as [->|Hne]; [by rewrite decide_False|]. done.
Qed.

(** Lists of atoms at the sites of the lattice. *)
Definition atoms_at (sps : list species) (template : list site) : list site :=
  List.filter (fun s : site => negb (is_vacancy_species (SObj (fst s)))) (combine sps (map snd template)).

Section Reading.
  Context {la act : lattice} {o : order} (C : context la act o) (Hdist : tells_apart la).
  Variable parse : string -> result species.

  Lemma act_tells_apart : tells_apart act.
  Proof.
    intros l Hl. apply elem_of_list_lookup in Hl as (i & Hi). apply (act_distinguishable C Hdist (Z.of_nat i)).
    split; [lia|]. by rewrite Nat2Z.id.
  Qed.
  Lemma act_distinct : distinct_sites (la_template la) -> distinct_sites (la_template act).
  Proof.
    intros Hd i j s t Hi Hj Hc.
    destruct (lookup_lt_is_Some_2 (o_a2o o) i) as [z Hz]; [pose proof (lookup_lt_Some _ _ _ Hi) as H; rewrite (cx_len _ _ _ C) in H; exact H|].
    destruct (lookup_lt_is_Some_2 (o_a2o o) j) as [w Hw]; [pose proof (lookup_lt_Some _ _ _ Hj) as H; rewrite (cx_len _ _ _ C) in H; exact H|].
    destruct (cx_site _ _ _ C _ _ Hz) as (k & _ & -> & _ & Hk & _). destruct (cx_site _ _ _ C _ _ Hw) as (k' & _ & -> & _ & Hk' & _).
    rewrite Hi in Hk. rewrite Hj in Hk'. symmetry in Hk, Hk'.
    pose proof (supercell_distinct _ _ _ _ _ _ one_shape Hd Hk Hk' Hc) as <-.
    apply (cx_inv _ _ _ C) in Hz, Hw. congruence.
  Qed.
  Lemma allowed_at_one k : allowed_at act (1, 1, 1) k = match la_allowed act !! k with Some (Some l) => Some l | _ => None end.
  Proof. unfold allowed_at. change (images (1, 1, 1)) with 1. by rewrite Nat.div_1_r. Qed.
  Lemma place_one (p : coords) : congruent (place (1, 1, 1) p (0, 0, 0)) p.
  Proof.
    destruct p as [[x y] z]. unfold place, congruent. split; [|split]; exists 0%Z; unfold inject_Z; field.
  Qed.
  Lemma cell_site_one template k : cell_site template (1, 1, 1) k = (fun s => (fst s, place (1, 1, 1) (snd s) (0, 0, 0))) <$> template !! k.
  Proof.
    unfold cell_site, image_number. change (images (1, 1, 1)) with 1. rewrite Nat.div_1_r. change (1 * 1) with 1.
    by rewrite !Nat.mod_1_r, !Nat.div_1_r.
  Qed.

  (** Atoms of the codes at their sites read as the codes. *)
  Lemma atoms_read data sps tol s : distinct_sites (la_template la) -> (0 <= tol)%Q ->
    length data = active_site_count o ->
    (forall k sp, sps !! k = Some sp -> holds act data (Z.of_nat k) sp) -> length sps = length data ->
    same_crystal (atoms_at sps (la_template act)) s ->
    get_occ_from_structure act s tol (1, 1, 1) None = Ok (Occupation (la_basis act) data).
  Proof.
    intros Hd Ht Hl Hh Hls Hs. pose proof (act_distinct Hd) as Hd'. pose proof act_tells_apart as Ha.
    assert (Hlen : length data = length (la_template act) * images (1, 1, 1)) by (simpl; rewrite (cx_len _ _ _ C); lia).
    destruct (LatticeProofs.structure_ok parse act data (1, 1, 1) (cx_awf _ _ _ C) one_shape Hlen) as [S HS].
    { intros k v Hv. destruct (lookup_lt_is_Some_2 sps k) as [sp Hsp]; [rewrite Hls; by eapply lookup_lt_Some|].
      destruct (Hh k sp Hsp) as (l & i & [_ Hal] & Hi & Hdk). rewrite Nat2Z.id in *. exists l, i. rewrite allowed_at_one, Hal.
      split; [done|]. split; [by eapply lookup_lt_Some|congruence]. }
    pose proof (occ_round_trip parse act data (1, 1, 1) tol S (cx_awf _ _ _ C) one_shape Hd' Ha Ht HS) as HR.
    eapply same_crystal_lemma; [apply C|apply one_shape| |exact HR].
    apply (structure_inv parse) in HS as (_ & sps' & Hlen' & -> & Hk); [|apply C|apply one_shape].
    assert (sps' = sps) as ->.
    { apply list_eq. intros k. destruct (decide (k < length data)) as [Hlt|Hge]; [|by rewrite !lookup_ge_None_2 by lia].
      destruct (lookup_lt_is_Some_2 sps' k) as [sp' Hsp']; [lia|]. destruct (lookup_lt_is_Some_2 sps k) as [sp Hsp]; [lia|].
      rewrite Hsp, Hsp'. f_equal. destruct (Hk k sp' Hsp') as (l & i & Hal & Hi & Hdk & _). rewrite allowed_at_one in Hal.
      eapply (holds_fun C Hdist data (Z.of_nat k)); [|by apply Hh]. exists l, i. rewrite Nat2Z.id. split; [|done].
      split; [lia|]. rewrite Nat2Z.id. by destruct (la_allowed act !! k) as [[?|]|]; simplify_eq. }
    destruct Hs as (u & Hp & HF). 
    assert (HF0 : Forall2 (fun a b : site => fst a = fst b /\ congruent (snd a) (snd b))
      (List.filter (fun s : site => negb (is_vacancy_species (SObj (fst s)))) (combine sps (map snd (supercell_sites (1, 1, 1) (la_template act)))))
      (atoms_at sps (la_template act))).
    { unfold atoms_at.
      assert (HF1 : Forall2 congruent (map snd (supercell_sites (1, 1, 1) (la_template act))) (map snd (la_template act))).
      { apply Forall2_fmap. apply Forall2_same_length_lookup_2; [rewrite supercell_sites_length; simpl; lia|].
        intros k x y Hx Hy. rewrite supercell_lookup in Hx by apply one_shape. rewrite cell_site_one, Hy in Hx. injection Hx as <-. apply place_one. }
      revert HF1. generalize (map snd (supercell_sites (1, 1, 1) (la_template act))) (map snd (la_template act)). clear.
      induction sps as [|sp sps IH]; intros A B H; [constructor|]. destruct H as [|a b A B Hab H]; [constructor|].
      cbn [combine List.filter fst]. destruct (negb _); [constructor; [done|]|]; by apply IH. }
    apply Forall2_flip in HF0. destruct (Permutation_Forall2 Hp HF0) as (v & Hv & HFv). apply Forall2_flip in HFv.
    exists v. split; [done|]. clear -HFv HF. revert s HF. induction HFv as [|a b v u [E1 C1] _ IH]; intros s HF.
    - apply Forall2_nil_inv_l in HF as ->. constructor.
    - apply Forall2_cons_inv_l in HF as (c & s' & [E2 C2] & HF & ->). constructor; [|by apply IH]. split; [congruence|].
      destruct (snd a) as [[x1 y1] z1], (snd b) as [[x2 y2] z2], (snd c) as [[x3 y3] z3].
      destruct C1 as ([i1 A1] & [j1 B1] & [k1 D1]), C2 as ([i2 A2] & [j2 B2] & [k2 D2]).
      split; [|split]; [exists (i1 + i2)%Z|exists (j1 + j2)%Z|exists (k1 + k2)%Z]; rewrite inject_Z_plus; lra.
  Qed.
End Reading.

Lemma choose_list {A B} (P : nat -> A -> B -> Prop) (l : list A) : forall n,
  (forall k x, l !! k = Some x -> exists y, P (n + k) x y) ->
  exists l', length l' = length l /\ forall k x y, l !! k = Some x -> l' !! k = Some y -> P (n + k) x y.
Proof.
  induction l as [|a l IH]; intros n H; [by exists []|].
  destruct (H 0 a eq_refl) as [y Hy]. destruct (IH (S n)) as (l' & Hl & Hk).
  { intros k x Hx. destruct (H (S k) x Hx) as [z Hz]. exists z. by replace (S n + k) with (n + S k) by lia. }
  exists (y :: l'). split; [simpl; lia|]. intros [|k] x z Hx Hz; simpl in *; [by simplify_eq|].
  replace (n + S k) with (S n + k) by lia. by apply Hk.
Qed.
Lemma choose_Forall2 {A B} (P : A -> B -> Prop) (l : list A) : (forall x, x ∈ l -> exists y, P x y) -> exists l', Forall2 P l l'.
Proof.
  induction l as [|x l IH]; intros H; [by exists []|]. destruct (H x) as [y Hy]; [by left|].
  destruct IH as [l' Hl]; [intros; apply H; by right|]. exists (y :: l'). by constructor.
Qed.

Lemma occupancy_const (d : dict species Q) c : (forall s q, (s, q) ∈ d -> q = c) ->
  (occupancy d == inject_Z (Z.of_nat (length d)) * c)%Q.
Proof.
  induction d as [|[s q] d IH]; intros H; [unfold occupancy; simpl; unfold inject_Z; ring|].
  assert (occupancy ((s, q) :: d) = q + occupancy d)%Q as -> by done. rewrite IH by (intros s' q' Hi; apply (H s'); by right).
  rewrite (H s q) by (by left). simpl length. rewrite Nat2Z.inj_succ. unfold Z.succ. rewrite inject_Z_plus. change (inject_Z 1) with 1%Q. ring.
Qed.
Lemma room_left (choices : list species) (d : dict species Q) : NoDup choices -> NoDup (map fst d) -> choices <> [] ->
  (forall s q, (s, q) ∈ d <-> s ∈ choices /\ ~ is_vacancy s /\ q = (1 / inject_Z (Z.of_nat (length choices)))%Q) ->
  (occupancy d < 1)%Q -> exists v, v ∈ choices /\ is_vacancy v.
Proof.
  intros Hn Hd Hne Hi Ho. destruct (existsb (fun s => is_vacancy_species (SObj s)) choices) eqn:E.
  - apply existsb_exists in E as (v & Hv & E). exists v. split; [by apply elem_of_list_In|done].
  - exfalso. assert (Hnv : forall s, s ∈ choices -> ~ is_vacancy s).
    { intros s Hs Hv. apply elem_of_list_In in Hs. assert (existsb (fun s => is_vacancy_species (SObj s)) choices = true); [|congruence].
      apply existsb_exists. by exists s. }
    assert (Permutation (map fst d) choices) as Hp.
    { apply NoDup_Permutation; [done..|]. intros s. rewrite elem_of_list_fmap. split.
      - intros ([s' q] & -> & H). by apply Hi in H as [? _].
      - intros H. exists (s, (1 / inject_Z (Z.of_nat (length choices)))%Q). split; [done|]. apply Hi. split; [done|]. split; [by apply Hnv|done]. }
    rewrite (occupancy_const d (1 / inject_Z (Z.of_nat (length choices)))%Q) in Ho by (intros s q H; by apply Hi in H as (_ & _ & ?)).
    assert (length d = length choices) as El by (rewrite <- (map_length fst d); by apply Permutation_length).
    rewrite El in Ho. assert (0 < inject_Z (Z.of_nat (length choices)))%Q as Hpos.
    { change 0%Q with (inject_Z 0). rewrite <- Zlt_Qlt. destruct choices; [done|simpl; lia]. }
    assert (inject_Z (Z.of_nat (length choices)) * (1 / inject_Z (Z.of_nat (length choices))) == 1)%Q as E1.
    { field. intros H. rewrite H in Hpos. by apply Qlt_irrefl in Hpos. }
    rewrite E1 in Ho. by apply Qlt_irrefl in Ho.
Qed.

Lemma room_made (choices : list species) (d : dict species Q) v : NoDup choices -> NoDup (map fst d) ->
  (forall s q, (s, q) ∈ d <-> s ∈ choices /\ ~ is_vacancy s /\ q = (1 / inject_Z (Z.of_nat (length choices)))%Q) ->
  v ∈ choices -> is_vacancy v -> (occupancy d < 1)%Q.
Proof.
  intros Hn Hd Hi Hv Hvac.
  pose proof (occupancy_const d (1 / inject_Z (Z.of_nat (length choices)))%Q ltac:(intros s q H; by apply Hi in H as (_ & _ & ?))) as Eo.
  assert (length d < length choices) as Hl.
  { rewrite <- (map_length fst d). assert (length (v :: map fst d) <= length choices) as H; [|simpl in H; lia].
    apply submseteq_length, NoDup_submseteq.
    - apply NoDup_cons. split; [|done]. intros H. apply elem_of_list_fmap in H as ([s q] & -> & H). by apply Hi in H as (_ & ? & _).
    - intros x Hx. apply elem_of_cons in Hx as [->|Hx]; [done|]. apply elem_of_list_fmap in Hx as ([s q] & -> & H). by apply Hi in H as (? & _). }
  rewrite Eo. assert (0 < inject_Z (Z.of_nat (length choices)))%Q as Hpos.
  { change 0%Q with (inject_Z 0). rewrite <- Zlt_Qlt. lia. }
  assert (inject_Z (Z.of_nat (length d)) * (1 / inject_Z (Z.of_nat (length choices))) == inject_Z (Z.of_nat (length d)) / inject_Z (Z.of_nat (length choices)))%Q as ->.
  { field. intros H. rewrite H in Hpos. by apply Qlt_irrefl in Hpos. }
  apply Qlt_shift_div_r; [done|]. rewrite Qmult_1_l. rewrite <- Zlt_Qlt. lia.
Qed.

Lemma keys_pair {X Y} (q : Y) (l : list X) : map fst (map (fun s => (s, q)) l) = l.
Proof. induction l as [|x l IH]; [done|]. cbn. by rewrite IH. Qed.
Section Offer.
  Context {la act : lattice} {o : order} (C : context la act o) (Hdist : tells_apart la).
  Context (vs : option (list spval)) (vars b : list Z) (Hb : length b = active_site_count o) (Hbc : all_codes act b).

  Lemma disordered_site_inv i s x : disordered_site act (Occupation (la_basis act) b) vars vs (i, s) = Ok x -> i < active_site_count o ->
    offered act vs vars b i (fst <$> x) /\ (forall d, x = Some d -> snd d = snd s).
  Proof.
    unfold disordered_site. cbn [fst snd]. intros H Hi. destruct (bool_decide_reflect (Z.of_nat i ∈ vars)) as [Hv|Hv].
    - apply rbind_ok in H as (c & Hc & H). apply rbind_ok in H as (en & He & [= <-]). split; [|by intros d [= <-]].
      split; [|done]. intros _. apply allowed_choices_inv in Hc as (l & Ha & -> & Hne).
      unfold partial_species_entry in He. cbn zeta in He.
      pose proof (choices_NoDup C Hdist _ _ vs Ha) as Hnd.
      assert (Hr : NoDup (List.filter (fun s => negb (is_vacancy_species (SObj s))) (pick vs l))).
      { apply NoDup_ListNoDup, List.NoDup_filter, NoDup_ListNoDup, Hnd. }
      set (q0 := (1 / inject_Z (Z.of_nat (length (pick vs l))))%Q) in *.
      assert (He' : en = Partial (map (fun s => (s, q0)) (List.filter (fun s => negb (is_vacancy_species (SObj s))) (pick vs l)))
        /\ List.filter (fun s => negb (is_vacancy_species (SObj s))) (pick vs l) <> []).
      { rewrite dof_pairs_NoDup in He by (by rewrite keys_pair). destruct (List.filter _ _); [done|]. by injection He as <-. }
      destruct He' as [-> Hne']. eexists l, (pick vs l), _. split; [done|]. split; [done|]. split; [intros; apply elem_of_pick|].
      split; [by rewrite keys_pair|]. split; [|split; [|done]].
      + intros t q. rewrite elem_of_list_fmap. fold q0. split.
        * intros (t' & [= -> ->] & Ht). apply elem_of_list_In, filter_In in Ht as [Ht1 Ht2]. split; [by apply elem_of_list_In|].
          split; [|done]. unfold is_vacancy. by destruct (is_vacancy_species _).
        * intros (Ht & Hn & ->). exists t. split; [done|]. apply elem_of_list_In, filter_In. split; [by apply elem_of_list_In|].
          unfold is_vacancy in Hn. by destruct (is_vacancy_species _).
      + by destruct (List.filter _ _).
    - apply rbind_ok in H as (v & Hg & H). apply rbind_ok in H as (sp & Hsp & Hx).
      assert (x = if is_vacancy_species (SObj sp) then None else Some (Whole sp, snd s)) as -> by congruence. clear Hx.
      destruct (holds_total b i Hb Hbc Hi) as (s' & v' & Hv' & Hh). unfold getitem in Hg. cbn [oc_data] in Hg.
      apply py_get_nonneg in Hg; [|lia]. rewrite Nat2Z.id in Hg. assert (v' = v) as -> by congruence.
      rewrite (species_at C Hdist b (Z.of_nat i) s' v Hh) in Hsp by (by rewrite Nat2Z.id). injection Hsp as ->.
      split; [split; [done|]|intros d Hd; destruct (is_vacancy_species (SObj sp)); [discriminate|by injection Hd as <-]].
      intros _. exists sp. split; [done|]. unfold is_vacancy. destruct (is_vacancy_species (SObj sp)); [by left|right]. done.
  Qed.
  Lemma offers_inv n l L : n + length l = active_site_count o ->
    rmapM (disordered_site act (Occupation (la_basis act) b) vars vs) (enum_from n l) = Ok L -> offers (offered act vs vars b) n l (keep_some L).
  Proof.
    revert n L. induction l as [|s l IH]; intros n L Hn H; cbn [enum_from rmapM] in H; [injection H as <-; constructor|].
    apply rbind_ok in H as (x & Hx & H). apply rbind_ok in H as (L' & HL & [= <-]). simpl in Hn.
    apply disordered_site_inv in Hx as [Ho Hc]; [|lia]. specialize (IH (S n) L' ltac:(lia) HL). rewrite keep_some_cons.
    destruct x as [[oc p]|]; [|by constructor]. specialize (Hc _ eq_refl). cbn [snd] in Hc. subst p. by constructor.
  Qed.
  Lemma build_inv dis : build_disordered_structure act (Occupation (la_basis act) b) vars vs = Ok dis ->
    offers (offered act vs vars b) 0 (la_template act) dis.
  Proof.
    unfold build_disordered_structure. intros H. apply rbind_ok in H as (L & HL & [= <-]). apply offers_inv; [|done].
    simpl. apply C.
  Qed.
  (** The structure can be built exactly when every variable site has a permitted atom. *)
  Lemma build_ok : (forall i, i ∈ vars -> (0 <= i < Z.of_nat (active_site_count o))%Z ->
      exists l s, allows act i l /\ permitted vs l s /\ ~ is_vacancy s) ->
    exists dis, build_disordered_structure act (Occupation (la_basis act) b) vars vs = Ok dis.
  Proof.
    intros H. unfold build_disordered_structure.
    destruct (rmapM_ok_exists (disordered_site act (Occupation (la_basis act) b) vars vs) (enumerate (la_template act))) as [L HL].
    - intros [i s] Hi. apply elem_of_enumerate in Hi. apply lookup_lt_Some in Hi. rewrite (cx_len _ _ _ C) in Hi.
      unfold disordered_site. cbn [fst snd]. destruct (bool_decide_reflect (Z.of_nat i ∈ vars)) as [Hv|Hv].
      + destruct (H _ Hv) as (l & t & Ha & Ht & Hn); [lia|]. apply elem_of_pick in Ht.
        rewrite (allowed_choices_ok C _ vs l Ha) by (intros E; rewrite E in Ht; by apply elem_of_nil in Ht). cbn [rbind].
        unfold partial_species_entry. cbn zeta. 
        assert (t ∈ List.filter (fun s => negb (is_vacancy_species (SObj s))) (pick vs l)) as Hf.
        { apply elem_of_list_In, filter_In. split; [by apply elem_of_list_In|]. unfold is_vacancy in Hn. by destruct (is_vacancy_species _). }
        destruct (List.filter _ _) eqn:E; [by apply elem_of_nil in Hf|]. cbn [rbind]. by eexists.
      + destruct (holds_total b i Hb Hbc Hi) as (s' & v & Hv' & Hh). unfold getitem. cbn [oc_data].
        rewrite (proj2 (py_get_nonneg b (Z.of_nat i) v ltac:(lia))) by (by rewrite Nat2Z.id). cbn [rbind].
        rewrite (species_at C Hdist b (Z.of_nat i) s' v Hh) by (by rewrite Nat2Z.id). cbn [rbind]. by eexists.
    - rewrite HL. cbn [rbind]. by eexists.
  Qed.

  Lemma filled_species n rest dis l : offers (offered act vs vars b) n rest dis -> filled dis l ->
    exists sps, length sps = length rest /\ l = atoms_at sps rest /\
      forall k sp, sps !! k = Some sp ->
        (Z.of_nat (n + k) ∈ vars -> exists l0, allows act (Z.of_nat (n + k)) l0 /\ permitted vs l0 sp) /\
        (Z.of_nat (n + k) ∉ vars -> holds act b (Z.of_nat (n + k)) sp).
  Proof.
    intros H. revert l. induction H as [i|i s rest oc dis HP _ IH|i s rest dis HP _ IH]; intros l Hl.
    - inversion Hl. by exists [].
    - assert (Hex : exists sp l', filled dis l' /\ l = (if is_vacancy_species (SObj sp) then l' else (sp, snd s) :: l') /\
        (Z.of_nat i ∈ vars -> exists l0, allows act (Z.of_nat i) l0 /\ permitted vs l0 sp) /\ (Z.of_nat i ∉ vars -> holds act b (Z.of_nat i) sp)).
      { destruct HP as [HP1 HP2]. destruct (decide (Z.of_nat i ∈ vars)) as [Hi|Hi].
        - destruct (HP1 Hi) as (l0 & choices & d & Ha & Hn & Hpm & Hd & Hdi & Hne & [= ->]).
          inversion Hl as [|? ? sp ? l' Hf Hl' Eo El|? ? ? l' Hf Hl' Eo El]; subst; cbn [fills] in Hf.
          + apply elem_of_list_fmap in Hf as ([sp' q] & -> & Hq). apply Hdi in Hq as (Hc & Hv & _). exists sp', l'. split; [done|].
            split; [unfold is_vacancy in Hv; cbn [fst]; by destruct (is_vacancy_species _)|]. split; [|done]. intros _. exists l0. split; [done|by apply Hpm].
          + destruct (room_left choices d Hn Hd) as (v & Hc & Hv); [|done|done|].
            { intros ->. destruct d as [|[s0 q] d]; [done|]. destruct (proj1 (Hdi s0 q)) as [H _]; [by left|]. by apply elem_of_nil in H. }
            exists v, l. split; [done|]. unfold is_vacancy in Hv. rewrite Hv. split; [done|]. split; [|done]. intros _. exists l0. split; [done|by apply Hpm].
        - destruct (HP2 Hi) as (sp & Hh & [[_ ?]|[Hv [= ->]]]); [done|].
          inversion Hl as [|? ? sp' ? l' Hf Hl' Eo El|? ? ? l' Hf Hl' Eo El]; subst; cbn [fills] in Hf; [|done]. subst sp'.
          exists sp, l'. split; [done|]. split; [unfold is_vacancy in Hv; by destruct (is_vacancy_species _)|]. done. }
      destruct Hex as (sp & l' & Hl' & -> & H1 & H2). destruct (IH l' Hl') as (sps & Hlen & -> & Hk). exists (sp :: sps).
      split; [simpl; lia|]. split; [unfold atoms_at; cbn [combine map List.filter fst]; by destruct (is_vacancy_species (SObj sp))|].
      intros [|k] sp' Hsp; simpl in Hsp; [injection Hsp as <-; rewrite Nat.add_0_r; done|]. replace (i + S k) with (S i + k) by lia. by apply Hk.
    - destruct HP as [HP1 HP2]. destruct (decide (Z.of_nat i ∈ vars)) as [Hi|Hi].
      { by destruct (HP1 Hi) as (? & ? & ? & _ & _ & _ & _ & _ & _ & ?). }
      destruct (HP2 Hi) as (sp & Hh & [[Hv _]|[_ ?]]); [|done]. destruct (IH l Hl) as (sps & Hlen & -> & Hk). exists (sp :: sps).
      split; [simpl; lia|]. split; [unfold atoms_at; cbn [combine map List.filter fst]; unfold is_vacancy in Hv; by rewrite Hv|].
      intros [|k] sp' Hsp; simpl in Hsp; [injection Hsp as <-; rewrite Nat.add_0_r; split; [done|by intros _]|].
      replace (i + S k) with (S i + k) by lia. by apply Hk.
  Qed.

  (** An ordering reads as the base with permitted species at the variable sites. *)
  Lemma ordering_reads dis s tol : distinct_sites (la_template la) -> (0 <= tol)%Q ->
    (forall i, i ∈ vars -> (0 <= i < Z.of_nat (active_site_count o))%Z) ->
    offers (offered act vs vars b) 0 (la_template act) dis -> ordering dis s ->
    exists data cs, get_occ_from_structure act s tol (1, 1, 1) None = Ok (Occupation (la_basis act) data) /\
      length data = active_site_count o /\ all_codes act data /\ assignment act vs vars cs /\ Forall2 (holds act data) vars cs /\
      forall j, Z.of_nat j ∉ vars -> data !! j = b !! j.
  Proof.
    intros Hd Ht Hr Hof (l & Hl & Hs). destruct (filled_species _ _ _ _ Hof Hl) as (sps & Hlen & -> & Hk). rewrite (cx_len _ _ _ C) in Hlen.
    destruct (choose_list (fun k sp v => exists l0 i, allows act (Z.of_nat k) l0 /\ l0 !! i = Some sp /\ v = code (la_basis act) i
        /\ (Z.of_nat k ∉ vars -> b !! k = Some v)) sps 0) as (data & Hdl & Hdk).
    { intros k sp Hsp. destruct (Hk k sp Hsp) as [H1 H2]. simpl in *. destruct (decide (Z.of_nat k ∈ vars)) as [Hv|Hv].
      - destruct (H1 Hv) as (l0 & Ha & Hp & _). apply elem_of_list_lookup in Hp as (i & Hi). exists (code (la_basis act) i), l0, i. done.
      - destruct (H2 Hv) as (l0 & i & Ha & Hi & Hbk). rewrite Nat2Z.id in Hbk. by exists (code (la_basis act) i), l0, i. }
    assert (Hh : forall k sp, sps !! k = Some sp -> holds act data (Z.of_nat k) sp).
    { intros k sp Hsp. destruct (lookup_lt_is_Some_2 data k) as [v Hv]; [rewrite Hdl; by eapply lookup_lt_Some|].
      destruct (Hdk k sp v Hsp Hv) as (l0 & i & Ha & Hi & -> & _). simpl in Ha. exists l0, i. rewrite Nat2Z.id. done. }
    destruct (choose_Forall2 (fun i s => (exists l, allows act i l /\ permitted vs l s) /\ holds act data i s) vars) as [cs Hcs].
    { intros i Hi. specialize (Hr i Hi). destruct (lookup_lt_is_Some_2 sps (Z.to_nat i)) as [sp Hsp]; [lia|]. exists sp.
      destruct (Hk _ sp Hsp) as [H1 _]. specialize (Hh _ sp Hsp). simpl in H1. rewrite Z2Nat.id in H1, Hh by lia. split; [by apply H1|done]. }
    exists data, cs. split; [|split; [lia|split; [|split; [|split]]]].
    - eapply (atoms_read C Hdist (fun _ => Err ValueError) data sps tol s Hd Ht); [lia|exact Hh|lia|done].
    - intros j v Hj. destruct (lookup_lt_is_Some_2 sps j) as [sp Hsp]; [rewrite <- Hdl; by eapply lookup_lt_Some|]. exists sp. by apply Hh.
    - eapply Forall2_impl; [exact Hcs|]. by intros i t [? _].
    - eapply Forall2_impl; [exact Hcs|]. by intros i t [_ ?].
    - intros j Hj. destruct (data !! j) as [v|] eqn:Ev.
      + destruct (lookup_lt_is_Some_2 sps j) as [sp Hsp]; [rewrite <- Hdl; by eapply lookup_lt_Some|].
        destruct (Hdk j sp v Hsp Ev) as (_ & _ & _ & _ & _ & Hbj). simpl in Hbj. symmetry. by apply Hbj.
      + symmetry. apply lookup_ge_None in Ev. apply lookup_ge_None. lia.
  Qed.

  (** Every choice of permitted species is among the ways to fill the offer. *)
  Lemma species_filled n rest dis : offers (offered act vs vars b) n rest dis ->
    forall sps, length sps = length rest ->
    (forall k sp, sps !! k = Some sp ->
        (Z.of_nat (n + k) ∈ vars -> exists l0, allows act (Z.of_nat (n + k)) l0 /\ permitted vs l0 sp) /\
        (Z.of_nat (n + k) ∉ vars -> holds act b (Z.of_nat (n + k)) sp)) ->
    filled dis (atoms_at sps rest).
  Proof.
    induction 1 as [i|i s rest oc dis HP _ IH|i s rest dis HP _ IH]; intros sps Hlen Hk.
    - destruct sps; [constructor|done].
    - destruct sps as [|sp sps]; [done|]. assert (Hf : filled dis (atoms_at sps rest)).
      { apply IH; [simpl in Hlen; lia|]. intros k sp' Hsp. replace (S i + k) with (i + S k) by lia. by apply Hk. }
      specialize (Hk 0 sp eq_refl) as [H1 H2]. rewrite Nat.add_0_r in H1, H2.
      assert (Hfill : fills oc (if is_vacancy_species (SObj sp) then None else Some sp)).
      { destruct HP as [HP1 HP2]. destruct (decide (Z.of_nat i ∈ vars)) as [Hi|Hi].
        - destruct (HP1 Hi) as (l0 & choices & d & Ha & Hn & Hpm & Hd & Hdi & Hne & [= ->]).
          destruct (H1 Hi) as (l1 & Ha1 & Hp). pose proof (allows_fun _ _ _ Ha Ha1) as <-. apply Hpm in Hp.
          destruct (is_vacancy_species (SObj sp)) eqn:Ev; cbn [fills]; [exact (room_made choices d sp Hn Hd Hdi Hp Ev)|].
          apply elem_of_list_fmap. exists (sp, (1 / inject_Z (Z.of_nat (length choices)))%Q). split; [done|]. apply Hdi.
          split; [done|]. split; [|done]. unfold is_vacancy. by rewrite Ev.
        - destruct (HP2 Hi) as (sp' & Hh & [[_ ?]|[Hv [= ->]]]); [done|]. pose proof (holds_fun C Hdist _ _ _ _ Hh (H2 Hi)) as ->.
          unfold is_vacancy in Hv. by destruct (is_vacancy_species (SObj sp)). }
      unfold atoms_at. cbn [combine map List.filter fst]. fold (atoms_at sps rest).
      destruct (is_vacancy_species (SObj sp)); by constructor.
    - destruct sps as [|sp sps]; [done|]. assert (Hf : filled dis (atoms_at sps rest)).
      { apply IH; [simpl in Hlen; lia|]. intros k sp' Hsp. replace (S i + k) with (i + S k) by lia. by apply Hk. }
      specialize (Hk 0 sp eq_refl) as [H1 H2]. rewrite Nat.add_0_r in H1, H2.
      destruct HP as [HP1 HP2]. destruct (decide (Z.of_nat i ∈ vars)) as [Hi|Hi].
      { by destruct (HP1 Hi) as (? & ? & ? & _ & _ & _ & _ & _ & _ & ?). }
      destruct (HP2 Hi) as (sp' & Hh & [[Hv _]|[_ ?]]); [|done]. pose proof (holds_fun C Hdist _ _ _ _ Hh (H2 Hi)) as ->.
      unfold atoms_at. cbn [combine map List.filter fst]. unfold is_vacancy in Hv. by rewrite Hv.
  Qed.

  (** A variable site that permits only the vacancy. *)
  Lemma build_fails i l : i ∈ vars -> (forall i, i ∈ vars -> exists l, allows act i l /\ pick vs l <> []) ->
    allows act i l -> (forall s, permitted vs l s -> is_vacancy s) ->
    build_disordered_structure act (Occupation (la_basis act) b) vars vs = Err ValueError.
  Proof.
    intros Hi Hall Ha Hv. unfold build_disordered_structure.
    enough (rmapM (disordered_site act (Occupation (la_basis act) b) vars vs) (enumerate (la_template act)) = Err ValueError) as -> by done.
    assert (Hcase : forall x, x ∈ enumerate (la_template act) ->
      (exists y, disordered_site act (Occupation (la_basis act) b) vars vs x = Ok y) \/ disordered_site act (Occupation (la_basis act) b) vars vs x = Err ValueError).
    { intros [j s] Hj. apply elem_of_enumerate in Hj. apply lookup_lt_Some in Hj. rewrite (cx_len _ _ _ C) in Hj.
      unfold disordered_site. cbn [fst snd]. destruct (bool_decide_reflect (Z.of_nat j ∈ vars)) as [Hjv|Hjv].
      - destruct (Hall _ Hjv) as (l' & Ha' & Hne). rewrite (allowed_choices_ok C _ vs l' Ha' Hne). cbn [rbind].
        unfold partial_species_entry. cbn zeta. destruct (List.filter _ _); [by right|left; by eexists].
      - left. destruct (lookup_lt_is_Some_2 b j) as [v Hbv]; [lia|]. destruct (Hbc j v Hbv) as (sp & Hh).
        unfold getitem. cbn [oc_data]. rewrite (proj2 (py_get_nonneg b (Z.of_nat j) v ltac:(lia))) by (by rewrite Nat2Z.id). cbn [rbind].
        rewrite (species_at C Hdist b _ sp v Hh) by (by rewrite Nat2Z.id). cbn [rbind]. destruct (is_vacancy_species _); by eexists. }
    assert (exists x, x ∈ enumerate (la_template act) /\ disordered_site act (Occupation (la_basis act) b) vars vs x = Err ValueError) as (x & Hx & Ex).
    { pose proof (allows_range C _ _ Ha) as Hr. destruct (lookup_lt_is_Some_2 (la_template act) (Z.to_nat i)) as [s Hs]; [rewrite (cx_len _ _ _ C); lia|].
      exists (Z.to_nat i, s). split; [by apply elem_of_enumerate|]. unfold disordered_site. cbn [fst snd]. rewrite Z2Nat.id by lia.
      rewrite bool_decide_eq_true_2 by done. destruct (Hall _ Hi) as (l' & Ha' & Hne). pose proof (allows_fun _ _ _ Ha Ha') as <-.
      rewrite (allowed_choices_ok C _ vs l Ha' Hne). cbn [rbind]. unfold partial_species_entry. cbn zeta.
      destruct (List.filter _ _) as [|t r] eqn:E; [done|]. exfalso. assert (In t (t :: r)) as Ht by (by left). rewrite <- E in Ht.
      apply filter_In in Ht as [Ht Hn]. apply elem_of_list_In, elem_of_pick, Hv in Ht. unfold is_vacancy in Ht. by rewrite Ht in Hn. }
    clear Hi. induction (enumerate (la_template act)) as [|y L IH]; [by apply elem_of_nil in Hx|]. cbn [rmapM].
    destruct (disordered_site act (Occupation (la_basis act) b) vars vs y) as [z|err] eqn:Ey; cbn [rbind].
    - rewrite IH; [done|intros; apply Hcase; by right|]. apply elem_of_cons in Hx as [->|Hx]; [congruence|done].
    - destruct (Hcase y ltac:(by left)) as [[z Hz]|Hz]; congruence.
  Qed.
End Offer.

Section Entry.
  Context {la act : lattice} {o : order} (C : context la act o) (Hdist : tells_apart la).

  Lemma by_site_inv occ vars m : (forall i, i ∈ vars -> (0 <= i)%Z) -> species_by_site act occ vars = Ok m ->
    oc_basis occ = la_basis act ->
    exists cs, Forall2 (holds act (oc_data occ)) vars cs /\ m = dof_pairs (combine vars (map (fun s => species_label (SObj s)) cs)).
  Proof.
    intros Hv H Hb. unfold species_by_site in H. apply rbind_ok in H as (l & Hl & [= <-]).
    enough (exists cs, Forall2 (holds act (oc_data occ)) vars cs /\ l = combine vars (map (fun s => species_label (SObj s)) cs)) as (cs & H1 & ->) by eauto.
    revert l Hl. induction vars as [|i vars IH]; intros l Hl; cbn [rmapM] in Hl; [injection Hl as <-; by exists []|].
    apply rbind_ok in Hl as ([i' x] & Hx & Hl). apply rbind_ok in Hl as (l' & Hl & [= <-]).
    apply rbind_ok in Hx as (v & Hg & Hx). apply rbind_ok in Hx as (sp & Hsp & Hx).
    destruct (IH ltac:(intros; apply Hv; by right) l' Hl) as (cs & H1 & ->). exists (sp :: cs).
    assert (i' = i /\ x = species_label (SObj sp)) as [-> ->] by (split; congruence). split; [|done]. constructor; [|done].
    pose proof (Hv i ltac:(by left)) as Hi. unfold getitem in Hg. apply py_get_nonneg in Hg; [|done].
    unfold species_for_occupation_value in Hsp. apply rbind_ok in Hsp as (a & Ha & Hsp). apply py_get_nonneg in Ha; [|done].
    apply species_for_value_inv in Hsp as (l0 & k & -> & Hk & -> & _). by exists l0, k.
  Qed.
  Lemma by_site_ok data vars cs : Forall2 (holds act data) vars cs ->
    species_by_site act (Occupation (la_basis act) data) vars = Ok (dof_pairs (combine vars (map (fun s => species_label (SObj s)) cs))).
  Proof.
    intros H. unfold species_by_site.
    enough (rmapM (fun i => let* v := getitem (Occupation (la_basis act) data) i in
      let* sp := species_for_occupation_value act i v in Ok (i, species_label (SObj sp))) vars = Ok (combine vars (map (fun s => species_label (SObj s)) cs))) as -> by done.
    induction H as [|i s vars cs Hh _ IH]; [done|]. cbn [rmapM combine map]. rewrite IH.
    destruct Hh as (l & k & Ha & Hk & Hd). unfold getitem at 1. cbn [oc_data].
    rewrite (proj2 (py_get_nonneg data i (code (la_basis act) k) (proj1 Ha)) Hd). cbn [rbind].
    rewrite (species_at C Hdist data i s _ (ex_intro _ l (ex_intro _ k (conj Ha (conj Hk Hd)))) Hd). done.
  Qed.

  Lemma one_entry_inv local vars counts tol e x : NoDup vars -> proper_counts counts ->
    (forall i, i ∈ vars -> (0 <= i)%Z) -> (forall i, i ∈ local -> (0 <= i)%Z) ->
    (forall c, structure_of e c -> positive_shape (cr_shape c)) ->
    one_entry la act o local vars (canonical_counts counts) tol e = Ok x ->
    match x with Some r => entry_result act tol local vars counts e r | None => entry_passed_over act tol vars counts e end.
  Proof.
    intros Hnd Hp Hv Hloc Hsh H. unfold one_entry in H. apply rbind_ok in H as ([c m] & He & H).
    apply rbind_ok in H as (occ & Ho & H). apply rbind_ok in H as (bs & Hbs & H).
    pose proof (proj1 (entry_structure_inv _ _ _ He)) as Hst.
    pose proof (reads_full _ _ _ _ _ (cx_awf _ _ _ C) (Hsh c Hst) Ho) as (_ & Hb & _).
    apply by_site_inv in Hbs as (cs & Hcs & ->); [|done|done].
    pose proof (counts_spec vars cs counts Hnd (Forall2_length _ _ _ Hcs) Hp) as Hm.
    destruct (matches_counts _ _) eqn:Em; cbn [negb] in H.
    - apply rbind_ok in H as (loc & Hl & H). apply rbind_ok in H as (s & Hs & [= <-]).
      exists cs. cbn [fst snd en_full en_local_sites en_variable_sites en_species en_local]. split; [by exists c|]. split; [by apply Hm|].
      do 2 (split; [done|]). split; [|split].
      + rewrite dof_pairs_NoDup by (by rewrite combine_fst; [|rewrite map_length; eapply Forall2_length]).
        apply Forall2_same_length_lookup_2; [by eapply Forall2_length|]. intros k i sp Hi Hsp.
        apply dget_in; [unfold dkeys; by rewrite combine_fst; [|rewrite map_length; eapply Forall2_length]|].
        change (label sp) with (species_label (SObj sp)). apply elem_of_list_lookup. exists k. apply combine_lookup. split; [done|].
        change (map ?f ?l) with (f <$> l). by rewrite list_lookup_fmap, Hsp.
      + apply Forall2_same_length_lookup_2; [symmetry; by eapply rmapM_length|]. intros k i v Hi Hv'.
        destruct (rmapM_lookup _ _ _ _ _ Hl Hv') as (i' & Hi' & Hg). assert (i' = i) as -> by congruence. unfold getitem in Hg.
        apply py_get_nonneg in Hg; [done|]. apply Hloc. by eapply elem_of_list_lookup_2.
      + intros Hpe. by eapply metadata_lemma.
    - injection H as <-. exists occ, cs. split; [by exists c|]. intros Hmt. apply Hm in Hmt. congruence.
  Qed.

  (** The result of an entry that reads as a choice is the result of that choice. *)
  Lemma one_entry_choice local vars counts tol e b c data cs : NoDup vars ->
    length b = active_site_count o -> all_codes act b ->
    structure_of e c -> get_occ_from_structure act (cr_sites c) tol (cr_shape c) None = Ok (Occupation (la_basis act) data) ->
    length data = active_site_count o -> Forall2 (fun i s => exists l, allows act i l /\ s ∈ l) vars cs -> Forall2 (holds act data) vars cs ->
    (forall j, Z.of_nat j ∉ vars -> data !! j = b !! j) ->
    exists m, one_entry la act o local vars counts tol e
      = (let* y := one_choice la act o (Occupation (la_basis act) b) local vars counts cs in Ok (option_map (fun r => (r, m)) y)).
  Proof.
    intros Hnd Hb Hbc Hst Ho Hdl HF Hh Hout. destruct (structure_of_ok _ _ Hst) as [m He].
    exists (dof_pairs (("source"%string, TOther (JStr "transformation")) :: m)). unfold one_entry. rewrite He. cbn [rbind]. rewrite Ho. cbn [rbind].
    rewrite (by_site_ok data vars cs Hh). cbn [rbind]. unfold one_choice. cbn zeta.
    destruct (negb (matches_counts _ _)); [done|].
    destruct (assign_all C Hdist vars cs b Hnd Hb Hbc HF) as (d & -> & Hd & _ & Hdh & Hdo). cbn [rbind].
    assert (d = data) as ->.
    { apply list_eq. intros j. destruct (decide (Z.of_nat j ∈ vars)) as [Hj|Hj]; [|by rewrite Hdo, Hout].
      apply elem_of_list_lookup in Hj as (k & Hk). destruct (Forall2_lookup_l _ _ _ _ _ Hh Hk) as (s & Hs & (l & n & Ha & Hn & Hl)).
      destruct (Hdh k _ s Hk Hs) as (l' & n' & Ha' & Hn' & Hl'). rewrite Nat2Z.id in *.
      pose proof (allows_fun _ _ _ Ha Ha') as <-. rewrite Hl, Hl'. do 2 f_equal.
      destruct (act_distinguishable C Hdist _ _ Ha) as (_ & _ & Hu). eapply Hu; [exact Hn'|exact Hn|apply equivalent_refl]. }
    destruct (rmapM _ local); cbn [rbind]; [|done]. by destruct (structure_from_active _ _ _ _).
  Qed.
End Entry.

Section Main.
  Variable parse : string -> result species.
  Variable fp : fp_payload -> string.
  Variable transformation : list dsite -> ranked -> result transformed.
  Context (template : list site) (mapping : list (spval * allowedval)) (bt : string) (la act : lattice) (o : order).
  Context (M : made parse template mapping bt la) (Hctx : active_context parse fp la = Ok (act, o)) (Hdist : tells_apart la).

  Lemma request_ok r max : request_is r max (ranked_request r max).
  Proof using. by destruct r as [[]|]. Qed.

  (** What happens before the transformation. *)
  Lemma prelude local counts vs given base max tol :
    proper_counts counts -> sites_in_range act local -> no_repeats local given ->
    forall X (f : lattice -> order -> occupation -> list Z -> option (dict string Z) -> result X) out,
    (if (max <? 1)%Z then Err ValueError else
     let* (act, o) := active_context parse fp la in
     let* b := base_occupation act base tol in
     let* vars := resolve_variable_sites act local given vs in
     let exact := canonical_counts counts in
     if match exact with Some c => negb (zsum (dvalues c) =? Z.of_nat (length vars))%Z | None => false end then Err ValueError else
     f act o b vars exact) = Ok out ->
    exists b vars, (1 <= max)%Z /\ base_occupation act base tol = Ok (Occupation (la_basis act) b) /\
      resolve_variable_sites act local given vs = Ok vars /\
      variable_sites_are act vs local given vars /\ base_values act base tol b /\ length b = active_site_count o /\ all_codes act b /\
      (forall req, counts = Some req -> total req = Z.of_nat (length vars)) /\ NoDup vars /\
      (forall i, i ∈ vars -> (0 <= i < Z.of_nat (active_site_count o))%Z) /\
      f act o (Occupation (la_basis act) b) vars (canonical_counts counts) = Ok out.
  Proof using M Hctx.
    intros Hp Hloc Hrep X f out H. destruct (context_of _ _ _ _ _ _ _ _ M Hctx) as [C _].
    destruct (Z.ltb_spec max 1); [done|]. rewrite Hctx in H. cbn [rbind] in H.
    apply rbind_ok in H as (b & Hb & H). apply rbind_ok in H as (vars & Hv & H). cbn zeta in H.
    destruct (match canonical_counts counts with Some c => _ | None => _ end) eqn:Ec; [done|].
    destruct (variables_inv C _ _ _ _ Hv) as [Hvs Hvl].
    destruct (base_codes C base tol b Hb) as (Eb & Hbl & Hbc & Hbv).
    exists (oc_data b), vars. rewrite <- Eb. do 7 (split; [done || lia|]). split.
    { intros req ->. simpl in Ec. rewrite zsum_total in Ec by done. apply negb_false_iff, Z.eqb_eq in Ec. done. }
    split; [by eapply vars_NoDup|]. split; [|done]. intros i Hi. destruct (Hvl i Hi) as (_ & l & Ha & _). by eapply allows_range.
  Qed.

  Lemma transformed_inv local counts vs given base r max tol rs :
    proper_counts counts -> sites_in_range act local -> no_repeats local given ->
    (forall dis q out es e c, transformation dis q = Ok out -> entries_of out es -> e ∈ es -> structure_of e c -> positive_shape (cr_shape c)) ->
    enumerate_transformed parse fp transformation la local counts vs given base r max tol = Ok rs ->
    exists vars b dis q out es, (1 <= max)%Z /\ variable_sites_are act vs local given vars /\ base_values act base tol b /\
      (forall req, counts = Some req -> total req = Z.of_nat (length vars)) /\
      offers (offered act vs vars b) 0 (la_template act) dis /\ request_is r max q /\
      transformation dis q = Ok out /\ entries_of out es /\
      taken (entry_passed_over act tol vars counts) (entry_result act tol local vars counts) (Z.to_nat max) es rs.
  Proof using M Hctx Hdist.
    intros Hp Hloc Hrep Hsh H. destruct (context_of _ _ _ _ _ _ _ _ M Hctx) as [C _].
    unfold enumerate_transformed in H.
    apply (prelude local counts vs given base max tol Hp Hloc Hrep _ (fun act o b vars exact =>
      let* d := build_disordered_structure act b vars vs in
      let* t := transformation d (ranked_request r max) in
      let* es := entries t in collect (one_entry la act o local vars exact tol) (Z.to_nat max) es)) in H.
    destruct H as (b & vars & Hm & Hb & Hv & Hvs & Hbv & Hbl & Hbc & Ht & Hnd & Hr & H).
    apply rbind_ok in H as (dis & Hdis & H). apply rbind_ok in H as (out & Hout & H). apply rbind_ok in H as (es & Hes & H).
    apply (build_inv C Hdist vs vars b Hbl Hbc) in Hdis. apply entries_inv in Hes.
    exists vars, b, dis, (ranked_request r max), out, es. do 5 (split; [done|]). split; [apply request_ok|]. do 2 (split; [done|]).
    eapply collect_taken; [| | |exact H]; [| |lia].
    - intros e He Hx. eapply (one_entry_inv C local vars counts tol e None); [done|done|intros i Hi; by apply Hr|intros i Hi; by apply Hloc| |exact Hx].
      intros c Hc. by eapply Hsh.
    - intros e y He Hx. eapply (one_entry_inv C local vars counts tol e (Some y)); [done|done|intros i Hi; by apply Hr|intros i Hi; by apply Hloc| |exact Hx].
      intros c Hc. by eapply Hsh.
  Qed.

  (** The members of a complete exhaustive enumeration. *)
  Lemma exhaustive_members local counts vs given base big tol full :
    proper_counts counts -> sites_in_range act local -> no_repeats local given ->
    enumerate_local_environments parse fp la local counts vs given base big tol = Ok full ->
    exists b vars, base_occupation act base tol = Ok (Occupation (la_basis act) b) /\
      resolve_variable_sites act local given vs = Ok vars /\
      match canonical_counts counts with Some c => negb (zsum (dvalues c) =? Z.of_nat (length vars))%Z | None => false end = false /\
      variable_sites_are act vs local given vars /\ base_values act base tol b /\ length b = active_site_count o /\ all_codes act b /\
      NoDup vars /\ (forall i, i ∈ vars -> (0 <= i < Z.of_nat (active_site_count o))%Z) /\
      (forall r, r ∈ full -> exists cs, assignment act vs vars cs /\ one_choice la act o (Occupation (la_basis act) b) local vars (canonical_counts counts) cs = Ok (Some r)) /\
      ((Z.of_nat (length full) < big)%Z -> forall cs r, assignment act vs vars cs ->
         one_choice la act o (Occupation (la_basis act) b) local vars (canonical_counts counts) cs = Ok (Some r) -> r ∈ full).
  Proof using M Hctx Hdist.
    intros Hp Hloc Hrep H. destruct (context_of _ _ _ _ _ _ _ _ M Hctx) as [C _].
    unfold enumerate_local_environments in H. destruct (Z.ltb_spec big 1); [done|]. rewrite Hctx in H. cbn [rbind] in H.
    apply rbind_ok in H as (b & Hb & H). apply rbind_ok in H as (vars & Hv & H). cbn zeta in H.
    destruct (match canonical_counts counts with Some c => _ | None => _ end) eqn:Ec; [done|].
    apply rbind_ok in H as (choices & Hch & H).
    destruct (variables_inv C _ _ _ _ Hv) as [Hvs Hvl].
    destruct (base_codes C base tol b Hb) as (Eb & Hbl & Hbc & Hbv). rewrite Eb in H, Hb.
    destruct (in_choices C Hdist vs vars choices Hch) as [Hin _].
    apply collect_spec in H as (pre & rest & os & Epr & Hos & -> & Hle & Hrest); [|lia].
    exists (oc_data b), vars. do 7 (split; [done|]). split; [by eapply vars_NoDup|]. split.
    { intros i Hi. destruct (Hvl i Hi) as (_ & l & Ha & _). by eapply allows_range. }
    split.
    - intros r Hr. apply elem_of_keep_some, elem_of_list_lookup in Hr as (k & Hk). destruct (rmapM_lookup _ _ _ _ _ Hos Hk) as (cs & Hcs & Hc).
      exists cs. split; [|done]. apply Hin. rewrite Epr. apply elem_of_app. left. by eapply elem_of_list_lookup_2.
    - intros Hlt cs r Hcs Hc. rewrite Hrest in Epr by lia. rewrite app_nil_r in Epr. subst pre. apply Hin in Hcs. apply elem_of_keep_some.
      apply elem_of_list_lookup in Hcs as (k & Hk). destruct (lookup_lt_is_Some_2 os k) as [x Hx].
      { rewrite (rmapM_length _ _ _ Hos). by eapply lookup_lt_Some. }
      destruct (rmapM_lookup _ _ _ _ _ Hos Hx) as (cs' & Hcs' & Hc'). assert (cs' = cs) as -> by congruence.
      apply elem_of_list_lookup. exists k. congruence.
  Qed.

  Lemma orderings_lemma local counts vs given base r max big tol full :
    proper_counts counts -> sites_in_range act local -> no_repeats local given -> distinct_sites template -> (0 <= tol)%Q -> (1 <= max)%Z ->
    enumerate_local_environments parse fp la local counts vs given base big tol = Ok full -> (Z.of_nat (length full) < big)%Z ->
    (forall vars i, variable_sites_are act vs local given vars -> i ∈ vars -> exists l s, allows act i l /\ permitted vs l s /\ ~ is_vacancy s) ->
    (forall dis q, asked act vs local given base tol r max dis q ->
       exists out es, transformation dis q = Ok out /\ entries_of out es /\ answers_orderings dis es) ->
    exists rs, enumerate_transformed parse fp transformation la local counts vs given base r max tol = Ok rs /\
      (forall x, x ∈ rs -> fst x ∈ full) /\
      ((Z.of_nat (length rs) < max)%Z ->
       (forall dis q out es, asked act vs local given base tol r max dis q -> transformation dis q = Ok out -> entries_of out es -> answers_all dis es) ->
       forall x, x ∈ full -> exists m, (x, m) ∈ rs).
  Proof using M Hctx Hdist.
    intros Hp Hloc Hrep Hd Htol Hm H Hbig Hatom Htr. destruct (context_of _ _ _ _ _ _ _ _ M Hctx) as [C Et]. rewrite <- Et in Hd.
    destruct (exhaustive_members _ _ _ _ _ _ _ _ Hp Hloc Hrep H) as (b & vars & Hb & Hv & Ec & Hvs & Hbv & Hbl & Hbc & Hnd & Hr & Hmem & Hall).
    specialize (Hall Hbig).
    unfold enumerate_transformed. destruct (Z.ltb_spec max 1); [lia|]. rewrite Hctx. cbn [rbind]. rewrite Hb. cbn [rbind]. rewrite Hv. cbn [rbind].
    cbn zeta. rewrite Ec.
    destruct (build_ok C Hdist vs vars b Hbl Hbc) as [dis Hdis]; [intros i Hi _; by eapply Hatom|].
    rewrite Hdis. cbn [rbind]. apply (build_inv C Hdist vs vars b Hbl Hbc) in Hdis.
    assert (Hask : asked act vs local given base tol r max dis (ranked_request r max)).
    { exists vars, b. do 3 (split; [done|]). apply request_ok. }
    destruct (Htr _ _ Hask) as (out & es & Hout & Hes & Hord). rewrite Hout. cbn [rbind].
    rewrite (proj2 (entries_inv _ _) Hes). cbn [rbind].
    assert (Hloc' : forall i, i ∈ local -> (0 <= i < Z.of_nat (active_site_count o))%Z).
    { intros i Hi. rewrite <- (cx_len _ _ _ C). by apply Hloc. }
    assert (Hone : forall e, e ∈ es -> exists cs m, assignment act vs vars cs /\ one_entry la act o local vars (canonical_counts counts) tol e
      = (let* y := one_choice la act o (Occupation (la_basis act) b) local vars (canonical_counts counts) cs in Ok (option_map (fun r => (r, m)) y))).
    { intros e He. destruct (Hord e He) as (c & Hc & Hs & Ho).
      destruct (ordering_reads C Hdist vs vars b Hbl dis (cr_sites c) tol Hd Htol Hr Hdis Ho) as (data & cs & Hread & Hdl & Hdc & Has & Hh & Hout').
      rewrite <- Hs in Hread.
      destruct (one_entry_choice C Hdist local vars (canonical_counts counts) tol e b c data cs) as [m Hme]; try done; [by eapply assignment_weak|].
      by exists cs, m. }
    destruct (collect_success (one_entry la act o local vars (canonical_counts counts) tol) es (Z.to_nat max)) as [rs Hrs].
    { intros e He. destruct (Hone e He) as (cs & m & Has & ->).
      destruct (one_choice_ok C Hdist b local vars counts cs Hnd Hp Hloc' Hbl Hbc (assignment_weak _ _ _ Has)) as (x & -> & _). by eexists. }
    exists rs. split; [done|]. apply collect_spec in Hrs as (pre & rest & os & Epr & Hos & -> & Hle & Hrest); [|lia]. split.
    - intros x Hx. apply elem_of_keep_some, elem_of_list_lookup in Hx as (k & Hk). destruct (rmapM_lookup _ _ _ _ _ Hos Hk) as (e & He & Hex).
      destruct (Hone e) as (cs & m & Has & Hme); [rewrite Epr; apply elem_of_app; left; by eapply elem_of_list_lookup_2|].
      rewrite Hme in Hex. apply rbind_ok in Hex as ([y|] & Hy & Hex); [|done]. injection Hex as <-. cbn [fst]. by eapply Hall.
    - intros Hlt Hcomp x Hx. rewrite Hrest in Epr by lia. rewrite app_nil_r in Epr. subst pre.
      destruct (Hmem x Hx) as (cs & Has & Hc).
      destruct (one_choice_ok C Hdist b local vars counts cs Hnd Hp Hloc' Hbl Hbc (assignment_weak _ _ _ Has)) as (x' & Hx' & Hok).
      rewrite Hc in Hx'. injection Hx' as <-. destruct Hok as [_ ((_ & _ & Hsh & Hso) & Hxc & Hxl & _)].
      set (data := oc_data (en_full x)) in *.
      destruct (choose_Forall2 (fun (v : nat * Z) sp => holds act data (Z.of_nat (fst v)) sp) (enumerate data)) as [sps Hsps].
      { intros [k v] Hk. apply elem_of_enumerate in Hk. by apply (Hxc k v). }
      assert (Hlen : length sps = length data). { rewrite <- (Forall2_length _ _ _ Hsps). unfold enumerate. by rewrite enum_from_length. }
      assert (Hsp : forall k sp, sps !! k = Some sp -> holds act data (Z.of_nat k) sp).
      { intros k sp Hk. destruct (Forall2_lookup_r _ _ _ _ _ Hsps Hk) as ([j v] & Hj & Hh). rewrite enumerate_lookup in Hj. destruct (data !! k); [|done]. simpl in Hj. assert (j = k) as -> by congruence. done. }
      assert (Hfill : filled dis (atoms_at sps (la_template act))).
      { eapply (species_filled C Hdist vs vars b Hbl); [exact Hdis|rewrite Hlen, Hxl, (cx_len _ _ _ C); done|]. intros k sp Hk. simpl. specialize (Hsp k sp Hk). split.
        - intros Hkv. apply elem_of_list_lookup in Hkv as (n & Hn). destruct (Forall2_lookup_l _ _ _ _ _ Has Hn) as (t & Hcst & l0 & Hal & Hpt).
          destruct (Hsh n _ t Hn Hcst) as [Hht _]. rewrite (holds_fun C Hdist _ _ _ _ Hsp Hht). by exists l0.
        - intros Hkv. destruct Hsp as (l0 & n & Hal & Hn & Hdn). exists l0, n. split; [done|]. split; [done|]. rewrite Nat2Z.id in *. by rewrite <- Hso. }
      destruct (Hcomp dis _ out es Hask Hout Hes _ Hfill) as (e & c & He & Hce & Hs1 & Hcr).
      pose proof (atoms_read C Hdist (fun _ => Err ValueError) data sps tol (cr_sites c) Hd Htol Hxl Hsp Hlen Hcr) as Hread. rewrite <- Hs1 in Hread.
      assert (Hh : Forall2 (holds act data) vars cs).
      { apply Forall2_same_length_lookup_2; [by eapply Forall2_length|]. intros n i t Hi Ht. by destruct (Hsh n i t Hi Ht). }
      destruct (one_entry_choice C Hdist local vars (canonical_counts counts) tol e b c data cs) as [m Hme]; try done; [by eapply assignment_weak|].
      rewrite Hc in Hme. cbn [rbind option_map] in Hme. exists m. apply elem_of_keep_some.
      apply elem_of_list_lookup in He as (k & Hk). destruct (lookup_lt_is_Some_2 os k) as [y Hy]; [rewrite (rmapM_length _ _ _ Hos); by eapply lookup_lt_Some|].
      destruct (rmapM_lookup _ _ _ _ _ Hos Hy) as (e' & He' & Hf). assert (e' = e) as -> by congruence. apply elem_of_list_lookup. exists k. congruence.
  Qed.

  Lemma vacancy_only_lemma local counts vs given base r max big tol full vars i l :
    proper_counts counts -> sites_in_range act local -> no_repeats local given -> (1 <= max)%Z ->
    enumerate_local_environments parse fp la local counts vs given base big tol = Ok full ->
    variable_sites_are act vs local given vars -> i ∈ vars -> allows act i l -> (forall s, permitted vs l s -> is_vacancy s) ->
    enumerate_transformed parse fp transformation la local counts vs given base r max tol = Err ValueError.
  Proof using M Hctx Hdist.
    intros Hp Hloc Hrep Hm H Hvs Hi Ha Hv. destruct (context_of _ _ _ _ _ _ _ _ M Hctx) as [C Et].
    destruct (exhaustive_members _ _ _ _ _ _ _ _ Hp Hloc Hrep H) as (b & vars' & Hb & Hv' & Ec & Hvs' & Hbv & Hbl & Hbc & Hnd & Hr & _).
    unfold enumerate_transformed. destruct (Z.ltb_spec max 1); [lia|]. rewrite Hctx. cbn [rbind]. rewrite Hb. cbn [rbind]. rewrite Hv'. cbn [rbind].
    cbn zeta. rewrite Ec.
    assert (i ∈ vars') as Hi'.
    { unfold variable_sites_are in *. destruct given as [g|]; [by subst|]. apply (proj2 Hvs'). by apply (proj2 Hvs). }
    rewrite (build_fails C Hdist vs vars' b Hbl Hbc i l Hi'); [done| |done|done].
    intros j Hj. destruct (variables_inv C _ _ _ _ Hv') as [_ Hvl]. destruct (Hvl j Hj) as (_ & l' & Ha' & Hne). by exists l'.
  Qed.

  (** An entry whose structure cannot be read stops the call. *)
  Lemma bad_entry_lemma local counts vs given base r max tol pre e post :
    proper_counts counts -> sites_in_range act local -> no_repeats local given ->
    (forall dis' q', asked act vs local given base tol r max dis' q' -> transformation dis' q' = Ok (Many (pre ++ e :: post))) ->
    (forall c, structure_of e c -> exists err, get_occ_from_structure act (cr_sites c) tol (cr_shape c) None = Err err) ->
    (length pre < Z.to_nat max) ->
    exists err, enumerate_transformed parse fp transformation la local counts vs given base r max tol = Err err.
  Proof using M Hctx Hdist.
    intros Hp Hloc Hrep Htr Hbad Hlen. destruct (context_of _ _ _ _ _ _ _ _ M Hctx) as [C Et].
    destruct (enumerate_transformed parse fp transformation la local counts vs given base r max tol) as [rs|err] eqn:E; [|by exists err]. exfalso.
    unfold enumerate_transformed in E.
    apply (prelude local counts vs given base max tol Hp Hloc Hrep _ (fun act o b vars exact =>
      let* d := build_disordered_structure act b vars vs in
      let* t := transformation d (ranked_request r max) in
      let* es := entries t in collect (one_entry la act o local vars exact tol) (Z.to_nat max) es)) in E.
    destruct E as (b & vars & Hm & Hb & Hv & Hvs & Hbv & Hbl & Hbc & Ht & Hnd & Hr & H).
    apply rbind_ok in H as (d & Hdis & H). apply rbind_ok in H as (t & Hout & H). apply rbind_ok in H as (es & Hes & H).
    apply (build_inv C Hdist vs vars b Hbl Hbc) in Hdis.
    rewrite Htr in Hout; [|exists vars, b; do 3 (split; [done|]); apply request_ok]. injection Hout as <-. injection Hes as <-.
    apply collect_spec in H as (pr & rest & os & Epr & Hos & -> & Hle & Hrest); [|lia].
    assert (length pr <= length pre) as Hpr.
    { destruct (decide (length pr <= length pre)) as [|Hn]; [done|]. exfalso.
      assert (pr !! length pre = Some e) as Hpe.
      { rewrite <- (lookup_app_l pr rest) by lia. rewrite <- Epr. rewrite lookup_app_r by lia. by rewrite Nat.sub_diag. }
      destruct (lookup_lt_is_Some_2 os (length pre)) as [y Hy]; [rewrite (rmapM_length _ _ _ Hos); lia|].
      destruct (rmapM_lookup _ _ _ _ _ Hos Hy) as (e' & He' & Hf). assert (e' = e) as -> by congruence.
      unfold one_entry in Hf. apply rbind_ok in Hf as ([c m] & He & Hf). apply rbind_ok in Hf as (oc & Hoc & _).
      destruct (Hbad c) as [err Herr]; [by apply entry_structure_inv in He as [? _]|]. congruence. }
    assert (length (keep_some os) <= length os) as Hks.
    { clear. induction os as [|[x|] os IH]; rewrite ?keep_some_cons; simpl; lia. }
    rewrite (rmapM_length _ _ _ Hos) in Hks.
    assert (rest <> []) as Hne by (intros ->; rewrite app_nil_r in Epr; subst pr; rewrite app_length in Hpr; simpl in Hpr; lia).
    apply Hne, Hrest. lia.
  Qed.
End Main.

(** A transformation for the examples: all the ways to fill a disordered structure. *)
Fixpoint fillings (dis : list dsite) : list (list site) :=
  match dis with
  | [] => [[]]
  | (Whole s, p) :: rest => map (fun l => (s, p) :: l) (fillings rest)
  | (Partial d, p) :: rest =>
      (flat_map (fun s => map (fun l => (s, p) :: l) (fillings rest)) (map fst d)
       ++ if Qlt_le_dec (occupancy d) 1 then fillings rest else [])%list
  end.
Lemma fillings_spec dis : forall l, l ∈ fillings dis <-> filled dis l.
Proof.
  induction dis as [|[o p] dis IH]; intros l; simpl.
  - rewrite elem_of_list_singleton. split; [intros ->; constructor|]. by inversion 1.
  - destruct o as [s|d].
    + rewrite elem_of_list_fmap. split.
      * intros (l' & -> & H). constructor; [done|by apply IH].
      * inversion 1 as [|? ? s' ? l' Hf Hl|? ? ? l' Hf Hl]; subst; cbn [fills] in Hf; [|done]. subst s'. exists l'. split; [done|by apply IH].
    + rewrite elem_of_app. rewrite elem_of_list_In, in_flat_map. split.
      * intros [(s & Hs & H)|H].
        -- apply elem_of_list_In, elem_of_list_fmap in H as (l' & -> & H). constructor; [by apply elem_of_list_In|by apply IH].
        -- destruct (Qlt_le_dec _ _); [|by apply elem_of_nil in H]. apply filled_empty; [done|by apply IH].
      * inversion 1 as [|? ? s' ? l' Hf Hl|? ? ? l' Hf Hl]; subst; cbn [fills] in Hf.
        -- left. exists s'. split; [by apply elem_of_list_In|]. apply elem_of_list_In, elem_of_list_fmap. exists l'. split; [done|by apply IH].
        -- right. destruct (Qlt_le_dec _ _) as [|Hle]; [by apply IH|]. exfalso. by apply (Qlt_not_le _ _ Hf).
Qed.
Definition all_fillings (dis : list dsite) (q : ranked) : result transformed :=
  Ok (Many (map (fun l => EStructure (Crystal (1, 1, 1) l)) (fillings dis))).
Lemma same_crystal_refl l : same_crystal l l.
Proof.
  exists l. split; [done|]. apply Forall_Forall2_diag. apply Forall_forall. intros x _. split; [done|].
  unfold congruent, congruent1. destruct (snd x) as [[? ?] ?]. cbn [fst snd]. split; [|split]; exists 0%Z; unfold inject_Z; ring.
Qed.
Lemma all_fillings_orderings dis q out es : all_fillings dis q = Ok out -> entries_of out es -> answers_orderings dis es /\ answers_all dis es.
Proof.
  intros [= <-] H. inversion H; subst. split.
  - intros e He. apply elem_of_list_fmap in He as (l & -> & Hl). exists (Crystal (1, 1, 1) l). split; [constructor|]. split; [done|].
    exists l. split; [by apply fillings_spec|apply same_crystal_refl].
  - intros l Hl. exists (EStructure (Crystal (1, 1, 1) l)), (Crystal (1, 1, 1) l). split; [|split; [constructor|split; [done|apply same_crystal_refl]]].
    apply elem_of_list_fmap. exists l. split; [done|by apply fillings_spec].
Qed.
