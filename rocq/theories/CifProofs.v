(** Proofs about structures read from CIF files. *)
From Coq Require Import QArith Qround Lqa.
From Verif Require Import Py PyLemmas Json MatcherModel MatcherProofs TrackerModel TrackerProofs CifModel CifSpec.
Local Open Scope Q_scope.

(** ** Positions *)
Lemma near1_spec tol d : near1 tol d = true <-> exists n, Qabs.Qabs (d - inject_Z n) < tol.
Proof.
  unfold near1. rewrite negb_true_iff, <-not_true_iff_false, Qle_bool_iff. split.
  - intros H. exists (np_round d). by apply Qnot_le_lt.
  - intros [n Hn] H. pose proof (np_round_close d) as Hc.
    destruct (Z.eq_dec n (np_round d)) as [->|Hne]; [lra|].
    apply Qabs.Qabs_Qlt_condition in Hn. revert H. apply Qlt_not_le. apply Qabs.Qabs_Qlt_condition.
    assert (H1 : inject_Z (np_round d) + 1 <= inject_Z n \/ inject_Z n + 1 <= inject_Z (np_round d)).
    { destruct (Z_lt_le_dec n (np_round d)); [right|left]; change 1 with (inject_Z 1); rewrite <-inject_Z_plus, <-Zle_Qle; lia. }
    lra.
Qed.
Lemma abs_lt (q p tol : Q) : Qabs.Qabs q < tol -> p == q -> Qabs.Qabs p < tol.
Proof. intros H E. by rewrite E. Qed.
Lemma near_spec tol a b : near tol a b = true <-> within tol a b.
Proof.
  unfold near, within, shifted. rewrite !andb_true_iff, !near1_spec. split.
  - intros [[[i Hi] [j Hj]] [k Hk]]. exists (i, j, k). cbn [vx vy vz].
    split; [|split]; [refine (abs_lt _ _ _ Hi _)|refine (abs_lt _ _ _ Hj _)|refine (abs_lt _ _ _ Hk _)]; ring.
  - intros [[[i j] k] (Hi & Hj & Hk)]. cbn [vx vy vz] in *.
    split; [split; [exists i|exists j]|exists k]; [refine (abs_lt _ _ _ Hi _)|refine (abs_lt _ _ _ Hj _)|refine (abs_lt _ _ _ Hk _)]; ring.
Qed.
Lemma near_false tol a b : near tol a b = false <-> ~ within tol a b.
Proof. rewrite <-near_spec. by destruct (near tol a b). Qed.
Lemma coord_eqb_spec a b : coord_eqb a b = true <-> equal a b.
Proof. unfold coord_eqb, equal. rewrite !andb_true_iff, !Qeq_bool_iff. tauto. Qed.
Lemma coord_eqb_false a b : coord_eqb a b = false <-> ~ equal a b.
Proof. rewrite <-coord_eqb_spec. by destruct (coord_eqb a b). Qed.

Lemma equal_refl a : equal a a. Proof. done. Qed.
Lemma equal_sym a b : equal a b -> equal b a. Proof. intros (?&?&?). by repeat split; symmetry. Qed.
Lemma equal_trans a b c : equal a b -> equal b c -> equal a c.
Proof. intros (?&?&?) (?&?&?). repeat split; etransitivity; eassumption. Qed.
Lemma equal_same a b : equal a b -> same a b.
Proof. intros (H1 & H2 & H3). exists (0, 0, 0)%Z. unfold equal, shifted. cbn [vx vy vz]. change (inject_Z 0) with 0. rewrite H1, H2, H3. repeat split; ring. Qed.
Lemma same_refl a : same a a. Proof. by apply equal_same. Qed.
Lemma same_sym a b : same a b -> same b a.
Proof.
  intros [[[i j] k] (H1 & H2 & H3)]. exists (- i, - j, - k)%Z. unfold equal, shifted in *. cbn [vx vy vz] in *.
  rewrite !inject_Z_opp, H1, H2, H3. repeat split; ring.
Qed.
Lemma same_trans a b c : same a b -> same b c -> same a c.
Proof.
  intros [[[i j] k] (H1 & H2 & H3)] [[[i' j'] k'] (H1' & H2' & H3')]. exists (i + i', j + j', k + k')%Z. unfold equal, shifted in *. cbn [vx vy vz] in *.
  rewrite !inject_Z_plus, H1, H2, H3, H1', H2', H3'. repeat split; ring.
Qed.
Lemma within_same tol a b a' b' : within tol a b -> same a a' -> same b b' -> within tol a' b'.
Proof.
  intros [[[i j] k] (H1 & H2 & H3)] [[[i1 j1] k1] (A1 & A2 & A3)] [[[i2 j2] k2] (B1 & B2 & B3)].
  exists (i + i2 - i1, j + j2 - j1, k + k2 - k1)%Z. unfold shifted, Z.sub in *. cbn [vx vy vz] in *.
  rewrite A1, B1 in H1. rewrite A2, B2 in H2. rewrite A3, B3 in H3. rewrite !inject_Z_plus, !inject_Z_opp.
  split; [|split]; [refine (abs_lt _ _ _ H1 _)|refine (abs_lt _ _ _ H2 _)|refine (abs_lt _ _ _ H3 _)]; ring.
Qed.
Lemma within_sym tol a b : within tol a b -> within tol b a.
Proof.
  intros [[[i j] k] (H1 & H2 & H3)]. exists (- i, - j, - k)%Z. unfold shifted in *. cbn [vx vy vz] in *. rewrite !inject_Z_opp.
  rewrite Qabs.Qabs_Qminus in H1, H2, H3. split; [|split]; [refine (abs_lt _ _ _ H1 _)|refine (abs_lt _ _ _ H2 _)|refine (abs_lt _ _ _ H3 _)]; ring.
Qed.
Lemma within_refl tol a : 0 < tol -> within tol a a.
Proof.
  intros H. exists (0, 0, 0)%Z. unfold shifted. cbn [vx vy vz]. change (inject_Z 0) with 0.
  split; [|split]; (apply (abs_lt 0); [exact H|ring]).
Qed.
Lemma same_within tol a b : 0 < tol -> same a b -> within tol a b.
Proof. intros Ht H. apply (within_same tol a a a b); [by apply within_refl|apply same_refl|exact H]. Qed.
Lemma same_wrap a : same (wrap a) a.
Proof.
  exists (- Qfloor (vx a), - Qfloor (vy a), - Qfloor (vz a))%Z. unfold equal, shifted, wrap, wrap1. cbn [vx vy vz]. rewrite !inject_Z_opp. repeat split; ring.
Qed.
Lemma wrap_in_cell a : in_cell (wrap a).
Proof.
  assert (H : forall q, 0 <= wrap1 q < 1).
  { intros q. unfold wrap1. pose proof (Qfloor_le q). pose proof (Qlt_floor q) as H2. rewrite inject_Z_plus in H2. change (inject_Z 1) with 1 in H2. lra. }
  unfold in_cell, wrap. cbn [vx vy vz]. auto.
Qed.

(** ** Images of a position *)
Lemma snoc_cases {A} (l : list A) x i y : (l ++ [x])%list !! i = Some y -> l !! i = Some y \/ (i = length l /\ y = x).
Proof.
  intros H. apply lookup_app_Some in H as [H|[Hi H]]; [by left|]. right. apply list_lookup_singleton_Some in H as [H ->]. split; [lia|done].
Qed.
Lemma images_spec tol (l out : list vec) : 0 < tol ->
  (forall i j a b, out !! i = Some a -> out !! j = Some b -> i <> j -> ~ within tol a b) ->
  let r := fold_left (add_image tol) l out in
  (forall c, c ∈ r -> c ∈ out \/ c ∈ l) /\ (forall c, c ∈ out -> c ∈ r) /\ (forall c, c ∈ l -> exists o, o ∈ r /\ within tol o c)
  /\ (forall i j a b, r !! i = Some a -> r !! j = Some b -> i <> j -> ~ within tol a b).
Proof.
  intros Ht. revert out. induction l as [|c l IH]; intros out Hout; cbn [fold_left].
  { split; [by left|]. split; [done|]. split; [|done]. intros c Hc. by apply elem_of_nil in Hc. }
  assert (Hnew : (forall i j a b, add_image tol out c !! i = Some a -> add_image tol out c !! j = Some b -> i <> j -> ~ within tol a b)
    /\ (forall x, x ∈ add_image tol out c -> x ∈ out \/ x = c) /\ (forall x, x ∈ out -> x ∈ add_image tol out c)
    /\ exists o, o ∈ add_image tol out c /\ within tol o c).
  { unfold add_image. destruct (existsb _ out) eqn:E.
    - split; [exact Hout|]. split; [by left|]. split; [done|]. apply existsb_exists in E as (o & Ho & Hn). exists o. split; [by apply elem_of_list_In|by apply near_spec].
    - assert (Hfar : forall o, o ∈ out -> ~ within tol o c).
      { intros o Ho Hw. apply near_spec in Hw. apply not_true_iff_false in E. apply E, existsb_exists. exists o. split; [by apply elem_of_list_In|done]. }
      split; [|split; [|split]].
      + intros i j a b Ha Hb Hij. apply snoc_cases in Ha as [Ha|[-> ->]]; apply snoc_cases in Hb as [Hb|[-> ->]].
        * by eapply Hout.
        * apply Hfar. by apply elem_of_list_lookup_2 in Ha.
        * intros Hw. apply within_sym in Hw. revert Hw. apply Hfar. by apply elem_of_list_lookup_2 in Hb.
        * done.
      + intros x Hx. apply elem_of_app in Hx as [?|Hx]; [by left|]. right. by apply elem_of_list_singleton in Hx.
      + intros x Hx. apply elem_of_app. by left.
      + exists c. split; [apply elem_of_app; right; by apply elem_of_list_singleton|by apply within_refl]. }
  destruct Hnew as (H1 & H2 & H3 & o & Ho & Hw). specialize (IH _ H1) as (I1 & I2 & I3 & I4). split; [|split; [|split; [|exact I4]]].
  - intros x Hx. apply I1 in Hx as [Hx|Hx]; [|right; by right]. apply H2 in Hx as [?| ->]; [by left|right; by left].
  - intros x Hx. apply I2, H3, Hx.
  - intros x Hx. apply elem_of_cons in Hx as [->|Hx]; [|by apply I3]. exists o. split; [by apply I2|done].
Qed.
Lemma unique_coords_orbit ops tol x : 0 < tol -> orbit ops tol x (unique_coords ops tol x).
Proof.
  intros Ht. unfold unique_coords. destruct (images_spec tol (map (fun op => wrap (op x)) ops) [] Ht) as (H1 & _ & H3 & H4); [done|].
  split; [|split; [|exact H4]].
  - intros c Hc. apply H1 in Hc as [Hc|Hc]; [by apply elem_of_nil in Hc|]. apply elem_of_list_In, in_map_iff in Hc as (op & <- & Hop).
    split; [apply wrap_in_cell|]. exists op. split; [by apply elem_of_list_In|apply same_wrap].
  - intros op Hop. destruct (H3 (wrap (op x))) as (c & Hc & Hw).
    { apply elem_of_list_In, in_map_iff. exists op. split; [done|by apply elem_of_list_In]. }
    exists c. split; [done|]. eapply within_same; [exact Hw|apply same_refl|apply same_wrap].
Qed.

(** ** Coordinates in the order of the file *)
Lemma index_where_some {A} (f : A -> bool) (l : list A) i : index_where f l = Some i ->
  exists x, l !! i = Some x /\ f x = true /\ forall j y, (j < i)%nat -> l !! j = Some y -> f y = false.
Proof.
  revert i. induction l as [|x l IH]; intros i; cbn [index_where]; [done|]. destruct (f x) eqn:E.
  - intros [= <-]. exists x. split; [done|]. split; [done|]. lia.
  - destruct (index_where f l) as [k|]; [|done]. intros [= <-]. destruct (IH k eq_refl) as (y & Hy & Hf & Hb). exists y. split; [done|]. split; [done|].
    intros [|j] z Hj Hz; [by injection Hz as <-|]. apply (Hb j); [lia|done].
Qed.
Lemma index_where_none {A} (f : A -> bool) (l : list A) : index_where f l = None <-> forall x, x ∈ l -> f x = false.
Proof.
  induction l as [|x l IH]; cbn [index_where]; [split; [intros _ x Hx; by apply elem_of_nil in Hx|done]|]. destruct (f x) eqn:E.
  - split; [done|]. intros H. rewrite (H x) in E; [done|by left].
  - destruct (index_where f l) as [k|].
    + split; [done|]. intros H. enough (Some k = None) by done. apply IH. intros y Hy. apply H. by right.
    + split; [|done]. intros _ y Hy. apply elem_of_cons in Hy as [->|Hy]; [done|]. by apply IH.
Qed.
Lemma first_written_sub (xs : list vec) x : x ∈ first_written xs -> x ∈ xs.
Proof.
  induction xs as [|y xs IH]; cbn [first_written]; [done|]. intros H. apply elem_of_cons in H as [->|H]; [by left|]. right. apply IH.
  apply elem_of_list_In, filter_In in H as [H _]. by apply elem_of_list_In.
Qed.
Lemma first_written_all (xs : list vec) y : y ∈ xs -> exists x, x ∈ first_written xs /\ equal x y.
Proof.
  induction xs as [|z xs IH]; cbn [first_written]; [intros H; by apply elem_of_nil in H|]. intros H. apply elem_of_cons in H as [->|H]; [exists z; split; [by left|done]|].
  destruct (IH H) as (x & Hx & Hxy). destruct (coord_eqb z x) eqn:E.
  - exists z. split; [by left|]. apply coord_eqb_spec in E. by eapply equal_trans.
  - exists x. split; [|done]. right. apply elem_of_list_In, filter_In. split; [by apply elem_of_list_In|by rewrite E].
Qed.
Lemma first_written_snoc (xs : list vec) c :
  first_written (xs ++ [c]) = if existsb (fun x => coord_eqb x c) xs then first_written xs else (first_written xs ++ [c])%list.
Proof.
  induction xs as [|x xs IH]; [done|]. cbn [app first_written existsb]. rewrite IH. destruct (coord_eqb x c) eqn:E; cbn [orb].
  - destruct (existsb _ xs); [done|]. by rewrite List.filter_app; cbn [List.filter]; rewrite E; cbn [negb]; rewrite app_nil_r.
  - destruct (existsb _ xs); [done|]. by rewrite List.filter_app; cbn [List.filter]; rewrite E.
Qed.
Definition distinct (xs : list vec) : Prop := forall i j a b, xs !! i = Some a -> xs !! j = Some b -> equal a b -> i = j.
Lemma distinct_cons x (xs : list vec) : (forall y, y ∈ xs -> ~ equal x y) -> distinct xs -> distinct (x :: xs).
Proof.
  intros Hx H [|i] [|j] a b Ha Hb E; cbn in Ha, Hb; [done|..].
  - injection Ha as <-. exfalso. eapply Hx; [by eapply elem_of_list_lookup_2|done].
  - injection Hb as <-. exfalso. eapply Hx; [by eapply elem_of_list_lookup_2|by apply equal_sym].
  - f_equal. by eapply H.
Qed.
Lemma distinct_sub (f : vec -> bool) (xs : list vec) : distinct xs -> distinct (List.filter f xs).
Proof.
  induction xs as [|x xs IH]; intros H; [done|]. assert (Hx : forall y, y ∈ xs -> ~ equal x y).
  { intros y Hy E. apply elem_of_list_lookup in Hy as [j Hj]. by assert (0 = S j)%nat by (by eapply (H 0%nat (S j))). }
  assert (Ht : distinct xs). { intros i j a b Ha Hb E. enough (S i = S j) by lia. by eapply (H (S i) (S j)). }
  cbn [List.filter]. destruct (f x); [|by apply IH]. apply distinct_cons; [|by apply IH]. intros y Hy. apply Hx.
  apply elem_of_list_In, filter_In in Hy as [Hy _]. by apply elem_of_list_In.
Qed.
Lemma first_written_distinct (xs : list vec) : distinct (first_written xs).
Proof.
  induction xs as [|x xs IH]; cbn [first_written]; [by intros i j a b Ha|]. apply distinct_cons; [|by apply distinct_sub].
  intros y Hy. apply elem_of_list_In, filter_In in Hy as [_ Hy]. apply negb_true_iff in Hy. by apply coord_eqb_false.
Qed.

(** ** Reading the rows *)
Lemma append_nil_r (s : string) : (s ++ "")%string = s.
Proof. induction s as [|x s IH]; [done|]. exact (f_equal (String x) IH). Qed.
Lemma append_assoc (a b c : string) : ((a ++ b) ++ c)%string = (a ++ (b ++ c))%string.
Proof. induction a as [|x a IH]; [done|]. exact (f_equal (String x) IH). Qed.
Lemma texts_snoc (l : list string) s : fold_right String.append ""%string (l ++ [s]) = (fold_right String.append "" l ++ s)%string.
Proof. induction l as [|x l IH]; cbn [app fold_right]; [by rewrite append_nil_r|]. by rewrite IH, append_assoc. Qed.
Lemma sum_snoc (l : list Q) q : fold_right Qplus 0 (l ++ [q]) == fold_right Qplus 0 l + q.
Proof. induction l as [|x l IH]; cbn [app fold_right]; [ring|]. rewrite IH. ring. Qed.
Lemma amount_add c el q el' : amount (add_species c el q) el' == amount c el' + (if bool_decide (Some el = Some el') then q else 0).
Proof.
  unfold add_species. unfold amount at 1. rewrite dget_dset. destruct (decide (el' = el)) as [->|Hne].
  - rewrite bool_decide_eq_true_2 by done. reflexivity.
  - rewrite bool_decide_eq_false_2 by congruence. fold (amount c el'). ring.
Qed.
Lemma total_set c el q : total (dset c el q) == total c - amount c el + q.
Proof.
  unfold total, amount, dvalues. induction c as [|[k v] c IH]; cbn [dset dget].
  - cbn. ring.
  - destruct (decide (el = k)) as [->|Hne]; cbn [map snd fold_right]; [ring|]. rewrite IH. destruct (dget c el); ring.
Qed.
Lemma total_add c el q : total (add_species c el q) == total c + q.
Proof. unfold add_species. rewrite total_set. ring. Qed.

Lemma rows_read_snoc rows r : rows_read (rows ++ [r]) = (rows_read rows ++ (if used r then [r] else []))%list.
Proof. unfold rows_read. rewrite List.filter_app. cbn [List.filter]. by destruct (used r). Qed.
Lemma rows_at_snoc x rows r : rows_at x (rows ++ [r]) = (rows_at x rows ++ (if used r && coord_eqb x (row_coord r) then [r] else []))%list.
Proof.
  unfold rows_at. rewrite rows_read_snoc, List.filter_app. destruct (used r); cbn [List.filter andb]; [|by rewrite !app_nil_r]. by destruct (coord_eqb _ _).
Qed.

Section Reading.
  Variable ops : list operation.
  Variable tol : Q.
  Variable xs : list vec.
  Hypothesis Hg : space_group ops.
  Hypothesis Hs : separated ops tol xs.
  Notation equivalent := (equivalent ops).

  Lemma equivalent_of_same a b : same a b -> equivalent a b.
  Proof. destruct (has_identity ops Hg) as (e & He & Hid). intros H. exists e. split; [done|]. by eapply same_trans; [apply Hid|]. Qed.
  Lemma equivalent_trans a b c : equivalent a b -> equivalent b c -> equivalent a c.
  Proof.
    intros (f & Hf & E) (g & Hgg & E'). destruct (closed ops Hg g f Hgg Hf) as (h & Hh & Hc). exists h. split; [done|].
    eapply same_trans; [apply same_sym, Hc|]. eapply same_trans; [apply (respects ops Hg g); eassumption|done].
  Qed.
  Lemma equivalent_sym a b : equivalent a b -> equivalent b a.
  Proof.
    intros (f & Hf & E). destruct (has_inverses ops Hg f Hf) as (g & Hgg & Hi). exists g. split; [done|].
    eapply same_trans; [apply same_sym, (respects ops Hg g); eassumption|apply Hi].
  Qed.
  Lemma near_key k op c : k ∈ xs -> c ∈ xs -> op ∈ ops -> near tol k (op c) = true <-> same (op c) k.
  Proof.
    destruct Hs as [Ht Hsep]. intros Hk Hc Hop. rewrite near_spec. destruct (has_identity ops Hg) as (e & He & Hid). split.
    - intros Hw. apply same_sym. eapply same_trans; [apply same_sym, (Hid k)|]. apply Hsep; try done.
      eapply within_same; [exact Hw|apply same_sym, Hid|apply same_refl].
    - intros H. apply same_within; [done|]. by apply same_sym.
  Qed.
  Lemma matching_some keys c i : (forall k, k ∈ keys -> k ∈ xs) -> c ∈ xs -> get_matching_coord tol keys ops c = Some i ->
    exists k, keys !! i = Some k /\ equivalent c k.
  Proof.
    intros Hk Hc. assert (Hsub : forall op, op ∈ ops -> op ∈ ops) by done. revert Hsub. generalize ops at 1 3. intros l.
    induction l as [|op l IH]; intros Hsub; cbn [get_matching_coord]; [done|].
    destruct (index_where _ keys) as [j|] eqn:E.
    - intros [= <-]. apply index_where_some in E as (k & Hkj & Hn & _). exists k. split; [done|]. exists op. split; [apply Hsub; by left|].
      apply near_key; [by apply Hk, (elem_of_list_lookup_2 _ j)|done|apply Hsub; by left|done].
    - apply IH. intros op' H. apply Hsub. by right.
  Qed.
  Lemma matching_none keys c : (forall k, k ∈ keys -> k ∈ xs) -> c ∈ xs -> get_matching_coord tol keys ops c = None ->
    forall k, k ∈ keys -> ~ equivalent c k.
  Proof.
    intros Hk Hc Hm k Hin (op & Hop & E). assert (Hsub : forall op, op ∈ ops -> op ∈ ops) by done. revert Hsub Hm Hop. generalize ops at 1 3 4. intros l Hsub Hm.
    induction l as [|op' l IH]; cbn [get_matching_coord] in *; [intros H; by apply elem_of_nil in H|].
    destruct (index_where _ keys) eqn:Ei; [done|]. intros H. apply elem_of_cons in H as [<-|H].
    - assert (near tol k (op c) = false) as Hn by (by apply (proj1 (index_where_none _ _) Ei)).
      apply not_true_iff_false in Hn. apply Hn, near_key; [by apply Hk|done|apply Hsub; by left|done].
    - apply IH; try done. intros op'' H'. apply Hsub. by right.
  Qed.

  (** What the entries are after some rows. *)
  Definition grouped (rows : list row) (reps : list rep) : Prop := Forall2 (says rows) reps (positions rows).
  Lemma grouped_keys rows reps : grouped rows reps -> map rep_coord reps = positions rows.
  Proof. unfold grouped. generalize (positions rows). intros ps H. induction H as [|p x reps ps [E _] _ IH]; cbn [map]; [done|]. by rewrite E, IH. Qed.
  Lemma positions_rows rows x : x ∈ positions rows -> exists r, r ∈ rows_read rows /\ row_coord r = x.
  Proof. intros H. apply first_written_sub, elem_of_list_In, in_map_iff in H as (r & E & Hr). exists r. split; [by apply elem_of_list_In|done]. Qed.
  Lemma rows_positions rows r : r ∈ rows_read rows -> exists x, x ∈ positions rows /\ equal x (row_coord r).
  Proof. intros H. apply first_written_all, elem_of_list_In, in_map_iff. exists r. split; [done|by apply elem_of_list_In]. Qed.
  Lemma positions_snoc rows r : used r = true ->
    positions (rows ++ [r]) = if existsb (fun x => coord_eqb x (row_coord r)) (map row_coord (rows_read rows)) then positions rows else (positions rows ++ [row_coord r])%list.
  Proof. intros Hu. unfold positions. rewrite rows_read_snoc, Hu, map_app. cbn [map]. apply first_written_snoc. Qed.
  Lemma says_other rows r p x : coord_eqb x (row_coord r) = false \/ used r = false -> says rows p x -> says (rows ++ [r]) p x.
  Proof.
    intros Hx (H1 & H2 & H3 & H4). assert (E : rows_at x (rows ++ [r]) = rows_at x rows).
    { rewrite rows_at_snoc. destruct Hx as [-> | ->]; [rewrite andb_false_r|]; apply app_nil_r. }
    unfold says, label_at, amount_at, occupancy_at. rewrite E. done.
  Qed.

  Lemma read_row_step rows reps r : grouped rows reps -> written_once ops rows ->
    (forall r', r' ∈ rows_read (rows ++ [r]) -> row_coord r' ∈ xs) ->
    (written_once ops (rows ++ [r]) /\ exists reps', read_row ops tol reps r = Ok reps' /\ grouped (rows ++ [r]) reps')
    \/ (~ written_once ops (rows ++ [r]) /\ read_row ops tol reps r = Err KeyError).
  Proof.
    intros Hgr Hw Hxs. unfold read_row. pose proof (grouped_keys _ _ Hgr) as Hkeys.
    assert (Hu : used r = match row_species r with Some _ => negb (Qle_bool (row_occu r) 0) | None => false end) by done.
    destruct (used r) eqn:Eu.
    2:{ left. assert (Er : rows_read (rows ++ [r]) = rows_read rows) by (rewrite rows_read_snoc, Eu; apply app_nil_r).
        split; [unfold written_once; rewrite Er; exact Hw|].
        exists reps. split; [destruct (row_species r); [|done]; symmetry in Hu; by apply negb_false_iff in Hu as ->|].
        unfold grouped, positions. rewrite Er. eapply Forall2_impl; [exact Hgr|]. intros p x H. apply says_other; [by right|done]. }
    destruct (row_species r) as [el|] eqn:Eel; [|done]. symmetry in Hu. apply negb_true_iff in Hu. rewrite Hu. set (c := row_coord r). cbv zeta.
    assert (Er : rows_read (rows ++ [r]) = (rows_read rows ++ [r])%list) by (by rewrite rows_read_snoc, Eu).
    assert (Hc : c ∈ xs) by (apply Hxs; rewrite Er; apply elem_of_app; right; by apply elem_of_list_singleton).
    assert (Hk : forall k, k ∈ map rep_coord reps -> k ∈ xs).
    { intros k Hk. rewrite Hkeys in Hk. apply positions_rows in Hk as (r' & Hr' & <-). apply Hxs. rewrite Er. apply elem_of_app. by left. }
    destruct (get_matching_coord tol (map rep_coord reps) ops c) as [i|] eqn:Em.
    - destruct (matching_some _ _ _ Hk Hc Em) as (k & Hki & Hck).
      assert (Hkeys2 : forall f, (forall p, rep_coord (f p) = rep_coord p) -> map rep_coord (alter f i reps) = map rep_coord reps).
      { intros f Hf. change (map rep_coord) with (fmap (M := list) rep_coord). apply list_eq. intros j. rewrite !list_lookup_fmap.
        destruct (decide (i = j)) as [->|Hne]; [rewrite list_lookup_alter|by rewrite list_lookup_alter_ne].
        destruct (reps !! j) as [p|]; cbn; [by rewrite Hf|done]. }
      rewrite Hkeys2 by done. destruct (index_where (coord_eqb c) (map rep_coord reps)) as [j|] eqn:Ej.
      + left. apply index_where_some in Ej as (k' & Hkj & Ec & _). apply coord_eqb_spec in Ec. rewrite Hkeys in Hki, Hkj.
        assert (Hkk : equal k' k).
        { destruct (positions_rows rows k') as (r1 & Hr1 & E1); [by eapply elem_of_list_lookup_2|]. destruct (positions_rows rows k) as (r2 & Hr2 & E2); [by eapply elem_of_list_lookup_2|].
          subst k k'. apply (Hw r1 r2 Hr1 Hr2). eapply equivalent_trans; [|exact Hck]. apply equivalent_of_same, equal_same. by apply equal_sym. }
        assert (j = i) as -> by (by eapply (first_written_distinct (map row_coord (rows_read rows)))). rewrite Hki in Hkj. injection Hkj as <-.
        assert (Hex : existsb (fun x => coord_eqb x c) (map row_coord (rows_read rows)) = true).
        { apply existsb_exists. exists k. split; [|apply coord_eqb_spec; by apply equal_sym]. apply elem_of_list_In, first_written_sub. by eapply elem_of_list_lookup_2. }
        split.
        * assert (Hlast : forall r', r' ∈ rows_read rows -> equivalent c (row_coord r') -> equal c (row_coord r')).
          { intros r' Hr' He. destruct (positions_rows rows k) as (r2 & Hr2 & E2); [by eapply elem_of_list_lookup_2|]. eapply equal_trans; [exact Ec|]. rewrite <-E2.
            apply (Hw r2 r' Hr2 Hr'). rewrite E2. eapply equivalent_trans; [|exact He]. apply equivalent_of_same, equal_same. by apply equal_sym. }
          intros r1 r2. rewrite Er. intros H1 H2 He. apply elem_of_app in H1 as [H1|H1]; apply elem_of_app in H2 as [H2|H2].
          -- by apply Hw.
          -- apply elem_of_list_singleton in H2 as ->. apply equal_sym, Hlast; [done|]. by apply equivalent_sym.
          -- apply elem_of_list_singleton in H1 as ->. by apply Hlast.
          -- apply elem_of_list_singleton in H1 as ->. by apply elem_of_list_singleton in H2 as ->.
        * eexists. split; [reflexivity|]. unfold grouped. rewrite positions_snoc by done. fold c. rewrite Hex.
          apply Forall2_same_length_lookup. pose proof (proj1 (Forall2_same_length_lookup _ _ _) Hgr) as [Hlen Hall]. split; [by rewrite !alter_length|].
          intros n p x Hp Hx. destruct (decide (i = n)) as [<-|Hne].
          -- rewrite !list_lookup_alter in Hp. destruct (reps !! i) as [p0|] eqn:Ep; [|done]. cbn in Hp. injection Hp as <-.
             rewrite Hki in Hx. injection Hx as <-. destruct (Hall i p0 k Ep Hki) as (S1 & S2 & S3 & S4).
             assert (Ea : rows_at k (rows ++ [r]) = (rows_at k rows ++ [r])%list).
             { rewrite rows_at_snoc, Eu. cbn [andb]. fold c. by rewrite (proj2 (coord_eqb_spec k c) (equal_sym _ _ Ec)). }
             unfold says, label_at, amount_at, occupancy_at. cbn [rep_coord rep_comp rep_label]. rewrite Ea, !map_app. cbn [map]. rewrite texts_snoc. split; [done|]. split; [|split].
             ++ by rewrite S2.
             ++ intros el'. rewrite map_app. cbn [map]. rewrite amount_add, sum_snoc, (S3 el'), Eel. reflexivity.
             ++ rewrite total_add, sum_snoc, S4. reflexivity.
          -- rewrite !list_lookup_alter_ne in Hp by done. apply says_other; [|by eapply Hall]. left. apply coord_eqb_false. intros E. apply Hne.
             eapply (first_written_distinct (map row_coord (rows_read rows)) i n k x Hki Hx). eapply equal_trans; [|apply equal_sym; exact E]. by apply equal_sym.
      + right. split; [|done]. intros Hw'. rewrite index_where_none in Ej. rewrite Hkeys in Hki, Ej.
        destruct (positions_rows rows k) as (r2 & Hr2 & E2); [by eapply elem_of_list_lookup_2|].
        assert (equal c k) as E.
        { rewrite <-E2. apply Hw'; [rewrite Er; apply elem_of_app; right; by apply elem_of_list_singleton|rewrite Er; apply elem_of_app; by left|]. by rewrite E2. }
        apply coord_eqb_spec in E. rewrite (Ej k) in E; [done|]. by eapply elem_of_list_lookup_2.
    - left. pose proof (matching_none _ _ Hk Hc Em) as Hn. rewrite Hkeys in Hn |- *.
      assert (Hne : forall k, k ∈ positions rows -> ~ equal c k).
      { intros k Hin E. apply (Hn k Hin), equivalent_of_same, equal_same, E. }
      assert (Hnr : forall r', r' ∈ rows_read rows -> ~ equivalent c (row_coord r')).
      { intros r' Hr' He. destruct (rows_positions rows r' Hr') as (x & Hx & E). apply (Hn x Hx). eapply equivalent_trans; [exact He|]. apply equivalent_of_same, equal_same. by apply equal_sym. }
      rewrite (proj2 (index_where_none (coord_eqb c) (positions rows))) by (intros k Hin; apply coord_eqb_false; by apply Hne). split.
      + intros r1 r2. rewrite Er. intros H1 H2 He. apply elem_of_app in H1 as [H1|H1]; apply elem_of_app in H2 as [H2|H2].
        * by apply Hw.
        * apply elem_of_list_singleton in H2 as ->. apply equivalent_sym in He. by destruct (Hnr r1 H1 He).
        * apply elem_of_list_singleton in H1 as ->. by destruct (Hnr r2 H2 He).
        * apply elem_of_list_singleton in H1 as ->. by apply elem_of_list_singleton in H2 as ->.
      + eexists. split; [reflexivity|]. unfold grouped. rewrite positions_snoc by done. fold c.
        assert (Hex : existsb (fun x => coord_eqb x c) (map row_coord (rows_read rows)) = false).
        { apply not_true_iff_false. intros Hex. apply existsb_exists in Hex as (x & Hx & E). apply in_map_iff in Hx as (r' & <- & Hr'). apply coord_eqb_spec in E.
          apply (Hnr r'); [by apply elem_of_list_In|]. apply equivalent_of_same, equal_same. by apply equal_sym. }
        rewrite Hex. apply Forall2_app.
        * unfold grouped in Hgr. assert (Hfar : forall x, x ∈ positions rows -> coord_eqb x c = false).
          { intros x Hx. apply coord_eqb_false. intros E. apply (Hne x Hx). by apply equal_sym. }
          clear -Hgr Hfar. revert Hgr Hfar. generalize (positions rows). intros ps Hgr Hfar. induction Hgr as [|p x reps0 ps Hp _ IH]; constructor.
          -- apply says_other; [left; apply Hfar; by left|done].
          -- apply IH. intros y Hy. apply Hfar. by right.
        * constructor; [|constructor]. assert (Ea : rows_at c (rows ++ [r]) = [r]).
          { rewrite rows_at_snoc, Eu. cbn [andb]. fold c. rewrite (proj2 (coord_eqb_spec c c) (equal_refl c)).
            assert (rows_at c rows = []) as ->; [|done]. unfold rows_at. apply elem_of_nil_inv. intros r' Hr'. apply elem_of_list_In, filter_In in Hr' as [Hr' E].
            apply coord_eqb_spec in E. apply (Hnr r'); [by apply elem_of_list_In|]. by apply equivalent_of_same, equal_same. }
          unfold says, label_at, amount_at, occupancy_at. rewrite Ea. cbn [map fold_right rep_coord rep_comp rep_label]. split; [done|]. split; [by rewrite append_nil_r|]. split.
          -- intros el'. rewrite amount_add, Eel. unfold amount. cbn [dget]. ring.
          -- rewrite total_add. unfold total, dvalues. cbn. ring.
  Qed.

  Lemma read_rows_all rest rows reps : grouped rows reps -> written_once ops rows ->
    (forall r', r' ∈ rows_read (rows ++ rest) -> row_coord r' ∈ xs) ->
    (written_once ops (rows ++ rest) /\ exists reps', read_rows ops tol rest reps = Ok reps' /\ grouped (rows ++ rest) reps')
    \/ (~ written_once ops (rows ++ rest) /\ read_rows ops tol rest reps = Err KeyError).
  Proof.
    revert rows reps. induction rest as [|r rest IH]; intros rows reps Hgr Hw Hxs; unfold read_rows; cbn [fold_left].
    - left. rewrite app_nil_r. split; [done|]. by exists reps.
    - assert (Happ : (rows ++ r :: rest)%list = ((rows ++ [r]) ++ rest)%list) by (by rewrite <-app_assoc).
      assert (Hsub : forall r', r' ∈ rows_read (rows ++ [r]) -> r' ∈ rows_read (rows ++ r :: rest)).
      { intros r' H. rewrite Happ. unfold rows_read in *. rewrite List.filter_app. apply elem_of_app. by left. }
      cbn [rbind]. destruct (read_row_step rows reps r Hgr Hw) as [(Hw' & reps' & E & Hgr')|(Hw' & E)]; [intros r' H; apply Hxs; by apply Hsub|..]; rewrite E.
      + rewrite Happ. apply IH; [done|done|]. by rewrite <-Happ.
      + right. split; [intros Hall; apply Hw'; intros r1 r2 H1 H2; apply Hall; by apply Hsub|].
        clear. induction rest as [|r' rest IH]; cbn [fold_left rbind]; done.
  Qed.
End Reading.
Lemma rows_grouped ops tol rows : space_group ops -> separated ops tol (map row_coord (rows_read rows)) ->
  (written_once ops rows /\ exists reps, read_rows ops tol rows [] = Ok reps /\ grouped rows reps)
  \/ (~ written_once ops rows /\ read_rows ops tol rows [] = Err KeyError).
Proof.
  intros Hg Hs. destruct (read_rows_all ops tol _ Hg Hs rows [] []) as [H|H]; [constructor| | |by left|by right].
  - intros r r' H. by apply elem_of_nil in H.
  - intros r H. apply elem_of_list_In, in_map. by apply elem_of_list_In.
Qed.

(** ** The sites *)
Lemma rescale_none otol c : negb (Qle_bool (total c) 1) && Qle_bool (total c) otol = false -> rescale otol c = c.
Proof. intros E. unfold rescale. by rewrite E. Qed.
Lemma amount_scaled (c : composition) t el : amount (map (fun kv => (fst kv, (snd kv / t)%Q)) c) el == amount c el / t.
Proof.
  unfold amount. induction c as [|[k v] c IH]; cbn [map dget fst snd]; [unfold Qdiv; ring|]. destruct (decide (el = k)); [reflexivity|done].
Qed.
Lemma total_scaled (c : composition) t : total (map (fun kv => (fst kv, (snd kv / t)%Q)) c) == total c / t.
Proof.
  unfold total, dvalues. induction c as [|[k v] c IH]; cbn [map snd fold_right fst]; [unfold Qdiv; ring|]. rewrite IH. unfold Qdiv. ring.
Qed.
Global Instance share_proper : Proper (eq ==> Qeq ==> Qeq ==> Qeq) share.
Proof. intros o ? <- t t' Et q q' Eq. unfold share.
  rewrite (Qleb_comp t t' Et 1 1 (Qeq_refl 1)), (Qleb_comp t t' Et o o (Qeq_refl o)). destruct (_ && _); [by rewrite Et, Eq|done]. Qed.
Lemma amount_rescale otol c el : amount (rescale otol c) el == share otol (total c) (amount c el).
Proof. unfold rescale, share. destruct (_ && _); [apply amount_scaled|reflexivity]. Qed.
Lemma total_rescale otol c : total (rescale otol c) == share otol (total c) (total c).
Proof. unfold rescale, share. destruct (_ && _); [apply total_scaled|reflexivity]. Qed.
Lemma too_full_spec otol c : too_full (rescale otol c) = true <-> 1 + (1 # 100000000) < share otol (total c) (total c).
Proof.
  unfold too_full. rewrite negb_true_iff. rewrite <-total_rescale. split.
  - intros H. apply Qnot_le_lt. intros Hle. apply Qle_bool_iff in Hle. by rewrite Hle in H.
  - intros H. apply not_true_iff_false. intros Hle. apply Qle_bool_iff in Hle. by apply Qlt_not_le in H.
Qed.

Lemma sites_of_rep_length ops tol otol first p : length (sites_of_rep ops tol otol first p) = length (unique_coords ops tol (rep_coord p)).
Proof. unfold sites_of_rep. apply imap_length. Qed.
Lemma all_sites_spec ops tol otol rows reps ps : 0 < tol -> Forall2 (says rows) reps ps -> forall first,
  exists orbits, Forall2 (orbit ops tol) ps orbits
    /\ Forall2 (fun s t => tells otol rows (fst (fst t)) s /\ s_coord s = snd (fst t) /\ s_sequence s = snd t) (all_sites ops tol otol first reps) (expanded ps orbits)
    /\ map s_local (all_sites ops tol otol first reps) = seq first (length (all_sites ops tol otol first reps)).
Proof.
  intros Ht H. induction H as [|p x reps ps (S1 & S2 & S3 & S4) _ IH]; intros first.
  - exists []. repeat split; constructor.
  - cbn [all_sites]. set (sites := sites_of_rep ops tol otol first p). destruct (IH (first + length sites)%nat) as (orbits & H1 & H2 & H3).
    exists (unique_coords ops tol x :: orbits). split; [|split].
    + constructor; [by apply unique_coords_orbit|done].
    + unfold expanded. cbn [zip_with concat]. apply Forall2_app; [|exact H2]. unfold sites, sites_of_rep. rewrite S1.
      apply Forall2_same_length_lookup. rewrite !imap_length. split; [done|]. intros i s t Hs Ht'. rewrite list_lookup_imap in Hs. rewrite (list_lookup_imap (fun i c => (x, c, i))) in Ht'.
      destruct (unique_coords ops tol x !! i) as [c|]; [|done]. cbn in Hs, Ht'. injection Hs as <-. injection Ht' as <-. cbn [fst snd s_coord s_sequence]. split; [|done].
      split; [done|]. intros el. cbn [s_comp]. rewrite amount_rescale, S4, (S3 el). reflexivity.
    + rewrite map_app, app_length, seq_app, H3. f_equal. unfold sites at 1, sites_of_rep. unfold sites. rewrite sites_of_rep_length.
      apply list_eq. intros i. change (map s_local) with (fmap (M := list) s_local). rewrite list_lookup_fmap, list_lookup_imap.
      destruct (unique_coords ops tol (rep_coord p) !! i) as [c|] eqn:Ec; cbn.
      * symmetry. apply lookup_seq. split; [done|]. by eapply lookup_lt_Some.
      * symmetry. apply lookup_seq_ge. by apply lookup_ge_None.
Qed.
Lemma orbit_nonempty ops tol x cs : space_group ops -> orbit ops tol x cs -> cs <> [].
Proof. intros Hg (_ & H & _) ->. destruct (has_identity ops Hg) as (e & He & _). destruct (H e He) as (c & Hc & _). by apply elem_of_nil in Hc. Qed.
Lemma in_expanded xs orbits x c i : (x, c, i) ∈ expanded xs orbits <-> exists n cs, xs !! n = Some x /\ orbits !! n = Some cs /\ cs !! i = Some c.
Proof.
  unfold expanded. revert orbits. induction xs as [|y xs IH]; intros [|cs orbits]; cbn [zip_with concat].
  - split; [intros H; by apply elem_of_nil in H|]. by intros (n & ? & ? & _).
  - split; [intros H; by apply elem_of_nil in H|]. by intros (n & ? & ? & _).
  - split; [intros H; by apply elem_of_nil in H|]. by intros (n & ? & _ & ? & _).
  - rewrite elem_of_app, IH. split.
    + intros [H|(n & cs' & ?)]; [|by exists (S n), cs']. apply elem_of_list_lookup in H as (j & H). rewrite list_lookup_imap in H.
      destruct (cs !! j) as [c'|] eqn:E; [|done]. cbn in H. injection H as -> -> ->. by exists 0%nat, cs.
    + intros ([|n] & cs' & H1 & H2 & H3); cbn in H1, H2; [left|right; by exists n, cs']. injection H1 as ->. injection H2 as ->.
      apply elem_of_list_lookup. exists i. rewrite list_lookup_imap, H3. done.
Qed.
Lemma expanded_lookup xs orbits a x c i : expanded xs orbits !! a = Some (x, c, i) ->
  exists n cs, xs !! n = Some x /\ orbits !! n = Some cs /\ cs !! i = Some c /\ a = (sum_list_with length (take n orbits) + i)%nat.
Proof.
  unfold expanded. revert orbits a. induction xs as [|y xs IH]; intros [|cs orbits] a; cbn [zip_with concat]; [done..|].
  intros H. apply lookup_app_Some in H as [H|[Hge H]].
  - rewrite list_lookup_imap in H. destruct (cs !! a) as [c'|] eqn:E; [|done]. cbn in H. injection H as -> -> ->. by exists 0%nat, cs.
  - rewrite imap_length in Hge, H. destruct (IH _ _ H) as (n & cs' & H1 & H2 & H3 & H4). exists (S n), cs'. cbn. repeat split; try done. lia.
Qed.

Section Sites.
  Variable species_leb : composition -> composition -> bool.
  Variable primitive_cell : list site -> list site.
  Variable tol otol : Q.

  Lemma structure_ok b : space_group (b_operations b) -> separated (b_operations b) tol (map row_coord (rows_read (b_rows b))) ->
    written_once (b_operations b) (b_rows b) -> rows_read (b_rows b) <> [] ->
    (forall x, x ∈ positions (b_rows b) -> ~ overfull otol (b_rows b) x) ->
    exists sites, labeled_structure species_leb primitive_cell tol otol false false true b = Ok (Some sites) /\ crystal (b_operations b) tol otol (b_rows b) sites.
  Proof.
    intros Hg Hs Hw Hne Hfull. unfold labeled_structure. destruct (rows_grouped _ _ _ Hg Hs) as [(_ & reps & E & Hgr)|[Hn _]]; [|done].
    rewrite E. cbn [rbind]. destruct (all_sites_spec (b_operations b) tol otol (b_rows b) reps _ (proj1 Hs) Hgr 0) as (orbits & H1 & H2 & H3).
    assert (Hps : positions (b_rows b) <> []).
    { intros Hp. apply Hne. destruct (rows_read (b_rows b)) as [|r l] eqn:Er; [done|]. destruct (rows_positions (b_rows b) r) as (x & Hx & _); [rewrite Er; by left|]. rewrite Hp in Hx. by apply elem_of_nil in Hx. }
    destruct reps as [|p reps]; [apply Forall2_nil_inv_l in Hgr; done|]. set (sites := all_sites _ _ _ _ _) in *.
    assert (Hsne : sites <> []).
    { intros Hs0. rewrite Hs0 in H2. apply Forall2_nil_inv_l in H2. destruct (positions (b_rows b)) as [|x ps]; [done|]. apply Forall2_cons_inv_l in H1 as (cs & orbits' & Ho & _ & ->).
      apply (orbit_nonempty _ _ _ _ Hg) in Ho. destruct cs; [done|]. unfold expanded in H2. cbn in H2. done. }
    assert (Hex : existsb (fun s => too_full (s_comp s)) sites = false).
    { apply not_true_iff_false. intros Hex. apply existsb_exists in Hex as (s & Hin & Hf). unfold sites in Hin. unfold grouped in Hgr. clear -Hgr Hin Hf Hfull. revert Hgr Hin Hfull. generalize (positions (b_rows b)) 0%nat. generalize (p :: reps). clear p reps.
      intros reps ps first H. revert first. induction H as [|p x reps ps (S1 & S2 & S3 & S4) _ IH]; intros first; cbn [all_sites]; [done|].
      intros Hin Hfull. apply in_app_or in Hin as [Hin|Hin].
      - unfold sites_of_rep in Hin. apply elem_of_list_In, elem_of_list_lookup in Hin as (i & Hi). rewrite list_lookup_imap in Hi. destruct (_ !! i); [|done]. cbn in Hi. injection Hi as <-. cbn [s_comp] in Hf.
        apply too_full_spec in Hf. apply (Hfull x); [by left|]. unfold overfull. by rewrite <-S4.
      - eapply IH; [exact Hin|]. intros y Hy. apply Hfull. by right. }
    destruct sites as [|s0 l] eqn:Es; [done|]. rewrite Hex. exists (s0 :: l). split; [done|]. by exists orbits.
  Qed.
  Lemma structure_full b x : space_group (b_operations b) -> separated (b_operations b) tol (map row_coord (rows_read (b_rows b))) ->
    written_once (b_operations b) (b_rows b) -> x ∈ positions (b_rows b) -> overfull otol (b_rows b) x -> forall primitive symmetrized,
    labeled_structure species_leb primitive_cell tol otol false primitive symmetrized b = Err ValueError.
  Proof.
    intros Hg Hs Hw Hx Hf primitive symmetrized. unfold labeled_structure. destruct (rows_grouped _ _ _ Hg Hs) as [(_ & reps & E & Hgr)|[Hn _]]; [|done].
    rewrite E. cbn [rbind]. assert (Hex : existsb (fun s => too_full (s_comp s)) (all_sites (b_operations b) tol otol 0 reps) = true).
    { apply existsb_exists. unfold grouped in Hgr. clear E. revert Hgr Hx. generalize (positions (b_rows b)) 0%nat. intros ps first H. revert first. induction H as [|p y reps ps (S1 & S2 & S3 & S4) _ IH]; intros first Hx; [by apply elem_of_nil in Hx|].
      cbn [all_sites]. apply elem_of_cons in Hx as [->|Hx].
      - pose proof (unique_coords_orbit (b_operations b) tol y (proj1 Hs)) as Ho. apply (orbit_nonempty _ _ _ _ Hg) in Ho. unfold sites_of_rep. rewrite S1.
        destruct (unique_coords _ tol y) as [|c cs]; [done|]. cbn [imap]. eexists. split; [left; reflexivity|]. cbn [s_comp]. apply too_full_spec. unfold overfull in Hf. by rewrite <-S4 in Hf.
      - destruct (IH (first + length (sites_of_rep (b_operations b) tol otol first p))%nat Hx) as (s & Hin & Hs'). exists s. split; [apply in_or_app; by right|done]. }
    destruct reps as [|p reps]; [done|]. destruct (all_sites (b_operations b) tol otol 0 (p :: reps)) as [|s l]; [done|]. by rewrite Hex.
  Qed.
  Lemma structure_twice b magnetic primitive symmetrized : space_group (b_operations b) -> separated (b_operations b) tol (map row_coord (rows_read (b_rows b))) ->
    ~ written_once (b_operations b) (b_rows b) ->
    labeled_structure species_leb primitive_cell tol otol magnetic primitive symmetrized b = Err KeyError.
  Proof. intros Hg Hs Hw. unfold labeled_structure. destruct (rows_grouped _ _ _ Hg Hs) as [[H _]|[_ E]]; [done|]. by rewrite E. Qed.
  Lemma structure_sorted b sites : labeled_structure species_leb primitive_cell tol otol false false true b = Ok (Some sites) ->
    exists sites', labeled_structure species_leb primitive_cell tol otol false false false b = Ok (Some sites') /\ sites' ≡ₚ sites.
  Proof.
    unfold labeled_structure. destruct (read_rows _ _ _ _) as [reps|]; cbn [rbind]; [|done]. destruct reps as [|p reps]; [done|]. destruct (all_sites _ _ _ _ _) as [|s l]; [done|].
    destruct (existsb _ _); [done|]. intros [= <-]. eexists. split; [reflexivity|]. apply sorted_perm.
  Qed.

  (** The crystal. *)
  Lemma crystal_site ops rows sites s : crystal ops tol otol rows sites -> s ∈ sites ->
    exists orbits x n cs, Forall2 (orbit ops tol) (positions rows) orbits /\ tells otol rows x s /\ positions rows !! n = Some x /\ orbits !! n = Some cs /\ cs !! s_sequence s = Some (s_coord s) /\ orbit ops tol x cs.
  Proof.
    intros (orbits & H1 & H2 & _) Hs. apply elem_of_list_lookup in Hs as (a & Ha). destruct (Forall2_lookup_l _ _ _ _ _ H2 Ha) as ([[x c] i] & Ht & (Hs1 & Hs2 & Hs3)). cbn [fst snd] in *.
    apply expanded_lookup in Ht as (n & cs & E1 & E2 & E3 & _). exists orbits, x, n, cs. subst c i.
    split; [done|]. split; [done|]. split; [done|]. split; [done|]. split; [done|]. exact (Forall2_lookup_lr _ _ _ _ _ _ H1 E1 E2).
  Qed.
  Lemma crystal_has ops rows sites r op : 0 < tol -> crystal ops tol otol rows sites -> r ∈ rows_read rows -> op ∈ ops ->
    exists s x, s ∈ sites /\ x ∈ positions rows /\ equal x (row_coord r) /\ tells otol rows x s /\ within tol (s_coord s) (op x) /\ exists op', op' ∈ ops /\ same (s_coord s) (op' x).
  Proof.
    intros Ht (orbits & H1 & H2 & _) Hr Hop. destruct (rows_positions rows r Hr) as (x & Hx & E). destruct (elem_of_list_lookup_1 _ _ Hx) as (n & Hn).
    destruct (Forall2_lookup_l _ _ _ _ _ H1 Hn) as (cs & Hcs & (O1 & O2 & O3)). destruct (O2 op Hop) as (c & Hc & Hw). destruct (O1 c Hc) as [_ Ho]. apply elem_of_list_lookup in Hc as (i & Hi).
    assert (Hin : (x, c, i) ∈ expanded (positions rows) orbits) by (apply in_expanded; by exists n, cs). apply elem_of_list_lookup in Hin as (a & Ha).
    destruct (Forall2_lookup_r _ _ _ _ _ H2 Ha) as (s & Hs & (S1 & S2 & S3)). cbn [fst snd] in *. exists s, x. subst c.
    split; [by eapply elem_of_list_lookup_2|]. done.
  Qed.
  Lemma separated_position ops rows x : separated ops tol (map row_coord (rows_read rows)) -> x ∈ positions rows -> x ∈ map row_coord (rows_read rows).
  Proof. intros _ H. apply first_written_sub. exact H. Qed.
  Lemma crystal_symmetric ops rows sites s op : space_group ops -> separated ops tol (map row_coord (rows_read rows)) -> crystal ops tol otol rows sites ->
    s ∈ sites -> op ∈ ops -> exists s', s' ∈ sites /\ same (s_coord s') (op (s_coord s)) /\ s_label s' = s_label s /\ forall el, amount (s_comp s') el == amount (s_comp s) el.
  Proof.
    intros Hg [Ht Hsep] Hc Hs Hop. destruct Hc as (orbits & H1 & H2 & Hl). pose proof (ex_intro _ orbits (conj H1 (conj H2 Hl)) : crystal ops tol otol rows sites) as Hc.
    apply elem_of_list_lookup in Hs as (a & Ha). destruct (Forall2_lookup_l _ _ _ _ _ H2 Ha) as ([[x c] i] & Htt & (S1 & S2 & S3)). cbn [fst snd] in *. subst c.
    apply expanded_lookup in Htt as (n & cs & E1 & E2 & E3 & _). destruct (Forall2_lookup_lr _ _ _ _ _ _ H1 E1 E2) as (O1 & O2 & O3).
    destruct (O1 (s_coord s)) as [_ (op1 & Hop1 & Hsame)]; [by eapply elem_of_list_lookup_2|].
    destruct (closed ops Hg op op1 Hop Hop1) as (op2 & Hop2 & Hcl). destruct (O2 op2 Hop2) as (c' & Hc' & Hw). destruct (O1 c' Hc') as [_ (op3 & Hop3 & Hsame')].
    apply elem_of_list_lookup in Hc' as (j & Hj). assert (Hin : (x, c', j) ∈ expanded (positions rows) orbits) by (apply in_expanded; by exists n, cs).
    apply elem_of_list_lookup in Hin as (b & Hb). destruct (Forall2_lookup_r _ _ _ _ _ H2 Hb) as (s' & Hs' & (T1 & T2 & T3)). cbn [fst snd] in *. subst c'.
    exists s'. split; [by eapply elem_of_list_lookup_2|]. split; [|split].
    - assert (Hx : x ∈ map row_coord (rows_read rows)) by (apply first_written_sub; by eapply elem_of_list_lookup_2).
      eapply same_trans; [exact Hsame'|]. eapply same_trans; [apply (Hsep x x op3 op2 Hx Hx Hop3 Hop2)|].
      + eapply within_same; [exact Hw|exact Hsame'|apply same_refl].
      + eapply same_trans; [apply same_sym, Hcl|]. apply (respects ops Hg op); [done|]. by apply same_sym.
    - destruct S1 as [-> _], T1 as [-> _]. done.
    - intros el. destruct S1 as [_ S1], T1 as [_ T1]. rewrite S1, T1. reflexivity.
  Qed.
  Lemma crystal_distinct ops rows sites i j s s' : space_group ops -> separated ops tol (map row_coord (rows_read rows)) -> written_once ops rows -> crystal ops tol otol rows sites ->
    sites !! i = Some s -> sites !! j = Some s' -> same (s_coord s) (s_coord s') -> i = j.
  Proof.
    intros Hg Hsep Hw (orbits & H1 & H2 & _) Hi Hj Hsame.
    destruct (Forall2_lookup_l _ _ _ _ _ H2 Hi) as ([[x c] k] & Ht & (S1 & S2 & S3)). destruct (Forall2_lookup_l _ _ _ _ _ H2 Hj) as ([[y d] l] & Hu & (T1 & T2 & T3)). cbn [fst snd] in *. subst c d.
    apply expanded_lookup in Ht as (n & cs & E1 & E2 & E3 & ->). apply expanded_lookup in Hu as (m & ds & F1 & F2 & F3 & ->).
    assert (n = m) as ->.
    { destruct (Forall2_lookup_lr _ _ _ _ _ _ H1 E1 E2) as (O1 & _). destruct (Forall2_lookup_lr _ _ _ _ _ _ H1 F1 F2) as (P1 & _).
      destruct (O1 (s_coord s)) as [_ (op1 & Hop1 & Hs1)]; [by eapply elem_of_list_lookup_2|]. destruct (P1 (s_coord s')) as [_ (op2 & Hop2 & Hs2)]; [by eapply elem_of_list_lookup_2|].
      eapply (first_written_distinct (map row_coord (rows_read rows))); [exact E1|exact F1|].
      destruct (positions_rows rows x) as (r1 & Hr1 & <-); [by eapply elem_of_list_lookup_2|]. destruct (positions_rows rows y) as (r2 & Hr2 & <-); [by eapply elem_of_list_lookup_2|].
      apply (Hw r1 r2 Hr1 Hr2). eapply (equivalent_trans ops Hg _ (op1 (row_coord r1))); [by exists op1; split; [done|apply same_refl]|].
      apply (equivalent_sym ops Hg). eapply (equivalent_trans ops Hg _ (op2 (row_coord r2))); [by exists op2; split; [done|apply same_refl]|].
      apply (equivalent_of_same ops Hg). eapply same_trans; [apply same_sym, Hs2|]. eapply same_trans; [apply same_sym, Hsame|]. done. }
    rewrite E2 in F2. injection F2 as <-. f_equal. destruct (decide (k = l)) as [->|Hne]; [done|exfalso].
    destruct (Forall2_lookup_lr _ _ _ _ _ _ H1 E1 E2) as (_ & _ & O3). apply (O3 k l _ _ E3 F3 Hne). by apply same_within; [apply Hsep|].
  Qed.
  Lemma crystal_named ops rows sites i j s s' : NoDup (map (fun x => label_at x rows) (positions rows)) -> crystal ops tol otol rows sites ->
    sites !! i = Some s -> sites !! j = Some s' -> s_label s = s_label s' -> s_sequence s = s_sequence s' -> i = j.
  Proof.
    intros Hnd (orbits & H1 & H2 & _) Hi Hj Hl Hq.
    destruct (Forall2_lookup_l _ _ _ _ _ H2 Hi) as ([[x c] k] & Ht & ([S0 S1] & S2 & S3)). destruct (Forall2_lookup_l _ _ _ _ _ H2 Hj) as ([[y d] l] & Hu & ([T0 T1] & T2 & T3)). cbn [fst snd] in *.
    apply expanded_lookup in Ht as (n & cs & E1 & E2 & E3 & ->). apply expanded_lookup in Hu as (m & ds & F1 & F2 & F3 & ->).
    assert (n = m) as -> by (eapply (NoDup_lookup _ n m (s_label s) Hnd);
      change (map (fun x => label_at x rows)) with (fmap (M := list) (fun x => label_at x rows)); rewrite list_lookup_fmap; [rewrite E1; cbn; by rewrite S0|rewrite F1; cbn; by rewrite Hl, T0]).
    f_equal. congruence.
  Qed.
  Lemma crystal_in_cell ops rows sites s : crystal ops tol otol rows sites -> s ∈ sites -> in_cell (s_coord s).
  Proof. intros Hc Hs. destruct (crystal_site _ _ _ _ Hc Hs) as (orbits & x & n & cs & _ & _ & _ & _ & Hi & (O1 & _)). apply O1. by eapply elem_of_list_lookup_2. Qed.

  (** ** Files of several blocks *)
  Lemma structures_first magnetic primitive symmetrized blocks s rest :
    structures_of species_leb primitive_cell tol otol magnetic primitive symmetrized blocks = Ok (s :: rest) ->
    exists pre b post, blocks = (pre ++ b :: post)%list
      /\ Forall (fun b => left_out (rbind b (labeled_structure species_leb primitive_cell tol otol magnetic primitive symmetrized))) pre
      /\ rbind b (labeled_structure species_leb primitive_cell tol otol magnetic primitive symmetrized) = Ok (Some s).
  Proof.
    induction blocks as [|b blocks IH]; cbn [structures_of]; [done|].
    destruct (rbind b _) as [[s0|]|e] eqn:E.
    - destruct (structures_of _ _ _ _ _ _ _ blocks); cbn [rbind]; [|done]. intros [= -> <-]. exists [], b, blocks. repeat split; [constructor|done].
    - intros H. destruct (IH H) as (pre & b' & post & -> & H1 & H2). exists (b :: pre), b', post. split; [done|]. split; [|done]. constructor; [by left|done].
    - destruct e; try done; intros H; destruct (IH H) as (pre & b' & post & -> & H1 & H2); exists (b :: pre), b', post; split; [done| |done|]; (split; [|done]); constructor; try done; unfold left_out; rewrite E; auto.
  Qed.
  Lemma structures_none magnetic primitive symmetrized blocks :
    Forall (fun b => left_out (rbind b (labeled_structure species_leb primitive_cell tol otol magnetic primitive symmetrized))) blocks ->
    structures_of species_leb primitive_cell tol otol magnetic primitive symmetrized blocks = Ok [].
  Proof. induction 1 as [|b blocks [E|[E|E]] _ IH]; cbn [structures_of]; rewrite ?E; done. Qed.
  Lemma magnetic_never b primitive symmetrized s : labeled_structure species_leb primitive_cell tol otol true primitive symmetrized b <> Ok (Some s).
  Proof. unfold labeled_structure. destruct (read_rows _ _ _ _) as [[|p reps]|]; done. Qed.
  Lemma load_first magnetic primitive symmetrized blocks s :
    load_labeled_structure species_leb primitive_cell tol otol magnetic primitive symmetrized blocks = Ok s ->
    exists pre b post, blocks = (pre ++ b :: post)%list
      /\ Forall (fun b => left_out (rbind b (labeled_structure species_leb primitive_cell tol otol magnetic primitive symmetrized))) pre
      /\ rbind b (labeled_structure species_leb primitive_cell tol otol magnetic primitive symmetrized) = Ok (Some s).
  Proof.
    unfold load_labeled_structure, get_labeled_structures. destruct (_ && _); [done|]. destruct (structures_of _ _ _ _ _ _ _ blocks) as [[|s0 l]|] eqn:E; cbn [rbind]; [done| |done].
    intros [= ->]. by eapply structures_first.
  Qed.
  Lemma load_none magnetic primitive symmetrized blocks :
    Forall (fun b => left_out (rbind b (labeled_structure species_leb primitive_cell tol otol magnetic primitive symmetrized))) blocks ->
    load_labeled_structure species_leb primitive_cell tol otol magnetic primitive symmetrized blocks = Err ValueError.
  Proof. intros H. unfold load_labeled_structure, get_labeled_structures. destruct (_ && _); [done|]. by rewrite structures_none. Qed.
  Lemma load_magnetic primitive symmetrized blocks s : load_labeled_structure species_leb primitive_cell tol otol true primitive symmetrized blocks <> Ok s.
  Proof. intros H. apply load_first in H as (pre & b & post & _ & _ & E). destruct b as [b|]; [|done]. cbn [rbind] in E. by apply magnetic_never in E. Qed.
End Sites.

(** ** Examples *)
Definition op_id : operation := fun a => a.
Definition op_inv : operation := fun a => Vec (- vx a) (- vy a) (- vz a).
Lemma inversion_group : space_group [op_id; op_inv].
Proof.
  assert (Hi : forall a b, same a b -> same (op_inv a) (op_inv b)).
  { intros a b ([[i j] k] & E1 & E2 & E3). exists (- i, - j, - k)%Z. unfold shifted, op_inv in *. cbn [vx vy vz] in *. rewrite !inject_Z_opp. unfold equal. cbn [vx vy vz]. rewrite E1, E2, E3. repeat split; ring. }
  assert (Hii : forall a, same (op_inv (op_inv a)) a).
  { intros a. exists (0, 0, 0)%Z. unfold equal, shifted, op_inv. cbn. repeat split; ring. }
  constructor.
  - intros op a b Hop H. apply elem_of_cons in Hop as [->|Hop]; [done|]. apply elem_of_list_singleton in Hop as ->. by apply Hi.
  - exists op_id. split; [by left|]. intros a. apply same_refl.
  - intros op op' H H'. apply elem_of_cons in H as [->|H]; [exists op'; split; [done|]; intros a; apply same_refl|]. apply elem_of_list_singleton in H as ->.
    apply elem_of_cons in H' as [->|H']; [exists op_inv; split; [right; by left|]; intros a; apply same_refl|]. apply elem_of_list_singleton in H' as ->.
    exists op_id. split; [by left|]. exact Hii.
  - intros op H. exists op. split; [done|]. apply elem_of_cons in H as [->|H]; [intros a; apply same_refl|]. apply elem_of_list_singleton in H as ->. exact Hii.
Qed.
Definition p0 : vec := Vec 0 0 0.
Definition p1 : vec := Vec (1 # 4) 0 0.
Definition p2 : vec := Vec (3 # 4) 0 0.
Definition cif_tol : Q := 1 # 10000.
(** Sodium and potassium share a position that is not fixed by the inversion; chlorine is at the centre. *)
Definition good_block : block :=
  Block [op_id; op_inv] [Row "Na1" (Some "Na") p1 (1 # 2); Row "K1" (Some "K") p1 (1 # 2); Row "Cl1" (Some "Cl") p0 1; Row "?" None p2 1].
Definition twice_block : block := Block [op_id; op_inv] [Row "Na1" (Some "Na") p1 (1 # 2); Row "K1" (Some "K") p2 (1 # 2)].
Lemma decide_within tol a b : near tol a b = false -> ~ within tol a b.
Proof. apply near_false. Qed.
Lemma separated_check ops tol xs : 0 < tol ->
  (forall x y op op', x ∈ xs -> y ∈ xs -> op ∈ ops -> op' ∈ ops -> same (op x) (op' y) \/ near tol (op x) (op' y) = false) -> separated ops tol xs.
Proof. intros Ht H. split; [done|]. intros x y op op' Hx Hy Ho Ho' Hw. destruct (H x y op op' Hx Hy Ho Ho') as [|Hn]; [done|]. by apply near_false in Hn. Qed.
Ltac in_list := repeat match goal with
  | H : _ ∈ [] |- _ => by apply elem_of_nil in H
  | H : _ ∈ _ :: _ |- _ => apply elem_of_cons in H as [->|H] end.
Ltac same_here := first [right; vm_compute; reflexivity
  | left; exists (0, 0, 0)%Z; vm_compute; done | left; exists (1, 0, 0)%Z; vm_compute; done | left; exists (-1, 0, 0)%Z; vm_compute; done].
Lemma good_rows : rows_read (b_rows good_block) = [Row "Na1" (Some "Na") p1 (1 # 2); Row "K1" (Some "K") p1 (1 # 2); Row "Cl1" (Some "Cl") p0 1].
Proof. reflexivity. Qed.
Lemma twice_rows : rows_read (b_rows twice_block) = [Row "Na1" (Some "Na") p1 (1 # 2); Row "K1" (Some "K") p2 (1 # 2)].
Proof. reflexivity. Qed.
Lemma good_separated : separated (b_operations good_block) cif_tol (map row_coord (rows_read (b_rows good_block))).
Proof. rewrite good_rows. apply separated_check; [done|]. intros x y op op' Hx Hy Ho Ho'. cbn in Hx, Hy, Ho, Ho'. in_list; same_here. Qed.
Lemma twice_separated : separated (b_operations twice_block) cif_tol (map row_coord (rows_read (b_rows twice_block))).
Proof. rewrite twice_rows. apply separated_check; [done|]. intros x y op op' Hx Hy Ho Ho'. cbn in Hx, Hy, Ho, Ho'. in_list; same_here. Qed.
Lemma apart (op : operation) a b : near cif_tol (op a) b = false -> ~ same (op a) b.
Proof. intros H E. apply near_false in H. by apply H, same_within. Qed.
Lemma good_once : written_once (b_operations good_block) (b_rows good_block).
Proof.
  intros r r' Hr Hr' (op & Hop & E). rewrite good_rows in Hr, Hr'. cbn in Hop. in_list; cbn [row_coord] in *; try (vm_compute; done);
  exfalso; revert E; apply apart; vm_compute; reflexivity.
Qed.
Lemma twice_not_once : ~ written_once (b_operations twice_block) (b_rows twice_block).
Proof.
  intros H. destruct (H (Row "Na1" (Some "Na") p1 (1 # 2)) (Row "K1" (Some "K") p2 (1 # 2))) as [E _]; [rewrite twice_rows; by left|rewrite twice_rows; right; by left| |by vm_compute in E].
  exists op_inv. split; [right; by left|]. exists (-1, 0, 0)%Z. vm_compute. done.
Qed.
