(** Proofs about gathered tables. *)
From Coq Require Import QArith Qround Ascii Lia Lqa Sorted Permutation.
From Verif Require Import Py PyLemmas Json MatcherModel CallbackModel CallbackSpec CallbackProofs GuiModel TrackerModel TrackerProofs
  TransportModel LocalEnvProofs GatherModel GatherSpec.
Local Open Scope string_scope.

Lemma app_cons c (s t : string) : String c s ++ t = String c (s ++ t).
Proof. reflexivity. Qed.
Lemma app_assoc_s (a b c : string) : (a ++ b) ++ c = a ++ (b ++ c).
Proof. induction a as [|x a IH]; [reflexivity|]. rewrite !app_cons, IH. reflexivity. Qed.
Lemma app_nil_s (a : string) : a ++ "" = a.
Proof. induction a as [|x a IH]; [reflexivity|]. rewrite app_cons, IH. reflexivity. Qed.
Lemma prefix_app a s : String.prefix a s = true -> exists v, s = a ++ v.
Proof.
  revert s. induction a as [|x a IH]; intros s H; [by exists s|].
  destruct s as [|y s]; [done|]. cbn [String.prefix] in H. destruct (Ascii.ascii_dec x y) as [->|]; [|done].
  destruct (IH _ H) as [v ->]. exists v. by rewrite app_cons.
Qed.
Lemma app_prefix a v : String.prefix a (a ++ v) = true.
Proof. induction a as [|x a IH]; [by destruct v|]. rewrite app_cons. cbn [String.prefix]. destruct (Ascii.ascii_dec x x); [exact IH|done]. Qed.

(** The suffix begins nowhere earlier. *)
Lemma suffix_first x w v : String x w ++ ".csv.gz" = ".csv.gz" ++ v -> exists v', String x w = ".csv.gz" ++ v'.
Proof.
  intros H. rewrite !app_cons in H. injection H as -> H.
  destruct w as [|x1 w]; [cbn in H; discriminate|]. rewrite !app_cons in H. injection H as -> H.
  destruct w as [|x2 w]; [cbn in H; discriminate|]. rewrite !app_cons in H. injection H as -> H.
  destruct w as [|x3 w]; [cbn in H; discriminate|]. rewrite !app_cons in H. injection H as -> H.
  destruct w as [|x4 w]; [cbn in H; discriminate|]. rewrite !app_cons in H. injection H as -> H.
  destruct w as [|x5 w]; [cbn in H; discriminate|]. rewrite !app_cons in H. injection H as -> H.
  destruct w as [|x6 w]; [cbn in H; discriminate|]. rewrite !app_cons in H. injection H as -> H.
  by exists w.
Qed.
Lemma before_suffix w : (forall u v, w <> u ++ ".csv.gz" ++ v) -> before ".csv.gz" (w ++ ".csv.gz") = w.
Proof.
  induction w as [|x w IH]; intros H; [reflexivity|].
  assert (Hp : String.prefix ".csv.gz" (String x w ++ ".csv.gz") = false).
  { apply not_true_is_false. intros Hp. destruct (prefix_app _ _ Hp) as [v Hv]. destruct (suffix_first _ _ _ Hv) as [v' Hv'].
    by apply (H "" v'). }
  rewrite app_cons in *. cbn [before]. rewrite Hp, IH; [done|]. intros u v ->. by apply (H (String x u) v).
Qed.

Section Kmc.
  Context (parse_float : string -> result Q) (parse_int : string -> result Z).
  Notation labels := (labels parse_float parse_int).
  Lemma labels_parts name a c n rest : split_all "_" name = a :: c :: n :: rest ->
    labels name = (let* x := parse_float c in let* i := parse_int n in Ok (x, i)).
  Proof. intros H. unfold GatherModel.labels. rewrite H. reflexivity. Qed.
  Lemma named_labels name x i : named parse_float parse_int name x i -> labels name = Ok (x, i).
  Proof.
    intros (a & c & n & -> & H & Hx & Hi). rewrite (labels_parts _ a c n []).
    - by rewrite Hx; cbn; rewrite Hi.
    - apply (split_all_joined "_" [a; c; n]); [done|exact H].
  Qed.
  Lemma labels_short name l : name = joined "_" l -> l <> [] -> Forall (without "_") l -> length l <= 2 -> exists e, labels name = Err e.
  Proof.
    intros -> Hl HF Hn. unfold GatherModel.labels. rewrite split_all_joined by done.
    destruct l as [|a [|b [|]]]; [done| | |cbn in Hn; lia]; cbn; [by eexists|]. destruct (parse_float b); by eexists.
  Qed.
  Lemma labels_long a c n rest x i : Forall (without "_") [a; c; n] -> parse_float c = Ok x -> parse_int n = Ok i ->
    labels (a ++ "_" ++ c ++ "_" ++ n ++ "_" ++ rest) = Ok (x, i).
  Proof.
    intros H Hx Hi. inversion_clear H as [|? ? Ha H']. inversion_clear H' as [|? ? Hc H]. inversion_clear H as [|? ? Hn _].
    rewrite (labels_parts _ a c n (split_all "_" rest)).
    - by rewrite Hx; cbn; rewrite Hi.
    - change (a ++ "_" ++ c ++ "_" ++ n ++ "_" ++ rest) with (a ++ String "_" (c ++ String "_" (n ++ String "_" rest))).
      by rewrite !split_all_app by done.
  Qed.

  Context (read_csv : string -> result (list (dict string json))).
  Definition labelled (x : Q) (i : Z) (r : dict string json) : dict string json :=
    dset (dset r "comp" (JFloat x)) "structure_index" (JInt i).
  Lemma read_results_ok l x i rows : result_file parse_float parse_int read_csv l x i rows ->
    read_results parse_float parse_int read_csv l = Ok (map (labelled x i) rows).
  Proof.
    intros (name & -> & Hs & Hn & Hr). unfold read_results. rewrite before_suffix by done.
    rewrite (named_labels _ _ _ Hn). cbn [rbind fst snd]. by rewrite Hr.
  Qed.
  Lemma tables_ok locations runs :
    Forall2 (fun l run => result_file parse_float parse_int read_csv l (fst (fst run)) (snd (fst run)) (snd run)) locations runs ->
    rmapM (read_results parse_float parse_int read_csv) locations
    = Ok (map (fun run => map (labelled (fst (fst run)) (snd (fst run))) (snd run)) runs).
  Proof.
    induction 1 as [|l run ls runs H _ IH]; [done|]. cbn [rmapM map]. rewrite (read_results_ok _ _ _ _ H). cbn [rbind]. by rewrite IH.
  Qed.
  Definition numbered (kr : nat * dict string json) : dict string json := ("n_pass", JInt (Z.of_nat (fst kr))) :: snd kr.
  Lemma row_ok x i k r : dget r "n_pass" = None -> row_of_run x i k r (numbered (k, labelled x i r)).
  Proof.
    intros Hr col. unfold numbered, labelled. cbn [fst snd dget].
    destruct (decide (col = "n_pass")) as [->|H1]; [reflexivity|]. try rewrite decide_False by congruence.
    destruct (decide (col = "structure_index")) as [->|H2]; [by rewrite dget_dset_eq|]. rewrite dget_dset_ne by done.
    destruct (decide (col = "comp")) as [->|H3]; [by rewrite dget_dset_eq|]. by rewrite dget_dset_ne by done.
  Qed.
  Lemma table_ok (runs : list (Q * Z * list (dict string json))) : (forall run, run ∈ runs -> Forall (fun r => dget r "n_pass" = None) (snd run)) ->
    table_of runs (map numbered (concat (map (imap (fun k r => (k, r)))
      (map (fun run => map (labelled (fst (fst run)) (snd (fst run))) (snd run)) runs)))).
  Proof.
    induction runs as [|[[x i] rows] runs IH]; intros H; [constructor|].
    cbn [map concat fst snd]. rewrite map_app. constructor.
    - by rewrite map_length, imap_length, map_length.
    - intros k r o Hr Ho. rewrite list_lookup_fmap, list_lookup_imap, list_lookup_fmap, Hr in Ho. cbn in Ho. injection Ho as <-.
      apply row_ok. pose proof (H (x, i, rows) (elem_of_list_here _ _)) as HF. cbn in HF. rewrite Forall_lookup in HF. by apply (HF k).
    - apply IH. intros run Hrun. apply H. by right.
  Qed.
  Lemma din_labelled x i r : din (labelled x i r) "n_pass" = din r "n_pass".
  Proof. unfold din, labelled. by rewrite !dget_dset_ne by done. Qed.
  Lemma gather_ok locations runs : locations <> [] ->
    Forall2 (fun l run => result_file parse_float parse_int read_csv l (fst (fst run)) (snd (fst run)) (snd run)) locations runs ->
    (forall run, run ∈ runs -> Forall (fun r => dget r "n_pass" = None) (snd run)) ->
    exists out, gather_kmc parse_float parse_int read_csv locations = Ok out /\ table_of runs out.
  Proof.
    intros Hne H HF. unfold gather_kmc. rewrite (tables_ok _ _ H). cbn [rbind].
    destruct runs as [|run0 runs0]; [by inversion H; subst|]. cbn [map]. set (rows := concat _).
    assert (Hrows : rows = concat (map (imap (fun k (r : dict string json) => (k, r)))
      (map (fun run => map (labelled (fst (fst run)) (snd (fst run))) (snd run)) (run0 :: runs0)))) by done.
    assert (existsb (fun kr => din (snd kr) "n_pass") rows = false) as ->.
    { apply not_true_is_false. intros Hx. apply existsb_exists in Hx as ([k r] & Hin & Hd). rewrite Hrows in Hin.
      apply in_concat in Hin as (t & Ht & Hin). apply in_map_iff in Ht as (t' & <- & Ht). apply in_map_iff in Ht as (run & <- & Hrun).
      apply elem_of_list_In, elem_of_lookup_imap in Hin as (j & r' & Hjr & Hj). injection Hjr as -> ->.
      rewrite list_lookup_fmap in Hj. destruct (snd run !! j) as [r0|] eqn:Hr0; [|done]. cbn in Hj. injection Hj as <-.
      cbn [snd] in Hd. rewrite din_labelled in Hd. apply elem_of_list_In in Hrun. pose proof (HF _ Hrun) as HF0.
      rewrite Forall_lookup in HF0. unfold din in Hd. by rewrite (HF0 _ _ Hr0) in Hd. }
    eexists. split; [reflexivity|]. rewrite Hrows. exact (table_ok (run0 :: runs0) HF).
  Qed.
  Lemma rmapM_err {A B} (f : A -> result B) l x out : x ∈ l -> (exists e, f x = Err e) -> rmapM f l <> Ok out.
  Proof.
    intros Hx [e He]. revert out. induction Hx as [x l|x y l _ IH]; intros out; cbn [rmapM].
    - by rewrite He.
    - destruct (f y); [|done]. cbn [rbind]. destruct (rmapM f l) as [o|] eqn:Ho; [|done]. by destruct (IH He o).
  Qed.
  Lemma gather_err locations location name parts : location ∈ locations -> location = name ++ ".csv.gz" ->
    (forall u v, name <> u ++ ".csv.gz" ++ v) -> name = joined "_" parts -> parts <> [] -> Forall (without "_") parts -> length parts <= 2 ->
    forall out, gather_kmc parse_float parse_int read_csv locations <> Ok out.
  Proof.
    intros Hin -> Hs Hn Hp HF Hl out. unfold gather_kmc.
    destruct (rmapM (read_results parse_float parse_int read_csv) locations) as [t|] eqn:Ht; [|done]. exfalso.
    eapply rmapM_err; [exact Hin| |exact Ht]. unfold read_results. rewrite before_suffix by done.
    destruct (labels_short name parts Hn Hp HF Hl) as [e ->]. by exists e.
  Qed.
End Kmc.

(** ** Occupations *)
Lemma np_round_integer q z : (q == inject_Z z)%Q -> np_round q = z.
Proof.
  intros H. pose proof (np_round_close q) as [H1 H2].
  assert (H3 : (inject_Z (z - np_round q) <= 1 # 2)%Q) by (unfold Zminus; rewrite inject_Z_plus, inject_Z_opp; lra).
  assert (H4 : (-(1 # 2) <= inject_Z (z - np_round q))%Q) by (unfold Zminus; rewrite inject_Z_plus, inject_Z_opp; lra).
  unfold Qle, inject_Z in H3, H4. cbn in H3, H4. lia.
Qed.
Lemma close_same lattice t c : same_position c t -> close lattice t c = true.
Proof.
  intros (i & j & k & Hx & Hy & Hz). unfold close, vround, vsub. cbn [vx vy vz].
  rewrite (np_round_integer _ i), (np_round_integer _ j), (np_round_integer _ k) by lra.
  apply negb_true_iff, not_true_is_false. rewrite Qle_bool_iff. intros H.
  destruct lattice as [[a b] d]. unfold norm2, cartesian, vadd, vscale in H. cbn [vx vy vz] in H.
  assert (Ex : (vx c - vx t - inject_Z i == 0)%Q) by lra. assert (Ey : (vy c - vy t - inject_Z j == 0)%Q) by lra.
  assert (Ez : (vz c - vz t - inject_Z k == 0)%Q) by lra. setoid_rewrite Ex in H. setoid_rewrite Ey in H. setoid_rewrite Ez in H.
  assert (H' : ((1 # 1000000000000) <= 0)%Q) by (eapply Qle_trans; [exact H|]; ring_simplify; lra). by apply H'.
Qed.
Lemma close_far lattice t c : far lattice c t -> close lattice t c = false.
Proof.
  intros H. unfold close. apply negb_false_iff, Qle_bool_iff.
  pose proof (H (- np_round (vx c - vx t))%Z (- np_round (vy c - vy t))%Z (- np_round (vz c - vz t))%Z) as H'.
  change ((1 # 1000000) * (1 # 1000000))%Q with (1 # 1000000000000)%Q in H'.
  destruct lattice as [[a b] d]. unfold norm2, cartesian, vadd, vsub, vround, vscale in *. cbn [vx vy vz] in *.
  rewrite !inject_Z_opp in H'. exact H'.
Qed.
Lemma index_0 a b : text_in a b = true <-> exists u v, b = u ++ a ++ v.
Proof.
  unfold text_in. split.
  - induction b as [|x b IH]; intros H.
    + destruct a; [|done]. by exists "", "".
    + cbn [String.index] in H. destruct (String.prefix a (String x b)) eqn:Hp.
      * destruct (prefix_app _ _ Hp) as [v Hv]. by exists "", v.
      * destruct (String.index 0 a b); [|done]. destruct (IH H) as (u & v & ->). by exists (String x u), v.
  - intros (u & v & ->). induction u as [|x u IH].
    + change ("" ++ a ++ v) with (a ++ v). pose proof (app_prefix a v) as Hp. destruct (a ++ v) as [|y w].
      * cbn. by destruct a.
      * cbn [String.index]. by rewrite Hp.
    + rewrite app_cons. cbn [String.index]. destruct (String.prefix a _); [done|]. by destruct (String.index 0 a (u ++ a ++ v)).
Qed.
Lemma text_in_refl a : text_in a a = true.
Proof. apply index_0. exists "", "". by rewrite app_nil_s. Qed.

Section Occ.
  Context (lattice : vec * vec * vec) (casm template : list (string * vec)).
  Lemma occ_of_spec t : t ∈ template -> comparable lattice casm template ->
    (forall c, c ∈ casm -> ~ proper_part (fst c) (fst t)) ->
    (occ_of lattice casm t = 1 \/ occ_of lattice casm t = -1)%Z
    /\ (occ_of lattice casm t = (-1)%Z <-> exists c, c ∈ casm /\ fst c = fst t /\ same_position (snd c) (snd t)).
  Proof.
    intros Ht Hc Hp. destruct (Hc t Ht) as [Hnear Huniq]. unfold occ_of.
    assert (Hf : forall c, c ∈ List.filter (fun c => close lattice (snd t) (snd c)) casm <-> c ∈ casm /\ same_position (snd c) (snd t)).
    { intros c. rewrite !elem_of_list_In, filter_In, <- elem_of_list_In. split; intros [H1 H2]; split; try done.
      - destruct (Hnear c H1) as [|H3]; [done|]. by rewrite (close_far _ _ _ H3) in H2.
      - by apply close_same. }
    destruct (List.filter _ casm) as [|c l].
    - split; [by left|]. split; [done|]. intros (c & H1 & _ & H2). exfalso. by eapply elem_of_nil, Hf.
    - destruct (proj1 (Hf c) (elem_of_list_here _ _)) as [H1 H2].
      destruct (text_in (fst c) (fst t)) eqn:Hx.
      + split; [by right|]. split; [|done]. intros _. exists c. split; [done|]. split; [|done].
        destruct (decide (fst c = fst t)) as [|Hne]; [done|]. exfalso. apply (Hp c H1). split; [done|]. by apply index_0.
      + split; [by left|]. split; [done|]. intros (c' & H3 & H4 & H5).
        by rewrite (Huniq c c'), H4, text_in_refl in Hx.
  Qed.
End Occ.

Section Mc.
  Context (read_structure : string -> result crystal).
  Lemma get_occ_ok file template s : read_structure file = Ok s ->
    let casm := List.filter (fun c => negb (framework (fst c))) (c_sites s) in
    comparable (c_lattice template) casm (c_sites template) ->
    (forall c t, c ∈ casm -> t ∈ c_sites template -> ~ proper_part (fst c) (fst t)) ->
    exists occ, get_occ read_structure file template = Ok occ /\ length occ = length (c_sites template)
      /\ forall j t, c_sites template !! j = Some t -> exists o, occ !! j = Some o /\ (o = 1 \/ o = -1)%Z
           /\ (o = (-1)%Z <-> exists c, c ∈ casm /\ fst c = fst t /\ same_position (snd c) (snd t)).
  Proof.
    intros Hr casm Hc Hp. unfold get_occ. rewrite Hr. cbn [rbind]. eexists. split; [reflexivity|]. split; [by rewrite map_length|].
    intros j t Ht. exists (occ_of (c_lattice template) casm t). split; [rewrite list_lookup_fmap, Ht; reflexivity|].
    apply occ_of_spec with (template := c_sites template); [by eapply elem_of_list_lookup_2|done|].
    intros c Hin. apply Hp; [done|by eapply elem_of_list_lookup_2].
  Qed.
  Context (parse_float : string -> result Q) (parse_int : string -> result Z).
  Lemma mc_leb_total a b : mc_leb a b = true \/ mc_leb b a = true.
  Proof.
    unfold mc_leb. destruct (Qeq_bool (m_comp a) (m_comp b)) eqn:H.
    - apply Qeq_bool_sym in H. rewrite H. destruct (Z.leb_spec (m_index a) (m_index b)); [by left|]. right. apply Z.leb_le. lia.
    - assert (Qeq_bool (m_comp b) (m_comp a) = false) as ->.
      { apply not_true_is_false. intros H'. apply Qeq_bool_sym in H'. congruence. }
      destruct (Qlt_le_dec (m_comp a) (m_comp b)); [left|right]; apply Qle_bool_iff; lra.
  Qed.
  Lemma mc_leb_spec a b : mc_leb a b = true <-> mc_before a b.
  Proof.
    unfold mc_leb, mc_before. destruct (Qeq_bool (m_comp a) (m_comp b)) eqn:H.
    - apply Qeq_bool_iff in H. rewrite Z.leb_le. split; [intros; by right|]. intros [H'|[_ H']]; [lra|done].
    - assert (~ (m_comp a == m_comp b)%Q) by (intros H'; apply Qeq_bool_iff in H'; congruence).
      rewrite Qle_bool_iff. split; [intros; left; lra|]. intros [H'|[H' _]]; [lra|done].
  Qed.
  Lemma mc_leb_trans a b c : mc_leb a b = true -> mc_leb b c = true -> mc_leb a c = true.
  Proof.
    rewrite !mc_leb_spec. unfold mc_before. intros [|[H1 H2]] [|[H3 H4]]; [left; lra..|]. right. split; [lra|lia].
  Qed.
  Lemma insert_perm {A} (leb : A -> A -> bool) x l : Permutation (insert leb x l) (x :: l).
  Proof.
    induction l as [|y l IH]; [done|]. cbn [insert]. destruct (leb x y); [done|].
    rewrite IH. apply perm_swap.
  Qed.
  Lemma sorted_perm {A} (leb : A -> A -> bool) l : Permutation (sorted leb l) l.
  Proof. induction l as [|x l IH]; [done|]. cbn [sorted fold_right]. rewrite insert_perm. by constructor. Qed.
  Lemma gather_mc_ok locations template rows : locations <> [] ->
    Forall2 (fun l row => run_directory parse_float parse_int l (m_comp row) (m_index row)
      /\ get_occ read_structure (final_structure l) template = Ok (m_occ row)) locations rows ->
    exists out, gather_mc parse_float parse_int read_structure locations template = Ok out
      /\ Permutation out rows /\ StronglySorted mc_before out.
  Proof.
    intros Hne H. unfold gather_mc.
    assert (H1 : rmapM (fun l => get_occ read_structure (final_structure l) template) locations = Ok (map m_occ rows)).
    { clear Hne. induction H as [|l r ls rs [_ Ho] _ IH]; [done|]. cbn [rmapM map]. rewrite Ho. cbn [rbind]. by rewrite IH. }
    assert (H2 : rmapM (fun l => labels parse_float parse_int (last_name l)) locations = Ok (map (fun r => (m_comp r, m_index r)) rows)).
    { clear Hne H1. induction H as [|l r ls rs [Hn _] _ IH]; [done|]. cbn [rmapM map]. destruct Hn as (name & Hl & Hw & Hn).
      assert (last_name l = name) as ->.
      { unfold last_name. destruct Hl as [->|[parent ->]]; [by rewrite split_last_without|].
        change (parent ++ "/" ++ name) with (parent ++ String "/" name). by rewrite split_last_app. }
      rewrite (named_labels _ _ _ _ _ Hn). cbn [rbind]. by rewrite IH. }
    destruct locations as [|l0 ls]; [done|]. rewrite H1. cbn [rbind]. rewrite H2. cbn [rbind].
    assert (zip_with (fun xi o => McRow (fst xi) (snd xi) o) (map (fun r => (m_comp r, m_index r)) rows) (map m_occ rows) = rows) as ->.
    { clear. induction rows as [|[x i o] rows IH]; [done|]. cbn. by rewrite IH. }
    eexists. split; [reflexivity|]. split; [apply sorted_perm|].
    assert (HS : StronglySorted (fun a b => mc_leb a b = true) (sorted mc_leb rows)) by
      (apply sorted_strong; [exact mc_leb_total|exact mc_leb_trans]).
    revert HS. generalize (sorted mc_leb rows). induction 1 as [|a l HS IH HF]; [constructor|]. constructor; [done|].
    eapply Forall_impl; [exact HF|]. intros b. apply mc_leb_spec.
  Qed.
End Mc.
