(** Proofs about NEB data. *)
From Coq Require Import QArith.
From Verif Require Import Py PyLemmas Json StateModel ParamModel FitFilesModel NebModel NebSpec.

Lemma omap_ext_in {A B} (f g : A -> option B) (l : list A) : (forall x, x ∈ l -> f x = g x) -> omap f l = omap g l.
Proof.
  induction l as [|x l IH]; intros H; [done|]. cbn. rewrite (H x (elem_of_list_here _ _)), IH; [done|]. intros y Hy. apply H. by right.
Qed.
Lemma omap_some {A B} (f : A -> option B) x (l : list A) y : f x = Some y -> omap f (x :: l) = y :: omap f l.
Proof. intros H. cbn. by rewrite H. Qed.

Section Neb.
  Context {M Ref S : Type}.
  Variable features : M -> option Ref -> S -> Q * Q -> result (list Z * list Q).
  Variable read : path -> dict string json -> result S.
  Variable name_of_model : M -> json.
  Notation memory := (memory (S := S)).
  Notation loader := (loader (M := M) (Ref := Ref)).
  Notation add := (add features name_of_model).
  Notation computed := (computed features).
  Notation uniform := (@uniform S).

  (** Every entry of the loader has vectors, computed from its structure, and they agree in length. *)
  Definition inv (m : memory) (l : loader) : Prop :=
    Forall (fun id => exists e r, m !! id = Some e /\ row_of e = Some r) (l_entries l)
    /\ Forall computed (rows m l) /\ uniform (rows m l).

  Lemma held_insert (m : memory) (l : loader) id x : id ∉ l_entries l -> held (<[id:=x]> m) l = held m l.
  Proof.
    intros H. apply omap_ext_in. intros y Hy. apply list_lookup_insert_ne. intros ->. done.
  Qed.
  Lemma held_app (m : memory) (l : loader) x : Forall (fun id => exists (e : entry) (r : row), m !! id = Some e /\ row_of e = Some r) (l_entries l) ->
    held (m ++ [x]) l = held m l.
  Proof.
    intros H. apply omap_ext_in. intros y Hy. rewrite Forall_forall in H. destruct (H y Hy) as (e & r & E & _). rewrite E. by apply lookup_app_l_Some.
  Qed.
  Lemma entries_app (m : memory) (l : loader) x : Forall (fun id => exists (e : entry) (r : row), m !! id = Some e /\ row_of e = Some r) (l_entries l) ->
    Forall (fun id => exists (e : entry) (r : row), (m ++ [x]) !! id = Some e /\ row_of e = Some r) (l_entries l).
  Proof.
    intros H. eapply Forall_impl; [exact H|]. intros id (e & r & H1 & H2). exists e, r. split; [|done]. by apply lookup_app_l_Some.
  Qed.
  Lemma inv_app (m : memory) (l : loader) x : inv m l -> inv (m ++ [x]) l /\ rows (m ++ [x]) l = rows m l.
  Proof.
    intros (H1 & H2 & H3). assert (E : rows (m ++ [x]) l = rows m l) by (unfold rows; by rewrite held_app). split; [|done].
    split; [by apply entries_app|]. by rewrite E.
  Qed.
  Lemma fresh (m : memory) (l : loader) : inv m l -> length m ∉ l_entries l.
  Proof.
    intros (H & _) Hin. rewrite Forall_forall in H. destruct (H _ Hin) as (e & r & He & _). apply lookup_lt_Some in He. lia.
  Qed.
  Lemma omap_app_one {A B} (f : A -> option B) (l : list A) x y : f x = Some y -> omap f (l ++ [x]) = omap f l ++ [y].
  Proof. intros H. rewrite omap_app. cbn. by rewrite H. Qed.
  Lemma rows_hd (m : memory) (l : loader) id ids : inv m l -> l_entries l = id :: ids ->
    exists e r rs, m !! id = Some e /\ row_of e = Some r /\ rows m l = r :: rs.
  Proof.
    intros (H & _) E. unfold rows, held. rewrite E in H |- *. apply Forall_inv in H as (e & r & H1 & H2).
    exists e, r, (omap row_of (omap (fun id => m !! id) ids)). split; [done|]. split; [done|]. rewrite (omap_some (fun i => m !! i) id _ e H1). by rewrite (omap_some row_of e _ r H2).
  Qed.

  Lemma add_step (m : memory) (l : loader) id a m' l' r : inv m l -> id ∉ l_entries l -> add m l id a = (m', l', r) ->
    inv m' l' /\ match r with
                 | Ok _ => exists e model occ corr, m !! id = Some e /\ either (h_model a) (l_model l) = Some model
                     /\ features model (either (h_reference a) (l_reference l)) (e_structure e) (h_tol a) = Ok (occ, corr)
                     /\ rows m' l' = rows m l ++ [Row (e_structure e) (e_value e) (e_metadata e) occ corr]
                     /\ l_reference l' = l_reference l /\ l_model l' = Some model
                 | Err _ => l' = l /\ rows m' l' = rows m l
                 end.
  Proof.
    intros Hinv Hid. unfold NebModel.add. destruct (h_exclude a); [intros [= <- <- <-]; done|].
    destruct (m !! id) as [e|] eqn:He; [|intros [= <- <- <-]; done].
    destruct (either (h_model a) (l_model l)) as [model|] eqn:Em; [|intros [= <- <- <-]; done].
    destruct (features model _ (e_structure e) (h_tol a)) as [[occ corr]|x] eqn:Ef; [|intros [= <- <- <-]; done].
    set (e' := Entry (e_structure e) (e_value e) (Some (occ, corr)) (e_metadata e)).
    assert (Hheld : held (<[id:=e']> m) l = held m l) by by apply held_insert.
    assert (Hrows : rows (<[id:=e']> m) l = rows m l) by (unfold rows; by rewrite Hheld).
    assert (Hkeep : Forall (fun i => exists (x : entry) (r : row), <[id:=e']> m !! i = Some x /\ row_of x = Some r) (l_entries l)).
    { destruct Hinv as (H & _). rewrite Forall_forall in H |- *. intros i Hi. destruct (H i Hi) as (x & r' & H1 & H2). exists x, r'. split; [|done].
      etransitivity; [apply list_lookup_insert_ne|exact H1]. intros ->. done. }
    assert (Hinv' : inv (<[id:=e']> m) l). { split; [done|]. rewrite Hrows. apply Hinv. }
    match goal with |- (if ?b then _ else _) = _ -> _ => destruct b eqn:Eb end; intros [= <- <- <-]; [|done].
    assert (Hat : <[id:=e']> m !! id = Some e') by (apply list_lookup_insert; exact (lookup_lt_Some _ _ _ He)).
    assert (Hnew : rows (<[id:=e']> m) (Loader (l_entries l ++ [id]) (Some model) (l_reference l) (Some (name_of_model model)))
      = rows m l ++ [Row (e_structure e) (e_value e) (e_metadata e) occ corr]).
    { rewrite <-Hrows. unfold rows, held. cbn [l_entries]. rewrite (omap_app_one (fun i => <[id:=e']> m !! i) _ id e' Hat). by rewrite (omap_app_one row_of _ e' _ eq_refl). }
    split; [|exists e, model, occ, corr; done].
    split; [|rewrite Hnew; split].
    - cbn [l_entries]. apply Forall_app. split; [done|]. constructor; [|done]. exists e'. eexists. split; [done|reflexivity].
    - apply Forall_app. split; [apply Hinv|]. constructor; [|done]. exists model, (either (h_reference a) (l_reference l)), (h_tol a). done.
    - destruct (l_entries l) as [|first others] eqn:El.
      { assert (rows m l = []) as -> by (unfold rows, held; by rewrite El). intros r1 r2 H1 H2. cbn in H1, H2.
        apply elem_of_list_singleton in H1 as ->. apply elem_of_list_singleton in H2 as ->. done. }
      destruct (rows_hd _ _ first others Hinv' El) as (x & r & rs & H1 & H2 & H3). rewrite Hrows in H3. rewrite H1 in Eb.
      destruct x as [xs xv [[xo xc]|] xm]; [|done]. injection H2 as <-. cbn in Eb. apply andb_true_iff in Eb as [E1 E2].
      apply Nat.eqb_eq in E1, E2. destruct Hinv as (_ & _ & Hu). rewrite H3 in Hu |- *.
      assert (Hall : forall q, q ∈ (Row xs xv xm xo xc :: rs) ++ [Row (e_structure e) (e_value e) (e_metadata e) occ corr] ->
        length (r_occupation q) = length xo /\ length (r_correlation q) = length xc).
      { intros q Hq. apply elem_of_app in Hq as [Hq|Hq]; [exact (Hu q _ Hq (elem_of_list_here _ _))|]. by apply elem_of_list_singleton in Hq as ->. }
      intros q1 q2 Q1 Q2. destruct (Hall q1 Q1), (Hall q2 Q2). split; congruence.
  Qed.
  Notation add_structure := (add_structure features read name_of_model).
  Notation add_each := (add_each features read name_of_model).
  Notation add_structures := (add_structures features read name_of_model).

  Lemma add_structure_step (m : memory) (l : loader) x value metadata a kw m' l' r : inv m l ->
    add_structure m l x value metadata a kw = (m', l', r) ->
    inv m' l' /\ match r with
                 | Ok _ => exists row, rows m' l' = rows m l ++ [row] /\ row_from read kw (x, value, metadata) row
                     /\ (exists model, either (h_model a) (l_model l) = Some model
                          /\ features model (either (h_reference a) (l_reference l)) (r_structure row) (h_tol a) = Ok (r_occupation row, r_correlation row)
                          /\ l_model l' = Some model)
                     /\ l_reference l' = l_reference l
                 | Err _ => l' = l /\ rows m' l' = rows m l
                 end.
  Proof.
    intros Hinv. unfold NebModel.add_structure. destruct (from_structure read x value metadata kw) as [e|e] eqn:Ee; [|intros [= <- <- <-]; done].
    destruct (inv_app m l e Hinv) as [Hinv' Hrows]. intros H.
    assert (Hf : length m ∉ l_entries l) by by apply fresh. destruct (add_step _ _ _ _ _ _ _ Hinv' Hf H) as [Hi Hr]. split; [done|]. rewrite Hrows in Hr.
    destruct r as [u|er]; [|done]. destruct Hr as (e0 & model & occ & corr & H1 & H2 & H3 & H4 & H5 & H6).
    assert (E0 : (m ++ [e]) !! length m = Some e) by exact (list_lookup_middle m [] e (length m) eq_refl). pose proof (eq_trans (eq_sym H1) E0) as E2. injection E2 as ->. rewrite H4. eexists. split; [reflexivity|].
    unfold from_structure in Ee. apply rbind_ok in Ee as ([s md] & E1 & E2). injection E2 as <-. split.
    - unfold row_from. cbn. split; [done|]. unfold load_source in E1. cbv zeta in E1.
      destruct x as [s0|pth].
      + destruct kw; [|done]. by injection E1 as -> <-.
      + apply rbind_ok in E1 as (s1 & Hread & E1). injection E1 as -> <-. split; [done|].
        eexists. split; [reflexivity|]. unfold setdefault.
        destruct (dget (match metadata with Some d => d | None => [] end) "structure_file") as [v0|] eqn:Ed.
        * rewrite Ed. by split_and!.
        * rewrite dget_dset_eq. split; [|done]. intros k Hk. by apply dget_dset_ne.
    - split; [|done]. by exists model.
  Qed.
  Lemma add_each_step items : forall (m : memory) (l : loader) a kw m' l' r, inv m l -> add_each m l items a kw = (m', l', r) ->
    inv m' l' /\ l_reference l' = l_reference l /\ exists taken new, taken `prefix_of` items /\ rows m' l' = rows m l ++ new /\ Forall2 (row_from read kw) taken new
      /\ (forall model, either (h_model a) (l_model l) = Some model -> Forall (fun row =>
            features model (either (h_reference a) (l_reference l)) (r_structure row) (h_tol a) = Ok (r_occupation row, r_correlation row)) new)
      /\ match r with Ok _ => taken = items | Err _ => length taken < length items end.
  Proof.
    induction items as [|[[x value] md] items IH]; intros m l a kw m' l' r Hinv.
    - intros [= <- <- <-]. split; [done|]. split; [done|]. exists [], []. rewrite app_nil_r. repeat split; try done; by constructor.
    - cbn [NebModel.add_each]. destruct (add_structure m l x value md a kw) as [[m1 l1] [u|e]] eqn:E1.
      + intros H. destruct (add_structure_step _ _ _ _ _ _ _ _ _ _ Hinv E1) as [Hinv1 (row & R1 & R2 & (model & R3 & R4 & R5) & R6)].
        destruct (IH _ _ _ _ _ _ _ Hinv1 H) as (Hi & Hl & taken & new & H1 & H2 & H3 & H4 & H5). split; [done|]. split; [congruence|].
        exists ((x, value, md) :: taken), (row :: new). rewrite H2, R1, <-app_assoc. split; [by apply prefix_cons|]. split; [done|].
        split; [by constructor|]. split; [|destruct r; [by rewrite H5|cbn; lia]].
        intros model' Hm. rewrite R3 in Hm. injection Hm as <-. constructor; [done|]. rewrite R6 in H4. apply H4. rewrite R5. destruct (h_model a); [|done]. by cbn in R3 |- *.
      + intros [= <- <- <-]. destruct (add_structure_step _ _ _ _ _ _ _ _ _ _ Hinv E1) as [Hinv1 (-> & R2)]. split; [done|]. split; [done|].
        exists [], []. rewrite app_nil_r. split; [apply prefix_nil|]. split; [done|]. split; [constructor|]. split; [by constructor|]. cbn. lia.
  Qed.
  Lemma add_structures_step (m : memory) (l : loader) structures values metadata a kw m' l' r : inv m l ->
    add_structures m l structures values metadata a kw = (m', l', r) ->
    inv m' l' /\ l_reference l' = l_reference l /\ exists taken new,
      let items := zip (zip structures values) (match metadata with Some ms => ms | None => repeat None (length structures) end) in
      taken `prefix_of` items /\ rows m' l' = rows m l ++ new /\ Forall2 (row_from read kw) taken new
      /\ (forall model, either (h_model a) (l_model l) = Some model -> Forall (fun row =>
            features model (either (h_reference a) (l_reference l)) (r_structure row) (h_tol a) = Ok (r_occupation row, r_correlation row)) new)
      /\ match r with
         | Ok _ => taken = items /\ length items = length structures /\ length structures = length values
         | Err _ => taken <> items \/ length structures <> length values \/ exists ms, metadata = Some ms /\ length ms <> length structures
         end.
  Proof.
    intros Hinv. unfold NebModel.add_structures. destruct (Nat.eqb_spec (length structures) (length values)) as [E|E]; cbn [negb].
    2:{ intros [= <- <- <-]. split; [done|]. split; [done|]. exists [], []. rewrite app_nil_r. split; [apply prefix_nil|]. split; [done|]. split; [constructor|].
        split; [by constructor|]. by right; left. }
    assert (Hmain : forall ms, length ms = length structures -> add_each m l (zip (zip structures values) ms) a kw = (m', l', r) ->
      inv m' l' /\ l_reference l' = l_reference l /\ exists taken new,
        taken `prefix_of` zip (zip structures values) ms /\ rows m' l' = rows m l ++ new /\ Forall2 (row_from read kw) taken new
        /\ (forall model, either (h_model a) (l_model l) = Some model -> Forall (fun row =>
            features model (either (h_reference a) (l_reference l)) (r_structure row) (h_tol a) = Ok (r_occupation row, r_correlation row)) new)
        /\ match r with
           | Ok _ => taken = zip (zip structures values) ms /\ length (zip (zip structures values) ms) = length structures /\ length structures = length values
           | Err _ => taken <> zip (zip structures values) ms
           end).
    { intros ms Hl H. destruct (add_each_step _ _ _ _ _ _ _ _ Hinv H) as (H1 & H2 & taken & new & H3 & H4 & H5 & H6 & H7). split; [done|]. split; [done|].
      exists taken, new. split; [done|]. split; [done|]. split; [done|]. split; [done|]. destruct r; [|intros ->; lia]. split; [done|]. split; [|done].
      rewrite !zip_with_length. lia. }
    destruct metadata as [ms|].
    - destruct (Nat.eqb_spec (length ms) (length structures)) as [E'|E']; cbn [negb].
      + intros H. destruct (Hmain ms E' H) as (H1 & H2 & taken & new & H3 & H4 & H5 & H6 & H7). split; [done|]. split; [done|]. exists taken, new.
        repeat (split; [done|]). destruct r; [done|by left].
      + intros [= <- <- <-]. split; [done|]. split; [done|]. exists [], []. rewrite app_nil_r. split; [apply prefix_nil|]. split; [done|]. split; [constructor|].
        split; [by constructor|]. right; right. by exists ms.
    - intros H. destruct (Hmain _ (repeat_length _ _) H) as (H1 & H2 & taken & new & H3 & H4 & H5 & H6 & H7). split; [done|]. split; [done|]. exists taken, new.
      repeat (split; [done|]). destruct r; [done|by left].
  Qed.

  Notation reached := (reached features read name_of_model).
  Lemma inv_new model reference (l : loader) : new_loader name_of_model model reference None = Ok l -> inv [] l /\ rows ([] : memory) l = [] /\ l_entries l = []
    /\ l_model l = model /\ l_reference l = reference.
  Proof. intros [= <-]. split; [|done]. split; [constructor|]. split; [constructor|]. intros r r' H. by apply elem_of_nil in H. Qed.
  Lemma inv_perform (m : memory) (l : loader) c m' l' r : inv m l -> (forall id a, c = Add id a -> id ∉ l_entries l) ->
    perform features read name_of_model m l c = (m', l', r) -> inv m' l'.
  Proof.
    intros Hinv Hc. destruct c as [x v md kw|id a|x v md a kw|ss vs md a kw]; cbn [perform].
    - destruct (from_structure read x v md kw); intros [= <- <- <-]; [|done]. by apply inv_app.
    - intros H. by eapply add_step; eauto.
    - intros H. by eapply add_structure_step; eauto.
    - intros H. by eapply add_structures_step; eauto.
  Qed.
  Lemma reached_inv m l : reached m l -> inv m l.
  Proof. induction 1; [by eapply inv_new|by eapply inv_perform; eauto]. Qed.

  Lemma rows_length (m : memory) (l : loader) : inv m l -> length (rows m l) = length (l_entries l).
  Proof.
    intros (H & _). unfold rows, held. induction H as [|id ids (e & r & H1 & H2) _ IH]; [done|].
    rewrite (omap_some (fun i => m !! i) id _ e H1), (omap_some row_of e _ r H2). cbn [length]. by rewrite IH.
  Qed.
  Lemma held_rows (m : memory) (l : loader) : inv m l -> Forall2 (fun e r => row_of e = Some r) (held m l) (rows m l).
  Proof.
    intros (H & _). unfold rows, held. induction H as [|id ids (e & r & H1 & H2) _ IH]; [constructor|].
    rewrite (omap_some (fun i => m !! i) id _ e H1), (omap_some row_of e _ r H2). by constructor.
  Qed.
  Lemma np_table_same {A} (rs : list (list A)) : (forall r r', r ∈ rs -> r' ∈ rs -> length r = length r') -> np_table rs = Ok rs.
  Proof.
    intros H. unfold np_table. destruct rs as [|r rs]; [done|]. assert (E : forallb (fun x => Nat.eqb (length x) (length r)) (r :: rs) = true); [|by rewrite E].
    apply forallb_forall. intros x Hx. apply Nat.eqb_eq. apply H; [by apply elem_of_list_In|by left].
  Qed.
  Lemma tables (m : memory) (l : loader) : inv m l -> l_entries l <> [] ->
    get_correlation_matrix m l = Ok (map r_correlation (rows m l))
    /\ get_occupation_matrix m l = Ok (map r_occupation (rows m l))
    /\ get_properties m l = Ok (map r_value (rows m l)).
  Proof.
    intros Hinv Hne.
    assert (Hp : map e_value (held m l) = map r_value (rows m l)).
    { induction (held_rows m l Hinv) as [|e r es rs H _ IH]; [done|]. cbn [map]. rewrite IH. unfold row_of in H.
      destruct (e_vectors e) as [[occ corr]|]; [|done]. by injection H as <-. }
    assert (Hv : vectors m l = Ok (map (fun r => (r_occupation r, r_correlation r)) (rows m l))).
    { clear Hp. unfold vectors. induction (held_rows m l Hinv) as [|e r es rs H _ IH]; [done|]. cbn [rmapM map]. unfold row_of in H.
      destruct (e_vectors e) as [[occ corr]|]; [|done]. injection H as <-. cbn. by rewrite IH. }
    destruct Hinv as (_ & _ & Hu).
    unfold get_correlation_matrix, get_occupation_matrix, get_properties. destruct (l_entries l); [done|]. rewrite Hv, Hp. cbn [rbind]. rewrite !map_map. cbn.
    split; [|split; [|done]]; apply np_table_same; intros a b Ha Hb; apply elem_of_list_In, in_map_iff in Ha as (ra & <- & Ha);
      apply elem_of_list_In, in_map_iff in Hb as (rb & <- & Hb); apply elem_of_list_In in Ha, Hb; by apply Hu.
  Qed.
  Lemma metadata_rows (m : memory) (l : loader) : inv m l -> map e_metadata (held m l) = map r_metadata (rows m l).
  Proof.
    intros Hinv. induction (held_rows m l Hinv) as [|e r es rs H _ IH]; [done|]. cbn [map]. rewrite IH. unfold row_of in H.
    destruct (e_vectors e) as [[occ corr]|]; [|done]. by injection H as <-.
  Qed.

  Lemma written_data p (m : memory) (l : loader) fs : inv m l -> l_entries l <> [] ->
    exists fs', loader_to p m l fs = (fs', Ok tt) /\ loadfn p fs' = Ok (JObj
      [("correlation_matrix", JList (map (fun r => JList (map JFloat (r_correlation r))) (rows m l)));
       ("occupation_matrix", JList (map (fun r => JList (map JInt (r_occupation r))) (rows m l)));
       ("properties", JList (map (fun r => JFloat (r_value r)) (rows m l)));
       ("metadata", JList (map (fun r => JObj (match r_metadata r with Some d => d | None => [] end)) (rows m l)));
       ("n_structures", JInt (Z.of_nat (length (rows m l))));
       ("model_name", match l_name l with Some n => n | None => JStr "unknown" end)]%string)
      /\ forall q, q <> p -> dget fs' q = dget fs q.
  Proof.
    intros Hinv Hne. destruct (tables m l Hinv Hne) as (E1 & E2 & E3). unfold loader_to, data_payload. rewrite E1, E2, E3. cbn [rbind].
    eexists. split; [reflexivity|]. split; [|intros q Hq; by rewrite dget_dset_ne].
    unfold loadfn. rewrite dget_dset_eq. rewrite (rows_length m l Hinv), !map_map.
    rewrite <-(map_map e_metadata (fun o => JObj (match o with Some d => d | None => [] end))), (metadata_rows m l Hinv), map_map. done.
  Qed.

  Lemma squeeze_matrix (t : list (list Q)) n : 2 <= length t -> 2 <= n -> (forall r, r ∈ t -> length r = n) -> squeeze t = Matrix t.
  Proof.
    intros H2 Hn Hl. destruct t as [|r1 [|r2 t]]; cbn in H2; try lia. unfold squeeze. pose proof (Hl r1 (elem_of_list_here _ _)) as E.
    destruct r1 as [|q1 [|q2 r1]]; cbn in E; try lia. done.
  Qed.
  Lemma squeeze_vector (l : list Q) : 2 <= length l -> squeeze (map (fun q => [q]) l) = Vector l.
  Proof.
    intros H. assert (E : forall k : list Q, forallb (fun row => Nat.eqb (length row) 1) (map (fun q => [q]) k) = true /\ concat (map (fun q => [q]) k) = k).
    { induction k as [|x k [IH1 IH2]]; [done|]. cbn. by rewrite IH2. }
    destruct l as [|x [|y l]]; cbn in H; try lia. destruct (E (x :: y :: l)) as [E1 E2]. unfold squeeze. cbn [map] in *. by rewrite E1, E2.
  Qed.
  Lemma filter_all {A} (f : A -> bool) (l : list A) : (forall x, x ∈ l -> f x = true) -> List.filter f l = l.
  Proof. induction l as [|x l IH]; intros H; [done|]. cbn. rewrite (H x (elem_of_list_here _ _)). f_equal. apply IH. intros y Hy. apply H. by right. Qed.
  Lemma loadtxt_saved (t : list (list Q)) n (p : path) (fs : files) : (0 < n)%nat -> (forall r, r ∈ t -> length r = n) ->
    forall fs', dget fs' p = dget (savetxt p t fs) p -> loadtxt p fs' = Ok (squeeze t).
  Proof.
    intros Hn Hl fs' E. unfold loadtxt. rewrite E. unfold savetxt. rewrite dget_dset_eq. rewrite filter_all.
    - assert (same_lengths t = true) as ->; [|done]. unfold same_lengths. destruct t as [|r t]; [done|]. apply forallb_forall. intros x Hx. apply Nat.eqb_eq.
      rewrite (Hl x), (Hl r); [done|by left|by apply elem_of_list_In].
    - intros x Hx. rewrite (Hl x Hx). destruct n; [lia|done].
  Qed.
  Lemma written_inputs corr ekra weight w ws (m : memory) (l : loader) (fs : files) n : inv m l -> NoDup [corr; ekra; weight] ->
    (2 <= length (l_entries l))%nat -> (0 < n)%nat -> (forall r, r ∈ rows m l -> length (r_correlation r) = n) -> as_weights w (length (l_entries l)) = Ok ws ->
    exists fs', write_fitting_inputs corr ekra weight w m l fs = (fs', Ok tt)
      /\ loadtxt corr fs' = Ok (squeeze (map r_correlation (rows m l))) /\ loadtxt ekra fs' = Ok (Vector (map r_value (rows m l)))
      /\ loadtxt weight fs' = Ok (Vector ws) /\ forall q, q ∉ [corr; ekra; weight] -> dget fs' q = dget fs q.
  Proof.
    intros Hinv Hd Hn Hn0 Hf Hw. pose proof (rows_length m l Hinv) as Hlen.
    assert (Hne : l_entries l <> []) by (destruct (l_entries l); [cbn in Hn; lia|done]).
    destruct (tables m l Hinv Hne) as (E1 & E2 & E3). assert (Hwl : length ws = length (l_entries l)).
    { unfold as_weights in Hw. destruct w as [q|k]; [injection Hw as <-; by rewrite repeat_length|]. destruct (Nat.eqb_spec (length k) (length (l_entries l))); [|done]. by injection Hw as <-. }
    unfold write_fitting_inputs. destruct (l_entries l) as [|i0 ids] eqn:El; [done|]. rewrite E1, E3, Hw. eexists. split; [reflexivity|].
    apply NoDup_cons in Hd as [D1 Hd]. apply NoDup_cons in Hd as [D2 _]. apply not_elem_of_cons in D1 as [D1 D1']. apply not_elem_of_cons in D1' as [D1' _]. apply not_elem_of_cons in D2 as [D2 _].
    assert (Hone : forall k : list Q, forall r, r ∈ map (fun q => [q]) k -> length r = 1%nat).
    { intros k r Hr. apply elem_of_list_In, in_map_iff in Hr as (q & <- & _). done. }
    split; [|split; [|split]].
    - rewrite (loadtxt_saved (map r_correlation (rows m l)) n corr fs Hn0); [done| |].
      + intros r Hr. apply elem_of_list_In, in_map_iff in Hr as (x & <- & Hx). apply Hf. by apply elem_of_list_In.
      + unfold savetxt at 1 2. rewrite !dget_dset_ne by congruence. done.
    - rewrite (loadtxt_saved (map (fun q => [q]) (map r_value (rows m l))) 1 ekra (savetxt corr (map r_correlation (rows m l)) fs)); [|lia|apply Hone|].
      + rewrite squeeze_vector; [done|]. rewrite map_length. lia.
      + unfold savetxt at 1. rewrite dget_dset_ne by congruence. done.
    - rewrite (loadtxt_saved (map (fun q => [q]) ws) 1 weight (savetxt ekra (map (fun q => [q]) (map r_value (rows m l))) (savetxt corr (map r_correlation (rows m l)) fs)));
        [|lia|apply Hone|done]. rewrite squeeze_vector; [done|]. rewrite Hwl. done.
    - intros q Hq. rewrite !not_elem_of_cons in Hq. destruct Hq as (Q1 & Q2 & Q3 & _). unfold savetxt. rewrite !dget_dset_ne by congruence. done.
  Qed.
  Lemma one_row corr ekra weight w (m : memory) (l : loader) (fs fs' : files) n regress loocv rmse args now : inv m l -> NoDup [corr; ekra; weight] ->
    length (rows m l) = 1%nat -> (0 < n)%nat -> (forall r, r ∈ rows m l -> length (r_correlation r) = n) ->
    write_fitting_inputs corr ekra weight w m l fs = (fs', Ok tt) -> a_corr args = corr -> a_ekra args = ekra -> a_weight args = weight ->
    exists e, compute_fit regress loocv rmse args now fs' = Err e.
  Proof.
    intros Hinv Hd Hn Hn0 Hf Hw Hc He Hg. pose proof (rows_length m l Hinv) as Hlen.
    assert (Hne : l_entries l <> []) by (destruct (l_entries l); [cbn in Hlen; lia|done]).
    destruct (tables m l Hinv Hne) as (E1 & _ & E3). apply NoDup_cons in Hd as [D1 Hd]. apply NoDup_cons in Hd as [D2 _].
    apply not_elem_of_cons in D1 as [D1 D1']. apply not_elem_of_cons in D1' as [D1' _].
    unfold write_fitting_inputs in Hw. destruct (l_entries l) as [|i0 ids]; [done|]. rewrite E1, E3 in Hw. destruct (as_weights w _) as [ws|]; [|done]. injection Hw as <-.
    unfold compute_fit. destruct (loadtxt (a_ekra args) _) as [y|]; [|by eexists]. cbn [rbind]. destruct (loadtxt (a_weight args) _) as [z|]; [|by eexists]. cbn [rbind].
    rewrite Hc. rewrite (loadtxt_saved (map r_correlation (rows m l)) n corr fs Hn0).
    - destruct (rows m l) as [|r [|r' rs]]; try (cbn in Hn; lia). cbn [map rbind]. unfold squeeze. destruct (r_correlation r) as [|q [|q' k]]; by eexists.
    - intros r Hr. apply elem_of_list_In, in_map_iff in Hr as (x & <- & Hx). apply Hf. by apply elem_of_list_In.
    - unfold savetxt at 1 2. rewrite !dget_dset_ne by congruence. done.
  Qed.

  Lemma exclude_lemma (m : memory) (l : loader) id model reference species tol structures values metadata kw :
    new_loader name_of_model model reference (Some species) = Err ValueError
    /\ NebModel.add features name_of_model m l id (How model reference (Some species) tol) = (m, l, Err ValueError)
    /\ from_structures features read name_of_model m structures values metadata (How model reference (Some species) tol) kw
       = (m, Err ValueError)
    /\ forall m' l' r, structures <> [] ->
         add_structures m l structures values metadata (How model reference (Some species) tol) kw = (m', l', r) ->
         l' = l /\ r <> Ok tt.
  Proof.
    do 3 (split; [done|]). intros m' l' r Hne. unfold NebModel.add_structures.
    assert (HE : forall items, items <> [] -> NebModel.add_each features read name_of_model m l items
      (How model reference (Some species) tol) kw = (m', l', r) -> l' = l /\ r <> Ok tt).
    { intros [|[[x v] md] items] Hi; [done|]. cbn. unfold NebModel.add_structure.
      destruct (from_structure read x v md kw); cbn; by intros [= <- <- <-]. }
    destruct (Nat.eqb_spec (length structures) (length values)) as [Hl|]; cbn [negb]; [|by intros [= <- <- <-]].
    destruct structures as [|x xs]; [done|]. destruct values as [|v vs]; [done|].
    destruct metadata as [[|md ms]|]; cbn [length Nat.eqb negb]; [by intros [= <- <- <-]| |].
    - destruct (Nat.eqb (length ms) (length xs)); cbn [negb]; [|by intros [= <- <- <-]]. by apply HE.
    - by apply HE.
  Qed.
End Neb.
