(** Proofs about result files. *)
From Coq Require Import QArith Ascii DecimalString Decimal.
From Verif Require Import Py PyLemmas Json StateModel PropertyModel ResultsModel ResultsSpec.
Local Open Scope list_scope.

Lemma uint_no_underscore d : "_"%char ∉ chars (NilEmpty.string_of_uint d).
Proof.
  unfold chars. induction d; cbn [NilEmpty.string_of_uint list_ascii_of_string]; [apply not_elem_of_nil|..];
    (apply not_elem_of_cons; split; [done|exact IHd]).
Qed.
Lemma int_no_underscore z : "_"%char ∉ chars (py_str_int z).
Proof.
  unfold py_str_int, NilZero.string_of_int. assert (H : forall d, "_"%char ∉ chars (NilZero.string_of_uint d)).
  { intros d. unfold NilZero.string_of_uint. destruct d; try apply uint_no_underscore. by vm_compute; intros ?%elem_of_list_singleton. }
  destruct (Z.to_int z); [apply H|]. cbn [chars list_ascii_of_string]. apply not_elem_of_cons. split; [done|apply H].
Qed.
Lemma chars_inj s s' : chars s = chars s' -> s = s'.
Proof. unfold chars. intros H. by rewrite <-(string_of_list_ascii_of_string s), H, string_of_list_ascii_of_string. Qed.

(** Text split at its last underscore. *)
Lemma split_last (c : ascii) (l l' r r' : path) : c ∉ r -> c ∉ r' -> l ++ c :: r = l' ++ c :: r' -> l = l' /\ r = r'.
Proof.
  revert l'. induction l as [|x l IH]; intros [|x' l'] Hr Hr' E; cbn [app] in E; injection E.
  - done.
  - intros E' <-. exfalso. apply Hr. rewrite E'. apply elem_of_app. right. by left.
  - intros E' ->. exfalso. apply Hr'. rewrite <-E'. apply elem_of_app. right. by left.
  - intros E' ->. destruct (IH l' Hr Hr' E') as [-> ->]. done.
Qed.
Lemma prefix_inj l p l' p' : trajectory_prefix l p = trajectory_prefix l' p' -> same_label l l' /\ p = p'.
Proof.
  unfold trajectory_prefix, same_label. pose proof (int_no_underscore p) as H. pose proof (int_no_underscore p') as H'.
  destruct l as [[|c l]|], l' as [[|c' l']|]; cbn [default]; intros E; try (split; [done|]; by apply py_str_int_inj, chars_inj).
  1,5: exfalso; apply H; rewrite E; apply elem_of_app; right; by left.
  1,3: exfalso; apply H'; rewrite <-E; apply elem_of_app; right; by left.
  destruct (split_last _ _ _ _ _ H H' E) as [-> E']. split; [done|]. by apply py_str_int_inj, chars_inj.
Qed.
Lemma suffix_inj l l' : suffix l = suffix l' -> same_label l l'.
Proof. unfold suffix, same_label. destruct l as [[|c l]|], l' as [[|c' l']|]; cbn [from_option]; unfold Datatypes.id; congruence. Qed.
Lemma prefix_same l p l' : same_label l l' -> trajectory_prefix l p = trajectory_prefix l' p.
Proof. unfold trajectory_prefix, same_label. destruct l as [[|c l]|], l' as [[|c' l']|]; cbn [from_option]; unfold Datatypes.id; congruence. Qed.
Lemma suffix_same l l' : same_label l l' -> suffix l = suffix l'.
Proof. unfold suffix, same_label. destruct l as [[|c l]|], l' as [[|c' l']|]; cbn [from_option]; unfold Datatypes.id; congruence. Qed.

Lemma endings_differ (a b : path) : a ++ chars ".csv.gz" <> b ++ chars ".json.gz".
Proof. intros H. apply (f_equal (@rev ascii)) in H. rewrite !rev_app_distr in H. discriminate H. Qed.

Lemma file_name_eq k l p k' l' p' : file_name k l p = file_name k' l' p' <-> k = k' /\ shares k l p l' p'.
Proof.
  unfold shares. split.
  - assert (Hends : forall a b : path, a ++ chars ".csv.gz" = b ++ chars ".json.gz" -> False) by (intros a b H; by apply endings_differ in H).
    destruct k, k'; cbn [file_name of_a_pass]; unfold displacement_file, hop_counter_file, occupation_file, results_file, units_file, properties_file;
      intros E; try discriminate E; try (rewrite !app_assoc in E; exfalso; first [exact (Hends _ _ E)|exact (Hends _ _ (eq_sym E))]);
      (split; [done|]); apply app_inv_head in E; apply app_inv_tail in E; first [by apply prefix_inj|split; [by apply suffix_inj|done]].
  - intros [<- [Hl Hp]]. destruct k; cbn [file_name of_a_pass] in *; unfold displacement_file, hop_counter_file, occupation_file, results_file, units_file, properties_file;
      first [subst p'; by rewrite (prefix_same _ _ _ Hl)|by rewrite (suffix_same _ _ Hl)].
Qed.

Section Files.
  Context {K X N : Type}.
  Variable key_text : K -> string.
  Variable sanitize : X -> result json.
  Variable repr : X -> string.
  Variable of_int : Z -> N.
  Notation run := (option path * run_data (K := K) (X := X) (N := N))%type.
  Notation write := (write_tracker_results key_text sanitize repr of_int).

  Lemma data_frame_ok (d : dict string (list N)) :
    (even d /\ data_frame d = Ok (Columns d)) \/ (~ even d /\ data_frame d = Err ValueError).
  Proof.
    unfold data_frame, even. destruct d as [|[k c] d]; [left; split; [|done]; intros c c' H; by apply elem_of_nil in H|].
    destruct (forallb _ _) eqn:E; [left|right]; (split; [|done]).
    - rewrite forallb_forall in E. assert (H : forall x, x ∈ map snd ((k, c) :: d) -> length x = length c).
      { intros x Hx. apply elem_of_list_In, in_map_iff in Hx as ([k' c'] & <- & Hin). by apply Nat.eqb_eq, (E (k', c')). }
      intros x y Hx Hy. by rewrite (H x Hx), (H y Hy).
    - intros H. apply not_true_iff_false in E. apply E, forallb_forall. intros [k' c'] Hin. apply Nat.eqb_eq, H; [|by left].
      apply elem_of_list_In, in_map_iff. by exists (k', c').
  Qed.
  Lemma payload_cases (d : dict string (list (record Q (value K X)))) :
    (exists js, stored_property_payload key_text sanitize repr d = Ok js /\ Forall2 (listed key_text sanitize repr) (concat (map snd d)) js)
    \/ (exists e, stored_property_payload key_text sanitize repr d = Err e
        /\ exists r e', r ∈ concat (map snd d) /\ to_json_safe key_text sanitize repr (r_value r) = Err e').
  Proof.
    unfold stored_property_payload, dvalues. destruct (rmapM _ _) as [js|e] eqn:E; [left; exists js|right; exists e]; (split; [done|]).
    - apply rmapM_ok in E. eapply Forall2_impl; [exact E|]. intros r j Hr. unfold stored in Hr. apply rbind_ok in Hr as (v & Hv & Hj).
      injection Hj as <-. by exists v.
    - apply rmapM_err in E as (r & Hr & He). exists r. unfold stored in He. destruct (to_json_safe key_text sanitize repr (r_value r)) as [v|e'] eqn:Ev; [done|].
      by exists e'.
  Qed.

  (** What one run writes. *)
  Definition wrote (k : kind) (d : run_data (K := K) (X := X) (N := N)) : option (output N) :=
    match k with
    | Displacement => Some (Numbers (d_displacement d))
    | HopCounter => Some (Numbers (map (fun z => [of_int z]) (d_hop_counter d)))
    | Occupations => Some (Numbers (map (fun z => [of_int z]) (d_occupations d)))
    | Results => match data_frame (d_results d) with Ok c => Some c | Err _ => None end
    | Units => match data_frame (d_results d) with Ok _ => Some (Doc (JObj (map (fun kv => (fst kv, JStr (snd kv))) (d_units d)))) | Err _ => None end
    | Properties => match data_frame (d_results d), stored_property_payload key_text sanitize repr (d_records d) with
                    | Ok _, Ok (j :: js) => Some (Doc (JList (j :: js)))
                    | _, _ => None
                    end
    end.
  Lemma wrote_leaves k d : leaves key_text sanitize repr of_int k d (wrote k d).
  Proof.
    destruct k; cbn [leaves wrote]; try done.
    - destruct (data_frame_ok (d_results d)) as [[H ->]|[H ->]]; [by left|by right].
    - destruct (data_frame_ok (d_results d)) as [[H ->]|[H ->]]; [by left|by right].
    - cbv zeta. destruct (data_frame_ok (d_results d)) as [[H ->]|[H ->]]; [|right; split; [by left|done]].
      destruct (payload_cases (d_records d)) as [(js & -> & Hjs)|(e & -> & He)]; [|right; split; [right; by right|done]].
      destruct js as [|j js]; [right|left].
      + apply Forall2_nil_inv_r in Hjs. split; [right; by left|done].
      + split; [done|]. split; [|by exists (j :: js)]. intros Hn. rewrite Hn in Hjs. by apply Forall2_nil_inv_l in Hjs.
  Qed.
  Lemma leaves_unique k d o o' : leaves key_text sanitize repr of_int k d o -> leaves key_text sanitize repr of_int k d o' -> o = o'.
  Proof.
    assert (Hlist : forall rs js js', Forall2 (listed key_text sanitize repr) rs js -> Forall2 (listed key_text sanitize repr) rs js' -> js = js').
    { intros rs js js' H. revert js'. induction H as [|r j rs js (v & Hv & ->) _ IH]; intros js' H'.
      - by apply Forall2_nil_inv_l in H'.
      - apply Forall2_cons_inv_l in H' as (j' & js0 & (v' & Hv' & ->) & Hjs & ->). rewrite Hv in Hv'. injection Hv' as <-. f_equal. by apply IH. }
    assert (Herr : forall rs js r e, Forall2 (listed key_text sanitize repr) rs js -> r ∈ rs -> to_json_safe key_text sanitize repr (r_value r) = Err e -> False).
    { intros rs js r e H Hin He. apply elem_of_list_lookup in Hin as [i Hi]. destruct (Forall2_lookup_l _ _ _ _ _ H Hi) as (j & _ & v & Hv & _). congruence. }
    destruct k; cbn [leaves]; try congruence.
    - intros [[? ->]|[? ->]] [[? ->]|[? ->]]; done.
    - intros [[? ->]|[? ->]] [[? ->]|[? ->]]; done.
    - cbv zeta. intros [(H1 & H2 & js & H3 & ->)|[H1 ->]] [(H1' & H2' & js' & H3' & ->)|[H1' ->]]; try done.
      + by rewrite (Hlist _ _ _ H3 H3').
      + destruct H1' as [?|[?|(r & e & Hr & He)]]; try done. by destruct (Herr _ _ _ _ H3 Hr He).
      + destruct H1 as [?|[?|(r & e & Hr & He)]]; try done. by destruct (Herr _ _ _ _ H3' Hr He).
  Qed.

  Lemma file_of_run k (label : option path) d (fs : outputs (N := N)) q :
    dget (fst (write label d fs)) (file_name k label (d_pass d))
    = match wrote k d with Some o => Some o | None => dget fs (file_name k label (d_pass d)) end
    /\ ((forall k', q <> file_name k' label (d_pass d)) -> dget (fst (write label d fs)) q = dget fs q).
  Proof.
    assert (Hne : forall k1 k2, k1 <> k2 -> file_name k1 label (d_pass d) <> file_name k2 label (d_pass d)).
    { intros k1 k2 Hk E. by apply file_name_eq in E as [E _]. }
    unfold write_tracker_results.
    change (displacement_file label (d_pass d)) with (file_name Displacement label (d_pass d)).
    change (hop_counter_file label (d_pass d)) with (file_name HopCounter label (d_pass d)).
    change (occupation_file label (d_pass d)) with (file_name Occupations label (d_pass d)).
    change (results_file label) with (file_name Results label (d_pass d)).
    change (units_file label) with (file_name Units label (d_pass d)).
    change (properties_file label) with (file_name Properties label (d_pass d)).
    set (f := fun k => file_name k label (d_pass d)) in *. change (file_name ?k label (d_pass d)) with (f k).
    assert (Hf : forall k1 k2, k1 <> k2 -> f k1 <> f k2) by exact Hne. clearbody f. clear Hne. split.
    - destruct k; cbn [wrote]; destruct (data_frame (d_results d)); cbn [fst];
        repeat match goal with |- context [match stored_property_payload key_text sanitize repr (d_records d) with _ => _ end] => destruct (stored_property_payload key_text sanitize repr (d_records d)) as [[|]|] end; cbn [fst];
        repeat first [rewrite dget_dset_eq; done | rewrite dget_dset_ne by (apply Hf; discriminate)]; done.
    - intros Hq. assert (Hq' : forall k', f k' <> q) by (intros k' E; by apply (Hq k')).
      destruct (data_frame (d_results d)); cbn [fst]; [destruct (stored_property_payload key_text sanitize repr (d_records d)) as [[|]|]|]; cbn [fst];
        rewrite !dget_dset_ne by apply Hq'; done.
  Qed.

  Lemma file_of_runs k label pass (runs : list run) (fs : outputs (N := N)) :
    dget (write_all key_text sanitize repr of_int runs fs) (file_name k label pass)
    = match last_some (map (fun r => if decide (shares k label pass (fst r) (d_pass (snd r))) then wrote k (snd r) else None) runs) with
      | Some o => Some o
      | None => dget fs (file_name k label pass)
      end.
  Proof.
    revert fs. unfold write_all. induction runs as [|[l d] runs IH]; intros fs; cbn [fold_left map last_some fst snd]; [done|].
    rewrite IH. destruct (last_some _); [done|].
    destruct (decide _) as [Hs|Hs].
    - assert (E : file_name k label pass = file_name k l (d_pass d)) by (by apply file_name_eq). rewrite E.
      by rewrite (proj1 (file_of_run k l d fs [])).
    - apply (file_of_run k l d fs). intros k' E. apply file_name_eq in E as [<- Hs']. done.
  Qed.
  Lemma other_files (runs : list run) (fs : outputs (N := N)) q :
    (forall r k, r ∈ runs -> q <> file_name k (fst r) (d_pass (snd r))) -> dget (write_all key_text sanitize repr of_int runs fs) q = dget fs q.
  Proof.
    revert fs. unfold write_all. induction runs as [|[l d] runs IH]; intros fs H; cbn [fold_left fst snd]; [done|].
    rewrite IH by (intros r k Hr; apply H; by right). apply (file_of_run Results l d fs). intros k. by apply (H (l, d)); left.
  Qed.
  Lemma left_by k label pass (runs : list run) :
    Forall2 (fun r o => if decide (shares k label pass (fst r) (d_pass (snd r))) then leaves key_text sanitize repr of_int k (snd r) o else o = None) runs
      (map (fun r => if decide (shares k label pass (fst r) (d_pass (snd r))) then wrote k (snd r) else None) runs).
  Proof.
    induction runs as [|r runs IH]; cbn [map]; constructor; [|exact IH]. destruct (decide _); [|done]. apply wrote_leaves.
  Qed.
End Files.

Section Kept.
  Context {X : Type}.
  Variable sanitize : X -> result json.
  Variable repr : X -> string.
  Lemma json_kept (j : json) : distinct_keys j -> to_json_safe Datatypes.id sanitize repr (json_value j) = Ok j.
  Proof.
    revert j. fix IH 1. intros [|b|z|q|s|l|l]; cbn [json_value to_json_safe distinct_keys]; try done.
    - intros H. match goal with |- rbind ?a _ = _ => assert (E : a = Ok l) end; [|by rewrite E].
      revert l H. fix IHl 1. intros [|j l] H; cbn [map]; [done|]. destruct H as [H1 H2]. rewrite (IH j H1). cbn [rbind].
      by rewrite (IHl l H2).
    - intros [Hn H]. match goal with |- rbind ?a _ = _ => assert (E : a = Ok l) end; [|by rewrite E; cbn [rbind]; rewrite dof_pairs_NoDup].
      clear Hn. revert l H. fix IHl 1. intros [|[k j] l] H; cbn [map fst snd]; [done|]. destruct H as [H1 H2]. rewrite (IH j H1). cbn [rbind].
      by rewrite (IHl l H2).
  Qed.
End Kept.
