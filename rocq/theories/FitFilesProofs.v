(** Proofs about the files of a fit. *)
From Coq Require Import QArith Ascii.
From Verif Require Import Py PyLemmas Json StateModel MatcherModel ParamModel ParamSpec ParamProofs FitFilesModel FitFilesSpec.

Lemma json_params l : json_record (params_from_dict (of_object l)).
Proof.
  unfold json_record, fields, params_from_dict. cbn [p_keci p_empty_cluster p_cluster_site_indices p_weight p_alpha p_time_stamp p_time p_rmse p_loocv p_normalize p_orbit_fingerprints p_local_environment_hash].
  assert (G : forall (P : string * pyval -> bool) k d, (exists j, d = PJson j) -> exists j, match dget (List.filter P (of_object l)) k with Some v => v | None => d end = PJson j).
  { intros P k d Hd. destruct (dget (List.filter P (of_object l)) k) as [v|] eqn:E; [|done]. apply dget_Some_in in E. apply elem_of_list_In, filter_In in E as [E _].
    unfold of_object in E. apply in_map_iff in E as ([k' j'] & E & _). injection E as _ <-. eauto. }
  repeat (apply Forall_cons; split; [apply G; by eexists|]). constructor.
Qed.
Lemma history_loaded j h : history_from_json j = Ok h -> Forall json_record h.
Proof.
  unfold history_from_json. intros H. apply rbind_ok in H as (l & _ & H). revert h H. induction l as [|x l IH]; intros h H; cbn [rmapM] in H; [by injection H as <-|].
  apply rbind_ok in H as (r & Hr & H). apply rbind_ok in H as (rs & Hrs & H). injection H as <-. constructor; [|by apply IH].
  destruct x; try done. injection Hr as <-. apply json_params.
Qed.
Lemma history_loaded_file p fs h : ~ h5_path p -> history_from_file p fs = Ok h -> Forall json_record h.
Proof.
  intros Hp H. unfold history_from_file in H. rewrite (not_h5 p Hp) in H. apply rbind_ok in H as (j & _ & H). by eapply history_loaded.
Qed.

Section Fit.
  Variable regress : list (list Q) -> list Q -> list Q -> json -> Z -> bool -> result (list Q * Q).
  Variable loocv : list (list Q) -> list Q -> json -> Z -> bool -> result Q.
  Variable rmse : list (list Q) -> list Q -> list Q -> Q -> result Q.
  Variable round8 : Q -> Q.
  Variable save_results : params -> option content -> content.
  Notation fit := (fit regress loocv rmse round8 save_results).
  Notation fits := (fits regress loocv rmse round8 save_results).
  Notation compute_fit := (compute_fit regress loocv rmse).

  Lemma fitted_json args now k e w rm cv : json_record (fitted_record args now k e w rm cv).
  Proof.
    unfold json_record, fields, fitted_record. cbn [p_keci p_empty_cluster p_cluster_site_indices p_weight p_alpha p_time_stamp p_time p_rmse p_loocv p_normalize p_orbit_fingerprints p_local_environment_hash].
    repeat (apply Forall_cons; split; [by eexists|]). apply Forall_cons; split; [destruct (a_fingerprints args); by eexists|].
    apply Forall_cons; split; [destruct (a_env_hash args); by eexists|]. constructor.
  Qed.
  Lemma computed args now fs r : compute_fit args now fs = Ok r ->
    exists k e w rm cv, r = fitted_record args now k e w rm cv
      /\ match a_fingerprints args with Some l => length k = length l | None => True end.
  Proof.
    unfold FitFilesModel.compute_fit. intros H. apply rbind_ok in H as (ek & _ & H). apply rbind_ok in H as (we & _ & H). apply rbind_ok in H as (co & _ & H).
    destruct co as [| |x]; [done|done|]. destruct ek as [|y|]; [done| |done]. destruct we as [|w|]; [done| |done].
    apply rbind_ok in H as ([k e] & _ & H). cbn [fst snd] in H. destruct (match a_fingerprints args with Some l => _ | None => _ end) eqn:F; [done|].
    apply rbind_ok in H as (cv & _ & H). apply rbind_ok in H as (rm & _ & H). injection H as <-. exists k, e, w, rm, cv. split; [done|].
    destruct (a_fingerprints args) as [l|]; [|done]. apply negb_false_iff, Nat.eqb_eq in F. done.
  Qed.
  Lemma fitted_forget args now k e w rm cv : forget (fitted_record args now k e w rm cv) = fitted_record args now k e w rm cv.
  Proof. done. Qed.
  Lemma fitted_storable args now k e w rm cv : usual args -> exists img, storable img (fitted_record args now k e w rm cv).
  Proof.
    intros [_ Ha]. assert (Hk : Forall kept (take 10 (fields (fitted_record args now k e w rm cv)))).
    { unfold fields, fitted_record. cbn [take p_keci p_empty_cluster p_cluster_site_indices p_weight p_alpha p_time_stamp p_time p_rmse p_loocv p_normalize].
      apply Forall_cons; split; [apply kept_floats|]. apply Forall_cons; split; [constructor|]. apply Forall_cons; split; [exact (kept_floats [])|].
      apply Forall_cons; split; [apply kept_floats|]. apply Forall_cons; split; [destruct Ha as [[q ->]|[z ->]]; constructor|].
      repeat (apply Forall_cons; split; [constructor|]). constructor. }
    exists bytes_of. split.
    - eapply Forall_impl; [exact Hk|]. intros v Hv. split; [by apply kept_some|]. rewrite bytes_of_kept by done. by apply kept_store.
    - unfold fields, fitted_record. cbn [drop p_orbit_fingerprints p_local_environment_hash]. apply Forall_cons; split.
      + destruct (a_fingerprints args) as [[|s l]|]; [right; apply (store_floats [])|right; apply store_texts|by left].
      + apply Forall_cons; split; [|constructor]. destruct (a_env_hash args); [by right|by left].
  Qed.

  (** Writing the record never fails. *)
  Lemma params_written args now k e w rm cv p fs : usual args -> exists fs', params_to p (fitted_record args now k e w rm cv) fs = (fs', Ok tt)
    /\ (~ h5_path p -> params_from_file p fs' = Ok (fitted_record args now k e w rm cv)) /\ forall q, q <> p -> dget fs' q = dget fs q.
  Proof.
    intros U. destruct (is_h5 p) eqn:E.
    - apply is_h5_spec in E. destruct (fitted_storable args now k e w rm cv U) as (img & Hs). destruct (h5_reload img p _ fs E Hs) as (fs' & A & B & C).
      exists fs'. split; [done|]. split; [done|done].
    - assert (E' : ~ h5_path p) by (intros H; apply is_h5_spec in H; congruence).
      destruct (json_reload p _ fs E' (fitted_json args now k e w rm cv)) as (fs' & A & B & C). exists fs'. done.
  Qed.
  Lemma history_updated p r fs old : json_history p fs old -> json_record r -> forget r = r ->
    exists fs', update_history p r fs = (fs', Ok tt) /\ history_from_file p fs' = Ok (map forget old ++ [r]) /\ forall q, q <> p -> dget fs' q = dget fs q.
  Proof.
    intros [Hp Hold] Hr Hf. unfold update_history. destruct Hold as [[-> ->]|Hold].
    - destruct (json_history_reload p (append [] r) fs Hp) as (fs' & A & B & C); [by constructor|]. exists fs'. split; [done|]. split; [|done].
      rewrite B. cbn. by rewrite Hf.
    - pose proof (history_loaded_file p fs old Hp Hold) as Ho.
      assert (exists c, dget fs p = Some c) as (c & ->).
      { unfold history_from_file, loadfn in Hold. rewrite (not_h5 p Hp) in Hold. destruct (dget fs p); [eauto|done]. }
      rewrite Hold. destruct (json_history_reload p (append old r) fs Hp) as (fs' & A & B & C).
      { unfold append. apply Forall_app. by split; [|constructor]. }
      exists fs'. split; [done|]. split; [|done]. rewrite B. unfold append. rewrite map_app. cbn [map]. by rewrite Hf.
  Qed.
  Lemma json_history_other p fs fs' old : (forall q, q = p -> dget fs' q = dget fs q) -> json_history p fs old -> json_history p fs' old.
  Proof.
    intros H [Hp Hold]. split; [done|]. unfold history_from_file, loadfn in *. rewrite (not_h5 p Hp) in *. by rewrite (H p eq_refl).
  Qed.

  (** What a fit does when the history can be extended. *)
  Lemma fit_done f args now fs r : usual args -> compute_fit args now fs = Ok r ->
    (forall p, given (a_history args) = Some p -> exists old, json_history p fs old) ->
    exists fs', fit f args now fs = (r, fs', Ok r)
      /\ (forall p, given (a_params args) = Some p -> ~ h5_path p -> params_from_file p fs' = Ok r)
      /\ (forall p old, given (a_history args) = Some p -> json_history p fs old -> history_from_file p fs' = Ok (map forget old ++ [r]))
      /\ dget fs' (a_keci args) = Some (keci_lines round8 r)
      /\ forall q, q ∉ written args -> dget fs' q = dget fs q.
  Proof.
    intros U Hr Hh. destruct (computed _ _ _ _ Hr) as (k & e & w & rm & cv & -> & _). pose proof (fitted_json args now k e w rm cv) as Hj.
    assert (Nd := different_files args U). unfold written in Nd. cbn [omap list_omap] in Nd.
    unfold FitFilesModel.fit. rewrite Hr. set (r := fitted_record args now k e w rm cv) in *.
    set (fs1 := dset fs (a_keci args) (keci_lines round8 r)).
    set (fs2 := match given (a_results args) with Some p => dset fs1 p (save_results r (dget fs1 p)) | None => fs1 end).
    assert (W2 : forall q, Some q <> given (a_results args) -> dget fs2 q = dget fs1 q).
    { intros q Hq. unfold fs2. destruct (given (a_results args)) as [p|]; [|done]. apply dget_dset_ne. congruence. }
    assert (P3 : exists fs3, match given (a_params args) with Some p => params_to p r fs2 | None => (fs2, Ok tt) end = (fs3, Ok tt)
       /\ (forall p, given (a_params args) = Some p -> ~ h5_path p -> params_from_file p fs3 = Ok r)
       /\ forall q, Some q <> given (a_params args) -> dget fs3 q = dget fs2 q).
    { destruct (given (a_params args)) as [p|].
      - destruct (params_written args now k e w rm cv p fs2 U) as (fs3 & A & B & C). exists fs3. split; [done|]. split.
        + intros q Hq Hn. injection Hq as <-. by apply B.
        + intros q Hq. apply C. congruence.
      - exists fs2. done. }
    destruct P3 as (fs3 & -> & P3a & P3b). cbn iota beta.
    assert (W3 : forall q, q <> a_keci args -> Some q <> given (a_results args) -> Some q <> given (a_params args) -> dget fs3 q = dget fs q).
    { intros q H1 H2 H3. rewrite P3b, W2 by done. unfold fs1. by apply dget_dset_ne. }
    assert (P4 : exists fs4, match given (a_history args) with Some p => update_history p r fs3 | None => (fs3, Ok tt) end = (fs4, Ok tt)
       /\ (forall p old, given (a_history args) = Some p -> json_history p fs old -> history_from_file p fs4 = Ok (map forget old ++ [r]))
       /\ forall q, Some q <> given (a_history args) -> dget fs4 q = dget fs3 q).
    { destruct (given (a_history args)) as [p|] eqn:Eh.
      - destruct (Hh p eq_refl) as (old & Hold).
        assert (Hp : dget fs3 p = dget fs p).
        { apply W3.
          - intros ->. apply NoDup_cons in Nd as [Nd _]. apply Nd. destruct (given (a_results args)), (given (a_params args)); set_solver.
          - intros E. rewrite <-E in Nd. apply NoDup_cons in Nd as [_ Nd]. apply NoDup_cons in Nd as [Nd _]. apply Nd. destruct (given (a_params args)); set_solver.
          - intros E. rewrite <-E in Nd. apply NoDup_cons in Nd as [_ Nd]. destruct (given (a_results args)).
            + apply NoDup_cons in Nd as [_ Nd]. apply NoDup_cons in Nd as [Nd _]. set_solver.
            + apply NoDup_cons in Nd as [Nd _]. set_solver. }
        assert (J : forall o, json_history p fs o -> json_history p fs3 o) by (intros o; apply json_history_other; intros q ->; done).
        destruct (history_updated p r fs3 old (J old Hold) Hj eq_refl) as (fs4 & A & B & C). exists fs4. split; [done|]. split.
        + intros q o Hq Ho. injection Hq as <-. destruct (history_updated p r fs3 o (J o Ho) Hj eq_refl) as (fs5 & A' & B' & _). rewrite A in A'. injection A' as <-. exact B'.
        + intros q Hq. apply C. congruence.
      - exists fs3. done. }
    destruct P4 as (fs4 & -> & P4a & P4b). cbn iota beta. exists fs4. split; [done|]. split_and!.
    - intros p Hp Hn. rewrite <-(P3a p Hp Hn). unfold params_from_file. rewrite (not_h5 p Hn). unfold loadfn. rewrite P4b; [done|].
      intros E. rewrite Hp, <-E in Nd. apply NoDup_cons in Nd as [_ Nd]. destruct (given (a_results args)).
      + apply NoDup_cons in Nd as [_ Nd]. apply NoDup_cons in Nd as [Nd _]. set_solver.
      + apply NoDup_cons in Nd as [Nd _]. set_solver.
    - exact P4a.
    - apply NoDup_cons in Nd as [Nd _]. rewrite P4b, P3b, W2.
      + unfold fs1. apply dget_dset_eq.
      + intros E. rewrite <-E in Nd. apply Nd. destruct (given (a_params args)), (given (a_history args)); set_solver.
      + intros E. rewrite <-E in Nd. apply Nd. destruct (given (a_results args)), (given (a_history args)); set_solver.
      + intros E. rewrite <-E in Nd. apply Nd. destruct (given (a_results args)), (given (a_params args)); set_solver.
    - intros q Hq. unfold written in Hq. cbn [omap list_omap] in Hq. apply not_elem_of_cons in Hq as [Hk Hq].
      assert (H1 : Some q <> given (a_results args)) by (intros E; rewrite <-E in Hq; apply Hq; left).
      assert (H2 : Some q <> given (a_params args)) by (intros E; rewrite <-E in Hq; apply Hq; destruct (given (a_results args)); set_solver).
      assert (H3 : Some q <> given (a_history args)) by (intros E; rewrite <-E in Hq; apply Hq; destruct (given (a_results args)), (given (a_params args)); set_solver).
      rewrite P4b by done. by apply W3.
  Qed.

  Theorem failed_fit f args now fs f' fs' e : usual args ->
    (forall p, given (a_history args) = Some p -> exists old, json_history p fs old) ->
    fit f args now fs = (f', fs', Err e) -> f' = f /\ fs' = fs.
  Proof.
    intros U Hh H. destruct (compute_fit args now fs) as [r|e'] eqn:E.
    - destruct (fit_done f args now fs r U E Hh) as (fs1 & F & _). by rewrite F in H.
    - unfold FitFilesModel.fit in H. rewrite E in H. by injection H as <- <- _.
  Qed.

  Theorem successful_fit f args now fs f' fs' r : usual args ->
    (forall p, given (a_history args) = Some p -> exists old, json_history p fs old) ->
    fit f args now fs = (f', fs', Ok r) ->
    f' = r /\ p_orbit_fingerprints r = text_list (a_fingerprints args) /\ p_local_environment_hash r = text_or_none (a_env_hash args)
    /\ (exists keci, p_keci r = float_list keci /\ dget fs' (a_keci args) = Some (CNumbers (map (fun q => [round8 q]) keci))
          /\ match a_fingerprints args with Some l => length keci = length l | None => True end)
    /\ (forall p, given (a_params args) = Some p -> ~ h5_path p -> params_from_file p fs' = Ok r)
    /\ (forall p old, given (a_history args) = Some p -> json_history p fs old -> history_from_file p fs' = Ok (map forget old ++ [r]))
    /\ forall q, q ∉ written args -> dget fs' q = dget fs q.
  Proof.
    intros U Hh H. destruct (compute_fit args now fs) as [r0|e'] eqn:E; [|unfold FitFilesModel.fit in H; by rewrite E in H].
    destruct (fit_done f args now fs r0 U E Hh) as (fs1 & F & A & B & C & D). rewrite F in H. injection H as <- <- <-.
    destruct (computed _ _ _ _ E) as (k & e & w & rm & cv & -> & Hl). split; [done|]. split; [done|]. split; [done|]. split.
    - exists k. split; [done|]. split; [|done]. rewrite C. unfold keci_lines, fitted_record, float_list. cbn [p_keci]. do 2 f_equal. rewrite map_map. done.
    - done.
  Qed.

  (** Several fits with one history. *)
  Theorem history_of_fits hp calls f fs f' fs' rs old : 
    Forall (fun c => usual (fst c) /\ given (a_history (fst c)) = Some hp) calls ->
    json_history hp fs old ->
    fits f calls fs = (f', fs', Ok rs) ->
    f' = List.last rs f /\ length rs = length calls /\ json_history hp fs' (match calls with [] => old | _ => map forget old ++ rs end).
  Proof.
    intros H. revert f fs old rs. induction H as [|[args now] calls [U Hh] Hc IH]; intros f fs old rs Hold Hf.
    - cbn in Hf. injection Hf as <- <- <-. done.
    - cbn [FitFilesModel.fits] in Hf. cbn [fst] in *. destruct (fit f args now fs) as [[f1 fs1] [r|e]] eqn:F; [|done].
      assert (Hp : forall p, given (a_history args) = Some p -> exists old, json_history p fs old) by (intros p Hp; exists old; congruence).
      destruct (successful_fit f args now fs f1 fs1 r U Hp F) as (-> & _ & _ & _ & _ & Hist & _).
      specialize (Hist hp old Hh Hold). destruct (fits r calls fs1) as [[f2 fs2] [rs'|e]] eqn:G; [|done]. injection Hf as <- <- <-.
      assert (J : json_history hp fs1 (map forget old ++ [r])) by (split; [apply Hold|by right]).
      destruct (IH r fs1 _ rs' J G) as (E1 & E2 & E3). split; [|split].
      + rewrite E1. destruct rs' as [|a rs']; [done|]. clear. change (List.last (r :: a :: rs') f) with (List.last (a :: rs') f).
        revert a. induction rs' as [|b rs' IH]; intros a; [done|]. exact (IH b).
      + cbn. by rewrite E2.
      + destruct calls as [|c calls]; [destruct rs'; [exact E3|done]|]. rewrite map_app, map_map in E3. cbn [map] in E3.
        assert (map (fun x => forget (forget x)) old = map forget old) as Ef by (apply map_ext; done). rewrite Ef in E3.
        assert (forget r = r) as Er.
        { destruct (compute_fit args now fs) as [r0|e'] eqn:E; [|unfold FitFilesModel.fit in F; by rewrite E in F].
          destruct (fit_done f args now fs r0 U E Hp) as (fs3 & F' & _). rewrite F' in F. injection F as -> _.
          destruct (computed _ _ _ _ E) as (k & e & w & rm & cv & -> & _). done. }
        rewrite Er, <-app_assoc in E3. exact E3.
  Qed.

  (** Tables with one feature. *)
  Theorem one_feature f args now fs rows : a_normalize args = true -> dget fs (a_corr args) = Some (CNumbers rows) ->
    Forall (fun row => length row = 1) rows ->
    match dget fs (a_ekra args), dget fs (a_weight args) with
    | Some (CNumbers y), Some (CNumbers w) => same_lengths y = true /\ same_lengths w = true
    | _, _ => False
    end ->
    fit f args now fs = (f, fs, Err TypeError).
  Proof.
    intros Hn Hc Hr Hf. assert (E : compute_fit args now fs = Err TypeError); [|unfold FitFilesModel.fit; by rewrite E].
    unfold FitFilesModel.compute_fit, loadtxt. rewrite Hc. destruct (dget fs (a_ekra args)) as [[y| | |]|]; try done. destruct (dget fs (a_weight args)) as [[w| | |]|]; try done.
    destruct Hf as [-> ->]. cbn [rbind].
    assert (same_lengths rows = true) as ->.
    { unfold same_lengths. destruct Hr as [|row rows Hrow Hrows]; [done|]. apply forallb_forall. intros r Hin. apply Nat.eqb_eq. rewrite Hrow.
      destruct Hin as [<-|Hin]; [done|]. rewrite Forall_forall in Hrows. apply Hrows. by apply elem_of_list_In. }
    cbn [rbind]. rewrite Hn. unfold squeeze. destruct Hr as [|row rows Hrow Hrows]; [done|].
    assert (F : forallb (fun r : list Q => Nat.eqb (length r) 1) (row :: rows) = true).
    { apply forallb_forall. intros r Hin. apply Nat.eqb_eq. destruct Hin as [<-|Hin]; [done|]. rewrite Forall_forall in Hrows. apply Hrows. by apply elem_of_list_In. }
    destruct row as [|q [|q' row]]; try done. destruct rows as [|row' rows]; [done|]. by rewrite F.
  Qed.
End Fit.

(** ** Dictionaries of a fitter *)
Lemma newest_spec l best : 
  match newest best l with
  | None => best = None /\ forall k o n, (k, JObj o) ∈ l -> py_int_str k = Ok n -> False
  | Some (n, v) => (best = Some (n, v) \/ exists k o, (k, JObj o) ∈ l /\ v = JObj o /\ py_int_str k = Ok n)
      /\ (forall m w, best = Some (m, w) -> (m <= n)%Z)
      /\ forall k o m, (k, JObj o) ∈ l -> py_int_str k = Ok m -> (m <= n)%Z
  end.
Proof.
  revert best. induction l as [|[k v] l IH]; intros best.
  - cbn. destruct best as [[n v]|]; [|split; [done|]; intros k o n Hin; by apply elem_of_nil in Hin].
    split; [by left|]. split; [intros m w [= -> ->]; lia|]. intros k o m Hin. by apply elem_of_nil in Hin.
  - cbn [newest]. assert (Skip : (forall o n, v = JObj o -> py_int_str k = Ok n -> False) ->
      match newest best l with
      | None => best = None /\ forall k' o n, (k', JObj o) ∈ (k, v) :: l -> py_int_str k' = Ok n -> False
      | Some (n, u) => (best = Some (n, u) \/ exists k' o, (k', JObj o) ∈ (k, v) :: l /\ u = JObj o /\ py_int_str k' = Ok n)
          /\ (forall m w, best = Some (m, w) -> (m <= n)%Z) /\ forall k' o m, (k', JObj o) ∈ (k, v) :: l -> py_int_str k' = Ok m -> (m <= n)%Z
      end).
    { intros Hv. specialize (IH best). destruct (newest best l) as [[n u]|].
      - destruct IH as (A & B & C). split; [destruct A as [A|(k' & o & A)]; [by left|right; exists k', o; set_solver]|]. split; [done|].
        intros k' o m Hin Hm. apply elem_of_cons in Hin as [E|Hin]; [injection E as -> <-; by exfalso; eapply Hv|by eapply C].
      - destruct IH as [-> B]. split; [done|]. intros k' o n Hin Hn. apply elem_of_cons in Hin as [E|Hin]; [injection E as -> <-; by eapply Hv|by eapply B]. }
    destruct v as [| | | | | |o]; try (apply Skip; intros ? ? E; done). clear Skip. destruct (py_int_str k) as [n|e] eqn:Ek.
    + specialize (IH (match best with Some (m, w) => if (m <? n)%Z then Some (n, JObj o) else best | None => Some (n, JObj o) end)).
      destruct (newest _ l) as [[n' u]|].
      * destruct IH as (A & B & C). assert (Bn : (n <= n')%Z).
        { destruct best as [[m w]|]; [|by eapply B]. destruct (Z.ltb_spec m n); [by eapply B|]. specialize (B m w eq_refl). lia. }
        split; [|split].
        -- destruct A as [A|(k' & o' & A)]; [|right; exists k', o'; set_solver]. destruct best as [[m w]|].
           ++ destruct (m <? n)%Z; [|by left]. injection A as <- <-. right. exists k, o. set_solver.
           ++ injection A as <- <-. right. exists k, o. set_solver.
        -- intros m w ->. destruct (Z.ltb_spec m n); [lia|]. by eapply B.
        -- intros k' o' m Hin Hm. apply elem_of_cons in Hin as [E|Hin]; [injection E as -> _; congruence|by eapply C].
      * exfalso. destruct IH as [IH _]. destruct best as [[m w]|]; [|done]. by destruct (m <? n)%Z.
    + specialize (IH best). destruct (newest best l) as [[n u]|].
      * destruct IH as (A & B & C). split; [destruct A as [A|(k' & o' & A)]; [by left|right; exists k', o'; set_solver]|]. split; [done|].
        intros k' o' m Hin Hm. apply elem_of_cons in Hin as [E|Hin]; [injection E as -> _; congruence|by eapply C].
      * destruct IH as [-> B]. split; [done|]. intros k' o' n Hin Hn. apply elem_of_cons in Hin as [E|Hin]; [injection E as -> _; congruence|by eapply B].
Qed.
Theorem newest_record payload f : dget payload "keci"%string = None -> fitter_from_json (JObj payload) = Ok f ->
  exists k n o, (k, JObj o) ∈ payload /\ py_int_str k = Ok n /\ f = params_from_dict (of_object o)
    /\ forall k' n' o', (k', JObj o') ∈ payload -> py_int_str k' = Ok n' -> (n' <= n)%Z.
Proof.
  intros Hk H. unfold fitter_from_json, extract_record in H. rewrite Hk in H. pose proof (newest_spec payload None) as N.
  destruct (newest None payload) as [[n v]|]; [|done]. destruct N as ([?|(k & o & Hin & -> & Hn)] & _ & Hmax); [done|].
  cbn in H. injection H as <-. exists k, n, o. split; [done|]. split; [done|]. split; [done|]. intros k' n' o' H1 H2. by eapply Hmax.
Qed.

Lemma fitter_dict_json f : json_record f -> Forall (fun kv => exists j, snd kv = PJson j) (fitter_as_dict f).
Proof.
  unfold json_record, fields, fitter_as_dict. rewrite !Forall_cons. intros (H1 & H2 & H3 & H4 & H5 & H6 & H7 & H8 & H9 & H10 & H11 & H12 & _).
  apply Forall_app. split.
  { repeat (constructor; [cbn [snd]; eauto|]). constructor. }
  apply Forall_app. split; [destruct (is_none (p_orbit_fingerprints f))|destruct (is_none (p_local_environment_hash f))]; repeat constructor; done.
Qed.
Theorem fitter_reload p f fs : json_record f ->
  exists fs', fitter_to p f fs = (fs', Ok tt) /\ fitter_from_file p fs'
    = Ok (Params (p_keci f) (p_empty_cluster f) (PJson (JList [])) (p_weight f) (p_alpha f) (p_time_stamp f) (p_time f) (p_rmse f) (p_loocv f)
        (p_normalize f) (p_orbit_fingerprints f) (p_local_environment_hash f) none "LCEModelParameters"%string).
Proof.
  intros H. destruct (dump_plain _ (fitter_dict_json f H)) as (l & E1 & E2). unfold fitter_to, fitter_from_file. rewrite E1. cbn [dumpfn].
  eexists. split; [done|]. unfold loadfn. rewrite dget_dset_eq. cbn [rbind fitter_from_json].
  assert (exists j, dget l "keci"%string = Some j) as (j & Ej).
  { assert (dget (of_object l) "keci"%string = Some (p_keci f)) as E by (rewrite E2; reflexivity). clear -E. unfold of_object in E.
    induction l as [|[k v] l IH]; [done|]. cbn [map dget fst snd] in *. destruct (decide _); [eauto|]. by apply IH. }
  unfold extract_record. rewrite Ej. cbn [rbind params_from_json]. rewrite E2. f_equal.
  destruct f as [v1 v2 v3 v4 v5 v6 v7 v8 v9 v10 v11 v12 v13 nm]. unfold fitter_as_dict. cbn [p_keci p_empty_cluster p_cluster_site_indices p_weight p_alpha
    p_time_stamp p_time p_rmse p_loocv p_normalize p_orbit_fingerprints p_local_environment_hash].
  destruct (is_none v11) eqn:E3, (is_none v12) eqn:E4.
  - destruct v11 as [[]|]; try done. destruct v12 as [[]|]; try done.
  - destruct v11 as [[]|]; try done.
  - destruct v12 as [[]|]; try done.
  - done.
Qed.
