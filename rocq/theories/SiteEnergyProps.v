(** Properties C35-C37, C51, C52 and the site-energy part of C06. *)
From Coq Require Import Reals QArith Lra.
From Verif Require Import Py PyLemmas Json ActiveSiteModel EventModel EventSpec EventProofs StateModel
  HopModel KmcModel KmcSpec LceModel CompositeModel CompositeSpec CompositeProofs
  SiteEnergyModel SiteEnergySpec SiteEnergyProofs.
Local Open Scope nat_scope.

(* ---------------- C35 ---------------- *)
(** For every history, any user functions and any conversion of text: the external
    occupation shows the simulation state, and unmapped positions keep what they had. *)
Theorem external_occupation_follows :
  forall text parse_int parse_float Rt (resolve : result Rt) compute_fn apply_fn
         comp cfg given lk v temp init lib st k hist k',
  c_site comp = ExternalSite -> proper_dicts cfg ->
  injective_sites cfg (length (occupations st)) ->
  indices_in_range (events lib) (length (occupations st)) ->
  construct Rplus
    (composite_initialize (initialize_state text parse_int parse_float resolve cfg given) comp init)
    (compute_probability (se_compute compute_fn cfg) comp lk v temp) lib lk st = Ok k ->
  text_only_for_text cfg (sc_dtype (k_model k)) ->
  updates Rplus (composite_apply (se_apply text parse_int parse_float apply_fn) comp)
    (compute_probability (se_compute compute_fn cfg) comp lk v temp) k hist = Ok k' ->
  sc_dtype (k_model k') = sc_dtype (k_model k) /\
  mirrors text parse_int parse_float cfg (sc_dtype (k_model k')) (sc_external (k_model k'))
    (occupations (k_state k')).
Proof. exact @follows_lemma. Qed.
Print Assumptions external_occupation_follows.

(** The array can be built from every complete configuration; it has the requested length,
    or else ends at the last mapped site. *)
Theorem external_occupation_builds :
  forall text parse_int parse_float Rt (rt : Rt) c given occ lib,
  proper_dicts c -> accepts_order c given (length occ) -> usable c occ (events lib) ->
  exists m, initialize_state text parse_int parse_float (Ok rt) c given occ lib = Ok m /\
    (forall s, external_size c = Some s -> Z.of_nat (length (sc_external m)) = s) /\
    (external_size c = None -> occ <> [] ->
       exists i, i < length occ /\ site_of c i = Some (Z.of_nat (length (sc_external m)) - 1)%Z).
Proof. exact @builds_lemma. Qed.
Print Assumptions external_occupation_builds.

(** A fresh initialisation from the current state gives the same array, if it decides
    on the same element type. *)
Theorem external_occupation_equals_fresh_build :
  forall text parse_int parse_float Rt (resolve : result Rt) compute_fn apply_fn
         comp cfg given lk v temp init lib st k hist k' given2 lib2 m2,
  c_site comp = ExternalSite -> proper_dicts cfg ->
  injective_sites cfg (length (occupations st)) ->
  indices_in_range (events lib) (length (occupations st)) ->
  construct Rplus
    (composite_initialize (initialize_state text parse_int parse_float resolve cfg given) comp init)
    (compute_probability (se_compute compute_fn cfg) comp lk v temp) lib lk st = Ok k ->
  text_only_for_text cfg (sc_dtype (k_model k)) ->
  updates Rplus (composite_apply (se_apply text parse_int parse_float apply_fn) comp)
    (compute_probability (se_compute compute_fn cfg) comp lk v temp) k hist = Ok k' ->
  initialize_state text parse_int parse_float resolve cfg given2 (occupations (k_state k')) lib2
    = Ok m2 ->
  sc_dtype m2 = sc_dtype (k_model k) ->
  same_values (sc_external (k_model k')) (sc_external m2).
Proof. exact @fresh_build_lemma. Qed.
Print Assumptions external_occupation_equals_fresh_build.

(** Conversions used in the examples. *)
Definition x_text (v : ext_value) : string :=
  match v with EStr s => s | EInt z => py_str_int z | EFloat _ => "" end.
Definition x_int (s : string) : option Z := None.
Definition x_float (s : string) : option Q := None.
Notation x_init := (initialize_state x_text x_int x_float (Ok tt)).
Notation x_apply := (se_apply x_text x_int x_float (Rt:=unit) None).

(** Active sites 0,1,2 live at external positions 4,0,2 of six; code 0 is 11, code 1 is
    20, except at site 1 where code 1 is 21. *)
Definition x_cfg : se_config :=
  {| site_mapping := Some [(0, 4); (1, 0); (2, 2)]%Z;
     state_mapping := Some [(0%Z, EInt 11); (1%Z, EInt 20)];
     state_mapping_by_site := Some [(1%Z, [(0%Z, EInt 11); (1%Z, EInt 21)])];
     initial_array := None; external_size := Some 6%Z; external_fill := EInt 7;
     external_dtype := None; site_order := None; site_order_hash := None;
     energy_units := EV |}.

(** On-site energies: a function of the changes alone. *)
Definition x_energy (v : ext_value) : R :=
  match v with EInt z => IZR z | EFloat _ => 0%R | EStr _ => 0%R end.
Definition x_onsite (_ : unit) (a : list ext_value) (chs : list change) (_ : event) (_ : list Z)
  : result R :=
  Ok (fold_right (fun ch acc => (x_energy (ch_new ch) - x_energy (ch_old ch) + acc)%R) 0%R chs).

Definition x_kra : lce R :=
  {| l_sites := []; l_decorations := None; l_features := []; l_env_hash := None;
     l_keci := Some []; l_empty := Some 100%R;
     l_param_fingerprints := None; l_param_hash := None |}.
Definition x_comp : composite := Composite (Some x_kra) ExternalSite.
Definition x_e1 : event := Event [0; 1]%Z [].
Definition x_e2 : event := Event [1; 2]%Z [].
Definition x_lib : event_lib :=
  match generate_event_dependencies (add_event (add_event empty_lib x_e1) x_e2) with
  | Ok l => l | Err _ => empty_lib end.
Definition x_none : cache unit := Cache (Tables [] None None) DInt [] tt.
Notation x_rate f cfg := (compute_probability (se_compute (Rt:=unit) f cfg) x_comp None 1%R 300%R).
Notation x_construct f cfg :=
  (construct Rplus (composite_initialize (x_init cfg None) x_comp x_none) (x_rate f cfg)).
Notation x_updates f cfg :=
  (updates Rplus (composite_apply x_apply x_comp) (x_rate f cfg)).

Lemma x_rate_ok f cfg m occ ij :
  let e := Event ij [] in
  (exists codes d, event_codes None e = Ok codes /\ event_direction occ e codes = Ok d) ->
  (exists dE, se_compute (Rt:=unit) f cfg m occ e = Ok dE) ->
  exists r, x_rate f cfg m occ e = Ok r.
Proof.
  intros e (codes & d & Hc & Hd) (dE & HdE). eexists.
  eapply rate_total_lemma; [exact Hc|exact Hd|reflexivity|reflexivity|exact HdE|lra].
Qed.

Lemma x_cfg_hypotheses :
  c_site x_comp = ExternalSite /\ proper_dicts x_cfg /\ injective_sites x_cfg 3 /\
  indices_in_range (events x_lib) 3 /\ exact_dependencies (events x_lib) (get_dependent_events x_lib).
Proof.
  split; [done|]. split.
  { split; [|split]; simpl; intros m [= <-].
    - repeat constructor; simpl; rewrite ?elem_of_cons, ?elem_of_nil; intuition (try lia; try congruence).
    - repeat constructor; simpl; rewrite ?elem_of_cons, ?elem_of_nil; intuition (try lia; try congruence).
    - split.
      + simpl. apply NoDup_singleton.
      + intros i m Hm. apply dget_Some_in in Hm. apply elem_of_list_singleton in Hm.
        injection Hm as -> ->. simpl.
        repeat constructor; rewrite ?elem_of_cons, ?elem_of_nil; intuition (try lia; try congruence). }
  split.
  { intros i j p Hi Hj. unfold site_of. simpl.
    destruct i as [|[|[|]]], j as [|[|[|]]]; simpl; try lia; intros H1 H2;
      vm_compute in H1, H2; congruence. }
  split.
  { intros e s He Hs. change (events x_lib) with [x_e1; x_e2] in He.
    apply elem_of_cons in He as [->|He]; [|apply elem_of_cons in He as [->|He]; [|by apply elem_of_nil in He]];
    destruct Hs as [Hs|Hs]; simpl in Hs; repeat (apply elem_of_cons in Hs as [->|Hs]; [lia|]);
      by apply elem_of_nil in Hs. }
  destruct (generate_total (add_event (add_event empty_lib x_e1) x_e2)) as (l & Hl).
  pose proof (generate_exact _ _ Hl) as [H _].
  unfold x_lib. rewrite Hl. rewrite (proj1 (generate_events_same _ _ Hl)). exact H.
Qed.

Example builds_example :
  usable x_cfg [0; 1; 1]%Z (events x_lib) /\ accepts_order x_cfg None 3 /\
  usable (SeConfig (site_mapping x_cfg) None None None None (EInt 0) None None None MeV) [0; 1; 1]%Z (events x_lib) /\
  match x_init (SeConfig (site_mapping x_cfg) None None None None (EInt 0) None None None MeV) None [0; 1; 1]%Z x_lib with
  | Ok m => sc_external m = [EInt 1; EInt 0; EInt 1; EInt 0; EInt 0]
  | Err _ => False end.
Proof.
  assert (E : events x_lib = [x_e1; x_e2]) by reflexivity. rewrite E.
  split; [|split; [|split]].
  - do 3 (split; [reflexivity|]). split; [by intros s [= <-]|]. split; [|split].
    + intros [|[|[|i]]] Hi; [exists 4|exists 0|exists 2|simpl in Hi; lia]; (split; [reflexivity|]); by intros s [= <-].
    + intros [|[|[|i]]] s Hs; simpl in Hs; try discriminate; injection Hs as <-; eexists; vm_compute; reflexivity.
    + intros e [->|[->|?%elem_of_nil]%elem_of_cons]%elem_of_cons; [| |done].
      * exists 0, 1, 0%Z, 1%Z. do 3 (split; [reflexivity|]). split; vm_compute; discriminate.
      * exists 1, 2, 1%Z, 1%Z. do 3 (split; [reflexivity|]). split; vm_compute; discriminate.
  - intros h k [=].
  - do 3 (split; [reflexivity|]). split; [by intros s [=]|]. split; [|split].
    + intros [|[|[|i]]] Hi; [exists 4|exists 0|exists 2|simpl in Hi; lia]; (split; [reflexivity|]); by intros s [=].
    + intros i s Hs. exists (EInt s). reflexivity.
    + intros e [->|[->|?%elem_of_nil]%elem_of_cons]%elem_of_cons; [| |done].
      * exists 0, 1, 0%Z, 1%Z. do 3 (split; [reflexivity|]). split; vm_compute; discriminate.
      * exists 1, 2, 1%Z, 1%Z. do 3 (split; [reflexivity|]). split; vm_compute; discriminate.
  - vm_compute. reflexivity.
Qed.


Definition x_cache (a : list ext_value) : cache unit :=
  match x_init x_cfg None [0; 1; 1]%Z x_lib with
  | Ok m => Cache (sc_tables m) DInt a tt
  | Err _ => x_none
  end.
Definition x_a0 : list ext_value := [EInt 21; EInt 7; EInt 20; EInt 7; EInt 11; EInt 7].
Definition x_a1 : list ext_value := [EInt 11; EInt 7; EInt 20; EInt 7; EInt 20; EInt 7].
Definition x_a2 : list ext_value := [EInt 21; EInt 7; EInt 11; EInt 7; EInt 20; EInt 7].

(** Two hops carry the ion from site 0 over site 1 to site 2. *)
Lemma x_run f : (forall rt a chs e occ, exists y, f rt a chs e occ = Ok y) ->
  exists k1 k k', x_construct f x_cfg x_lib None (State [0; 1; 1]%Z 0%R 0%Z) = Ok k /\
    k_model k = x_cache x_a0 /\
    x_updates f x_cfg k [(x_e1, 1%R)] = Ok k1 /\
    k_model k1 = x_cache x_a1 /\ occupations (k_state k1) = [1; 0; 1]%Z /\
    update Rplus (composite_apply x_apply x_comp) (x_rate f x_cfg) k1 x_e2 1%R = Ok k' /\
    x_updates f x_cfg k [(x_e1, 1%R); (x_e2, 1%R)] = Ok k' /\
    k_model k' = x_cache x_a2 /\ occupations (k_state k') = [1; 1; 0]%Z.
Proof.
  intros Hf.
  assert (Hr : forall a occ e, In occ [[0; 1; 1]; [1; 0; 1]; [1; 1; 0]]%Z -> In e [x_e1; x_e2] ->
            exists r, x_rate f x_cfg (x_cache a) occ e = Ok r).
  { intros a occ e Ho He. simpl in Ho, He.
    repeat destruct Ho as [<-|Ho]; try done; repeat destruct He as [<-|He]; try done;
      apply x_rate_ok;
      try (do 2 eexists; split; reflexivity);
      match goal with |- exists dE, se_compute _ _ ?m ?occ ?e = _ =>
        let t := eval vm_compute in (changes_from_pre_state (sc_tables m) e occ) in
        match t with
        | Ok [] => eexists; reflexivity
        | Ok ?chs =>
            destruct (Hf (sc_runtime m) (sc_external m) chs e occ) as [y Hy];
            unfold se_compute;
            change (changes_from_pre_state (sc_tables m) e occ) with (Ok chs);
            cbn [rbind]; rewrite Hy; eexists; reflexivity
        end
      end. }
  destruct (Hr x_a0 [0; 1; 1]%Z x_e1) as [r1 H1]; [simpl; tauto..|].
  destruct (Hr x_a0 [0; 1; 1]%Z x_e2) as [r2 H2]; [simpl; tauto..|].
  destruct (Hr x_a1 [1; 0; 1]%Z x_e1) as [r3 H3]; [simpl; tauto..|].
  destruct (Hr x_a1 [1; 0; 1]%Z x_e2) as [r4 H4]; [simpl; tauto..|].
  destruct (Hr x_a2 [1; 1; 0]%Z x_e1) as [r5 H5]; [simpl; tauto..|].
  destruct (Hr x_a2 [1; 1; 0]%Z x_e2) as [r6 H6]; [simpl; tauto..|].
  eexists _, _, _. split; [|split; [|split; [|split; [|split; [|split; [|split; [|split]]]]]]].
  - unfold construct. change (events x_lib) with [x_e1; x_e2].
    change (composite_initialize (x_init x_cfg None) x_comp x_none
      (occupations (State [0; 1; 1]%Z 0%R 0%Z)) x_lib) with (Ok (x_cache x_a0)).
    cbn [rbind rmapM occupations]. rewrite H1. cbn [rbind]. rewrite H2. reflexivity.
  - reflexivity.
  - unfold updates. cbn [rfold fst snd]. unfold update at 1. cbn [k_state k_model k_lib k_prob].
    change (apply_event Rplus (State [0; 1; 1]%Z 0%R 0%Z) x_e1 1%R)
      with (Ok (State [1; 0; 1]%Z (0 + 1)%R 1%Z)). cbn [rbind occupations].
    change (composite_apply x_apply x_comp (x_cache x_a0) x_e1 [1; 0; 1]%Z) with (Ok (x_cache x_a1)).
    cbn [rbind]. change (list_index (events x_lib) x_e1) with (Ok 0). cbn [rbind].
    change (get_dependent_events x_lib 0) with [0; 1]%nat. cbn [rfold]. unfold refresh at 1 2.
    change (py_get (events x_lib) (Z.of_nat 0)) with (Ok x_e1).
    change (py_get (events x_lib) (Z.of_nat 1)) with (Ok x_e2).
    cbn [rbind]. rewrite H3. cbn [rbind]. change (py_set [r1; r2] (Z.of_nat 0) r3) with (Ok [r3; r2]).
    cbn [rbind]. rewrite H4. cbn [rbind]. change (py_set [r3; r2] (Z.of_nat 1) r4) with (Ok [r3; r4]).
    cbn [rbind]. reflexivity.
  - reflexivity.
  - reflexivity.
  - unfold update. cbn [k_state k_model k_lib k_prob].
    change (apply_event Rplus (State [1; 0; 1]%Z (0 + 1)%R 1%Z) x_e2 1%R)
      with (Ok (State [1; 1; 0]%Z (0 + 1 + 1)%R 2%Z)). cbn [rbind occupations].
    change (composite_apply x_apply x_comp (x_cache x_a1) x_e2 [1; 1; 0]%Z) with (Ok (x_cache x_a2)).
    cbn [rbind]. change (list_index (events x_lib) x_e2) with (Ok 1). cbn [rbind].
    change (get_dependent_events x_lib 1) with [0; 1]%nat. cbn [rfold]. unfold refresh at 1 2.
    change (py_get (events x_lib) (Z.of_nat 0)) with (Ok x_e1).
    change (py_get (events x_lib) (Z.of_nat 1)) with (Ok x_e2).
    cbn [rbind]. rewrite H5. cbn [rbind]. change (py_set [r3; r4] (Z.of_nat 0) r5) with (Ok [r5; r4]).
    cbn [rbind]. rewrite H6. cbn [rbind]. reflexivity.
  - unfold updates. cbn [rfold fst snd]. unfold update at 1. cbn [k_state k_model k_lib k_prob].
    change (apply_event Rplus (State [0; 1; 1]%Z 0%R 0%Z) x_e1 1%R)
      with (Ok (State [1; 0; 1]%Z (0 + 1)%R 1%Z)). cbn [rbind occupations].
    change (composite_apply x_apply x_comp (x_cache x_a0) x_e1 [1; 0; 1]%Z) with (Ok (x_cache x_a1)).
    cbn [rbind]. change (list_index (events x_lib) x_e1) with (Ok 0). cbn [rbind].
    change (get_dependent_events x_lib 0) with [0; 1]%nat. cbn [rfold]. unfold refresh at 1 2.
    change (py_get (events x_lib) (Z.of_nat 0)) with (Ok x_e1).
    change (py_get (events x_lib) (Z.of_nat 1)) with (Ok x_e2).
    cbn [rbind]. rewrite H3. cbn [rbind]. change (py_set [r1; r2] (Z.of_nat 0) r3) with (Ok [r3; r2]).
    cbn [rbind]. rewrite H4. cbn [rbind]. change (py_set [r3; r2] (Z.of_nat 1) r4) with (Ok [r3; r4]).
    cbn [rbind]. unfold update. cbn [k_state k_model k_lib k_prob].
    change (apply_event Rplus (State [1; 0; 1]%Z (0 + 1)%R 1%Z) x_e2 1%R)
      with (Ok (State [1; 1; 0]%Z (0 + 1 + 1)%R 2%Z)). cbn [rbind occupations].
    change (composite_apply x_apply x_comp (x_cache x_a1) x_e2 [1; 1; 0]%Z) with (Ok (x_cache x_a2)).
    cbn [rbind]. change (list_index (events x_lib) x_e2) with (Ok 1). cbn [rbind].
    change (get_dependent_events x_lib 1) with [0; 1]%nat. cbn [rfold]. unfold refresh at 1 2.
    change (py_get (events x_lib) (Z.of_nat 0)) with (Ok x_e1).
    change (py_get (events x_lib) (Z.of_nat 1)) with (Ok x_e2).
    cbn [rbind]. rewrite H5. cbn [rbind]. change (py_set [r3; r4] (Z.of_nat 0) r5) with (Ok [r5; r4]).
    cbn [rbind]. rewrite H6. cbn [rbind]. reflexivity.
  - reflexivity.
  - reflexivity.
Qed.

Lemma x_onsite_total rt a chs e occ : exists y, x_onsite rt a chs e occ = Ok y.
Proof. eexists. reflexivity. Qed.

Example external_occupation_example :
  c_site x_comp = ExternalSite /\ proper_dicts x_cfg /\ injective_sites x_cfg 3 /\
  indices_in_range (events x_lib) 3 /\
  exists k k' m2, x_construct x_onsite x_cfg x_lib None (State [0; 1; 1]%Z 0%R 0%Z) = Ok k /\
    text_only_for_text x_cfg (sc_dtype (k_model k)) /\
    sc_external (k_model k) = x_a0 /\
    x_updates x_onsite x_cfg k [(x_e1, 1%R); (x_e2, 1%R)] = Ok k' /\
    sc_external (k_model k') = x_a2 /\
    x_init x_cfg None (occupations (k_state k')) x_lib = Ok m2 /\
    sc_dtype m2 = sc_dtype (k_model k) /\ sc_external m2 = x_a2.
Proof.
  destruct x_cfg_hypotheses as (H1 & H2 & H3 & H4 & _). do 4 (split; [done|]).
  destruct (x_run _ x_onsite_total) as (_ & k & k' & Hc & Hm & _ & _ & _ & _ & Hu & Hm' & Ho).
  exists k, k', (x_cache x_a2). split; [done|]. rewrite Hm, Hm', Ho.
  do 4 (split; [done|]). split; [reflexivity|]. split; reflexivity.
Qed.

(** When the element type is left open it is chosen from the initial values: integers
    here, so 1.5 is later stored as 1, while a fresh build chooses floats. *)
Theorem open_element_type_refuted :
  exists cfg occ e occ' m m' m2,
    proper_dicts cfg /\ injective_sites cfg (length occ) /\ external_dtype cfg = None /\
    initial_array cfg = None /\
    x_init cfg None occ x_lib = Ok m /\ swap_occupations occ e = Ok occ' /\
    x_apply m e occ' = Ok m' /\ x_init cfg None occ' x_lib = Ok m2 /\
    sc_external m' = [EInt 1; EInt 2; EInt 5] /\
    sc_external m2 = [EFloat 1.5; EFloat 2.5; EFloat 5] /\
    ~ same_values (sc_external m') (sc_external m2).
Proof.
  exists {| site_mapping := None; state_mapping := Some [(0%Z, EInt 5); (1%Z, EInt 5)];
            state_mapping_by_site := Some [(0%Z, [(0%Z, EInt 1); (1%Z, EFloat 1.5)]);
                                           (1%Z, [(0%Z, EFloat 2.5); (1%Z, EInt 2)])];
            initial_array := None; external_size := None; external_fill := EInt 0;
            external_dtype := None; site_order := None; site_order_hash := None;
            energy_units := MeV |}, [0; 1; 1]%Z, x_e1, [1; 0; 1]%Z.
  do 3 eexists. split.
  { split; [|split]; simpl; intros m [= <-].
    - repeat constructor; simpl; rewrite ?elem_of_cons, ?elem_of_nil; intuition (try lia; try congruence).
    - split.
      + repeat constructor; simpl; rewrite ?elem_of_cons, ?elem_of_nil; intuition (try lia; try congruence).
      + intros i m Hm. apply dget_Some_in in Hm. rewrite !elem_of_cons, elem_of_nil in Hm.
        destruct Hm as [[= -> ->]|[[= -> ->]|[]]]; simpl;
        repeat constructor; rewrite ?elem_of_cons, ?elem_of_nil; intuition (try lia; try congruence). }
  split. { intros i j p _ _. unfold site_of. simpl. intros [= <-] [= H]. lia. }
  do 2 (split; [done|]). split; [reflexivity|]. split; [reflexivity|].
  split; [reflexivity|]. split; [reflexivity|]. split; [reflexivity|]. split; [reflexivity|].
  intros H. cbn [sc_external] in H. inversion H as [|? ? ? ? H1]. vm_compute in H1. done.
Qed.
Print Assumptions open_element_type_refuted.

(** A fixed-width text array cuts longer names. *)
Theorem text_width_refuted :
  exists cfg occ m,
    proper_dicts cfg /\ injective_sites cfg (length occ) /\
    x_init cfg None occ x_lib = Ok m /\
    value_of cfg 1 1 = Some (EStr "Vac") /\ occ !! 1 = Some 1%Z /\
    sc_external m !! 1 = Some (EStr "Va").
Proof.
  exists {| site_mapping := None;
            state_mapping := Some [(0%Z, EStr "Na"); (1%Z, EStr "Vac")];
            state_mapping_by_site := None;
            initial_array := Some (NArray (DText 2) [EStr "Na"; EStr "Na"; EStr "Na"]);
            external_size := None; external_fill := EInt 0;
            external_dtype := None; site_order := None; site_order_hash := None;
            energy_units := MeV |}, [0; 1; 1]%Z.
  eexists. split.
  { split; [|split]; simpl; intros m Hm; try discriminate Hm. injection Hm as <-.
    repeat constructor; simpl; rewrite ?elem_of_cons, ?elem_of_nil; intuition (try lia; try congruence). }
  split. { intros i j p _ _. unfold site_of. simpl. intros [= <-] [= H]. lia. }
  split; [reflexivity|]. done.
Qed.
Print Assumptions text_width_refuted.

(* ---------------- C36 ---------------- *)
(** Sites 0 and 1 share external position 0: accepted, and one hop later the array is
    not what a fresh build gives. *)
Theorem shared_external_site_refuted :
  exists cfg occ e occ' m m' m2,
    proper_dicts cfg /\ site_of cfg 0 = site_of cfg 1 /\
    x_init cfg None occ x_lib = Ok m /\ swap_occupations occ e = Ok occ' /\
    x_apply m e occ' = Ok m' /\ x_init cfg None occ' x_lib = Ok m2 /\
    sc_dtype m2 = sc_dtype m' /\
    ~ same_values (sc_external m') (sc_external m2).
Proof.
  exists {| site_mapping := Some [(0, 0); (1, 0); (2, 1)]%Z; state_mapping := None;
            state_mapping_by_site := None;
            initial_array := None; external_size := None; external_fill := EInt 0;
            external_dtype := None; site_order := None; site_order_hash := None;
            energy_units := MeV |}, [0; 0; 1]%Z, (Event [0; 2]%Z []), [1; 0; 0]%Z.
  do 3 eexists. split.
  { split; [|split]; simpl; intros m Hm; try discriminate Hm. injection Hm as <-.
    repeat constructor; simpl; rewrite ?elem_of_cons, ?elem_of_nil; intuition (try lia; try congruence). }
  split; [done|]. split; [reflexivity|]. split; [reflexivity|].
  split; [reflexivity|]. split; [reflexivity|]. split; [reflexivity|].
  intros H. cbn [sc_external] in H. inversion H as [|? ? ? ? H1]. vm_compute in H1. done.
Qed.
Print Assumptions shared_external_site_refuted.

(* ---------------- C37 ---------------- *)
(** Every code at every site: the user's value, or ValueError. *)
Theorem state_code_translation :
  forall text parse_int parse_float Rt (resolve : result Rt) c given occ lib m i s,
  proper_dicts c ->
  initialize_state text parse_int parse_float resolve c given occ lib = Ok m ->
  i < length occ ->
  external_value (t_states (sc_tables m)) (t_by_site (sc_tables m)) (Z.of_nat i) s =
  match value_of c i s with Some v => Ok v | None => Err ValueError end.
Proof. exact @translation_lemma. Qed.
Print Assumptions state_code_translation.

(** Whatever is passed to the constructor, the stored mappings have each key once. *)
Theorem normalised_mappings_are_proper :
  forall c sm st bs,
  normalize_site_mapping sm = Ok (site_mapping c) ->
  normalize_state_mapping st = Ok (state_mapping c) ->
  normalize_by_site bs = Ok (state_mapping_by_site c) -> proper_dicts c.
Proof. exact proper_dicts_lemma. Qed.
Print Assumptions normalised_mappings_are_proper.

Example state_code_example :
  exists m, x_init x_cfg None [0; 1; 1]%Z x_lib = Ok m /\
    value_of x_cfg 0 1 = Some (EInt 20) /\ value_of x_cfg 1 1 = Some (EInt 21) /\
    value_of x_cfg 1 2 = None /\
    external_value (t_states (sc_tables m)) (t_by_site (sc_tables m)) 1 1 = Ok (EInt 21) /\
    external_value (t_states (sc_tables m)) (t_by_site (sc_tables m)) 1 2 = Err ValueError /\
    normalize_site_mapping (Some (ByKey [(JStr "0", JInt 4); (JInt 1, JStr "0"); (JFloat 2, JInt 2)]))
      = Ok (site_mapping x_cfg).
Proof. eexists. split; [reflexivity|]. do 5 (split; [done|]). reflexivity. Qed.

(** The mapping is checked against the initial occupations only: here site 2 does not
    know code 0, every event is accepted at the start, and after one hop the rate of the
    other event cannot be computed. *)
Theorem mapping_checked_for_all_states_refuted :
  exists cfg occ occ' m m',
    proper_dicts cfg /\ x_init cfg None occ x_lib = Ok m /\
    swap_occupations occ x_e1 = Ok occ' /\ x_apply m x_e1 occ' = Ok m' /\
    x_e2 ∈ events x_lib /\ x_rate x_onsite cfg m' occ' x_e2 = Err ValueError.
Proof.
  exists {| site_mapping := None; state_mapping := None;
            state_mapping_by_site := Some [(2%Z, [(1%Z, EInt 1)])];
            initial_array := None; external_size := None; external_fill := EInt 0;
            external_dtype := None; site_order := None; site_order_hash := None;
            energy_units := MeV |}, [0; 1; 1]%Z, [1; 0; 1]%Z.
  do 2 eexists. split.
  { split; [|split]; simpl; intros m Hm; try discriminate Hm. injection Hm as <-. split.
    - simpl. apply NoDup_singleton.
    - intros i m Hm. apply dget_Some_in in Hm. apply elem_of_list_singleton in Hm.
      injection Hm as -> ->. simpl. apply NoDup_singleton. }
  split; [reflexivity|]. split; [reflexivity|]. split; [reflexivity|].
  split; [change (events x_lib) with [x_e1; x_e2]; right; left|]. reflexivity.
Qed.
Print Assumptions mapping_checked_for_all_states_refuted.

(* ---------------- C51 ---------------- *)
(** Rates with an external site-energy function that looks only at the event's own
    sites are never stale. *)
Theorem site_energy_rates_never_stale :
  forall text parse_int parse_float Rt (resolve : result Rt) compute_fn apply_fn
         comp cfg given lk v temp init lib st k hist k',
  c_site comp = ExternalSite -> proper_dicts cfg ->
  injective_sites cfg (length (occupations st)) ->
  local_function cfg (length (occupations st)) compute_fn ->
  exact_dependencies (events lib) (get_dependent_events lib) ->
  indices_in_range (events lib) (length (occupations st)) ->
  construct Rplus
    (composite_initialize (initialize_state text parse_int parse_float resolve cfg given) comp init)
    (compute_probability (se_compute compute_fn cfg) comp lk v temp) lib lk st = Ok k ->
  updates Rplus (composite_apply (se_apply text parse_int parse_float apply_fn) comp)
    (compute_probability (se_compute compute_fn cfg) comp lk v temp) k hist = Ok k' ->
  fresh (compute_probability (se_compute compute_fn cfg) comp lk v temp) k'.
Proof. exact @site_energy_fresh_lemma. Qed.
Print Assumptions site_energy_rates_never_stale.

Example site_energy_fresh_example :
  c_site x_comp = ExternalSite /\ proper_dicts x_cfg /\ injective_sites x_cfg 3 /\
  local_function x_cfg 3 x_onsite /\
  exact_dependencies (events x_lib) (get_dependent_events x_lib) /\
  indices_in_range (events x_lib) 3 /\
  exists k k', x_construct x_onsite x_cfg x_lib None (State [0; 1; 1]%Z 0%R 0%Z) = Ok k /\
    x_updates x_onsite x_cfg k [(x_e1, 1%R); (x_e2, 1%R)] = Ok k'.
Proof.
  destruct x_cfg_hypotheses as (H1 & H2 & H3 & H4 & H5). do 3 (split; [done|]).
  split; [by intros rt rt' a a' chs e occ occ' _ _ _|]. do 2 (split; [done|]).
  destruct (x_run _ x_onsite_total) as (_ & k & k' & Hc & _ & _ & _ & _ & _ & Hu & _). eauto.
Qed.

(** Detailed balance with external site energies.  After any history, let an event fire:
    the ratio of its rate before to the rate of the way back is the Boltzmann factor of
    the energy of the external occupation. *)
Theorem detailed_balance_external :
  forall text parse_int parse_float Rt (resolve : result Rt) compute_fn apply_fn
         comp cfg given lk v temp init (H : list ext_value -> R) lib st k0 hist k e dt k' r r' codes,
  c_site comp = ExternalSite -> proper_dicts cfg ->
  injective_sites cfg (length (occupations st)) ->
  indices_in_range (events lib) (length (occupations st)) ->
  construct Rplus
    (composite_initialize (initialize_state text parse_int parse_float resolve cfg given) comp init)
    (compute_probability (se_compute compute_fn cfg) comp lk v temp) lib lk st = Ok k0 ->
  text_only_for_text cfg (sc_dtype (k_model k0)) ->
  difference_of text parse_int parse_float H (sc_dtype (k_model k0)) compute_fn ->
  respects_values H ->
  (0 < v)%R -> (0 < temp)%R ->
  updates Rplus (composite_apply (se_apply text parse_int parse_float apply_fn) comp)
    (compute_probability (se_compute compute_fn cfg) comp lk v temp) k0 hist = Ok k ->
  (forall f g, mobile_ion_indices e = [f; g] -> f <> g /\ f ∉ local_env_indices e /\
     g ∉ local_env_indices e) ->
  event_codes lk e = Ok codes -> endpoint_consistent codes ->
  hoppable codes (occupations (k_state k)) e ->
  update Rplus (composite_apply (se_apply text parse_int parse_float apply_fn) comp)
    (compute_probability (se_compute compute_fn cfg) comp lk v temp) k e dt = Ok k' ->
  compute_probability (se_compute compute_fn cfg) comp lk v temp
    (k_model k) (occupations (k_state k)) e = Ok r ->
  compute_probability (se_compute compute_fn cfg) comp lk v temp
    (k_model k') (occupations (k_state k')) e = Ok r' ->
  (0 < r' /\ r / r' = exp (- ((H (sc_external (k_model k')) - H (sc_external (k_model k)))
                          * in_mev (energy_units cfg)) / (boltzmann_constant * temp)))%R.
Proof. exact @balance_lemma. Qed.
Print Assumptions detailed_balance_external.

(** An interaction between external positions 0 and 2 and the function evaluating its
    differences. *)
Definition x_num (v : ext_value) : R :=
  match v with EInt z => IZR z | EFloat q => Q2R q | EStr _ => 0%R end.
Definition x_pair (a : list ext_value) : R :=
  match a !! 0, a !! 2 with Some x, Some y => (x_num x * x_num y)%R | _, _ => 0%R end.
Definition x_diff (_ : unit) (a : list ext_value) (chs : list change) (_ : event) (_ : list Z)
  : result R :=
  match rfold (fun a ch => store x_text x_int x_float DInt a (ch_external ch) (ch_new ch)) a chs with
  | Ok a' => Ok (x_pair a' - x_pair a)%R
  | Err _ => Ok 0%R
  end.
Lemma x_num_eq v w : ext_eqb v w = true -> x_num v = x_num w.
Proof.
  assert (Hi : forall z, IZR z = Q2R (inject_Z z)).
  { intros z. unfold Q2R, inject_Z. simpl. lra. }
  destruct v, w; simpl; try done; rewrite ?Z.eqb_eq, ?Qeq_bool_iff; intros Hv.
  - by subst.
  - rewrite Hi. by apply Qreals.Qeq_eqR.
  - rewrite Hi. by apply Qreals.Qeq_eqR.
  - by apply Qreals.Qeq_eqR.
Qed.
Lemma x_pair_respects : respects_values x_pair.
Proof.
  intros a b Hab. unfold x_pair. unfold same_values in Hab.
  assert (Hl : forall i, match a !! i, b !! i with
                         | Some x, Some y => x_num x = x_num y
                         | None, None => True
                         | _, _ => False end).
  { intros i. destruct (a !! i) as [x|] eqn:Ha.
    - destruct (Forall2_lookup_l _ _ _ _ _ Hab Ha) as (y & -> & Hy). by apply x_num_eq.
    - destruct (b !! i) as [y|] eqn:Hb; [|done].
      destruct (Forall2_lookup_r _ _ _ _ _ Hab Hb) as (x & Hx & _). congruence. }
  pose proof (Hl 0) as H0. pose proof (Hl 2) as H2.
  destruct (a !! 0), (b !! 0), (a !! 2), (b !! 2); try done. congruence.
Qed.

Example detailed_balance_external_example :
  difference_of x_text x_int x_float x_pair DInt x_diff /\ respects_values x_pair /\
  exists k0 k k' r r',
    x_construct x_diff x_cfg x_lib None (State [0; 1; 1]%Z 0%R 0%Z) = Ok k0 /\
    sc_dtype (k_model k0) = DInt /\
    x_updates x_diff x_cfg k0 [(x_e1, 1%R)] = Ok k /\
    hoppable (0, 1, 1, 0)%Z (occupations (k_state k)) x_e2 /\
    update Rplus (composite_apply x_apply x_comp) (x_rate x_diff x_cfg) k x_e2 1%R = Ok k' /\
    x_rate x_diff x_cfg (k_model k) (occupations (k_state k)) x_e2 = Ok r /\
    x_rate x_diff x_cfg (k_model k') (occupations (k_state k')) x_e2 = Ok r' /\
    (x_pair (sc_external (k_model k')) - x_pair (sc_external (k_model k)) = 21 * 11 - 11 * 20)%R /\
    (r / r' = exp (- ((21 * 11 - 11 * 20) * 1000) / (boltzmann_constant * 300)))%R.
Proof.
  assert (Hdiff : difference_of x_text x_int x_float x_pair DInt x_diff).
  { intros rt a chs e occ a' Ha. unfold x_diff. by rewrite Ha. }
  split; [done|]. split; [exact x_pair_respects|].
  assert (Htot : forall rt a chs e occ, exists y, x_diff rt a chs e occ = Ok y).
  { intros. unfold x_diff. destruct (rfold _ _ _); eauto. }
  destruct (x_run _ Htot) as (k & k0 & k' & Hc & Hm0 & Hu & Hm & Ho & Hup & _ & Hm' & Ho').
  assert (Hex : forall m occ, m = x_cache x_a1 /\ occ = [1; 0; 1]%Z \/
            m = x_cache x_a2 /\ occ = [1; 1; 0]%Z ->
            exists r, x_rate x_diff x_cfg m occ x_e2 = Ok r).
  { intros m occ [[-> ->]|[-> ->]]; apply x_rate_ok; try (do 2 eexists; split; reflexivity);
      eexists; reflexivity. }
  destruct (Hex (k_model k) (occupations (k_state k))) as [r Hr]; [by left|].
  destruct (Hex (k_model k') (occupations (k_state k'))) as [r' Hr']; [by right|].
  assert (Hhop : hoppable (0, 1, 1, 0)%Z (occupations (k_state k)) x_e2).
  { rewrite Ho. exists 1%Z, 2%Z, 0%Z, 1%Z. do 3 (split; [done|]). by left. }
  assert (HE : (x_pair (sc_external (k_model k')) - x_pair (sc_external (k_model k))
                = 21 * 11 - 11 * 20)%R).
  { rewrite Hm, Hm'. reflexivity. }
  destruct x_cfg_hypotheses as (H1 & H2 & H3 & H4 & _).
  exists k0, k, k', r, r'. split; [done|]. split; [by rewrite Hm0|]. do 6 (split; [done|]).
  rewrite <-HE.
  eapply (detailed_balance_external x_text x_int x_float unit (Ok tt) x_diff None x_comp x_cfg None
    None 1%R 300%R x_none x_pair x_lib (State [0; 1; 1]%Z 0%R 0%Z) k0 [(x_e1, 1%R)] k x_e2 1%R k'
    r r' (0, 1, 1, 0)%Z); try done; try lra.
  - rewrite Hm0. done.
  - rewrite Hm0. done.
  - exact x_pair_respects.
  - intros f g [= <- <-]. split; [done|]. split; apply not_elem_of_nil.
Qed.

(* ---------------- C06 (site energies) ---------------- *)
(** The same interaction with the two events on disjoint sites: nothing in the event
    list says that the second rate depends on position 0. *)
Definition y_cfg : se_config :=
  {| site_mapping := None; state_mapping := None; state_mapping_by_site := None;
     initial_array := None; external_size := None; external_fill := EInt 0;
     external_dtype := None; site_order := None; site_order_hash := None;
     energy_units := MeV |}.
Definition y_e2 : event := Event [2; 3]%Z [].
Definition y_lib : event_lib :=
  match generate_event_dependencies (add_event (add_event empty_lib x_e1) y_e2) with
  | Ok l => l | Err _ => empty_lib end.
Theorem rates_fresh_with_nonlocal_site_energy_refuted :
  exists cfg lib st e k k',
    proper_dicts cfg /\ injective_sites cfg (length (occupations st)) /\
    exact_dependencies (events lib) (get_dependent_events lib) /\
    indices_in_range (events lib) (length (occupations st)) /\
    x_construct x_diff cfg lib None st = Ok k /\
    x_updates x_diff cfg k [(e, 1%R)] = Ok k' /\
    ~ fresh (x_rate x_diff cfg) k'.
Proof.
  exists y_cfg, y_lib, (State [0; 1; 0; 1]%Z 0%R 0%Z), x_e1.
  pose (t := Tables [0; 1; 2; 3]%Z None None).
  pose (m0 := Cache t DInt [EInt 0; EInt 1; EInt 0; EInt 1] tt).
  pose (m1 := Cache t DInt [EInt 1; EInt 0; EInt 0; EInt 1] tt).
  assert (H1 : exists r, x_rate x_diff y_cfg m0 [0; 1; 0; 1]%Z x_e1 = Ok r).
  { apply x_rate_ok; [do 2 eexists; split; reflexivity|eexists; reflexivity]. }
  assert (H3 : exists r, x_rate x_diff y_cfg m1 [1; 0; 0; 1]%Z x_e1 = Ok r).
  { apply x_rate_ok; [do 2 eexists; split; reflexivity|eexists; reflexivity]. }
  destruct H1 as [r1 H1], H3 as [r3 H3].
  assert (H2 : x_rate x_diff y_cfg m0 [0; 1; 0; 1]%Z y_e2 =
               Ok (1 * exp (- (100 + 0 / 2) / (boltzmann_constant * 300)))%R).
  { assert (HdE : se_compute x_diff y_cfg m0 [0; 1; 0; 1]%Z y_e2 = Ok 0%R).
    { unfold se_compute, x_diff, x_pair. simpl. f_equal. lra. }
    assert (Hk : Rcompute x_kra [0; 1; 0; 1]%Z y_e2 = Ok 100%R).
    { unfold Rcompute; cbv -[Rplus Rmult IZR Ropp]; f_equal; lra. }
    rewrite (rate_total_lemma _ x_comp None 1 300 m0 [0; 1; 0; 1]%Z y_e2 (0, 1, 1, 0)%Z 1%Z x_kra 100 0);
      [done|done|done|done|done|done|lra]. }
  assert (H4 : x_rate x_diff y_cfg m1 [1; 0; 0; 1]%Z y_e2 =
               Ok (1 * exp (- (100 + 1 / 2) / (boltzmann_constant * 300)))%R).
  { assert (HdE : se_compute x_diff y_cfg m1 [1; 0; 0; 1]%Z y_e2 = Ok 1%R).
    { unfold se_compute, x_diff, x_pair. simpl. f_equal. lra. }
    assert (Hk : Rcompute x_kra [1; 0; 0; 1]%Z y_e2 = Ok 100%R).
    { unfold Rcompute; cbv -[Rplus Rmult IZR Ropp]; f_equal; lra. }
    rewrite (rate_total_lemma _ x_comp None 1 300 m1 [1; 0; 0; 1]%Z y_e2 (0, 1, 1, 0)%Z 1%Z x_kra 100 1);
      [done|done|done|done|done|done|lra]. }
  do 2 eexists. split.
  { split; [|split]; simpl; intros m Hm; discriminate Hm. }
  split. { intros i j p _ _. unfold site_of. simpl. intros [= <-] [= H]. lia. }
  split.
  { destruct (generate_total (add_event (add_event empty_lib x_e1) y_e2)) as (l & Hl).
    pose proof (generate_exact _ _ Hl) as [H _].
    unfold y_lib. rewrite Hl. rewrite (proj1 (generate_events_same _ _ Hl)). exact H. }
  split.
  { intros e s He Hs. change (events y_lib) with [x_e1; y_e2] in He.
    apply elem_of_cons in He as [->|He]; [|apply elem_of_cons in He as [->|He]; [|by apply elem_of_nil in He]];
    destruct Hs as [Hs|Hs]; simpl in Hs; repeat (apply elem_of_cons in Hs as [->|Hs]; [simpl; lia|]);
      by apply elem_of_nil in Hs. }
  split.
  { unfold construct. change (events y_lib) with [x_e1; y_e2].
    change (composite_initialize (x_init y_cfg None) x_comp x_none
      (occupations (State [0; 1; 0; 1]%Z 0%R 0%Z)) y_lib) with (Ok m0).
    cbn [rbind rmapM occupations]. rewrite H1. cbn [rbind]. rewrite H2. reflexivity. }
  split.
  { unfold updates. cbn [rfold fst snd]. unfold update. cbn [k_state k_model k_lib k_prob].
    change (apply_event Rplus (State [0; 1; 0; 1]%Z 0%R 0%Z) x_e1 1%R)
      with (Ok (State [1; 0; 0; 1]%Z (0 + 1)%R 1%Z)). cbn [rbind occupations].
    change (composite_apply x_apply x_comp m0 x_e1 [1; 0; 0; 1]%Z) with (Ok m1).
    cbn [rbind]. change (list_index (events y_lib) x_e1) with (Ok 0). cbn [rbind].
    change (get_dependent_events y_lib 0) with [0]%nat. cbn [rfold]. unfold refresh.
    change (py_get (events y_lib) (Z.of_nat 0)) with (Ok x_e1).
    cbn [rbind]. rewrite H3. cbn [rbind]. reflexivity. }
  intros [_ Hf]. destruct (Hf 1 y_e2 eq_refl) as (r & Hr & Hc).
  cbn [k_prob k_model k_state occupations] in Hr, Hc.
  rewrite H4 in Hc. injection Hc as <-. simpl in Hr. injection Hr as Hr.
  assert (He : (exp (- (100 + 0 / 2) / (boltzmann_constant * 300)) = exp (- (100 + 1 / 2) / (boltzmann_constant * 300)))%R) by lra.
  apply exp_inv in He. pose proof (k_B_pos : (0 < boltzmann_constant)%R).
  assert ((- (100 + 0 / 2) / (boltzmann_constant * 300) * (boltzmann_constant * 300) = - (100 + 1 / 2) / (boltzmann_constant * 300) * (boltzmann_constant * 300))%R)
    as Hx by (by rewrite He).
  field_simplify in Hx; lra.
Qed.
Print Assumptions rates_fresh_with_nonlocal_site_energy_refuted.

(* ---------------- C52 ---------------- *)
(** A model bound to another site order, or to another number of sites, is refused. *)
Theorem wrong_site_order_rejected :
  forall text parse_int parse_float Rt (resolve : result Rt) c h n occ lib,
  site_order_hash c <> None /\ site_order_hash c <> Some h \/ n <> length occ ->
  initialize_state text parse_int parse_float resolve c (Some (h, n)) occ lib = Err ValueError.
Proof. exact @order_rejected_lemma. Qed.
Print Assumptions wrong_site_order_rejected.

(** A site that the mapping does not send to a position is refused. *)
Theorem unmapped_site_rejected :
  forall text parse_int parse_float Rt (resolve : result Rt) c given occ lib i,
  i < length occ ->
  (site_of c i = None \/ exists p, site_of c i = Some p /\ (p < 0)%Z) ->
  exists x, initialize_state text parse_int parse_float resolve c given occ lib = Err x.
Proof. exact @unmapped_rejected_lemma. Qed.
Print Assumptions unmapped_site_rejected.

Example rejection_example :
  x_init (with_order x_cfg "abc" 3) (Some ("abd"%string, 3)) [0; 1; 1]%Z x_lib = Err ValueError /\
  is_ok (x_init (with_order x_cfg "abc" 3) (Some ("abc"%string, 3)) [0; 1; 1]%Z x_lib) = true /\
  is_ok (x_init (with_order x_cfg "abc" 3) None [0; 1; 1]%Z x_lib) = true /\
  site_of x_cfg 3 = None /\ x_init x_cfg None [0; 1; 1; 0]%Z x_lib = Err ValueError.
Proof. do 4 (split; [reflexivity|]). reflexivity. Qed.
