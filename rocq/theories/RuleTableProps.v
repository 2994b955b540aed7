(** Theorems about editing a table of local barrier rules. *)
From Coq Require Import QArith.
From Verif Require Import Py Json EventModel LocalBarrierModel LocalBarrierSpec LocalBarrierProps RuleTableSpec RuleTableProofs.
Local Open Scope string_scope.

(** C99: an exact rule is accepted exactly if it has a mobile ion, one state for every distinct site,
    usable properties and no twin in the table; it is then the last rule and says what was given. *)
Theorem exact_rule_is_added : forall show m mobile env occ barrier properties name,
  (forall j, show j <> "") -> built show m -> NoDup (dkeys (entries properties)) ->
  adds m (add_exact_rule show m (map JInt mobile) (map JInt env) (map JInt occ) barrier properties (fmap JStr name))
    (mobile <> [] /\ length occ = length (distinct (mobile ++ env)) /\ Forall (fun z => 0 <= z)%Z occ /\ usable barrier properties /\
     forall r, r ∈ lb_rules m -> r_kind r = KExact occ (distinct (mobile ++ env)) -> r_mobile r <> Some mobile)
    (fun r => named m name (r_name r) /\ holds_what_was_given barrier properties (r_properties r) /\
       r_mobile r = Some mobile /\ r_env r = Some env /\ r_kind r = KExact occ (distinct (mobile ++ env))).
Proof. exact exact_lemma. Qed.
Print Assumptions exact_rule_is_added.

Theorem state_count_rule_is_added : forall show m state sites st sel barrier properties name count min_count max_count,
  writes_state state st -> writes_sites sites sel -> NoDup (dkeys (entries properties)) ->
  adds m (add_state_count_rule show m state barrier properties (fmap JStr name) sites
            (fmap JInt count) (fmap JInt min_count) (fmap JInt max_count))
    (proper_bounds count min_count max_count /\ usable barrier properties)
    (fun r => named m name (r_name r) /\ holds_what_was_given barrier properties (r_properties r) /\
       r_mobile r = None /\ r_env r = None /\ r_kind r = KStateCount sel st (Constraints count min_count max_count)).
Proof. exact state_count_lemma. Qed.
Print Assumptions state_count_rule_is_added.

Theorem species_count_rule_is_added : forall show m species sites sp sel barrier properties name count min_count max_count,
  writes_species species sp -> writes_sites sites sel -> NoDup (dkeys (entries properties)) ->
  adds m (add_species_count_rule show m species barrier properties (fmap JStr name) sites
            (fmap JInt count) (fmap JInt min_count) (fmap JInt max_count))
    (proper_bounds count min_count max_count /\ usable barrier properties)
    (fun r => named m name (r_name r) /\ holds_what_was_given barrier properties (r_properties r) /\
       r_mobile r = None /\ r_env r = None /\ r_kind r = KSpeciesCount sel sp (Constraints count min_count max_count)).
Proof. exact species_count_lemma. Qed.
Print Assumptions species_count_rule_is_added.

Theorem pattern_rule_is_added : forall show m pattern sites cells sel barrier properties name,
  Forall2 writes_cell pattern cells -> writes_sites sites sel -> NoDup (dkeys (entries properties)) ->
  adds m (add_pattern_rule show m pattern barrier properties (fmap JStr name) sites)
    (cells <> [] /\ usable barrier properties)
    (fun r => named m name (r_name r) /\ holds_what_was_given barrier properties (r_properties r) /\
       r_mobile r = None /\ r_env r = None /\ r_kind r = KPattern sel cells).
Proof. exact pattern_lemma. Qed.
Print Assumptions pattern_rule_is_added.

(** Adding a rule changes the answer only where no earlier rule holds and the new one does. *)
Theorem added_rule_decides_what_is_left : forall m m' r occ e p, appended m m' r ->
  (some_rule_holds m occ e -> prescribed m' occ e p <-> prescribed m occ e p) /\
  (~ some_rule_holds m occ e -> rule_holds (lb_site_species m) r occ e -> prescribed m' occ e p <-> p = r_properties r) /\
  (~ rule_holds (lb_site_species m) r occ e -> prescribed m' occ e p <-> prescribed m occ e p).
Proof. exact appended_lemma. Qed.
Print Assumptions added_rule_decides_what_is_left.

(** Rules given to the constructor are the rules added one after another. *)
Theorem rules_one_by_one_or_at_once : forall show js js' name dp db dprop mode pprop ss m0,
  lb_new show (JList []) name dp db dprop mode pprop ss = Ok m0 ->
  (forall m, lb_new show (JList js) name dp db dprop mode pprop ss = Ok m <-> rfold (add_rule show) m0 js = Ok m) /\
  lb_new show (JList (js ++ js')) name dp db dprop mode pprop ss =
    let* m := lb_new show (JList js) name dp db dprop mode pprop ss in rfold (add_rule show) m js'.
Proof.
  intros show js js' name dp db dprop mode pprop ss m0 H. split.
  - intros m. exact (one_by_one_lemma show js name dp db dprop mode pprop ss m0 m H).
  - exact (rejected_constructor show js js' name dp db dprop mode pprop ss m0 H).
Qed.
Print Assumptions rules_one_by_one_or_at_once.

(** Example: a table of one exact rule gets a count rule (with both a barrier and a property of that
    name: the property counts), a twin of the exact rule is refused, and a pattern rule follows. *)
Definition t_m0 : lb_model := or_empty (w_new [w_exact [0; 1; 0; 1]%Z 300] (JFloat 500)).
Definition t_step1 := add_state_count_rule w_show t_m0 (JStr "occupied") (Some (JInt 400))
  (Some [("barrier", JFloat 450); ("prefactor", JInt 2)]) None (JStr "local_env") None (Some (JInt 2)) None.
Lemma t_built : built w_show (fst t_step1).
Proof.
  apply (built_add w_show t_m0 (JObj [("type", JStr "state_count"); ("sites", JStr "local_env"); ("state", JStr "occupied");
    ("properties", JObj [("barrier", JFloat 450); ("prefactor", JInt 2)]); ("barrier", JInt 400); ("min_count", JInt 2)])).
  - exact (w_built [w_exact [0; 1; 0; 1]%Z 300] (JFloat 500) t_m0 eq_refl).
  - reflexivity.
Qed.
Definition t_step2 := add_exact_rule w_show (fst t_step1) (map JInt [0; 1]%Z) (map JInt [2; 3]%Z) (map JInt [0; 1; 0; 1]%Z)
  (Some (JFloat 310)) None (Some (JStr "twin")).
Definition t_step3 := add_pattern_rule w_show (fst t_step1) [JInt 1; JInt 0; JStr "*"; JStr "*"] (Some (JFloat 250)) None
  (Some (JStr "back")) (JStr "canonical").
Example rule_table_example :
  snd t_step1 = Ok "rule_1" /\ snd t_step2 = Err ValueError /\ fst t_step2 = fst t_step1 /\ snd t_step3 = Ok "back" /\
  built w_show t_m0 /\
  lb_compute (fst t_step3) [0; 1; 0; 1]%Z w_e (JStr "barrier") = Ok 300%Q /\
  lb_compute (fst t_step3) [0; 1; 0; 0]%Z w_e (JStr "barrier") = Ok 450%Q /\
  lb_compute (fst t_step3) [0; 1; 0; 0]%Z w_e (JStr "prefactor") = Ok 2%Q /\
  lb_compute (fst t_step3) [1; 0; 0; 1]%Z w_e (JStr "barrier") = Ok 250%Q /\
  lb_compute (fst t_step1) [1; 0; 0; 1]%Z w_e (JStr "barrier") = Ok 500%Q /\
  usable (Some (JInt 400)) (Some [("barrier", JFloat 450); ("prefactor", JInt 2)]) /\ proper_bounds None (Some 2%Z) None /\
  writes_state (JStr "occupied") 0 /\ writes_sites (JStr "local_env") LocalEnv.
Proof.
  do 4 (split; [reflexivity|]). split; [exact (w_built [w_exact [0; 1; 0; 1]%Z 300] (JFloat 500) t_m0 eq_refl)|]. do 5 (split; [reflexivity|]).
  split.
  { split; [by left|]. split; [intros j [= <-]; exists 400%Q; left; by exists 400%Z|].
    intros k j H. apply elem_of_cons in H as [[= -> ->]|H]; [split; [done|]; exists 450%Q; by right|].
    apply elem_of_list_singleton in H as [= -> ->]. split; [done|]. exists 2%Q. left. by exists 2%Z. }
  split; [|split; constructor]. split; [intros z [?|[[= <-]|?]]; done|]. split; [done|by intros [? _]].
Qed.

(** C100: a successful [build] with every argument given makes the model that the constructor makes
    from these arguments, whatever the table was before. *)
Theorem build_starts_afresh : forall show parse_float m js dp db dprop mode pprop ss m',
  dp <> JNull -> dprop <> JNull -> mode <> JNull -> pprop <> JNull -> ss <> JNull ->
  lb_new show (JList js) (lb_name m) dp db dprop mode pprop ss = Ok m' ->
  build show parse_float m (JList js) dp db dprop mode pprop ss = (m', Ok tt).
Proof. exact build_fresh_lemma. Qed.
Print Assumptions build_starts_afresh.

(** An argument left out keeps what the model had, except the rules, which are removed; a default
    barrier is set only if there was none. *)
Theorem build_keeps_what_is_left_out : forall show parse_float m rules dp db dprop mode pprop ss m',
  build show parse_float m rules dp db dprop mode pprop ss = (m', Ok tt) ->
  lb_name m' = lb_name m /\
  (dprop = JNull -> lb_default_property m' = lb_default_property m) /\
  (mode = JNull -> lb_probability_mode m' = lb_probability_mode m) /\
  (pprop = JNull -> lb_probability_property m' = lb_probability_property m) /\
  (ss = JNull -> lb_site_species m' = lb_site_species m) /\
  (dp = JNull -> db = JNull -> lb_default_properties m' = lb_default_properties m) /\
  (rules = JNull -> lb_rules m' = []) /\
  (forall k, dp = JNull -> k <> "barrier" -> default_of m' k = default_of m k) /\
  (forall q, dp = JNull -> default_of m "barrier" = Some q -> default_of m' "barrier" = Some q) /\
  (forall q, dp = JNull -> numeric db q -> default_of m "barrier" = None -> default_of m' "barrier" = Some q).
Proof. exact build_attributes. Qed.
Print Assumptions build_keeps_what_is_left_out.

(** Example: a table rebuilt with other rules, a default and species. *)
Definition no_text (_ : string) : result Q := Err ValueError.
Definition t_species : json := JObj [("2", JObj [("0", JStr "Si"); ("1", JStr "P")])].
Example build_example :
  let m' := or_empty (lb_new w_show (JList [w_exact [0; 1; 1; 1]%Z 200]) (JStr "table") (JObj [("prefactor", JInt 3)]) (JFloat 510)
              (JStr "barrier") supported_mode (JStr "barrier") t_species) in
  lb_new w_show (JList [w_exact [0; 1; 1; 1]%Z 200]) (JStr "table") (JObj [("prefactor", JInt 3)]) (JFloat 510)
    (JStr "barrier") supported_mode (JStr "barrier") t_species = Ok m' /\
  build w_show no_text (fst t_step3) (JList [w_exact [0; 1; 1; 1]%Z 200]) (JObj [("prefactor", JInt 3)]) (JFloat 510)
    (JStr "barrier") supported_mode (JStr "barrier") t_species = (m', Ok tt) /\
  length (lb_rules (fst t_step3)) = 3 /\ length (lb_rules m') = 1.
Proof. do 3 (split; [reflexivity|]). reflexivity. Qed.

(** A [build] that is refused does not leave the table as it was: here the three rules are gone and
    the first of the new ones has taken their place. *)
Theorem failed_build_keeps_the_table_refuted : exists m js m' x,
  built w_show m /\ length (lb_rules m) = 2 /\
  build w_show no_text m (JList js) JNull JNull JNull JNull JNull JNull = (m', Err x) /\
  length (lb_rules m') = 1 /\
  lb_compute m [0; 1; 0; 1]%Z w_e (JStr "barrier") = Ok 300%Q /\
  lb_compute m' [0; 1; 0; 1]%Z w_e (JStr "barrier") = Ok 100%Q.
Proof.
  exists (fst t_step1), [w_exact [0; 1; 0; 1]%Z 100; w_exact [0; 1]%Z 100].
  do 2 eexists. split.
  { exact t_built. }
  do 3 (split; [reflexivity|]). split; reflexivity.
Qed.
Print Assumptions failed_build_keeps_the_table_refuted.

(** [build(default_barrier=...)] does not set the default barrier of a model that has one, and
    removes its rules. *)
Theorem build_sets_the_default_barrier_refuted : exists m m',
  built w_show m /\ length (lb_rules m) = 2 /\
  build w_show no_text m JNull JNull (JFloat 100) JNull JNull JNull JNull = (m', Ok tt) /\
  lb_rules m' = [] /\ default_of m' "barrier" = Some 500%Q /\
  lb_compute m' [0; 1; 0; 1]%Z w_e (JStr "barrier") = Ok 500%Q.
Proof.
  exists (fst t_step1). eexists. split.
  { exact t_built. }
  do 3 (split; [reflexivity|]). split; reflexivity.
Qed.
Print Assumptions build_sets_the_default_barrier_refuted.

(** The constructor refuses a truth value as default barrier, [build] takes it as a number. *)
Theorem build_refuses_what_the_constructor_refuses_refuted : exists m m',
  w_new [] (JBool true) = Err TypeError /\ built w_show m /\
  build w_show no_text m (JList []) JNull (JBool true) JNull JNull JNull JNull = (m', Ok tt) /\
  default_of m' "barrier" = Some 1%Q.
Proof.
  exists (or_empty (w_new [] JNull)). eexists. split; [reflexivity|].
  split; [exact (w_built [] JNull _ eq_refl)|]. split; reflexivity.
Qed.
Print Assumptions build_refuses_what_the_constructor_refuses_refuted.

(** After a refused [build] a model may be saved to a file that cannot be loaded, although it could
    be saved and loaded before. *)
Theorem model_can_be_saved_after_a_refused_build_refuted : exists m m' x y,
  built w_show m /\ lb_from_dict w_show (JObj (lb_as_dict m)) = Ok m /\
  build w_show no_text m (JList []) JNull (JStr "high") JNull JNull JNull JNull = (m', Err x) /\
  lb_from_dict w_show (JObj (lb_as_dict m')) = Err y.
Proof.
  exists (or_empty (w_new [] JNull)). do 3 eexists. split; [exact (w_built [] JNull _ eq_refl)|].
  split; [reflexivity|]. split; reflexivity.
Qed.
Print Assumptions model_can_be_saved_after_a_refused_build_refuted.
