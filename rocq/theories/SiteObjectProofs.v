(** Proofs about the site-energy model object. *)
From Coq Require Import Reals QArith.
From Verif Require Import Py ActiveSiteModel EventModel SiteEnergyModel SiteObjectModel SiteObjectSpec.
Local Open Scope nat_scope.

Section SiteObject.
  Context (text : ext_value -> string) (parse_int : string -> option Z)
    (parse_float : string -> option Q).
  Context {Rt : Type} (make_runtime : result Rt).
  Context (compute_fn : Rt -> list ext_value -> list change -> event -> list Z -> result R).
  Context (apply_fn : option (Rt -> list ext_value -> list change -> event -> list Z -> result Rt)).
  Notation init := (o_initialize text parse_int parse_float make_runtime).
  Notation comp := (o_compute text parse_int parse_float make_runtime compute_fn).
  Notation app := (o_apply text parse_int parse_float make_runtime apply_fn).
  Notation calls := (o_calls text parse_int parse_float make_runtime compute_fn apply_fn).
  Notation calling := (o_call text parse_int parse_float make_runtime compute_fn apply_fn).

  Definition runtime_of (o : object Rt) : result Rt :=
    match o_runtime o with Some rt => Ok rt | None => make_runtime end.

  Lemma initialize_lemma (o : object Rt) given occ lib :
    match initialize_state text parse_int parse_float (runtime_of o) (o_config o) given occ lib with
    | Ok m => exists o', init o given occ (Some (events lib)) = (o', Ok tt) /\ holds o' m
    | Err x => snd (init o given occ (Some (events lib))) = Err x
    end.
  Proof using.
    unfold initialize_state, o_initialize. destruct (set_site_order _ _) as [c|x]; [|done].
    cbn [rbind]. destruct (validate_site_order _ _); [|done]. cbn [rbind].
    destruct (build_site_lookup _ _) as [l|]; [|done]. cbn [rbind].
    destruct (build_external _ _ _ _ _ _) as [da|]; [|done]. cbn [rbind default].
    destruct (rmapM _ _); [|done]. cbn [rbind]. unfold runtime_of, o_resolve. cbn [o_runtime].
    destruct (o_runtime o); cbn [rbind].
    - eexists. split; [reflexivity|]. destruct da. by repeat split.
    - destruct make_runtime; [|done]. cbn [rbind]. eexists. split; [reflexivity|].
      destruct da. by repeat split.
  Qed.

  Lemma ensure_holds (o : object Rt) m occ : holds o m ->
    o_ensure text parse_int parse_float make_runtime o occ
      = (o, Ok (sc_tables m, (sc_dtype m, sc_external m))).
  Proof using.
    intros (H1 & H2 & H3 & H4 & H5). unfold o_ensure. rewrite H1, H4. cbn. rewrite H1, H2, H3, H4.
    by destruct (sc_tables m).
  Qed.

  Lemma compute_lemma (o : object Rt) m occ e : holds o m ->
    comp o occ e = (o, se_compute compute_fn (o_config o) m occ e).
  Proof using.
    intros H. unfold o_compute. rewrite (ensure_holds _ _ _ H). unfold se_compute.
    destruct (changes_from_pre_state _ _ _) as [[|ch l]|]; [done| |done]. cbn [rbind].
    unfold o_resolve. destruct H as (_ & _ & _ & _ & ->). done.
  Qed.

  Lemma stores_lemma d l : forall a,
    match rfold (fun a ch => store text parse_int parse_float d a (ch_external ch) (ch_new ch)) a l with
    | Ok a' => stores text parse_int parse_float d a l = (a', Ok tt)
    | Err x => snd (stores text parse_int parse_float d a l) = Err x
    end.
  Proof using.
    induction l as [|ch l IH]; intros a; [done|]. cbn [rfold stores].
    destruct (store _ _ _ _ _ _ _) as [a'|]; [|done]. cbn [rbind]. apply IH.
  Qed.

  Lemma apply_lemma (o : object Rt) m e occ : holds o m ->
    match se_apply text parse_int parse_float apply_fn m e occ with
    | Ok m' => exists o', app o e occ = (o', Ok tt) /\ holds o' m' /\ o_config o' = o_config o
    | Err x => snd (app o e occ) = Err x
    end.
  Proof using.
    intros H. unfold o_apply. rewrite (ensure_holds _ _ _ H). unfold se_apply.
    pose proof H as (H1 & H2 & H3 & H4 & H5).
    destruct (changes_from_post_state _ _ _) as [[|ch l]|]; [by exists o| |done]. cbn [rbind fst snd].
    unfold o_resolve. rewrite H5.
    destruct apply_fn as [f|]; cbn [rbind].
    - destruct (f _ _ _ _ _) as [rt|]; [|done]. cbn [rbind].
      pose proof (stores_lemma (sc_dtype m) (ch :: l) (sc_external m)) as Hs.
      destruct (rfold _ _ _) as [a'|x]; cbn [rbind].
      + rewrite Hs. eexists. split; [reflexivity|]. split; [|done]. by repeat split.
      + destruct (stores _ _ _ _ _ _) as [a r]. exact Hs.
    - pose proof (stores_lemma (sc_dtype m) (ch :: l) (sc_external m)) as Hs.
      destruct (rfold _ _ _) as [a'|x]; cbn [rbind].
      + rewrite Hs. eexists. split; [reflexivity|]. split; [|done]. by repeat split.
      + destruct (stores _ _ _ _ _ _) as [a r]. exact Hs.
  Qed.

  (** ** What a call changes in the settings *)
  Definition but_order (c c' : se_config) : Prop :=
    c' = c \/ exists h n, (site_order_hash c = None \/ site_order_hash c = Some h) /\
                          c' = with_order c h n.
  Lemma set_order_but c g c' : set_site_order c g = Ok c' ->
    but_order c c' /\ (g = None -> c' = c).
  Proof using.
    unfold set_site_order. destruct g as [[h n]|]; [|intros [= <-]; split; [by left|done]].
    destruct (site_order_hash c) as [h'|] eqn:E.
    - destruct (String.eqb_spec h h') as [<-|]; [|done]. intros [= <-]. split; [|done].
      right. exists h, n. split; [by right|done].
    - intros [= <-]. split; [|done]. right. exists h, n. split; [by left|done].
  Qed.

  Lemma resolve_config (o : object Rt) :
    o_config (fst (o_resolve make_runtime o)) = o_config o /\
    o_lookup (fst (o_resolve make_runtime o)) = o_lookup o /\
    o_states (fst (o_resolve make_runtime o)) = o_states o /\
    o_by_site (fst (o_resolve make_runtime o)) = o_by_site o /\
    o_external (fst (o_resolve make_runtime o)) = o_external o.
  Proof using.
    unfold o_resolve. destruct (o_runtime o); [done|]. by destruct make_runtime.
  Qed.

  Lemma init_config (o : object Rt) g occ lib :
    o_config (fst (init o g occ lib)) =
      match set_site_order (o_config o) g with Ok c => c | Err _ => o_config o end.
  Proof using.
    unfold o_initialize. destruct (set_site_order _ _) as [c|x]; [|done].
    destruct (validate_site_order _ _); [|done]. destruct (build_site_lookup _ _); [|done].
    destruct (build_external _ _ _ _ _ _); [|done]. destruct (rmapM _ _); [|done].
    match goal with |- context[o_resolve _ ?x] => pose proof (resolve_config x) as [H _];
      destruct (o_resolve make_runtime x) end. exact H.
  Qed.

  Lemma ensure_config (o : object Rt) occ :
    o_config (fst (o_ensure text parse_int parse_float make_runtime o occ)) = o_config o.
  Proof using.
    unfold o_ensure.
    assert (Hi : o_config (fst (init o None occ None)) = o_config o) by (by rewrite init_config).
    destruct (o_lookup o) eqn:El, (o_external o) eqn:Ee.
    - cbn. by rewrite El, Ee.
    - destruct (init o None occ None) as [o1 [[]|]]; [|done]. cbn in Hi.
      by destruct (o_lookup o1), (o_external o1).
    - destruct (init o None occ None) as [o1 [[]|]]; [|done]. cbn in Hi.
      by destruct (o_lookup o1), (o_external o1).
    - destruct (init o None occ None) as [o1 [[]|]]; [|done]. cbn in Hi.
      by destruct (o_lookup o1), (o_external o1).
  Qed.

  Lemma compute_config (o : object Rt) occ e : o_config (fst (comp o occ e)) = o_config o.
  Proof using.
    unfold o_compute. pose proof (ensure_config o occ) as H.
    destruct (o_ensure _ _ _ _ _ _) as [o1 [[t da]|]]; [|done]. cbn in H.
    destruct (changes_from_pre_state _ _ _) as [[|ch l]|]; [done| |done].
    pose proof (resolve_config o1) as [H1 _]. destruct (o_resolve make_runtime o1). cbn in *. congruence.
  Qed.

  Lemma apply_config (o : object Rt) e occ : o_config (fst (app o e occ)) = o_config o.
  Proof using.
    unfold o_apply. pose proof (ensure_config o occ) as H.
    destruct (o_ensure _ _ _ _ _ _) as [o1 [[t da]|]]; [|done]. cbn in H.
    destruct (changes_from_post_state _ _ _) as [[|ch l]|]; [done| |done].
    pose proof (resolve_config o1) as [H1 _]. destruct apply_fn as [f|].
    - destruct (o_resolve make_runtime o1) as [o2 [rt|]]; cbn [fst] in H1; cbn [rbind fst]; [|congruence].
      destruct (f _ _ _ _ _); cbn [rbind fst]; [|congruence].
      destruct (stores _ _ _ _ _ _); cbn [fst o_config]. congruence.
    - destruct (stores _ _ _ _ _ _); cbn [fst o_config]. congruence.
  Qed.

  Lemma but_order_trans a b c : but_order a b -> but_order b c -> but_order a c.
  Proof using.
    intros [->|(h & n & H1 & ->)] [->|(h' & n' & H2 & ->)].
    - by left.
    - right. by exists h', n'.
    - right. by exists h, n.
    - right. exists h', n'. split; [|done]. destruct H2 as [H2|H2]; [done|]. cbn in H2.
      by injection H2 as <-.
  Qed.

  Lemma call_config (o : object Rt) c : but_order (o_config o) (o_config (calling o c)).
  Proof using.
    destruct c as [g occ lib|occ e|e occ]; cbn [o_call].
    - rewrite init_config. destruct (set_site_order _ _) eqn:E; [|by left].
      exact (proj1 (set_order_but _ _ _ E)).
    - rewrite compute_config. by left.
    - rewrite apply_config. by left.
  Qed.

  Lemma calls_config l : forall o : object Rt, but_order (o_config o) (o_config (calls o l)).
  Proof using.
    induction l as [|c l IH]; intros o; [by left|]. cbn [o_calls fold_left].
    eapply but_order_trans; [apply call_config|apply IH].
  Qed.

  Lemma bound_calls h l (o : object Rt) : bound h o -> bound h (calls o l).
  Proof using.
    intros H. destruct (calls_config l o) as [E|(h' & n & Hh & E)]; unfold bound in *; rewrite E; [done|].
    rewrite H in Hh. destruct Hh as [|[= <-]]; [done|]. done.
  Qed.

  Lemma other_order_lemma h h' n (o : object Rt) occ lib : bound h o -> h' <> h ->
    init o (Some (h', n)) occ lib = (o, Err ValueError).
  Proof using.
    unfold bound, o_initialize. cbn [set_site_order]. intros -> Hn.
    by destruct (String.eqb_spec h' h).
  Qed.

  Lemma unbound_calls l : forall o : object Rt,
    (forall g occ lib, Initialize g occ lib ∈ l -> g = None) ->
    o_config (calls o l) = o_config o.
  Proof using.
    induction l as [|c l IH]; intros o H; [done|]. cbn [o_calls fold_left].
    transitivity (o_config (calling o c)).
    { apply IH. intros g occ lib Hin. eapply H. apply elem_of_cons. by right. }
    destruct c as [g occ lib|occ e|e occ]; cbn [o_call].
    - rewrite init_config, (H g occ lib) by (apply elem_of_cons; by left). done.
    - apply compute_config.
    - apply apply_config.
  Qed.

  Lemma wrong_count_lemma (o : object Rt) h n occ lib : n <> length occ ->
    snd (init o (Some (h, n)) occ lib) = Err ValueError /\
    same_use (fst (init o (Some (h, n)) occ lib)) o.
  Proof using.
    intros Hn. unfold o_initialize.
    destruct (set_site_order _ _) as [c|x] eqn:E.
    - assert (Hc : site_order c = Some (h, n)).
      { unfold set_site_order in E. destruct (site_order_hash _); [destruct (String.eqb _ _); [|done]|];
          by injection E as <-. }
      unfold validate_site_order. rewrite Hc. destruct (Nat.eqb_spec n (length occ)); [done|].
      by repeat split.
    - unfold set_site_order in E. destruct (site_order_hash _); [destruct (String.eqb _ _); [done|]|done].
      injection E as <-. by repeat split.
  Qed.

  (** ** Initialising after any history *)
  Lemma runtime_stays_init (o : object Rt) g occ lib rt :
    o_runtime o = Some rt -> o_runtime (fst (init o g occ lib)) = Some rt.
  Proof using.
    intros H. unfold o_initialize. destruct (set_site_order _ _); [|done].
    destruct (validate_site_order _ _); [|done]. destruct (build_site_lookup _ _); [|done].
    destruct (build_external _ _ _ _ _ _); [|done]. destruct (rmapM _ _); [|done].
    unfold o_resolve. cbn [o_runtime]. rewrite H. done.
  Qed.
  Lemma runtime_stays_ensure (o : object Rt) occ rt :
    o_runtime o = Some rt ->
    o_runtime (fst (o_ensure text parse_int parse_float make_runtime o occ)) = Some rt.
  Proof using.
    intros H. unfold o_ensure.
    pose proof (runtime_stays_init o None occ None rt H) as Hi.
    destruct (o_lookup o) eqn:El, (o_external o) eqn:Ee.
    1: cbn; by rewrite El, Ee.
    all: destruct (init o None occ None) as [o1 [[]|]]; [|done]; cbn in Hi;
      by destruct (o_lookup o1), (o_external o1).
  Qed.
  Lemma runtime_stays_call (o : object Rt) c :
    is_Some (o_runtime o) -> is_Some (o_runtime (calling o c)).
  Proof using.
    intros [rt H]. destruct c as [g occ lib|occ e|e occ]; cbn [o_call].
    - exists rt. by apply runtime_stays_init.
    - unfold o_compute. pose proof (runtime_stays_ensure o occ rt H) as H1.
      destruct (o_ensure _ _ _ _ _ _) as [o1 [[t da]|]]; [|by eexists]. cbn in H1.
      destruct (changes_from_pre_state _ _ _) as [[|ch l]|]; [by eexists| |by eexists].
      unfold o_resolve. rewrite H1. by eexists.
    - unfold o_apply. pose proof (runtime_stays_ensure o occ rt H) as H1.
      destruct (o_ensure _ _ _ _ _ _) as [o1 [[t da]|]]; [|by eexists]. cbn in H1.
      destruct (changes_from_post_state _ _ _) as [[|ch l]|]; [by eexists| |by eexists].
      destruct apply_fn as [f|].
      + unfold o_resolve. rewrite H1. cbn [rbind].
        destruct (f _ _ _ _ _); cbn [rbind]; [|by eexists].
        destruct (stores _ _ _ _ _ _). by eexists.
      + destruct (stores _ _ _ _ _ _). cbn. rewrite H1. by eexists.
  Qed.
  Lemma runtime_stays l : forall o : object Rt,
    is_Some (o_runtime o) -> is_Some (o_runtime (calls o l)).
  Proof using.
    induction l as [|c l IH]; intros o H; [done|]. cbn [o_calls fold_left].
    apply IH. by apply runtime_stays_call.
  Qed.

  Lemma again_lemma l (o : object Rt) h n occ lib o1 :
    free_for h (calls o l) ->
    init o (Some (h, n)) occ lib = (o1, Ok tt) ->
    exists o2, init (calls o l) (Some (h, n)) occ lib = (o2, Ok tt) /\ same_but_evaluator o1 o2.
  Proof using.
    intros Hf. pose proof (calls_config l o) as Hc. pose proof (runtime_stays l o) as Hr.
    remember (calls o l) as o' eqn:Eo. clear Eo.
    assert (Hs : set_site_order (o_config o') (Some (h, n)) = Ok (with_order (o_config o) h n)).
    { assert (Hw : with_order (o_config o') h n = with_order (o_config o) h n).
      { by destruct Hc as [->|(h' & n' & _ & ->)]. }
      unfold free_for, bound, set_site_order in *. destruct Hf as [->| ->]; [by rewrite Hw|].
      rewrite String.eqb_refl. by rewrite Hw. }
    unfold o_initialize. rewrite Hs.
    destruct (set_site_order (o_config o) _) as [c|] eqn:E; [|done].
    assert (c = with_order (o_config o) h n) as ->.
    { unfold set_site_order in E. destruct (site_order_hash _); [destruct (String.eqb _ _); [|done]|];
        by injection E as <-. }
    destruct (validate_site_order _ _); [|done]. destruct (build_site_lookup _ _); [|done].
    destruct (build_external _ _ _ _ _ _); [|done]. destruct (rmapM _ _); [|done].
    unfold o_resolve. cbn [o_runtime o_config o_lookup o_states o_by_site o_external].
    destruct (o_runtime o) as [rt|] eqn:Er.
    - destruct (Hr ltac:(by eexists)) as [rt' ->]. cbn. intros [= <-].
      eexists. split; [reflexivity|]. by repeat split.
    - destruct make_runtime as [rt|]; [|done]. cbn. intros [= <-].
      destruct (o_runtime o'); (eexists; split; [reflexivity|]; by repeat split).
  Qed.

  Lemma uninitialised_lemma c rt m occ e :
    initialize_state text parse_int parse_float (Ok rt) c None occ empty_lib = Ok m ->
    exists o', comp (new_object c (Some rt)) occ e = (o', se_compute compute_fn c m occ e) /\
               holds o' m.
  Proof using.
    intros H. pose proof (initialize_lemma (new_object c (Some rt)) None occ empty_lib) as Hi.
    cbn [runtime_of new_object o_runtime o_config] in Hi. rewrite H in Hi.
    destruct Hi as (o' & Hi & Hh). exists o'. split; [|done].
    assert (Hi' : init (new_object c (Some rt)) None occ None = (o', Ok tt)) by exact Hi.
    assert (Hc : o_config o' = c).
    { pose proof (init_config (new_object c (Some rt)) None occ None) as Hc. by rewrite Hi' in Hc. }
    unfold o_compute, o_ensure. cbn [new_object o_lookup o_external].
    rewrite Hi'. cbn [o_lookup o_external].
    pose proof Hh as (H1 & H2 & H3 & H4 & H5). rewrite H1, H4, H2, H3.
    unfold se_compute. destruct (sc_tables m) as [tl ts tb]. cbn [t_lookup t_states t_by_site].
    destruct (changes_from_pre_state _ _ _) as [[|ch l]|]; [done| |done]. cbn [rbind].
    unfold o_resolve. rewrite H5, Hc. done.
  Qed.
End SiteObject.
