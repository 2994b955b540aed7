(** Proofs about the choice of model classes and fitters. *)
From Coq Require Import QArith.
From Verif Require Import Py PyLemmas Json StateModel LceFileModel SiteEnergyModel SiteFileModel ParamModel DispatchModel.
From Verif Require LocalBarrierModel.
Local Open Scope string_scope.

Section Dispatch.
  Context {C O : Type}.
  Variable find : string -> string -> found C.
  Variable from_file : C -> option (path -> files -> result O).
  Variable from_config : C -> path -> files -> result O.
  Notation model_from_config := (model_from_config find from_file from_config).

  Lemma load_doc (p : path) (fs : files) d : p <> [] -> dget fs p = Some (CDoc (JObj d)) -> forall mt, model_from_config p mt fs =
    match dget d "filetype", dget d "@module", dget d "@class" with
    | Some (JStr "kmcpy.model_file"), _, _ =>
        match dget d "model_type" with
        | Some (JStr t) => if String.eqb (LocalBarrierModel.py_strip t) "" then Err ValueError else by_type find from_config t p fs
        | _ => Err ValueError
        end
    | Some (JList _), _, _ | Some (JObj _), _, _ => Err TypeError
    | Some _, _, _ => Err ValueError
    | None, Some module, Some class => by_class find from_file module class p fs
    | None, _, _ => by_type find from_config (type_or_default mt) p fs
    end.
  Proof.
    intros Hp Hd mt. assert (E : loadfn p fs = Ok (JObj d)) by (unfold loadfn; by rewrite Hd). unfold DispatchModel.model_from_config. destruct p as [|a p]; [done|]. cbv iota. rewrite E. done.
  Qed.
  Lemma registered_type t mc : dget model_classes t = Some mc -> String.eqb (LocalBarrierModel.py_strip t) "" = false.
  Proof.
    intros H. apply dget_Some_in in H. unfold model_classes in H. rewrite !elem_of_cons in H.
    destruct H as [H|[H|[H|[H|[H|H]]]]]; try (injection H as -> _; reflexivity). by apply elem_of_nil in H.
  Qed.
  Lemma marked_type (p : path) (fs : files) d : p <> [] -> dget fs p = Some (CDoc (JObj d)) -> dget d "filetype" = Some (JStr "kmcpy.model_file") ->
    forall mt, model_from_config p mt fs =
      match dget d "model_type" with
      | Some (JStr t) => by_type find from_config t p fs
      | _ => Err ValueError
      end.
  Proof.
    intros Hp Hd Hf mt. rewrite (load_doc p fs d Hp Hd), Hf. cbn iota. destruct (dget d "model_type") as [[| | | |t| |]|]; try done.
    destruct (String.eqb (LocalBarrierModel.py_strip t) "") eqn:E; [|done]. unfold by_type. destruct (dget model_classes t) as [mc|] eqn:Et; [|done].
    pose proof (registered_type t mc Et). congruence.
  Qed.
  Lemma named_class (p : path) (fs : files) d m c : p <> [] -> dget fs p = Some (CDoc (JObj d)) -> dget d "filetype" = None ->
    dget d "@module" = Some (JStr m) -> dget d "@class" = Some (JStr c) ->
    forall mt, model_from_config p mt fs =
      match find m c with
      | Found k => load from_file k p fs
      | Missing => registered_class find from_file c p fs
      | Fails e => Err e
      end.
  Proof. intros Hp Hd Hf Hm Hc mt. by rewrite (load_doc p fs d Hp Hd), Hf, Hm, Hc. Qed.
  Lemma registered_class_found t m c k (p : path) (fs : files) : dget model_classes t = Some (m, c) -> find m c = Found k ->
    registered_class find from_file c p fs = load from_file k p fs.
  Proof.
    intros H Hk. apply dget_Some_in in H. unfold model_classes in H. rewrite !elem_of_cons in H.
    destruct H as [H|[H|[H|[H|[H|H]]]]]; try (injection H as -> -> ->; unfold registered_class; cbn; by rewrite Hk). by apply elem_of_nil in H.
  Qed.
End Dispatch.

(** What the dictionaries of the models say about their class. *)
Lemma composite_marks {S C X} (w : external S C X) c d : composite_as_dict w c = Ok d ->
  dget d "filetype" = Some (JStr "kmcpy.model_file") /\ dget d "model_type" = Some (JStr "composite_lce").
Proof.
  unfold composite_as_dict. destruct (cp_kra c) as [kra|]; [|done]. intros H. apply rbind_ok in H as (k & _ & H). apply rbind_ok in H as (s & _ & H).
  unfold validate_dict in H. apply rbind_ok in H as (d1 & H1 & H). assert (d1 = d) as ->.
  { destruct (dget d1 "kra"); [|done]. apply rbind_ok in H as (_ & _ & H). destruct (get_some d1 "site"); [apply rbind_ok in H as (_ & _ & H)|]; by injection H. }
  clear H. unfold require_model_type in H1. apply rbind_ok in H1 as (d2 & H2 & H1). destruct (dget d2 "model_type") as [[| | | |t| |]|] eqn:Et; try done.
  destruct (String.eqb_spec t "composite_lce") as [->|]; [|done]. injection H1 as ->. split; [|done]. unfold require_model_file_payload in H2.
  match type of H2 with match dget ?l _ with _ => _ end = _ => destruct (dget l "filetype") as [[| | | |u| |]|] eqn:Ef; try done end.
  destruct (String.eqb_spec u "kmcpy.model_file") as [->|]; [|done]. injection H2 as <-. exact Ef.
Qed.
Lemma lce_marks {S C X} (w : external S C X) o d : lce_as_dict w o = Ok d ->
  dget d "filetype" = None /\ dget d "@module" = Some (JStr "kmcpy.models.local_cluster_expansion")
  /\ dget d "@class" = Some (JStr "LocalClusterExpansion").
Proof.
  unfold lce_as_dict. intros H. repeat (apply rbind_ok in H as (? & _ & H)). injection H as <-. split; [|done].
  unfold entry_if. repeat match goal with |- context [match ?o with Some _ => _ | None => _ end] => is_var o; destruct o end; reflexivity.
Qed.
Lemma site_marks site_hash {Fc Fa Ro} (o : se_object Fc Fa Ro) :
  dget (object_as_dict site_hash o) "filetype" = None /\ dget (object_as_dict site_hash o) "@module" = Some (JStr "kmcpy.models.site_energy")
  /\ dget (object_as_dict site_hash o) "@class" = Some (JStr "SiteEnergyModel").
Proof. done. Qed.

Section Fitters.
  Context {C F : Type} `{EqDecision C} `{EqDecision F}.
  Implicit Type reg : dict C F.
  Lemma register_get reg c f c' : dget (fst (register reg c f)) c' =
    if decide (c' = c) then match dget reg c with Some g => Some g | None => Some f end else dget reg c'.
  Proof.
    unfold register. destruct (dget reg c) as [g|] eqn:E; [destruct (decide (g = f)) as [->|]|]; cbn [fst].
    - rewrite dget_dset. destruct (decide (c' = c)) as [->|]; [|done]. done.
    - destruct (decide (c' = c)) as [->|]; done.
    - rewrite dget_dset. done.
  Qed.
  Lemma registrations_keep reg (l : list (C * F)) (c : C) (f : F) : dget reg c = Some f -> dget (registrations reg l) c = Some f.
  Proof.
    unfold registrations. revert reg. induction l as [|[c' f'] l IH]; intros reg H; [done|]. cbn [fold_left fst snd]. apply IH. rewrite register_get.
    destruct (decide (c = c')) as [<-|]; [|done]. by rewrite H.
  Qed.
  Lemma register_ok reg c f : snd (register reg c f) = Ok tt -> dget (fst (register reg c f)) c = Some f.
  Proof.
    intros H. rewrite register_get. destruct (decide (c = c)) as [_|]; [|done]. unfold register in H. destruct (dget reg c) as [g|]; [|done].
    destruct (decide (g = f)) as [->|]; [done|]. done.
  Qed.
  Lemma registrations_first (l : list (C * F)) (c : C) : dget (registrations [] l) c = snd <$> List.find (fun cf => bool_decide (fst cf = c)) l.
  Proof.
    unfold registrations. assert (H : forall reg, dget (fold_left (fun reg cf => fst (register reg (fst cf) (snd cf))) l reg) c
      = match dget reg c with Some f => Some f | None => snd <$> List.find (fun cf => bool_decide (fst cf = c)) l end).
    { induction l as [|[c' f'] l IH]; intros reg; cbn [fold_left fst snd List.find]; [by destruct (dget reg c)|]. rewrite IH, register_get.
      destruct (decide (c = c')) as [<-|Hn].
      - rewrite bool_decide_true by done. destruct (dget reg c); done.
      - rewrite (bool_decide_false (c' = c)) by congruence. done. }
    apply H.
  Qed.
  Lemma fitter_nearest reg (mro : list C) (f : F) : fitter_for reg mro = Some f <->
    exists before c after, mro = (before ++ c :: after)%list /\ dget reg c = Some f /\ Forall (fun b => dget reg b = None) before.
  Proof.
    split.
    - induction mro as [|c mro IH]; [done|]. cbn. destruct (dget reg c) as [g|] eqn:E.
      + intros [= <-]. by exists [], c, mro.
      + intros H. destruct (IH H) as (b & c' & a & -> & H1 & H2). exists (c :: b), c', a. split; [done|]. split; [done|]. by constructor.
    - intros (b & c & a & -> & H1 & H2). induction H2 as [|x b Hx _ IH]; cbn; [by rewrite H1|]. by rewrite Hx.
  Qed.
  Lemma fitter_unrelated reg c f mro : c ∉ mro -> fitter_for (fst (register reg c f)) mro = fitter_for reg mro.
  Proof.
    induction mro as [|x mro IH]; intros H; [done|]. cbn. rewrite register_get. apply not_elem_of_cons in H as [H1 H2].
    rewrite decide_False by congruence. by rewrite IH.
  Qed.
  Lemma fitter_none reg (mro : list C) : fitter_for reg mro = None <-> forall b, b ∈ mro -> dget reg b = None.
  Proof.
    induction mro as [|c mro IH]; cbn.
    - split; [|done]. intros _ b Hb. by apply elem_of_nil in Hb.
    - destruct (dget reg c) as [g|] eqn:E.
      + split; [done|]. intros H. rewrite (H c (elem_of_list_here _ _)) in E. done.
      + rewrite IH. split; intros H b Hb; [|apply H; by right]. apply elem_of_cons in Hb as [->|Hb]; [done|auto].
  Qed.
  Lemma fitter_class_iff reg (mro : list C) own (f : F) : get_fitter_class reg mro own = Ok f <->
    (exists before c after, mro = (before ++ c :: after)%list /\ dget reg c = Some f /\ forall b, b ∈ before -> dget reg b = None)
    \/ (forall b, b ∈ mro -> dget reg b = None) /\ own = Some f.
  Proof.
    assert (Hn : fitter_for reg mro = Some f <-> exists before c after, mro = (before ++ c :: after)%list /\ dget reg c = Some f /\ forall b, b ∈ before -> dget reg b = None).
    { rewrite fitter_nearest. split; intros (b & c & a & H1 & H2 & H3); exists b, c, a; (split; [done|]); (split; [done|]).
      - by apply Forall_forall.
      - by apply Forall_forall. }
    rewrite <-Hn, <-fitter_none. unfold get_fitter_class. destruct (fitter_for reg mro) as [g|].
    - split; [intros [= ->]; by left|]. intros [[= ->]|[? _]]; done.
    - destruct own as [g|]; split; try done; [intros [= ->]; by right| |]; (intros [?|[_ H]]; [done|]); [by injection H as ->|done].
  Qed.
End Fitters.
