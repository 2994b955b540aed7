(** Proofs about the rates of generated events. *)
From Coq Require Import QArith Reals Lra Lia.
From Verif Require Import Py PyLemmas ActiveSiteModel EventModel StateModel HopModel KmcModel KmcSpec LceModel CompositeModel CompositeSpec CompositeProofs
  ProposeModel ProposeSpec MatcherModel MatcherSpec GeneratorModel GeneratorSpec GeneratorProofs KineticsSpec KineticsProofs.
Local Open Scope R_scope.

Lemma number_nonneg n p a : positive n -> (0 <= site_number n p a)%Z.
Proof. intros Hn. pose proof (number_bound n p a (S p) Hn). lia. Qed.
Section Generated.
  Context {P : Type} (parse : string -> result species) (fp : fp_payload -> string) (get_neighbors : list gsite -> nat -> Q -> list (near P))
    (order_leb : neighbor P -> neighbor P -> bool) (distance : P -> P -> Q) (round8 : Q -> Q).
  Context (Hd : forall x y, (distance x y == distance y x)%Q) (rq : request) (cell : list gsite) (n : image3) (kind : selection_kind)
    (initial target : identifier) (c : cutoff_dict) (g : generated (P := P)).
  Context (Hr : resolved parse fp rq cell n kind initial target c) (Hl : distinct_local_indices (rq_full rq)) (Hs : search_in_cell get_neighbors cell).
  Context (Hg : GeneratorSpec.run parse fp get_neighbors order_leb distance round8 rq = Ok g).
  Lemma generated_lemma e : e ∈ events (g_lib g) ->
    exists f t env, e = Event [f; t] env /\ t ∈ env /\ Forall (fun i => (0 <= i)%Z) (f :: t :: env).
  Proof.
    intros He. apply (events_lemma parse fp get_neighbors order_leb distance round8 Hd rq cell n kind initial target c Hr Hl Hs g e Hg) in He
      as (p & s & env & a & nb & t & _ & _ & _ & _ & Hnb & _ & _ & ->).
    destruct Hr as [[Hn _] _]. eexists _, _, _. split; [reflexivity|]. split.
    - apply elem_of_list_fmap. by exists nb.
    - constructor; [by apply number_nonneg|]. constructor; [by apply number_nonneg|]. apply Forall_forall. intros i Hi.
      apply elem_of_list_fmap in Hi as (x & -> & _). by apply number_nonneg.
  Qed.
  Lemma generated_proper lk e f t env codes : e ∈ events (g_lib g) -> e = Event [f; t] env -> f <> t -> event_codes lk e = Ok codes -> endpoint_consistent codes ->
    proper_event lk e.
  Proof.
    intros He -> Hne Hc Hcons. destruct (generated_lemma _ He) as (f' & t' & env' & [= <- <- <-] & _ & Hnn).
    apply Forall_cons_1 in Hnn as [Hf Hnn]. apply Forall_cons_1 in Hnn as [Ht _].
    exists f, t, env, codes. split; [done|]. split; [done|]. split; [done|]. split; [done|]. split; [done|]. exact Hcons.
  Qed.
End Generated.
