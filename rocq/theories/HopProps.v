(** Property C34: hop state codes. *)
From Verif Require Import Py Json ActiveSiteModel ActiveSiteSpec EventModel HopModel HopSpec
  HopProofs ActiveSiteProps.

(** A lookup can be built for every built order; it has one entry per active site, and
    the entry is the position of the mobile species (a vacancy) among that site's
    allowed species, or -1. *)
Theorem hop_codes_name_their_species : forall parse fp template mapping shape o mobile,
  built parse fp template mapping shape o ->
  exists lk, lookup_from_order o mobile = Ok lk /\
    length (mobile_state_by_site lk) = active_site_count o /\
    length (vacancy_state_by_site lk) = active_site_count o /\
    forall a labels, site_labels o a labels -> exists m v,
      mobile_state_by_site lk !! a = Some m /\ vacancy_state_by_site lk !! a = Some v /\
      last_position (eq mobile) labels m /\ last_position vacancy_name labels v.
Proof. exact lookup_total_lemma. Qed.
Print Assumptions hop_codes_name_their_species.

(** Direction of an annotated event. *)
Theorem hop_direction_exact :
  forall parse fp template mapping shape o mobile lk occ f t env,
  built parse fp template mapping shape o ->
  lookup_from_order o mobile = Ok lk ->
  unambiguous o mobile -> ~ vacancy_name mobile -> codes_in_range o occ ->
  f < active_site_count o -> t < active_site_count o ->
  let e := Event [Z.of_nat f; Z.of_nat t] env in
  exists codes d, annotate_event lk e = Ok codes /\ event_direction occ e codes = Ok d /\
    (d = 1%Z <-> holds o occ f (eq mobile) /\ holds o occ t vacancy_name) /\
    (d = (-1)%Z <-> holds o occ f vacancy_name /\ holds o occ t (eq mobile)) /\
    (d = 1 \/ d = -1 \/ d = 0)%Z.
Proof. exact direction_lemma. Qed.
Print Assumptions hop_direction_exact.

Example hop_example :
  match ex_built (Some [2; 1; 1]%Z) with
  | Ok o =>
      match lookup_from_order o "Na" with
      | Ok lk =>
          mobile_state_by_site lk = [0; 0; 0; 0]%Z /\
          vacancy_state_by_site lk = [1; 1; 1; 1]%Z /\
          ~ vacancy_name "Na" /\
          match annotate_event lk (Event [0; 3] [1])%Z with
          | Ok codes => event_direction [0; 0; 1; 1]%Z (Event [0; 3] [1])%Z codes = Ok 1%Z /\
              event_direction [1; 0; 1; 0]%Z (Event [0; 3] [1])%Z codes = Ok (-1)%Z /\
              event_direction [1; 0; 1; 1]%Z (Event [0; 3] [1])%Z codes = Ok 0%Z
          | Err _ => False
          end
      | Err _ => False
      end
  | Err _ => False
  end.
Proof. vm_compute. repeat split. intros H. repeat (inversion H as [|? ? ? H']; subst; clear H; rename H' into H). Qed.

(** The hypotheses on the order and the occupations are met. *)
Example hop_example_hypotheses :
  match ex_built (Some [2; 1; 1]%Z) with
  | Ok o => unambiguous o "Na" /\ codes_in_range o [0; 0; 1; 1]%Z
  | Err _ => False
  end.
Proof.
  vm_compute ex_built. cbv match. split.
  - intros a labels (k & Hk & Hl). cbn in Hk.
    destruct a as [|[|[|[|a]]]]; try discriminate Hk; injection Hk as <-;
      vm_compute in Hl; injection Hl as <-; split; intros i j s s' Hi Hj H1 H2;
      destruct i as [|[|i]], j as [|[|j]]; simplify_eq/=; try done;
      exfalso; revert H1 H2; unfold vacancy_name; rewrite ?elem_of_cons, ?elem_of_nil;
      intuition discriminate.
  - intros a labels (k & Hk & Hl). cbn in Hk.
    destruct a as [|[|[|[|a]]]]; try discriminate Hk; injection Hk as <-;
      vm_compute in Hl; injection Hl as <-; eexists; (split; [reflexivity|]); cbn; lia.
Qed.

(** The lookup compares labels literally: a mobile species written with its charge,
    as the template writes it, matches no site, although the mapping accepts it. *)
Theorem mobile_species_with_charge_refuted :
  exists parse fp template mapping shape o lk mobile,
    built parse fp template mapping shape o /\
    (exists s, s ∈ template /\ sp_str s = mobile) /\
    species_equivalent (SStr mobile) (SObj (Species "Na+" (Some "Na") None)) = true /\
    lookup_from_order o mobile = Ok lk /\
    Forall (eq (-1)%Z) (mobile_state_by_site lk) /\ 0 < active_site_count o.
Proof.
  exists ex_parse, ex_fp, ex_template, ex_mapping, (Some [2; 1; 1]%Z).
  destruct (ex_built (Some [2; 1; 1]%Z)) as [o|] eqn:E; [|vm_compute in E; discriminate].
  exists o. destruct (lookup_from_order o "Na+") as [lk|] eqn:E2.
  - exists lk, "Na+"%string. split; [exact E|].
    split; [exists (Species "Na+" (Some "Na") None); split; [left|done]|].
    split; [reflexivity|]. split; [exact E2|].
    vm_compute in E. injection E as <-. vm_compute in E2. injection E2 as <-.
    split; [repeat constructor|]. cbn. lia.
  - vm_compute in E. injection E as <-. vm_compute in E2. discriminate.
Qed.
Print Assumptions mobile_species_with_charge_refuted.

(** Two vacancy labels on one site: only the last one is recognised. *)
Theorem every_vacancy_label_recognised_refuted :
  exists parse fp template mapping shape o lk a,
    built parse fp template mapping shape o /\ lookup_from_order o "Na" = Ok lk /\
    site_labels o a ["X"; "Na"; "X"]%string /\
    vacancy_state_by_site lk !! a = Some 2%Z.
Proof.
  set (m := [(SStr "Na", AList [SStr "X"; SStr "Na"; SStr "Va"])]%string).
  exists ex_parse, ex_fp, [Species "Na+" (Some "Na") None]%string, m, None.
  destruct (from_structure_and_mapping ex_parse ex_fp
    [Species "Na+" (Some "Na") None]%string m None) as [o|] eqn:E;
    [|vm_compute in E; discriminate].
  exists o. destruct (lookup_from_order o "Na") as [lk|] eqn:E2.
  - exists lk, 0. split; [exact E|]. split; [done|].
    vm_compute in E. injection E as <-. vm_compute in E2. injection E2 as <-.
    split; [|reflexivity]. exists 0%Z. vm_compute. done.
  - vm_compute in E. injection E as <-. vm_compute in E2. discriminate.
Qed.
Print Assumptions every_vacancy_label_recognised_refuted.
