(** Property C101. *)
From Coq Require Import QArith.
From Verif Require Import Py PyLemmas Json ActiveSiteModel ActiveSiteSpec BasisModel LatticeModel LatticeSpec LatticeProps
  EnumModel EnumSpec EnumProofs EnumProps EnumTransformModel EnumTransformSpec EnumTransformProofs.
Local Open Scope nat_scope.

(** The transformation is given one structure: at every variable site the permitted atoms in equal parts, at every
    other site the atom of the base.  Its answers are read in order; one whose species do not meet the counts is
    passed over, every other gives a result, until the limit. *)
Theorem transformation_results_are_its_answers :
  forall parse fp transformation template mapping bt la act o,
  made parse template mapping bt la -> active_context parse fp la = Ok (act, o) -> tells_apart la ->
  forall local counts variable_species given base return_ranked_list max_results tol rs,
  proper_counts counts -> sites_in_range act local -> no_repeats local given ->
  (forall dis q out es e c, transformation dis q = Ok out -> entries_of out es -> e ∈ es -> structure_of e c ->
     positive_shape (cr_shape c)) ->
  enumerate_transformed parse fp transformation la local counts variable_species given base return_ranked_list max_results tol = Ok rs ->
  exists vars b dis q out es,
    (1 <= max_results)%Z /\ variable_sites_are act variable_species local given vars /\ base_values act base tol b /\
    (forall req, counts = Some req -> total req = Z.of_nat (length vars)) /\
    offers (offered act variable_species vars b) 0 (la_template act) dis /\ request_is return_ranked_list max_results q /\
    transformation dis q = Ok out /\ entries_of out es /\
    taken (entry_passed_over act tol vars counts) (entry_result act tol local vars counts) (Z.to_nat max_results) es rs.
Proof. exact transformed_inv. Qed.
Print Assumptions transformation_results_are_its_answers.

(** A transformation that answers with orderings of what it is given produces results of the exhaustive
    enumeration, and all of them when it answers with every ordering and the limit is not reached. *)
Theorem orderings_are_exhaustive_results :
  forall parse fp transformation template mapping bt la act o,
  made parse template mapping bt la -> active_context parse fp la = Ok (act, o) -> tells_apart la ->
  forall local counts variable_species given base return_ranked_list max_results big tol full,
  proper_counts counts -> sites_in_range act local -> no_repeats local given -> distinct_sites template ->
  (0 <= tol)%Q -> (1 <= max_results)%Z ->
  enumerate_local_environments parse fp la local counts variable_species given base big tol = Ok full ->
  (Z.of_nat (length full) < big)%Z ->
  (forall vars i, variable_sites_are act variable_species local given vars -> i ∈ vars ->
     exists l s, allows act i l /\ permitted variable_species l s /\ ~ is_vacancy s) ->
  (forall dis q, asked act variable_species local given base tol return_ranked_list max_results dis q ->
     exists out es, transformation dis q = Ok out /\ entries_of out es /\ answers_orderings dis es) ->
  exists rs,
    enumerate_transformed parse fp transformation la local counts variable_species given base return_ranked_list max_results tol = Ok rs /\
    (forall x, x ∈ rs -> fst x ∈ full) /\
    ((Z.of_nat (length rs) < max_results)%Z ->
     (forall dis q out es, asked act variable_species local given base tol return_ranked_list max_results dis q ->
        transformation dis q = Ok out -> entries_of out es -> answers_all dis es) ->
     forall x, x ∈ full -> exists m, (x, m) ∈ rs).
Proof. exact orderings_lemma. Qed.
Print Assumptions orderings_are_exhaustive_results.

(** Example: every ordering of the three sodium positions. *)
Example orderings_example :
  (forall vars i, variable_sites_are (context_act en_lattice) None [2; 0; 1]%Z None vars -> i ∈ vars ->
     exists l s, allows (context_act en_lattice) i l /\ permitted None l s /\ ~ is_vacancy s) /\
  (forall dis q, asked (context_act en_lattice) None [2; 0; 1]%Z None None (1 # 10) (RBool true) 10 dis q ->
     exists out es, all_fillings dis q = Ok out /\ entries_of out es /\ answers_orderings dis es) /\
  (forall dis q out es, asked (context_act en_lattice) None [2; 0; 1]%Z None None (1 # 10) (RBool true) 10 dis q ->
     all_fillings dis q = Ok out -> entries_of out es -> answers_all dis es) /\
  match enumerate_transformed ex_parse ex_fp all_fillings en_lattice [2; 0; 1]%Z (Some en_counts) None None None (RBool true) 10 (1 # 10) with
  | Ok rs => map (fun r => oc_data (en_full (fst r))) rs = [[0; 0; 1]; [0; 1; 0]; [1; 0; 0]]%Z
  | Err _ => False
  end /\
  match build_disordered_structure (context_act en_lattice) (Occupation (la_basis (context_act en_lattice)) [0; 0; 1]%Z) [0]%Z None with
  | Ok dis => map fst dis = [Partial [(el "Na", 1 # 2)]; Whole (el "Na")]%Q
  | Err _ => False
  end.
Proof.
  split; [|split; [|split; [|split]]].
  - intros vars i [_ Hv] Hi. apply Hv in Hi as [Hi _].
    assert (la_allowed (context_act en_lattice) = [Some [el "Na"; vacancy_species]; Some [el "Na"; vacancy_species]; Some [el "Na"; vacancy_species]]) as E
      by (vm_compute; reflexivity).
    exists [el "Na"; vacancy_species], (el "Na"). split; [|split; [split; [by left|done]|vm_compute; discriminate]].
    unfold allows. rewrite E. repeat (apply elem_of_cons in Hi as [->|Hi]; [split; [lia|reflexivity]|]). by apply elem_of_nil in Hi.
  - intros dis q _. eexists _, _. split; [reflexivity|]. split; [constructor|].
    eapply (all_fillings_orderings dis q); [reflexivity|constructor].
  - intros dis q out es _ Ho He. by destruct (all_fillings_orderings dis q out es Ho He).
  - vm_compute. reflexivity.
  - vm_compute. reflexivity.
Qed.

(** A variable site where only the vacancy is permitted is refused, although exhaustive enumeration accepts it. *)
Theorem only_vacancy_permitted_is_refused :
  forall parse fp transformation template mapping bt la act o,
  made parse template mapping bt la -> active_context parse fp la = Ok (act, o) -> tells_apart la ->
  forall local counts variable_species given base return_ranked_list max_results big tol full vars i l,
  proper_counts counts -> sites_in_range act local -> no_repeats local given -> (1 <= max_results)%Z ->
  enumerate_local_environments parse fp la local counts variable_species given base big tol = Ok full ->
  variable_sites_are act variable_species local given vars -> i ∈ vars -> allows act i l ->
  (forall s, permitted variable_species l s -> is_vacancy s) ->
  enumerate_transformed parse fp transformation la local counts variable_species given base return_ranked_list max_results tol = Err ValueError.
Proof. exact vacancy_only_lemma. Qed.
Print Assumptions only_vacancy_permitted_is_refused.

Example only_vacancy_example :
  match enumerate_local_environments ex_parse ex_fp en_lattice [0; 1]%Z None (Some [SStr "X"]) (Some [0]%Z) None 10 (1 # 10) with
  | Ok full => length full = 1
  | Err _ => False
  end /\
  allows (context_act en_lattice) 0 [el "Na"; vacancy_species] /\
  (forall s, permitted (Some [SStr "X"%string]) [el "Na"; vacancy_species] s -> is_vacancy s).
Proof.
  split; [vm_compute; reflexivity|]. split; [split; [lia|vm_compute; reflexivity]|].
  intros s [Hs (t & Ht & Hl)]. apply elem_of_list_singleton in Ht as ->.
  apply elem_of_cons in Hs as [->|Hs]; [|apply elem_of_list_singleton in Hs as ->; vm_compute; reflexivity].
  exfalso. revert Hl. apply (bool_decide_unpack _). vm_compute. reflexivity.
Qed.

(** One answer before the limit that cannot be read stops the whole call. *)
Theorem unreadable_answer_stops_the_call :
  forall parse fp transformation template mapping bt la act o,
  made parse template mapping bt la -> active_context parse fp la = Ok (act, o) -> tells_apart la ->
  forall local counts variable_species given base return_ranked_list max_results tol before e after,
  proper_counts counts -> sites_in_range act local -> no_repeats local given ->
  (forall dis q, asked act variable_species local given base tol return_ranked_list max_results dis q ->
     transformation dis q = Ok (Many (before ++ e :: after))) ->
  (forall c, structure_of e c -> exists err, get_occ_from_structure act (cr_sites c) tol (cr_shape c) None = Err err) ->
  length before < Z.to_nat max_results ->
  exists err, enumerate_transformed parse fp transformation la local counts variable_species given base return_ranked_list max_results tol = Err err.
Proof. exact bad_entry_lemma. Qed.
Print Assumptions unreadable_answer_stops_the_call.

Definition fixed_answer (l : list entry) (dis : list dsite) (q : ranked) : result transformed := Ok (Many l).
Definition full_cell : crystal := Crystal (1, 1, 1) [(el "Na", (0, 0, 0)); (el "Na", (1 # 2, 0, 1 # 2)); (el "Na", (0, 1 # 2, 1 # 2))]%Q.
Example unreadable_example :
  (forall c, structure_of EOther c -> exists err, get_occ_from_structure (context_act en_lattice) (cr_sites c) (1 # 10) (cr_shape c) None = Err err) /\
  enumerate_transformed ex_parse ex_fp (fixed_answer [EStructure full_cell; EOther]) en_lattice [0; 1]%Z None None None None (RBool false) 2 (1 # 10) = Err TypeError /\
  match enumerate_transformed ex_parse ex_fp (fixed_answer [EStructure full_cell; EOther]) en_lattice [0; 1]%Z None None None None (RBool false) 1 (1 # 10) with
  | Ok rs => map (fun r => oc_data (en_full (fst r))) rs = [[0; 0; 0]]%Z
  | Err _ => False
  end.
Proof. split; [by inversion 1|]. split; vm_compute; reflexivity. Qed.

(** Nothing holds the answers to what was asked: a site that is not variable may change, and a variable site may
    hold a species that is not permitted. *)
Theorem answers_keep_the_base_refuted :
  exists transformation la rs r, made ex_parse en_template ex_mapping "chebyshev" la /\
    enumerate_transformed ex_parse ex_fp transformation la [0; 1]%Z None None (Some [0]%Z) None (RBool true) 10 (1 # 10) = Ok rs /\
    r ∈ rs /\ en_variable_sites (fst r) = [0]%Z /\ base_values (context_act la) None (1 # 10) [0; 0; 0]%Z /\
    oc_data (en_full (fst r)) = [0; 0; 1]%Z.
Proof.
  set (t := fixed_answer [EStructure (Crystal (1, 1, 1) [(el "Na", (0, 0, 0)%Q); (el "Na", (1 # 2, 0, 1 # 2)%Q)])]).
  destruct (enumerate_transformed ex_parse ex_fp t en_lattice [0; 1]%Z None None (Some [0]%Z) None (RBool true) 10 (1 # 10)) as [rs|] eqn:E;
    [|vm_compute in E; discriminate].
  assert (exists r, rs = [r] /\ en_variable_sites (fst r) = [0]%Z /\ oc_data (en_full (fst r)) = [0; 0; 1]%Z) as (r & -> & H1 & H2).
  { vm_compute in E. injection E as <-. eexists. split; [reflexivity|]. split; reflexivity. }
  exists t, en_lattice, [r], r. split; [exact (proj1 enumeration_example)|]. split; [exact E|]. split; [by left|]. split; [done|]. split; [|done].
  split; [vm_compute; reflexivity|]. intros j Hj. destruct j as [|[|[|j]]]; [vm_compute; reflexivity..|simpl in Hj; lia].
Qed.
Print Assumptions answers_keep_the_base_refuted.

Theorem answers_are_permitted_refuted :
  exists transformation la rs r l, made ex_parse en_template ex_mapping "chebyshev" la /\
    enumerate_transformed ex_parse ex_fp transformation la [0; 1]%Z None (Some [SStr "Na"%string]) (Some [0]%Z) None (RBool true) 10 (1 # 10) = Ok rs /\
    r ∈ rs /\ dget (en_species (fst r)) 0%Z = Some "X"%string /\
    allows (context_act la) 0 l /\ forall s, permitted (Some [SStr "Na"%string]) l s -> label s <> "X"%string.
Proof.
  set (t := fixed_answer [EStructure (Crystal (1, 1, 1) [(el "Na", (1 # 2, 0, 1 # 2)%Q); (el "Na", (0, 1 # 2, 1 # 2)%Q)])]).
  destruct (enumerate_transformed ex_parse ex_fp t en_lattice [0; 1]%Z None (Some [SStr "Na"%string]) (Some [0]%Z) None (RBool true) 10 (1 # 10)) as [rs|] eqn:E;
    [|vm_compute in E; discriminate].
  assert (exists r, rs = [r] /\ dget (en_species (fst r)) 0%Z = Some "X"%string) as (r & -> & H1).
  { vm_compute in E. injection E as <-. eexists. split; [reflexivity|]. reflexivity. }
  exists t, en_lattice, [r], r, [el "Na"; vacancy_species]. split; [exact (proj1 enumeration_example)|]. split; [exact E|]. split; [by left|]. split; [done|].
  split; [split; [lia|vm_compute; reflexivity]|].
  intros s [Hs (u & Hu & Hl)]. apply elem_of_list_singleton in Hu as ->.
  apply elem_of_cons in Hs as [->|Hs]; [vm_compute; discriminate|]. apply elem_of_list_singleton in Hs as ->.
  exfalso. revert Hl. apply (bool_decide_unpack _). vm_compute. reflexivity.
Qed.
Print Assumptions answers_are_permitted_refuted.

(** An answer in a supercell gives a result: its values are those of the supercell, its structure has the cell's. *)
Theorem supercell_answer_refuted :
  exists transformation la rs r, made ex_parse en_template ex_mapping "chebyshev" la /\
    enumerate_transformed ex_parse ex_fp transformation la [0; 1]%Z None None None None (RBool true) 10 (1 # 10) = Ok rs /\
    r ∈ rs /\ length (oc_data (en_full (fst r))) = 6 /\ length (la_template (context_act la)) = 3.
Proof.
  set (t := fixed_answer [EStructure (Crystal (2, 1, 1) [(el "Na", (0, 0, 0)%Q)])]).
  destruct (enumerate_transformed ex_parse ex_fp t en_lattice [0; 1]%Z None None None None (RBool true) 10 (1 # 10)) as [rs|] eqn:E;
    [|vm_compute in E; discriminate].
  assert (exists r, rs = [r] /\ length (oc_data (en_full (fst r))) = 6) as (r & -> & H1).
  { vm_compute in E. injection E as <-. eexists. split; [reflexivity|]. reflexivity. }
  exists t, en_lattice, [r], r. split; [exact (proj1 enumeration_example)|]. split; [exact E|]. split; [by left|]. split; [done|]. vm_compute. reflexivity.
Qed.
Print Assumptions supercell_answer_refuted.
